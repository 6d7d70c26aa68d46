(** Theorems of the property list; statements only, proofs are in [ProofsKey]. *)
From Coq Require Import ZArith ZifyBool ZifyNat ZifyN.
From Verif Require Import Bytes Outcome Base64 Prims Version Key Plaintext KeyId
  SpecBase64 SpecPaseto SpecPaserk SpecText SpecKey Observe.
From Verif Require Import ProofsKey Samples.

(** C29: every key serialises to the fixed length and is read back. *)
Theorem C29_key_bytes_roundtrip :
  forall (P : Prims) (v : version) (k : ktype) (key : bytes),
  Sizes P -> (v = V4 -> k = Secret -> EdLaws P) -> valid_key P v k key = true ->
  length (to_bytes P v k key) = key_size v k /\
  key_from_bytes P v k (to_bytes P v k key) = Ok key.
Proof. exact c29_key_bytes_roundtrip. Qed.
Print Assumptions C29_key_bytes_roundtrip.

Example C29_example : forall (v : version) (k : ktype),
  let key := match k with Local => key32 | Secret => sk0 v | Public => public_key Mini v (sk0 v) end in
  Laws Mini /\ valid_key Mini v k key = true /\
  length (to_bytes Mini v k key) = key_size v k /\
  key_from_bytes Mini v k (to_bytes Mini v k key) = Ok key.
Proof. evaluate. Qed.

(** C29: the deserialiser accepts exactly the standard's encodings, yields valid keys and
    otherwise returns [InvalidKey]. *)
Theorem C29_key_bytes_exact :
  forall (P : Prims) (v : version) (k : ktype) (b : bytes),
  Sizes P -> length b = key_size v k ->
  (forall key, key_from_bytes P v k b = Ok key <-> encodes P v k b key) /\
  ((k = Public -> Laws P) -> forall key, key_from_bytes P v k b = Ok key -> valid_key P v k key = true) /\
  ((forall key, ~ encodes P v k b key) -> key_from_bytes P v k b = Err InvalidKey) /\
  key_from_bytes P v k b <> Panic.
Proof. exact c29_key_bytes_exact. Qed.
Print Assumptions C29_key_bytes_exact.

(** Refused encodings: a mismatched keypair, a zero scalar, a bad point tag. *)
Example C29_exact_example :
  length (key32 ++ other32) = key_size V4 Secret /\
  key_from_bytes Mini V4 Secret (key32 ++ other32) = Err InvalidKey /\
  key_from_bytes Mini V3 Secret (repeat x00 48) = Err InvalidKey /\
  key_from_bytes Mini V3 Public (x07 :: key48) = Err InvalidKey /\
  key_from_bytes Mini V3 Public (x03 :: key48) = Ok (x03 :: key48) /\
  key_from_bytes Mini V3 Public (x05 :: key48) = Ok (x02 :: key48).
Proof. evaluate. Qed.

(** C29: the slice, keypair and PEM constructors return a valid key or [InvalidKey]; the
    array constructors and the generators always give valid keys. *)
Theorem C29_constructors :
  forall (P : Prims) (s : bytes),
  Sizes P ->
  let good v k (x : outcome bytes) :=
    (exists key, x = Ok key /\ valid_key P v k key = true) \/ x = Err InvalidKey in
  good V3 Secret (v3_secret_from_pem P s) /\
  good V3 Secret (v3_secret_from_bytes P s) /\
  (P384Laws P -> good V3 Public (v3_public_from_pem P s) /\ good V3 Public (v3_public_from_sec1 P s)) /\
  good V4 Secret (v4_secret_from_keypair P s) /\
  good V4 Public (v4_public_from_bytes P s) /\
  (length s = 32 -> valid_key P V4 Secret (v4_secret_from_seed s) = true) /\
  (length s = 32 -> forall v, valid_key P v Local (local_from_bytes s) = true) /\
  (forall r v, valid_key P v Local (fst (local_new_random r)) = true) /\
  (forall r, valid_key P V4 Secret (fst (v4_secret_new_random r)) = true) /\
  (forall fuel r key r', v3_secret_new_random fuel r = Some (key, r') -> valid_key P V3 Secret key = true) /\
  (Laws P -> forall v sk, valid_key P v Secret sk = true -> valid_key P v Public (public_key P v sk) = true).
Proof. exact c29_constructors. Qed.
Print Assumptions C29_constructors.

Example C29_constructors_example :
  v3_secret_from_bytes Mini key32 = Ok (repeat x00 16 ++ key32) /\
  v3_secret_from_bytes Mini (str "short") = Err InvalidKey /\
  v3_public_from_sec1 Mini (x04 :: key48 ++ other48) = Ok (x03 :: key48) /\
  v4_secret_from_keypair Mini key32 = Err InvalidKey /\
  v4_public_from_bytes Mini (x01 :: tl key32) = Err InvalidKey /\
  option_map fst (v3_secret_new_random 1 rng0) = Some (draw rng0 0 48).
Proof. evaluate. Qed.

(** C29: the length-checked constructors accept only their documented lengths, and what they
    accept is what the key serialises to. *)
Theorem C29_constructors_lengths :
  forall (P : Prims) (s key : bytes),
  Sizes P ->
  (v4_secret_from_keypair P s = Ok key <-> length s = 64 /\ length key = 32 /\ s = key ++ ed_pub P key /\ ed_pk_ok P (ed_pub P key) = true) /\
  (v4_public_from_bytes P s = Ok key <-> length s = 32 /\ ed_pk_ok P s = true /\ s = key) /\
  (length s = 48 -> (v3_secret_from_bytes P s = Ok key <-> p_scalar_ok s = true /\ s = key)).
Proof. exact c29_constructors_lengths. Qed.
Print Assumptions C29_constructors_lengths.

Example C29_lengths_example :
  v4_secret_from_keypair Mini (key32 ++ ed_pub Mini key32) = Ok key32 /\
  v4_public_from_bytes Mini (ed_pub Mini key32) = Ok (ed_pub Mini key32) /\
  v3_secret_from_bytes Mini key48 = Ok key48.
Proof. evaluate. Qed.

(** C30: key equality is an equivalence... *)
Theorem C30_key_equality_equivalence :
  forall (P : Prims) (v : version) (k : ktype) (a b c : bytes),
  key_eqb P v k a a = true /\
  key_eqb P v k a b = key_eqb P v k b a /\
  (key_eqb P v k a b = true -> key_eqb P v k b c = true -> key_eqb P v k a c = true).
Proof. exact c30_key_equality_equivalence. Qed.
Print Assumptions C30_key_equality_equivalence.

(** Equal and different keys of every kind. *)
Example C30_equivalence_example : forall (v : version) (k : ktype),
  let key := match k with Local => key32 | Secret => sk0 v | Public => public_key Mini v (sk0 v) end in
  let key' := match k with Local => other32 | Secret => sk1 v | Public => public_key Mini v (sk1 v) end in
  key_eqb Mini v k key key = true /\ key_eqb Mini v k key key' = false /\ key_eqb Mini v k key' key = false.
Proof. evaluate. Qed.

(** C30: ...and equality of serialised bytes, of printed texts and, on keys satisfying
    the type invariant, of everything any operation can compute from the keys. *)
Theorem C30_key_equality_is_identity :
  forall (P : Prims) (v : version) (k : ktype) (a b : bytes),
  valid_key P v k a = true -> valid_key P v k b = true ->
  (key_eqb P v k a b = true <-> to_bytes P v k a = to_bytes P v k b) /\
  (key_eqb P v k a b = true <-> plaintext_display P v k a = plaintext_display P v k b) /\
  (key_eqb P v k a b = true <-> a = b) /\
  (key_eqb P v k a b = true -> forall (A : Type) (operation : bytes -> A), operation a = operation b).
Proof. exact c30_key_equality_is_identity. Qed.
Print Assumptions C30_key_equality_is_identity.

Example C30_example : forall v : version,
  valid_key Mini v Secret (sk0 v) = true /\ valid_key Mini v Secret (sk1 v) = true /\
  key_eqb Mini v Secret (sk0 v) (sk0 v) = true /\ key_eqb Mini v Secret (sk0 v) (sk1 v) = false.
Proof. evaluate. Qed.

(** C31: the Debug text is one constant for all keys. *)
Theorem C31_debug_constant :
  forall (key1 key2 : bytes), key_debug key1 = key_debug key2 /\ key_debug key1 = str "Key { .. }".
Proof. exact c31_debug_constant. Qed.
Print Assumptions C31_debug_constant.

(** C32: print then parse gives the key back. *)
Theorem C32_plaintext_roundtrip :
  forall (P : Prims) (v : version) (k : ktype) (key : bytes),
  Sizes P -> (v = V4 -> k = Secret -> EdLaws P) -> valid_key P v k key = true ->
  exists s, plaintext_display P v k key = Ok s /\
            s = plaintext_paserk v k (to_bytes P v k key) /\
            plaintext_parse P v k s = Ok key.
Proof. exact c32_plaintext_roundtrip. Qed.
Print Assumptions C32_plaintext_roundtrip.

Example C32_example :
  valid_key Mini V4 Local key32 = true /\
  plaintext_display Mini V4 Local key32 = Ok (str "k4.local.AQwXIi04Q05ZZG96hZCbprG8x9Ld6PP-CRQfKjVAS1Y") /\
  plaintext_parse Mini V4 Local (str "k4.local.AQwXIi04Q05ZZG96hZCbprG8x9Ld6PP-CRQfKjVAS1Y") = Ok key32.
Proof. evaluate. Qed.

(** C32: the exact language of plaintext PASERKs. *)
Theorem C32_plaintext_language :
  forall (P : Prims) (v : version) (k : ktype) (s key : bytes),
  Sizes P ->
  (plaintext_parse P v k s = Ok key <->
   exists b, s = plaintext_paserk v k b /\ length b = key_size v k /\ encodes P v k b key).
Proof. exact c32_plaintext_language. Qed.
Print Assumptions C32_plaintext_language.

Example C32_language_example : forall (v : version) (k : ktype),
  let key := match k with Local => key32 | Secret => sk0 v | Public => public_key Mini v (sk0 v) end in
  let s := plaintext_paserk v k (to_bytes Mini v k key) in
  plaintext_parse Mini v k s = Ok key /\
  plaintext_parse Mini v k (s ++ str "A") = Err Base64DecodeError.
Proof. evaluate. Qed.

(** C32: parse then print is the identity, except for k3.public, where it is exactly when
    the text already carries the compressed form of the point. *)
Theorem C32_plaintext_canonical :
  forall (P : Prims) (v : version) (k : ktype) (s key : bytes),
  Sizes P -> plaintext_parse P v k s = Ok key ->
  (~ (v = V3 /\ k = Public) -> plaintext_display P v k key = Ok s) /\
  (plaintext_display P v k key = Ok s <-> s = plaintext_paserk v k (to_bytes P v k key)).
Proof. exact c32_plaintext_canonical. Qed.
Print Assumptions C32_plaintext_canonical.

(** The exception for k3.public occurs: the "compact" tag 05 is read and written back as 02. *)
Example C32_canonical_example :
  let s := plaintext_paserk V3 Public (x05 :: key48) in
  plaintext_parse Mini V3 Public s = Ok (x02 :: key48) /\
  plaintext_display Mini V3 Public (x02 :: key48) = Ok (plaintext_paserk V3 Public (x02 :: key48)) /\
  s <> plaintext_paserk V3 Public (x02 :: key48).
Proof. evaluate. Qed.

(** C33: identifiers round-trip as text, and the exact language. *)
Theorem C33_id_text :
  forall (v : version) (k : ktype) (id : bytes),
  length id = 33 ->
  exists s, id_display v k id = Ok s /\ s = id_h v k ++ base64url id /\ id_parse v k s = Ok id.
Proof. exact c33_id_text. Qed.
Print Assumptions C33_id_text.

Example C33_example : forall (v : version) (k : ktype),
  let id := repeat xa7 33 in
  length id = 33 /\ id_parse v k (id_h v k ++ base64url id) = Ok id /\
  id_display v k id = Ok (id_h v k ++ base64url id).
Proof. evaluate. Qed.

Theorem C33_id_language :
  forall (v : version) (k : ktype) (s id : bytes),
  id_parse v k s = Ok id <-> s = id_h v k ++ base64url id /\ length id = 33.
Proof. exact c33_id_language. Qed.
Print Assumptions C33_id_language.

Example C33_language_example :
  id_parse V4 Local (str "k4.lid." ++ base64url (repeat xa7 33)) = Ok (repeat xa7 33) /\
  id_parse V4 Secret (str "k4.lid." ++ base64url (repeat xa7 33)) = Err InvalidToken /\
  id_parse V4 Local (str "k4.lid." ++ base64url (repeat xa7 32)) = Err Base64DecodeError.
Proof. evaluate. Qed.

(** C34: the identifier is the standard's and its derivation never panics. *)
Theorem C34_id_is_spec :
  forall (P : Prims) (v : version) (k : ktype) (key : bytes),
  Sizes P -> valid_key P v k key = true ->
  to_id P v k key = Ok (id_digest P v k (to_bytes P v k key)) /\
  length (id_digest P v k (to_bytes P v k key)) = 33.
Proof. exact c34_id_is_spec. Qed.
Print Assumptions C34_id_is_spec.

Example C34_example : forall (v : version) (k : ktype),
  let key := match k with Local => key32 | Secret => sk0 v | Public => public_key Mini v (sk0 v) end in
  valid_key Mini v k key = true /\
  to_id Mini v k key = Ok (id_digest Mini v k (to_bytes Mini v k key)) /\
  id_digest Mini v k (to_bytes Mini v k key) <> repeat x00 33.
Proof. evaluate. Qed.

(** C35: the hashed strings identify version, type and key, across all of them. *)
Theorem C35_hashed_string_identifies_key :
  forall (P : Prims) (v1 v2 : version) (k1 k2 : ktype) (a b : bytes),
  valid_key P v1 k1 a = true -> valid_key P v2 k2 b = true ->
  id_input v1 k1 (to_bytes P v1 k1 a) = id_input v2 k2 (to_bytes P v2 k2 b) ->
  v1 = v2 /\ k1 = k2 /\ a = b.
Proof. exact c35_hashed_string_identifies_key. Qed.
Print Assumptions C35_hashed_string_identifies_key.

Example C35_example : forall (v : version) (k : ktype),
  let key := match k with Local => key32 | Secret => sk0 v | Public => public_key Mini v (sk0 v) end in
  valid_key Mini v k key = true /\
  id_input v k (to_bytes Mini v k key) <> id_input V4 Local key32 \/ v = V4 /\ k = Local.
Proof.
  intros [] []; cbv zeta; try (right; split; reflexivity);
    left; (split; [vm_compute; reflexivity|intros H; vm_compute in H; discriminate H]).
Qed.

(** C35: equal identifiers of two keys of one version (of any types) mean equal keys, or a
    collision of the (truncated) hash on two explicit strings. *)
Theorem C35_equal_ids :
  forall (P : Prims) (v : version) (k1 k2 : ktype) (a b d1 d2 : bytes),
  Sizes P -> valid_key P v k1 a = true -> valid_key P v k2 b = true ->
  to_id P v k1 a = Ok d1 -> to_id P v k2 b = Ok d2 -> id_eqb d1 d2 = true ->
  (k1 = k2 /\ a = b) \/
  (let s1 := id_input v k1 (to_bytes P v k1 a) in
   let s2 := id_input v k2 (to_bytes P v k2 b) in
   s1 <> s2 /\ id_hash P v s1 = id_hash P v s2).
Proof. exact c35_equal_ids. Qed.
Print Assumptions C35_equal_ids.

(** With the broken hash of [Samples] different keys get one identifier; with [Mini] the
    identifiers of two keys, and of one byte string used as two types, differ. *)
Example C35_ids_example : forall v : version,
  valid_key Weak v Secret (sk0 v) = true /\ valid_key Weak v Secret (sk1 v) = true /\
  to_id Weak v Secret (sk0 v) = Ok (repeat x00 33) /\ to_id Weak v Secret (sk1 v) = Ok (repeat x00 33) /\
  sk0 v <> sk1 v /\
  to_id Mini v Secret (sk0 v) <> to_id Mini v Secret (sk1 v).
Proof. evaluate. Qed.

(** C36: equality of identifiers is equality of bytes and of printed texts; the order is
    total and consistent with it; hasher input agrees exactly with equality. *)
Theorem C36_id_equality :
  forall (v : version) (k : ktype) (a b : bytes),
  length a = 33 -> length b = 33 ->
  (id_eqb a b = true <-> a = b) /\
  (id_eqb a b = true <-> id_display v k a = id_display v k b) /\
  (id_eqb a b = true <-> id_cmp a b = Eq) /\
  (id_eqb a b = true <-> id_hash_input a = id_hash_input b) /\
  id_hash_input a = x21 :: repeat x00 7 ++ a.
Proof. exact c36_id_equality. Qed.
Print Assumptions C36_id_equality.

Example C36_example :
  let a := x01 :: repeat xff 32 in let b := x02 :: repeat x00 32 in
  length a = 33 /\ length b = 33 /\ id_cmp a b = Lt /\ id_cmp b a = Gt /\ id_eqb a b = false.
Proof. evaluate. Qed.

Theorem C36_id_total_order :
  forall (a b c : bytes),
  id_cmp a a = Eq /\
  id_cmp b a = CompOpp (id_cmp a b) /\
  (id_cmp a b = Eq <-> a = b) /\
  (id_cmp a b = Lt -> id_cmp b c = Lt -> id_cmp a c = Lt).
Proof. exact c36_id_total_order. Qed.
Print Assumptions C36_id_total_order.

Example C36_order_example :
  let a := x01 :: repeat xff 32 in let b := x02 :: repeat x00 32 in let c := x02 :: repeat x01 32 in
  id_cmp a b = Lt /\ id_cmp b c = Lt /\ id_cmp a c = Lt /\ id_cmp c a = Gt.
Proof. evaluate. Qed.

(** C36: it is the lexicographic order of the bytes. *)
Theorem C36_id_order_lexicographic :
  forall (a b : bytes), length a = length b ->
  (id_cmp a b = Lt <->
   exists (p ra rb : bytes) (x y : byte),
     a = p ++ x :: ra /\ b = p ++ y :: rb /\ (b2n x < b2n y)%N).
Proof. exact c36_id_order_lexicographic. Qed.
Print Assumptions C36_id_order_lexicographic.

(** Equal lengths, a common prefix, and bytes on both sides of 128. *)
Example C36_lexicographic_example :
  let a := [x01; x7f; xff] in let b := [x01; x80; x00] in
  length a = length b /\ id_cmp a b = Lt /\ id_cmp b a = Gt.
Proof. evaluate. Qed.
