(** Theorems of the property list; statements only, proofs are in [ProofsMisc]. *)
From Coq Require Import ZArith ZifyBool ZifyNat ZifyN.
From Verif Require Import Bytes Outcome Base64 Prims Version Key Token Local Public Plaintext KeyId
  Wrap Pbkw Pke Serde SpecBase64 SpecPaseto SpecPaserk SpecText SpecKey Observe.
From Verif Require Import ProofsMisc Samples.

(** C50: serialising gives exactly the printed text, as a serde string. *)
Theorem C50_serialize_is_display :
  forall (P : Prims) (v : version) (k : ktype) (w : wtype) (s : bytes),
  (forall F E p sfx (t : SecuredToken F E), token_serialize v p sfx t = Ok (SStr (token_display v p sfx t))) /\
  (forall id, id_serialize v k id = Ok (SStr s) <-> id_display v k id = Ok s) /\
  (forall key, plaintext_serialize P v k key = Ok (SStr s) <-> plaintext_display P v k key = Ok s) /\
  (forall x, pie_serialize v w x = Ok (SStr s) <-> pie_display v w x = Ok s) /\
  (forall x, pw_serialize v w x = Ok (SStr s) <-> pw_display v w x = Ok s) /\
  (forall x, seal_serialize v x = Ok (SStr s) <-> seal_display v x = Ok s).
Proof. exact c50_serialize_is_display. Qed.
Print Assumptions C50_serialize_is_display.

Example C50_serialize_example : forall (v : version) (w : wtype),
  let s := get_text (pie_display v w (pie0 Mini v w)) in
  s <> [] /\ pie_serialize v w (pie0 Mini v w) = Ok (SStr s) /\
  id_serialize v Local (repeat xa7 33) = Ok (SStr (id_h v Local ++ base64url (repeat xa7 33))).
Proof. evaluate. Qed.

(** C50: deserialising succeeds exactly on serde strings that parse, with the parsed value;
    the message of a failure is the parse error's, and other serde types are refused. *)
Theorem C50_deserialize_is_parse :
  forall (P : Prims) (F E : Type) (e0 : E) (FC : FooterCodec F)
         (v : version) (p : purpose) (sfx : bytes) (k : ktype) (w : wtype) (x : serde_value),
  (forall t, token_deserialize v p sfx e0 FC x = DOk t <-> exists s, x = SStr s /\ token_parse v p sfx e0 FC s = Ok t) /\
  (forall id, id_deserialize v k x = DOk id <-> exists s, x = SStr s /\ id_parse v k s = Ok id) /\
  (forall key, plaintext_deserialize P v k x = DOk key <-> exists s, x = SStr s /\ plaintext_parse P v k s = Ok key) /\
  (forall y, pie_deserialize v w x = DOk y <-> exists s, x = SStr s /\ pie_parse v w s = Ok y) /\
  (forall y, pw_deserialize v w x = DOk y <-> exists s, x = SStr s /\ pw_parse v w s = Ok y) /\
  (forall y, seal_deserialize v x = DOk y <-> exists s, x = SStr s /\ seal_parse v s = Ok y).
Proof. exact c50_deserialize_is_parse. Qed.
Print Assumptions C50_deserialize_is_parse.

Example C50_deserialize_example : forall (v : version) (w : wtype),
  let s := get_text (pie_display v w (pie0 Mini v w)) in
  pie_deserialize v w (SStr s) = DOk (pie0 Mini v w) /\ pie_parse v w s = Ok (pie0 Mini v w) /\
  is_ok (pie_parse v w (removelast s)) = false.
Proof. evaluate. Qed.

(** C50: the error text of a failing deserialisation, and absence of panics. *)
Theorem C50_deserialize_errors :
  forall (P : Prims) (F E : Type) (e0 : E) (FC : FooterCodec F)
         (v : version) (p : purpose) (sfx : bytes) (k : ktype) (w : wtype) (s : bytes),
  (forall e, token_parse v p sfx e0 FC s = Err e -> token_deserialize v p sfx e0 FC (SStr s) = DErr (error_display e)) /\
  (forall e, id_parse v k s = Err e -> id_deserialize v k (SStr s) = DErr (error_display e)) /\
  (forall e, plaintext_parse P v k s = Err e -> plaintext_deserialize P v k (SStr s) = DErr (error_display e)) /\
  (forall e, pie_parse v w s = Err e -> pie_deserialize v w (SStr s) = DErr (error_display e)) /\
  (forall e, pw_parse v w s = Err e -> pw_deserialize v w (SStr s) = DErr (error_display e)) /\
  (forall e, seal_parse v s = Err e -> seal_deserialize v (SStr s) = DErr (error_display e)) /\
  (forall x, token_deserialize v p sfx e0 FC x <> DPanic /\ id_deserialize v k x <> DPanic /\
             plaintext_deserialize P v k x <> DPanic /\ pie_deserialize v w x <> DPanic /\
             pw_deserialize v w x <> DPanic /\ seal_deserialize v x <> DPanic).
Proof. exact c50_deserialize_errors. Qed.
Print Assumptions C50_deserialize_errors.

Example C50_errors_example :
  seal_parse V3 (str "k3.seal.AAAA") = Err Base64DecodeError /\
  seal_deserialize V3 (SStr (str "k3.seal.AAAA")) = DErr (str "The token could not be base64 decoded") /\
  token_parse V4 PLocal [] tt unit_footer (str "v4.local.AAAA.Zg") = Err (PayloadError (str "unexpected footer [102]")) /\
  token_deserialize V4 PLocal [] tt unit_footer (SStr (str "v4.local.AAAA.Zg")) =
    DErr (str "there was an error with the payload encoding: unexpected footer [102]").
Proof. evaluate. Qed.

(** C50: anything that is not a string is refused, naming the type found and the header
    expected. *)
Theorem C50_deserialize_type_errors :
  forall (P : Prims) (F E : Type) (e0 : E) (FC : FooterCodec F)
         (v : version) (p : purpose) (sfx : bytes) (k : ktype) (w : wtype) (u : bytes),
  let wrong h what := str "invalid type: " ++ u ++ str ", expected a """ ++ h ++ str """ " ++ what in
  token_deserialize v p sfx e0 FC (SOther u) = DErr (wrong (match p with PLocal => local_header v [] | PPublic => public_header v [] end) (str "paseto")) /\
  id_deserialize v k (SOther u) = DErr (wrong (id_h v k) (str "serialized key")) /\
  plaintext_deserialize P v k (SOther u) = DErr (wrong (plain_h v k) (str "serialized key")) /\
  pie_deserialize v w (SOther u) = DErr (wrong (pie_h v w) (str "serialized key")) /\
  pw_deserialize v w (SOther u) = DErr (wrong (pw_h v w) (str "serialized key")) /\
  seal_deserialize v (SOther u) = DErr (wrong (seal_h v) (str "serialized key")).
Proof. exact c50_deserialize_type_errors. Qed.
Print Assumptions C50_deserialize_type_errors.

Example C50_type_error_example :
  pw_deserialize V4 WSecret (SOther (str "integer `7`")) =
    DErr (str "invalid type: integer `7`, expected a ""k4.secret-pw."" serialized key") /\
  token_deserialize V3 PLocal (str "x") tt unit_footer (SOther (str "null")) =
    DErr (str "invalid type: null, expected a ""v3.local."" paseto").
Proof. evaluate. Qed.

(** C50: serialise then deserialise is the identity. *)
Theorem C50_serde_roundtrip :
  forall (P : Prims) (F E : Type) (e0 : E) (FC : FooterCodec F)
         (v : version) (p : purpose) (sfx : bytes) (k : ktype) (w : wtype) (x : serde_value),
  Sizes P -> (v = V4 -> k = Secret -> EdLaws P) ->
  (forall t : SecuredToken F E, st_encoding t = e0 -> f_decode FC (st_encoded_footer t) = COk (st_footer t) ->
     token_serialize v p sfx t = Ok x -> token_deserialize v p sfx e0 FC x = DOk t) /\
  (forall id, length id = 33 -> id_serialize v k id = Ok x -> id_deserialize v k x = DOk id) /\
  (forall key, valid_key P v k key = true -> plaintext_serialize P v k key = Ok x -> plaintext_deserialize P v k x = DOk key) /\
  (forall y, pie_wf v w y -> pie_serialize v w y = Ok x -> pie_deserialize v w x = DOk y) /\
  (forall y, pw_wf v w y -> pw_serialize v w y = Ok x -> pw_deserialize v w x = DOk y) /\
  (forall y, seal_wf v y -> seal_serialize v y = Ok x -> seal_deserialize v x = DOk y).
Proof. exact c50_serde_roundtrip. Qed.
Print Assumptions C50_serde_roundtrip.

Example C50_example : forall (v : version) (w : wtype),
  let t := sealed_tok Mini v ia in
  st_encoding t = x07 /\ f_decode (json_footer braces) (st_encoded_footer t) = COk (st_footer t) /\
  token_deserialize v PLocal (str "x") x07 (json_footer braces)
    (SStr (token_display v PLocal (str "x") t)) = DOk t /\
  pie_wf v w (pie0 Mini v w) /\ pw_wf v w (pw0 Mini v w) /\ seal_wf v (seal0 Mini v) /\
  id_deserialize v Local (SStr (str "nonsense")) = DErr (str "Could not parse the token").
Proof. evaluate. Qed.

(** C51: builder methods change exactly what they name, and commute. *)
Theorem C51_builders :
  forall (M F E : Type) (m : M) (f : F) (e : E),
  let t0 := token_new m in
  vt_message t0 = m /\ vt_footer t0 = tt /\ vt_encoding t0 = tt /\
  with_encoding (with_footer t0 f) e = with_footer (with_encoding t0 e) f /\
  (forall (t : ValidatedToken M unit E), vt_message (with_footer t f) = vt_message t /\
     vt_encoding (with_footer t f) = vt_encoding t /\ vt_footer (with_footer t f) = f) /\
  (forall (t : ValidatedToken M F unit), vt_message (with_encoding t e) = vt_message t /\
     vt_footer (with_encoding t e) = vt_footer t /\ vt_encoding (with_encoding t e) = e).
Proof. exact c51_builders. Qed.
Print Assumptions C51_builders.

(** C51: end to end, a token built with [new(m).with_footer(f).with_encoding(e)] is
    encrypted as the encoding of [m] by [e] under footer bytes of [f], and signed
    likewise. *)
Theorem C51_builder_end_to_end :
  forall (P : Prims) (M F E : Type) (v : version) (EN : Encoding E M) (FC : FooterCodec F)
         (m : M) (f : F) (e : E) (mb fb key sk implicit : bytes) (r : rng),
  SymLaws P -> e_encode EN e m = COk mb -> f_encode FC f = Some fb ->
  local_sizes v (suffix EN) mb fb implicit -> public_sizes v (suffix EN) mb fb implicit ->
  let t := with_encoding (with_footer (token_new m) f) e in
  let n := draw r 0 32 in
  local_safe P v key n (length mb) ->
  omap st_payload (fst (encrypt_with_rng P v EN FC t key implicit r)) =
    Ok (local_encrypt P v (suffix EN) key n mb fb implicit) /\
  (forall tok, sign_with_assertions P v EN FC t sk implicit = Ok tok ->
     exists sg, st_payload tok = mb ++ sg).
Proof. exact c51_builder_end_to_end. Qed.
Print Assumptions C51_builder_end_to_end.

Example C51_example : forall v : version,
  let t := with_encoding (with_footer (token_new 42%N) (str "kid")) x07 in
  t = tok0 /\ e_encode num_encoding x07 42%N = COk m0 /\ f_encode (json_footer braces) (str "kid") = Some f0 /\
  local_sizes v (suffix num_encoding) m0 f0 ia /\ public_sizes v (suffix num_encoding) m0 f0 ia /\
  local_safe Mini v key32 (draw rng0 0 32) (length m0).
Proof. evaluate. Qed.

(** C56: texts and sources of errors: distinct fixed texts, only [PayloadError] has a source,
    and its text ends with it. *)
Theorem C56_errors :
  forall (e e' : paseto_error),
  (error_source e = None <-> In e [Base64DecodeError; InvalidKey; InvalidToken; CryptoError]) /\
  (forall x, error_source e = Some x <-> e = PayloadError x) /\
  (forall x, error_source e = Some x -> exists prefix, error_display e = prefix ++ x) /\
  (error_display e = error_display e' <-> e = e').
Proof. exact c56_errors. Qed.
Print Assumptions C56_errors.

Example C56_example :
  error_source (PayloadError (str "eof")) = Some (str "eof") /\ error_source CryptoError = None /\
  error_display (PayloadError (str "eof")) <> error_display (PayloadError (str "")).
Proof. evaluate. Qed.

(** C52, local: encrypt with a key of the key set and put its id in the footer ([kid] reads it
    off the footer); the receiver parses, looks the id up and decrypts to the message, unless
    the id hash collides on the keys. *)
Theorem C52_rotation_local :
  forall (P : Prims) (M F E : Type) (v : version) (EN : Encoding E M) (FC : FooterCodec F)
         (kid : F -> bytes) (keys : list (bytes * bytes))
         (t : ValidatedToken M F E) (key implicit m f : bytes) (r : rng),
  Sizes P -> key_map P v Local keys -> In (kid (vt_footer t), key) keys ->
  e_encode EN (vt_encoding t) (vt_message t) = COk m ->
  e_decode EN (e_default EN) m = COk (vt_message t) ->
  f_encode FC (vt_footer t) = Some f -> f_decode FC f = COk (vt_footer t) ->
  within_limit v (nlen m) ->
  exists tok tok' key',
    encrypt_with_rng P v EN FC t key implicit r = (Ok tok, advance r 32) /\
    token_parse v PLocal (suffix EN) (e_default EN) FC (token_display v PLocal (suffix EN) tok) = Ok tok' /\
    lookup (kid (unverified_footer tok')) keys = Some key' /\
    (decrypt_with_assertions P v EN tok' key' implicit =
       Ok {| vt_encoding := e_default EN; vt_message := vt_message t; vt_footer := vt_footer t |}
     \/ id_collision P v Local key key').
Proof. exact c52_rotation_local. Qed.
Print Assumptions C52_rotation_local.

(** A set of two keys; the footer carries the identifier of the second. *)
Definition C52_id (v : version) (k : ktype) (key : bytes) : bytes :=
  match to_id Mini v k key with Ok i => i | _ => [] end.
Example C52_example : forall v : version,
  let keys := [(C52_id v Local key32, key32); (C52_id v Local other32, other32)] in
  let t := {| vt_encoding := x07; vt_message := 42%N; vt_footer := C52_id v Local other32 |} in
  key_map Mini v Local keys /\ In (vt_footer t, other32) keys /\
  lookup (vt_footer t) keys = Some other32 /\
  f_decode vec_footer (vt_footer t) = COk (vt_footer t).
Proof.
  intros v. cbv zeta. split; [|split; [|destruct v; evaluate]].
  - intros i key [H|[H|[]]]; injection H as <- <-; destruct v; split; vm_compute; reflexivity.
  - right; left; reflexivity.
Qed.

(** C52, public (README.md:33-69): sign, put the public key's id in the footer, look it up,
    verify. *)
Theorem C52_rotation_public :
  forall (P : Prims) (M F E : Type) (v : version) (EN : Encoding E M) (FC : FooterCodec F)
         (kid : F -> bytes) (keys : list (bytes * bytes))
         (t : ValidatedToken M F E) (sk implicit : bytes) (tok : SecuredToken F E),
  Laws P -> valid_key P v Secret sk = true -> key_map P v Public keys ->
  In (kid (vt_footer t), public_key P v sk) keys ->
  (forall m, e_encode EN (vt_encoding t) (vt_message t) = COk m ->
             e_decode EN (e_default EN) m = COk (vt_message t)) ->
  (forall f, f_encode FC (vt_footer t) = Some f -> f_decode FC f = COk (vt_footer t)) ->
  sign_with_assertions P v EN FC t sk implicit = Ok tok ->
  exists tok' pk',
    token_parse v PPublic (suffix EN) (e_default EN) FC (token_display v PPublic (suffix EN) tok) = Ok tok' /\
    lookup (kid (unverified_footer tok')) keys = Some pk' /\
    (verify_with_assertions P v EN tok' pk' implicit =
       Ok {| vt_encoding := e_default EN; vt_message := vt_message t; vt_footer := vt_footer t |}
     \/ id_collision P v Public (public_key P v sk) pk').
Proof. exact c52_rotation_public. Qed.
Print Assumptions C52_rotation_public.

Example C52_public_example : forall v : version,
  let pk0 := public_key Mini v (sk0 v) in
  let pk1 := public_key Mini v (sk1 v) in
  let keys := [(C52_id v Public pk1, pk1); (C52_id v Public pk0, pk0)] in
  let t := {| vt_encoding := x07; vt_message := 42%N; vt_footer := C52_id v Public pk0 |} in
  key_map Mini v Public keys /\ In (vt_footer t, pk0) keys /\
  lookup (vt_footer t) keys = Some pk0 /\
  is_ok (sign_with_assertions Mini v num_encoding vec_footer t (sk0 v) ia) = true.
Proof.
  intros v. cbv zeta. split; [|split; [|destruct v; evaluate]].
  - intros i key [H|[H|[]]]; injection H as <- <-; destruct v; split; vm_compute; reflexivity.
  - right; left; reflexivity.
Qed.

(** C54: the operations that draw a fixed amount: how much, and that the fresh values in
    their results are these bytes, in this order. *)
Theorem C54_fixed_draws :
  forall (P : Prims) (fuel : nat) (op : rand_op) (r : rng) (n : nat),
  SymLaws P -> op_bytes op = Some n -> op_runs op ->
  exists x, run_op P fuel op r = Some (x, advance r n) /\
  forall b, visible_random x = Some b -> b = draw r 0 n.
Proof. exact c54_fixed_draws. Qed.
Print Assumptions C54_fixed_draws.

Example C54_example : forall v : version,
  let op := OpPw v WLocal other32 (str "password") (settings0 v) in
  op_bytes op = Some (match v with V3 => 48 | V4 => 40 end) /\ op_runs op /\
  match run_op Mini 1 op rng0 with
  | Some (x, r') => visible_random x = Some (draw rng0 0 (match v with V3 => 48 | V4 => 40 end))
  | None => False
  end.
Proof. evaluate. Qed.

(** C54: the rejection-sampled operations (k3 sealing, v3 key generation) take the first
    valid 48-byte block and no byte after it. *)
Theorem C54_rejection_sampling :
  forall (fuel : nat) (r r' : rng) (e : bytes),
  ephemeral V3 fuel r = Some (e, r') ->
  exists k, k < fuel /\ r' = advance r (48 * k + 48) /\ e = draw r (48 * k) 48 /\ p_scalar_ok e = true /\
    forall j, j < k -> p_scalar_ok (draw r (48 * j) 48) = false.
Proof. exact c54_rejection_sampling. Qed.
Print Assumptions C54_rejection_sampling.

Example C54_rejection_example :
  let r := {| tape := fun i => if i <? 48 then xff else n2b (N.of_nat i); pos := 0 |} in
  option_map fst (ephemeral V3 2 r) = Some (draw r 48 48) /\ p_scalar_ok (draw r 0 48) = false.
Proof. evaluate. Qed.

(** C54: locality: an operation's result depends on the bytes it consumes and on no others: a
    generator agreeing on that window gives the same result and ends at the same place. *)
Theorem C54_locality :
  forall (P : Prims) (fuel : nat) (op : rand_op) (r1 r2 r1' : rng) (x : rand_result),
  SymLaws P -> run_op P fuel op r1 = Some (x, r1') ->
  same_window r1 r2 (pos r1' - pos r1) ->
  exists r2', run_op P fuel op r2 = Some (x, r2') /\ pos r2' = pos r1' /\
              tape r1' = tape r1 /\ tape r2' = tape r2 /\ pos r1 <= pos r1'.
Proof. exact c54_locality. Qed.
Print Assumptions C54_locality.

(** The generators differ only after the 32 bytes used. *)
Example C54_locality_example :
  let r2 := {| tape := fun i => if i <? 37 then tape rng0 i else x00; pos := 5 |} in
  let op := OpPie V4 WLocal other32 key32 in
  same_window rng0 r2 32 /\ tape rng0 40 <> tape r2 40 /\
  option_map fst (run_op Mini 1 op rng0) = option_map fst (run_op Mini 1 op r2).
Proof.
  cbv zeta. split; [|evaluate]. split; [reflexivity|]. intros i H1 H2. cbn [tape pos rng0] in *.
  destruct (Nat.ltb_spec i 37) as [|Hi]; [reflexivity|]. exfalso. revert H2 Hi. clear.
  change (5 + 32) with 37. intros A B. exact (Nat.lt_irrefl i (Nat.lt_le_trans i 37 i A B)).
Qed.

(** C54: over any history of operations on one generator, the k-th operation starts exactly
    where the previous one stopped, so the byte ranges used are consecutive and disjoint; and
    each result is that of the operation run alone on its own range. *)
Theorem C54_history_disjoint :
  forall (P : Prims) (fuel : nat) (ops : list rand_op) (r rend : rng) (l : list (rng * rand_result)),
  SymLaws P -> run_ops P fuel ops r = Some (l, rend) ->
  length l = length ops /\
  forall k op rk xk, nth_error ops k = Some op -> nth_error l k = Some (rk, xk) ->
  let next := match nth_error l (S k) with Some (rn, _) => rn | None => rend end in
  run_op P fuel op rk = Some (xk, next) /\
  tape rk = tape r /\ pos r <= pos rk /\ pos rk <= pos next /\ pos next <= pos rend /\
  (k = 0 -> rk = r) /\
  (forall j rj xj, j < k -> nth_error l j = Some (rj, xj) ->
     let nextj := match nth_error l (S j) with Some (rn, _) => rn | None => rend end in
     pos nextj <= pos rk).
Proof. exact c54_history_disjoint. Qed.
Print Assumptions C54_history_disjoint.

Example C54_history_example :
  let ops := [OpNewLocal; OpSeal V3 other32 (public_key Mini V3 key48);
              OpPw V4 WLocal other32 (str "password") (settings0 V4); OpNewSecret V4] in
  match run_ops Mini 3 ops rng0 with
  | Some (l, rend) => map (fun x => pos (fst x)) l = [5; 37; 85; 125] /\ pos rend = 157
  | None => False
  end.
Proof. vm_compute. split; reflexivity. Qed.
