(** Theorems of the property list; statements only, proofs are in [ProofsWrap]. *)
From Coq Require Import ZArith ZifyBool ZifyNat ZifyN.
From Verif Require Import Bytes Outcome Base64 Prims Version Key Local Wrap Pbkw Pke
  SpecBase64 SpecPaseto SpecPaserk SpecText SpecKey Observe.
From Verif Require Import ProofsWrap Samples.

(** C37: wrap, print, parse, unwrap returns the key. *)
Theorem C37_pie_roundtrip :
  forall (P : Prims) (v : version) (w : wtype) (key wk : bytes) (r : rng),
  Sizes P -> (v = V4 -> w = WSecret -> EdLaws P) -> valid_key P v (wtype_key w) key = true ->
  exists x s, wrap_pie P v w key wk r = (Ok x, advance r 32) /\
              pie_display v w x = Ok s /\ pie_parse v w s = Ok x /\
              unwrap_pie P v w x wk = Ok key.
Proof. exact c37_pie_roundtrip. Qed.
Print Assumptions C37_pie_roundtrip.

Example C37_example : forall (v : version) (w : wtype),
  let s := get_text (pie_display v w (pie0 Mini v w)) in
  Laws Mini /\ valid_key Mini v (wtype_key w) (wrapped_key v w) = true /\
  wrap_pie Mini v w (wrapped_key v w) key32 rng0 = (Ok (pie0 Mini v w), advance rng0 32) /\
  pie_parse v w s = Ok (pie0 Mini v w) /\
  unwrap_pie Mini v w (pie0 Mini v w) key32 = Ok (wrapped_key v w) /\
  unwrap_pie Mini v w (pie0 Mini v w) other32 = Err CryptoError.
Proof. evaluate. Qed.

(** C37: print/parse is the identity both ways on wrapped keys. *)
Theorem C37_pie_text :
  forall (v : version) (w : wtype) (s : bytes) (x : PieWrapped),
  pie_parse v w s = Ok x <-> pie_wf v w x /\ pie_display v w x = Ok s.
Proof. exact c37_pie_text. Qed.
Print Assumptions C37_pie_text.

Example C37_text_example : forall (v : version) (w : wtype),
  pie_wf v w (pie0 Mini v w) /\ is_ok (pie_display v w (pie0 Mini v w)) = true.
Proof. evaluate. Qed.

(** C38: the printed text is the standard's t || n || c. *)
Theorem C38_pie_wrap_is_spec :
  forall (P : Prims) (v : version) (w : wtype) (key wk : bytes) (r : rng) x r',
  Sizes P -> valid_key P v (wtype_key w) key = true ->
  let n := draw r 0 32 in
  pie_safe P v w wk n ->
  wrap_pie P v w key wk r = (Ok x, r') ->
  pie_display v w x =
  Ok (pie_h v w ++ base64url (pie_wrap_body P v w wk n (to_bytes P v (wtype_key w) key))).
Proof. exact c38_pie_wrap_is_spec. Qed.
Print Assumptions C38_pie_wrap_is_spec.

Example C38_example : forall (v : version) (w : wtype),
  pie_safe Mini v w key32 (draw rng0 0 32) /\
  length (pie_wrap_body Mini v w key32 n0 (to_bytes Mini v (wtype_key w) (wrapped_key v w))) =
    body_size (KPie v w).
Proof. evaluate. Qed.

(** C38: unwrapping is the standard's, with the error classes named. *)
Theorem C38_pie_unwrap_is_spec :
  forall (P : Prims) (v : version) (w : wtype) (wk s : bytes) (x : PieWrapped),
  Sizes P -> pie_parse v w s = Ok x ->
  let n := pie_nonce x in
  pie_safe P v w wk n ->
  match pie_unwrap_spec P v w wk (pie_tag x) n (pie_key x) with
  | None => unwrap_pie P v w x wk = Err CryptoError
  | Some ptk =>
      (forall key, unwrap_pie P v w x wk = Ok key <-> encodes P v (wtype_key w) ptk key) /\
      ((forall key, ~ encodes P v (wtype_key w) ptk key) -> unwrap_pie P v w x wk = Err InvalidKey)
  end.
Proof. exact c38_pie_unwrap_is_spec. Qed.
Print Assumptions C38_pie_unwrap_is_spec.

(** All three outcomes occur: a key, bytes that are not a key (an honest wrapping, by other
    means, of zero bytes as a secret key), a bad tag. *)
Example C38_unwrap_example : forall (v : version) (w : wtype),
  let x := pie0 Mini v w in
  let body := pie_wrap_body Mini v WSecret key32 n0 (repeat x00 (key_size v Secret)) in
  let bad := {| pie_tag := firstn (tag_len v) body; pie_nonce := n0;
                pie_key := skipn (tag_len v + 32) body |} in
  pie_parse v w (get_text (pie_display v w x)) = Ok x /\ pie_safe Mini v w key32 (pie_nonce x) /\
  pie_unwrap_spec Mini v w key32 (pie_tag x) (pie_nonce x) (pie_key x)
    = Some (to_bytes Mini v (wtype_key w) (wrapped_key v w)) /\
  pie_unwrap_spec Mini v w other32 (pie_tag x) (pie_nonce x) (pie_key x) = None /\
  pie_parse v WSecret (get_text (pie_display v WSecret bad)) = Ok bad /\
  unwrap_pie Mini v WSecret bad key32 = match v with V3 => Err InvalidKey | V4 => Ok (repeat x00 32) end.
Proof. evaluate. Qed.

(** C39: parsing and unwrapping untrusted text never panics, and yields only valid keys. *)
Theorem C39_pie_unwrap_no_panic :
  forall (P : Prims) (v : version) (w : wtype) (wk s : bytes) (x : PieWrapped),
  Sizes P -> pie_parse v w s = Ok x ->
  (exists key, unwrap_pie P v w x wk = Ok key /\ valid_key P v (wtype_key w) key = true) \/
  unwrap_pie P v w x wk = Err CryptoError \/ unwrap_pie P v w x wk = Err InvalidKey.
Proof. exact c39_pie_unwrap_no_panic. Qed.
Print Assumptions C39_pie_unwrap_no_panic.

(** All three outcomes occur. *)
Example C39_example :
  let body := pie_wrap_body Mini V3 WSecret key32 n0 (repeat x00 48) in
  let bad := {| pie_tag := firstn (tag_len V3) body; pie_nonce := n0; pie_key := skipn (tag_len V3 + 32) body |} in
  let x := pie0 Mini V3 WSecret in
  Laws Mini /\
  pie_parse V3 WSecret (get_text (pie_display V3 WSecret x)) = Ok x /\
  pie_parse V3 WSecret (get_text (pie_display V3 WSecret bad)) = Ok bad /\
  unwrap_pie Mini V3 WSecret x key32 = Ok other48 /\
  unwrap_pie Mini V3 WSecret x other32 = Err CryptoError /\
  unwrap_pie Mini V3 WSecret bad key32 = Err InvalidKey.
Proof. evaluate. Qed.

(** C40: two wrapped keys with one tag accepted under one wrapping key have the same type,
    nonce and ciphertext, or the MAC collides on two explicit messages. *)
Theorem C40_pie_binding :
  forall (P : Prims) (v : version) (w1 w2 : wtype) (wk s1 s2 : bytes) (x1 x2 : PieWrapped) k1 k2,
  Sizes P -> pie_parse v w1 s1 = Ok x1 -> pie_parse v w2 s2 = Ok x2 ->
  unwrap_pie P v w1 x1 wk = Ok k1 -> unwrap_pie P v w2 x2 wk = Ok k2 ->
  pie_tag x1 = pie_tag x2 ->
  (w1 = w2 /\ s1 = s2 /\ x1 = x2 /\ k1 = k2) \/
  (let m1 := pie_h v w1 ++ pie_nonce x1 ++ pie_key x1 in
   let m2 := pie_h v w2 ++ pie_nonce x2 ++ pie_key x2 in
   m1 <> m2 /\ mac P v (pie_ak P v wk (pie_nonce x1)) m1 = mac P v (pie_ak P v wk (pie_nonce x2)) m2).
Proof. exact c40_pie_binding. Qed.
Print Assumptions C40_pie_binding.

(** With the broken MAC of [Samples] the collision alternative occurs. *)
Example C40_example : forall v : version,
  let x1 := pie0 Weak v WLocal in
  let x2 := {| pie_tag := pie_tag x1; pie_nonce := other32; pie_key := pie_key x1 |} in
  Laws Weak /\
  pie_parse v WLocal (get_text (pie_display v WLocal x1)) = Ok x1 /\
  pie_parse v WLocal (get_text (pie_display v WLocal x2)) = Ok x2 /\
  unwrap_pie Weak v WLocal x1 key32 = Ok other32 /\
  is_ok (unwrap_pie Weak v WLocal x2 key32) = true /\ x1 <> x2 /\
  unwrap_pie Mini v WLocal {| pie_tag := pie_tag (pie0 Mini v WLocal); pie_nonce := other32;
                              pie_key := pie_key (pie0 Mini v WLocal) |} key32 = Err CryptoError.
Proof. evaluate. Qed.

(** C41: wrap with a password, print, parse, unwrap returns the key and the settings. *)
Theorem C41_pw_roundtrip :
  forall (P : Prims) (v : version) (w : wtype) (key pw : bytes) (st : kdf_state v) (r : rng),
  Sizes P -> (v = V4 -> w = WSecret -> EdLaws P) -> valid_key P v (wtype_key w) key = true ->
  state_u32 v st = true -> kdf_accepts v pw st ->
  exists x s, pw_wrap P v w key pw st r = (Ok x, advance r (pw_salt_size v + pw_nonce_size v)) /\
              pw_display v w x = Ok s /\ pw_parse v w s = Ok x /\
              pw_settings x = st /\ pw_unwrap P v w x pw = Ok key.
Proof. exact c41_pw_roundtrip. Qed.
Print Assumptions C41_pw_roundtrip.

Example C41_example : forall (v : version) (w : wtype),
  let s := get_text (pw_display v w (pw0 Mini v w)) in
  valid_key Mini v (wtype_key w) (wrapped_key v w) = true /\
  state_u32 v (settings0 v) = true /\ kdf_accepts v (str "password") (settings0 v) /\
  fst (pw_wrap Mini v w (wrapped_key v w) (str "password") (settings0 v) rng0) = Ok (pw0 Mini v w) /\
  pw_parse v w s = Ok (pw0 Mini v w) /\ pw_settings (pw0 Mini v w) = settings0 v /\
  pw_unwrap Mini v w (pw0 Mini v w) (str "password") = Ok (wrapped_key v w) /\
  pw_unwrap Mini v w (pw0 Mini v w) (str "passw0rd") = Err CryptoError.
Proof. evaluate. Qed.

(** C41: the default settings (100000 iterations; 64 MiB, 2 passes, 1 lane) are accepted for
    every password below 2^32 bytes, so the default entry point round-trips too. *)
Theorem C41_pw_default_settings :
  forall (P : Prims) (v : version) (w : wtype) (key pw : bytes) (r : rng),
  Sizes P -> (v = V4 -> w = WSecret -> EdLaws P) -> valid_key P v (wtype_key w) key = true -> (nlen pw < two32)%N ->
  exists x s, pw_wrap_default P v w key pw r = (Ok x, advance r (pw_salt_size v + pw_nonce_size v)) /\
              pw_display v w x = Ok s /\ pw_parse v w s = Ok x /\
              pw_settings x = match v return kdf_state v with
                              | V3 => {| iterations := 100000 |}
                              | V4 => {| mem := 64 * 1024 * 1024; time := 2; para := 1 |}
                              end /\
              pw_unwrap P v w x pw = Ok key.
Proof. exact c41_pw_default_settings. Qed.
Print Assumptions C41_pw_default_settings.

Example C41_default_example : forall (v : version) (w : wtype),
  valid_key Mini v (wtype_key w) (wrapped_key v w) = true /\ (nlen (str "password") < two32)%N /\
  match fst (pw_wrap_default Mini v w (wrapped_key v w) (str "password") rng0) with
  | Ok x => pw_unwrap Mini v w x (str "password") = Ok (wrapped_key v w)
  | _ => False
  end.
Proof. evaluate. Qed.

(** C42: the printed text is the standard's s || params || n || edk || t. *)
Theorem C42_pw_wrap_is_spec :
  forall (P : Prims) (v : version) (w : wtype) (key pw : bytes) (st : kdf_state v) (r : rng) x r',
  Sizes P -> valid_key P v (wtype_key w) key = true -> state_u32 v st = true ->
  let salt := draw r 0 (pw_salt_size v) in
  let n := draw r (pw_salt_size v) (pw_nonce_size v) in
  pw_safe v w n ->
  pw_wrap P v w key pw st r = (Ok x, r') ->
  pw_display v w x =
  Ok (pw_h v w ++ base64url (pw_wrap_body P v w pw salt n (to_bytes P v (wtype_key w) key)
                               (st_mem v st) (st_time v st) (st_para v st) (st_iters v st))).
Proof. exact c42_pw_wrap_is_spec. Qed.
Print Assumptions C42_pw_wrap_is_spec.

Example C42_example : forall (v : version) (w : wtype),
  pw_safe v w (draw rng0 (pw_salt_size v) (pw_nonce_size v)) /\
  length (get_text (pw_display v w (pw0 Mini v w))) =
    length (pw_h v w) + (4 * body_size (KPw v w) + 2) / 3.
Proof. evaluate. Qed.

(** C42: unwrapping is the standard's, with the error classes named. *)
Theorem C42_pw_unwrap_is_spec :
  forall (P : Prims) (v : version) (w : wtype) (pw s : bytes) (x : PwWrapped v),
  Sizes P -> pw_parse v w s = Ok x ->
  let st := pw_settings x in
  let n := pw_nonce x in
  kdf_accepts v pw st -> pw_safe v w n ->
  match pw_unwrap_spec P v w pw (pw_salt x) n (pw_edk x) (pw_tag x)
          (st_mem v st) (st_time v st) (st_para v st) (st_iters v st) with
  | None => pw_unwrap P v w x pw = Err CryptoError
  | Some ptk =>
      (forall key, pw_unwrap P v w x pw = Ok key <-> encodes P v (wtype_key w) ptk key) /\
      ((forall key, ~ encodes P v (wtype_key w) ptk key) -> pw_unwrap P v w x pw = Err InvalidKey)
  end.
Proof. exact c42_pw_unwrap_is_spec. Qed.
Print Assumptions C42_pw_unwrap_is_spec.

Example C42_unwrap_example : forall (v : version) (w : wtype),
  let x := pw0 Mini v w in
  let st := settings0 v in
  let spec pw := pw_unwrap_spec Mini v w pw (pw_salt x) (pw_nonce x) (pw_edk x) (pw_tag x)
                   (st_mem v st) (st_time v st) (st_para v st) (st_iters v st) in
  kdf_accepts v (str "password") (pw_settings x) /\ pw_safe v w (pw_nonce x) /\
  spec (str "password") = Some (to_bytes Mini v (wtype_key w) (wrapped_key v w)) /\
  spec (str "passw0rd") = None.
Proof. evaluate. Qed.

(** C43: exact panic condition of unwrapping: the key derivation rejects the settings in
    the text or the password.  In particular never for k3. *)
Theorem C43_pw_unwrap_panic_iff :
  forall (P : Prims) (v : version) (w : wtype) (pw s : bytes) (x : PwWrapped v),
  Sizes P -> pw_parse v w s = Ok x ->
  (pw_unwrap P v w x pw = Panic <-> ~ kdf_accepts v pw (pw_settings x)) /\
  (v = V3 -> pw_unwrap P v w x pw <> Panic) /\
  (forall key, pw_unwrap P v w x pw = Ok key -> valid_key P v (wtype_key w) key = true) /\
  (forall e, pw_unwrap P v w x pw = Err e -> e = CryptoError \/ e = InvalidKey).
Proof. exact c43_pw_unwrap_panic_iff. Qed.
Print Assumptions C43_pw_unwrap_panic_iff.

(** Accepted and refused settings in texts that parse (k4: memory of 7 KiB). *)
Example C43_example :
  let x := pw0 Mini V4 WLocal in
  let st : kdf_state V4 := {| mem := 7168%N; time := 3%N; para := 1%N |} in
  let bad : PwWrapped V4 := {| pw_salt := pw_salt x; pw_state := st; pw_nonce := pw_nonce x;
                               pw_edk := pw_edk x; pw_tag := pw_tag x |} in
  pw_parse V4 WLocal (get_text (pw_display V4 WLocal bad)) = Ok bad /\
  pw_unwrap Mini V4 WLocal bad (str "password") = Panic /\
  pw_parse V4 WLocal (get_text (pw_display V4 WLocal x)) = Ok x /\
  pw_unwrap Mini V4 WLocal x (str "password") <> Panic.
Proof. evaluate. Qed.

(** C43, ideal claim refuted for k4: a text (its body is 120 zero bytes) that parses
    and panics when unwrapped, for every password. *)
Theorem C43_pw_unwrap_no_panic_refuted :
  exists (s : bytes) (x : PwWrapped V4),
  pw_parse V4 WLocal s = Ok x /\
  forall (P : Prims) (pw : bytes), pw_unwrap P V4 WLocal x pw = Panic.
Proof. exact c43_pw_unwrap_no_panic_refuted. Qed.
Print Assumptions C43_pw_unwrap_no_panic_refuted.

(** C43: wrapping panics exactly for the same settings and passwords. *)
Theorem C43_pw_wrap_outcome :
  forall (P : Prims) (v : version) (w : wtype) (key pw : bytes) (st : kdf_state v) (r : rng),
  Sizes P -> valid_key P v (wtype_key w) key = true -> state_u32 v st = true ->
  (fst (pw_wrap P v w key pw st r) = Panic <-> ~ kdf_accepts v pw st) /\
  (forall e, fst (pw_wrap P v w key pw st r) <> Err e).
Proof. exact c43_pw_wrap_outcome. Qed.
Print Assumptions C43_pw_wrap_outcome.

Example C43_wrap_example :
  let st : kdf_state V4 := {| mem := 1048576%N; time := 0%N; para := 1%N |} in
  state_u32 V4 st = true /\
  fst (pw_wrap Mini V4 WLocal other32 (str "password") st rng0) = Panic /\
  is_ok (fst (pw_wrap Mini V3 WLocal other32 (str "password") {| iterations := 0%N |} rng0)) = true.
Proof. evaluate. Qed.

(** C44, ideal claim refuted for k4: two different texts denote the same value. *)
Theorem C44_pw_text_unique_refuted :
  exists (s1 s2 : bytes) (x : PwWrapped V4),
  s1 <> s2 /\ pw_parse V4 WLocal s1 = Ok x /\ pw_parse V4 WLocal s2 = Ok x.
Proof. exact c44_pw_text_unique_refuted. Qed.
Print Assumptions C44_pw_text_unique_refuted.

(** C44: the exact texts of a value: for k4 all those with any four bytes in place of the high
    half of the memory cost; the printed one has zeros there. *)
Theorem C44_k4_pw_language :
  forall (w : wtype) (s : bytes) (x : PwWrapped V4),
  pw_parse V4 w s = Ok x <->
  pw_wf V4 w x /\ exists hi : bytes, length hi = 4 /\
    let st : argon2_state := pw_settings x in
    s = pw_h V4 w ++ base64url (pw_salt x
          ++ (hi ++ be_bytes 4 (mem st) ++ be_bytes 4 (time st) ++ be_bytes 4 (para st))
          ++ pw_nonce x ++ pw_edk x ++ pw_tag x).
Proof. exact c44_k4_pw_language. Qed.
Print Assumptions C44_k4_pw_language.

Example C44_example : forall w : wtype,
  pw_wf V4 w (pw0 Mini V4 w) /\
  pw_parse V4 w (get_text (pw_display V4 w (pw0 Mini V4 w))) = Ok (pw0 Mini V4 w).
Proof. evaluate. Qed.

(** C44: for k3, parse and print are mutually inverse; for k4 print then parse is the
    identity. *)
Theorem C44_pw_text :
  forall (v : version) (w : wtype) (s : bytes) (x : PwWrapped v),
  (pw_wf v w x -> pw_display v w x = Ok s -> pw_parse v w s = Ok x) /\
  (pw_parse v w s = Ok x -> pw_wf v w x) /\
  (v = V3 -> pw_parse v w s = Ok x -> pw_display v w x = Ok s).
Proof. exact c44_pw_text. Qed.
Print Assumptions C44_pw_text.

Example C44_text_example : forall (v : version) (w : wtype),
  pw_wf v w (pw0 Mini v w) /\ is_ok (pw_display v w (pw0 Mini v w)) = true.
Proof. evaluate. Qed.

(** C45: two password-wrapped keys of one version with one tag, both accepted (under whatever
    passwords), agree on type, salt, settings, nonce and ciphertext, or the MAC collides on
    two explicit messages. *)
Theorem C45_pw_binding :
  forall (P : Prims) (v : version) (w1 w2 : wtype) (pw1 pw2 s1 s2 : bytes) (x1 x2 : PwWrapped v) k1 k2,
  Sizes P -> pw_parse v w1 s1 = Ok x1 -> pw_parse v w2 s2 = Ok x2 ->
  pw_unwrap P v w1 x1 pw1 = Ok k1 -> pw_unwrap P v w2 x2 pw2 = Ok k2 ->
  pw_tag x1 = pw_tag x2 ->
  (w1 = w2 /\ x1 = x2) \/
  (let params (x : PwWrapped v) :=
     let st := pw_settings x in
     pw_params_bytes v (st_mem v st) (st_time v st) (st_para v st) (st_iters v st) in
   let m1 := pw_h v w1 ++ pw_salt x1 ++ params x1 ++ pw_nonce x1 ++ pw_edk x1 in
   let m2 := pw_h v w2 ++ pw_salt x2 ++ params x2 ++ pw_nonce x2 ++ pw_edk x2 in
   m1 <> m2 /\ mac P v (pw_auth_key P v pw1 (pw_salt x1) (pw_settings x1)) m1
             = mac P v (pw_auth_key P v pw2 (pw_salt x2) (pw_settings x2)) m2).
Proof. exact c45_pw_binding. Qed.
Print Assumptions C45_pw_binding.

(** With the broken MAC of [Samples] the collision alternative occurs, even under another
    password. *)
Example C45_example : forall v : version,
  let x1 := pw0 Weak v WLocal in
  let x2 := {| pw_salt := pw_salt x1; pw_state := pw_state x1; pw_nonce := pw_nonce x1;
               pw_edk := key32; pw_tag := pw_tag x1 |} in
  pw_parse v WLocal (get_text (pw_display v WLocal x1)) = Ok x1 /\
  pw_parse v WLocal (get_text (pw_display v WLocal x2)) = Ok x2 /\
  is_ok (pw_unwrap Weak v WLocal x1 (str "password")) = true /\
  is_ok (pw_unwrap Weak v WLocal x2 (str "other")) = true /\ pw_edk x1 <> pw_edk x2.
Proof. evaluate. Qed.

(** C46: seal, print, parse, unseal returns the key, whenever the rejection sampling of the
    ephemeral P-384 scalar terminates (always for k4). *)
Theorem C46_seal_roundtrip :
  forall (P : Prims) (v : version) (fuel : nat) (pdk sk : bytes) (r r' : rng) (res : outcome Sealed),
  Laws P -> length pdk = 32 -> valid_key P v Secret sk = true ->
  seal P v fuel pdk (public_key P v sk) r = Some (res, r') ->
  exists x s, res = Ok x /\ seal_display v x = Ok s /\ seal_parse v s = Ok x /\
              unseal P v x sk = Ok pdk.
Proof. exact c46_seal_roundtrip. Qed.
Print Assumptions C46_seal_roundtrip.

Example C46_example : forall v : version,
  let x := seal0 Mini v in
  length other32 = 32 /\ valid_key Mini v Secret (sk0 v) = true /\
  option_map fst (seal Mini v 1 other32 (public_key Mini v (sk0 v)) rng0) = Some (Ok x) /\
  seal_parse v (get_text (seal_display v x)) = Ok x /\
  unseal Mini v x (sk0 v) = Ok other32 /\
  unseal Mini v x (sk1 v) = Err CryptoError.
Proof. evaluate. Qed.

(** C46: sealing terminates: always for k4, and for k3 as soon as one of the first [fuel]
    48-byte blocks is a valid scalar; more fuel never changes the result. *)
Theorem C46_seal_terminates :
  forall (P : Prims) (v : version) (fuel : nat) (pdk pk : bytes) (r : rng),
  (seal P v fuel pdk pk r <> None <->
   v = V4 \/ exists k, k < fuel /\ p_scalar_ok (draw r (48 * k) 48) = true) /\
  (forall fuel' res, fuel <= fuel' -> seal P v fuel pdk pk r = Some res -> seal P v fuel' pdk pk r = Some res).
Proof. exact c46_seal_terminates. Qed.
Print Assumptions C46_seal_terminates.

(** A generator whose first 48 bytes are not a scalar: one more draw is needed. *)
Example C46_terminates_example :
  let r := {| tape := fun i => if i <? 48 then xff else n2b (N.of_nat i); pos := 0 |} in
  seal Mini V3 1 other32 (public_key Mini V3 key48) r = None /\
  match seal Mini V3 2 other32 (public_key Mini V3 key48) r with
  | Some (x, r') => is_ok x && (pos r' =? 96) | None => false
  end = true.
Proof. evaluate. Qed.

(** C47: the printed text is the standard's t || epk || edk, for the ephemeral secret that was
    drawn. *)
Theorem C47_seal_is_spec :
  forall (P : Prims) (v : version) (fuel : nat) (pdk pk : bytes) (r r' : rng) (x : Sealed),
  Sizes P -> length pdk = 32 ->
  seal P v fuel pdk pk r = Some (Ok x, r') ->
  exists e, ephemeral v fuel r = Some (e, r') /\
  let xk := send_xk P v e pk in
  let epk := send_epk P v e in
  let hpk := hashed_pk P v pk in
  (seal_safe P v xk epk hpk ->
   seal_display v x = Ok (seal_h v ++ base64url (seal_body P v xk epk hpk pdk))).
Proof. exact c47_seal_is_spec. Qed.
Print Assumptions C47_seal_is_spec.

Example C47_example : forall v : version,
  let pk := public_key Mini v (sk0 v) in
  let e := match v with V3 => draw rng0 0 48 | V4 => draw rng0 0 32 end in
  option_map fst (ephemeral v 1 rng0) = Some e /\
  seal_safe Mini v (send_xk Mini v e pk) (send_epk Mini v e) (hashed_pk Mini v pk).
Proof. evaluate. Qed.

(** C47: unsealing is the standard's. *)
Theorem C47_unseal_is_spec :
  forall (P : Prims) (v : version) (s : bytes) (x : Sealed) (sk xk : bytes),
  Sizes P -> seal_parse v s = Ok x -> valid_key P v Secret sk = true ->
  recv_xk P v sk (sl_epk x) = Some xk ->
  let hpk := hashed_pk P v (public_key P v sk) in
  seal_safe P v xk (sl_epk x) hpk ->
  unseal P v x sk =
  match unseal_spec P v xk (sl_epk x) hpk (sl_tag x) (sl_edk x) with
  | Some key => Ok key
  | None => Err CryptoError
  end.
Proof. exact c47_unseal_is_spec. Qed.
Print Assumptions C47_unseal_is_spec.

Example C47_unseal_example : forall v : version,
  let x := seal0 Mini v in
  let hpk := hashed_pk Mini v (public_key Mini v (sk0 v)) in
  exists xk, recv_xk Mini v (sk0 v) (sl_epk x) = Some xk /\
  seal_parse v (get_text (seal_display v x)) = Ok x /\
  seal_safe Mini v xk (sl_epk x) hpk /\
  unseal_spec Mini v xk (sl_epk x) hpk (sl_tag x) (sl_edk x) = Some other32.
Proof. intros v. destruct v; cbv zeta; (eexists; split; [vm_compute; reflexivity|]); evaluate. Qed.

(** C48: exact panic condition: k3 with an ephemeral key that is not a point; never k4.  All
    keys obtained have 32 bytes and the only error is [CryptoError]. *)
Theorem C48_unseal_panic_iff :
  forall (P : Prims) (v : version) (s : bytes) (x : Sealed) (sk : bytes),
  Sizes P -> seal_parse v s = Ok x -> valid_key P v Secret sk = true ->
  (unseal P v x sk = Panic <-> v = V3 /\ p_parse P (sl_epk x) = None) /\
  (forall key, unseal P v x sk = Ok key -> length key = 32) /\
  (forall e, unseal P v x sk = Err e -> e = CryptoError).
Proof. exact c48_unseal_panic_iff. Qed.
Print Assumptions C48_unseal_panic_iff.

Example C48_example :
  let x := {| sl_tag := sl_tag (seal0 Mini V3); sl_epk := x09 :: key48; sl_edk := other32 |} in
  seal_parse V3 (get_text (seal_display V3 x)) = Ok x /\
  p_parse Mini (sl_epk x) = None /\ unseal Mini V3 x key48 = Panic /\
  unseal Mini V3 (seal0 Mini V3) key48 = Ok other32.
Proof. evaluate. Qed.

(** C48, ideal claim refuted for k3: a text that parses and panics when unsealed, for every
    secret key. *)
Theorem C48_unseal_no_panic_refuted :
  exists (s : bytes) (x : Sealed), seal_parse V3 s = Ok x /\
  forall (P : Prims) (sk : bytes), Sizes P -> valid_key P V3 Secret sk = true -> unseal P V3 x sk = Panic.
Proof. exact c48_unseal_no_panic_refuted. Qed.
Print Assumptions C48_unseal_no_panic_refuted.

(** C49: two sealed keys with one tag accepted under one secret key are identical, or the MAC
    collides on two explicit messages. *)
Theorem C49_seal_binding :
  forall (P : Prims) (v : version) (s1 s2 : bytes) (x1 x2 : Sealed) (sk k1 k2 xk1 xk2 : bytes),
  Sizes P -> seal_parse v s1 = Ok x1 -> seal_parse v s2 = Ok x2 -> valid_key P v Secret sk = true ->
  recv_xk P v sk (sl_epk x1) = Some xk1 -> recv_xk P v sk (sl_epk x2) = Some xk2 ->
  unseal P v x1 sk = Ok k1 -> unseal P v x2 sk = Ok k2 ->
  sl_tag x1 = sl_tag x2 ->
  (s1 = s2 /\ x1 = x2 /\ k1 = k2) \/
  (let hpk := hashed_pk P v (public_key P v sk) in
   let m1 := seal_h v ++ sl_epk x1 ++ sl_edk x1 in
   let m2 := seal_h v ++ sl_epk x2 ++ sl_edk x2 in
   m1 <> m2 /\ mac P v (seal_ak P v xk1 (sl_epk x1) hpk) m1 = mac P v (seal_ak P v xk2 (sl_epk x2) hpk) m2).
Proof. exact c49_seal_binding. Qed.
Print Assumptions C49_seal_binding.

Example C49_example : forall v : version,
  let x1 := seal0 Weak v in
  let x2 := {| sl_tag := sl_tag x1; sl_epk := sl_epk x1; sl_edk := key32 |} in
  seal_parse v (get_text (seal_display v x1)) = Ok x1 /\
  seal_parse v (get_text (seal_display v x2)) = Ok x2 /\
  valid_key Weak v Secret (sk0 v) = true /\
  unseal Weak v x1 (sk0 v) = Ok other32 /\ is_ok (unseal Weak v x2 (sk0 v)) = true /\ x1 <> x2.
Proof. evaluate. Qed.

(** C53, PASERKs: every value that was parsed, wrapped, sealed or derived prints to the length
    fixed by its kind. *)
Theorem C53_paserk_text_length :
  forall (P : Prims) (v : version) (k : ktype) (w : wtype) (s : bytes),
  Sizes P ->
  let size kind := length (kind_header kind) + (4 * body_size kind + 2) / 3 in
  (forall key, valid_key P v k key = true -> Plaintext.plaintext_display P v k key = Ok s -> length s = size (KPlain v k)) /\
  (forall id, length id = 33 -> KeyId.id_display v k id = Ok s -> length s = size (KId v k)) /\
  (forall x, pie_wf v w x -> pie_display v w x = Ok s -> length s = size (KPie v w)) /\
  (forall x, pw_wf v w x -> pw_display v w x = Ok s -> length s = size (KPw v w)) /\
  (forall x, seal_wf v x -> seal_display v x = Ok s -> length s = size (KSeal v)).
Proof. exact c53_paserk_text_length. Qed.
Print Assumptions C53_paserk_text_length.

Example C53_paserk_example :
  length (get_text (pie_display V4 WLocal (pie0 Mini V4 WLocal))) = 18 + 128 /\
  length (get_text (seal_display V3 (seal0 Mini V3))) = 8 + 172.
Proof. evaluate. Qed.

(** C53: parsing, wrapping and sealing only produce such values. *)
Theorem C53_values_well_sized :
  forall (P : Prims) (v : version) (w : wtype),
  Sizes P ->
  (forall s x, pie_parse v w s = Ok x -> pie_wf v w x) /\
  (forall s x, pw_parse v w s = Ok x -> pw_wf v w x) /\
  (forall s x, seal_parse v s = Ok x -> seal_wf v x) /\
  (forall key wk r x r', valid_key P v (wtype_key w) key = true ->
     wrap_pie P v w key wk r = (Ok x, r') -> pie_wf v w x) /\
  (forall key pw st r x r', valid_key P v (wtype_key w) key = true -> state_u32 v st = true ->
     pw_wrap P v w key pw st r = (Ok x, r') -> pw_wf v w x) /\
  (Laws P -> forall fuel pdk sk r x r', length pdk = 32 -> valid_key P v Secret sk = true ->
     seal P v fuel pdk (public_key P v sk) r = Some (Ok x, r') -> seal_wf v x).
Proof. exact c53_values_well_sized. Qed.
Print Assumptions C53_values_well_sized.

Example C53_values_example : forall (v : version) (w : wtype),
  let x := pie0 Mini v w in
  Laws Mini /\
  valid_key Mini v (wtype_key w) (wrapped_key v w) = true /\ state_u32 v (settings0 v) = true /\
  length other32 = 32 /\ valid_key Mini v Secret (sk0 v) = true /\
  wrap_pie Mini v w (wrapped_key v w) key32 rng0 = (Ok x, advance rng0 32) /\
  pie_parse v w (get_text (pie_display v w x)) = Ok x /\ pie_wf v w x /\
  pw_wf v w (pw0 Mini v w) /\ seal_wf v (seal0 Mini v).
Proof. evaluate. Qed.
