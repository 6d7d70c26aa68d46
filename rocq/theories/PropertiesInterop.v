(** Theorems of the property list; statements only, proofs are in [ProofsInterop]. *)
From Coq Require Import ZArith ZifyBool ZifyNat ZifyN.
From Verif Require Import Bytes Outcome Base64 Prims Version Key Token Local Public Wrap Pbkw Pke
  SpecBase64 SpecPaseto SpecPaserk SpecText SpecKey SpecDetail Observe.
From Verif Require Import ProofsInterop Samples.

(** C74: decryption yields a message exactly for the payloads that the standard's encryption
    produces, for some 32-byte nonce, from bytes that decode to the message. *)
Theorem C74_decrypt_accepts_iff_encrypted :
  forall (P : Prims) (M F E : Type) (v : version) (EN : Encoding E M)
         (t : SecuredToken F E) (key implicit : bytes) (x : ValidatedToken M F E),
  SymLaws P ->
  let b := st_payload t in
  let f := st_encoded_footer t in
  local_sizes v (suffix EN) (body_cipher v b) f implicit ->
  local_safe P v key (body_nonce b) (length (body_cipher v b)) ->
  (decrypt_with_assertions P v EN t key implicit = Ok x <->
   vt_encoding x = st_encoding t /\ vt_footer x = st_footer t /\
   exists n m, length n = 32 /\ b = local_encrypt P v (suffix EN) key n m f implicit /\
               e_decode EN (st_encoding t) m = COk (vt_message x)).
Proof. exact c74_decrypt_accepts_iff_encrypted. Qed.
Print Assumptions C74_decrypt_accepts_iff_encrypted.

Example C74_decrypt_example : forall v : version,
  let t := sealed_tok Mini v ia in
  let b := st_payload t in
  SymLaws Mini /\ local_sizes v (suffix num_encoding) (body_cipher v b) f0 ia /\
  local_safe Mini v key32 (body_nonce b) (length (body_cipher v b)) /\
  decrypt_with_assertions Mini v num_encoding t key32 ia = Ok tok0 /\
  b = local_encrypt Mini v (suffix num_encoding) key32 n0 m0 f0 ia /\
  e_decode num_encoding x07 m0 = COk 42%N.
Proof. evaluate. Qed.

(** C74: every text the standard composes for a local token is read and decrypted to the
    message and the footer it was made from. *)
Theorem C74_standard_local_text_opens :
  forall (P : Prims) (M F E : Type) (v : version) (EN : Encoding E M) (FC : FooterCodec F)
         (key n m f implicit : bytes) (msg : M) (foot : F),
  SymLaws P -> length n = 32 ->
  local_sizes v (suffix EN) m f implicit -> local_safe P v key n (length m) ->
  e_decode EN (e_default EN) m = COk msg -> f_decode FC f = COk foot ->
  exists t : SecuredToken F E,
    token_parse v PLocal (suffix EN) (e_default EN) FC
      (token_text (local_header v (suffix EN)) (local_encrypt P v (suffix EN) key n m f implicit) f) = Ok t /\
    unverified_footer t = foot /\
    decrypt_with_assertions P v EN t key implicit =
      Ok {| vt_encoding := e_default EN; vt_message := msg; vt_footer := foot |}.
Proof. exact c74_standard_local_text_opens. Qed.
Print Assumptions C74_standard_local_text_opens.

Example C74_local_text_example : forall v : version,
  length n0 = 32 /\ local_sizes v (suffix num_encoding) m0 f0 ia /\ local_safe Mini v key32 n0 (length m0) /\
  e_decode num_encoding (e_default num_encoding) m0 = COk 42%N /\
  f_decode (json_footer braces) f0 = COk (str "kid").
Proof. evaluate. Qed.

(** C74: verification yields a message exactly for the payloads that consist of bytes decoding
    to the message and a signature (for v3: two scalars) that the standard accepts. *)
Theorem C74_verify_accepts_iff_signed :
  forall (P : Prims) (M F E : Type) (v : version) (EN : Encoding E M)
         (t : SecuredToken F E) (pk implicit : bytes) (x : ValidatedToken M F E),
  valid_key P v Public pk = true ->
  let b := st_payload t in
  let f := st_encoded_footer t in
  public_sizes v (suffix EN) (body_message v b) f implicit ->
  (verify_with_assertions P v EN t pk implicit = Ok x <->
   vt_encoding x = st_encoding t /\ vt_footer x = st_footer t /\
   exists m sg, b = m ++ sg /\ length sg = sig_len v /\
     (v = V3 -> scalar384 (firstn 48 sg) /\ scalar384 (skipn 48 sg)) /\
     public_valid P v (suffix EN) pk m f implicit sg = true /\
     e_decode EN (st_encoding t) m = COk (vt_message x)).
Proof. exact c74_verify_accepts_iff_signed. Qed.
Print Assumptions C74_verify_accepts_iff_signed.

Example C74_verify_example : forall v : version,
  let t := signed_tok Mini v ia in
  let pk := public_key Mini v (sk0 v) in
  valid_key Mini v Public pk = true /\
  public_sizes v (suffix num_encoding) (body_message v (st_payload t)) f0 ia /\
  verify_with_assertions Mini v num_encoding t pk ia = Ok tok0 /\
  st_payload t = m0 ++ body_sig v (st_payload t) /\
  public_valid Mini v (str "x") pk m0 f0 ia (body_sig v (st_payload t)) = true.
Proof. evaluate. Qed.

(** C74: every text composed from bytes and a signature the standard accepts is read and
    verified. *)
Theorem C74_standard_public_text_opens :
  forall (P : Prims) (M F E : Type) (v : version) (EN : Encoding E M) (FC : FooterCodec F)
         (pk m f implicit sg : bytes) (msg : M) (foot : F),
  valid_key P v Public pk = true -> public_sizes v (suffix EN) m f implicit ->
  length sg = sig_len v -> (v = V3 -> scalar384 (firstn 48 sg) /\ scalar384 (skipn 48 sg)) ->
  public_valid P v (suffix EN) pk m f implicit sg = true ->
  e_decode EN (e_default EN) m = COk msg -> f_decode FC f = COk foot ->
  exists t : SecuredToken F E,
    token_parse v PPublic (suffix EN) (e_default EN) FC
      (token_text (public_header v (suffix EN)) (m ++ sg) f) = Ok t /\
    unverified_footer t = foot /\
    verify_with_assertions P v EN t pk implicit =
      Ok {| vt_encoding := e_default EN; vt_message := msg; vt_footer := foot |}.
Proof. exact c74_standard_public_text_opens. Qed.
Print Assumptions C74_standard_public_text_opens.

Example C74_public_text_example : forall v : version,
  let pk := public_key Mini v (sk0 v) in
  let sg := signature Mini v (str "x") m0 f0 ia in
  valid_key Mini v Public pk = true /\ public_sizes v (str "x") m0 f0 ia /\ length sg = sig_len v /\
  match v with V3 => p_sig_ok sg = true | V4 => True end /\
  public_valid Mini v (str "x") pk m0 f0 ia sg = true.
Proof. evaluate. Qed.

(** C74: a PIE text is unwrapped to a key exactly if it is the standard's wrapping, under some
    nonce, of an encoding of that key. *)
Theorem C74_pie_accepts_iff_wrapped :
  forall (P : Prims) (v : version) (w : wtype) (wk s key : bytes),
  Sizes P ->
  ((exists x, pie_parse v w s = Ok x /\ pie_safe P v w wk (pie_nonce x) /\ unwrap_pie P v w x wk = Ok key) <->
   (exists n kb, length n = 32 /\ pie_safe P v w wk n /\ encodes P v (wtype_key w) kb key /\
      s = pie_h v w ++ base64url (pie_wrap_body P v w wk n kb))).
Proof. exact c74_pie_accepts_iff_wrapped. Qed.
Print Assumptions C74_pie_accepts_iff_wrapped.

Example C74_pie_example : forall (v : version) (w : wtype),
  let kb := to_bytes Mini v (wtype_key w) (wrapped_key v w) in
  let s := pie_h v w ++ base64url (pie_wrap_body Mini v w key32 n0 kb) in
  pie_safe Mini v w key32 n0 /\ pie_parse v w s = Ok (pie0 Mini v w) /\
  unwrap_pie Mini v w (pie0 Mini v w) key32 = Ok (wrapped_key v w).
Proof. evaluate. Qed.

(** C74: a password-wrapped key is opened to a key exactly if its printed text is the
    standard's wrapping of an encoding of that key, under the settings it carries, and the key
    derivation accepts these.  (The printed text rather than the text read: see C44.) *)
Theorem C74_pw_accepts_iff_wrapped :
  forall (P : Prims) (v : version) (w : wtype) (x : PwWrapped v) (pw key : bytes),
  Sizes P -> pw_wf v w x -> pw_safe v w (pw_nonce x) ->
  let st := pw_settings x in
  (pw_unwrap P v w x pw = Ok key <->
   kdf_accepts v pw st /\
   exists kb, encodes P v (wtype_key w) kb key /\
     pw_display v w x =
       Ok (pw_h v w ++ base64url (pw_wrap_body P v w pw (pw_salt x) (pw_nonce x) kb
             (st_mem v st) (st_time v st) (st_para v st) (st_iters v st)))).
Proof. exact c74_pw_accepts_iff_wrapped. Qed.
Print Assumptions C74_pw_accepts_iff_wrapped.

Example C74_pw_example : forall (v : version) (w : wtype),
  let x := pw0 Mini v w in
  pw_wf v w x /\ pw_safe v w (pw_nonce x) /\ kdf_accepts v (str "password") (pw_settings x) /\
  pw_unwrap Mini v w x (str "password") = Ok (wrapped_key v w).
Proof. evaluate. Qed.

(** C74: every text of the password-wrapping standard with settings that the key derivation
    accepts is read, with these settings, and opened. *)
Theorem C74_standard_pw_text_opens :
  forall (P : Prims) (v : version) (w : wtype) (pw salt n kb key : bytes) (st : kdf_state v),
  Sizes P -> length salt = pw_salt_size v -> length n = pw_nonce_size v -> pw_safe v w n ->
  state_u32 v st = true -> kdf_accepts v pw st -> encodes P v (wtype_key w) kb key ->
  exists x, pw_parse v w (pw_h v w ++ base64url (pw_wrap_body P v w pw salt n kb
                (st_mem v st) (st_time v st) (st_para v st) (st_iters v st))) = Ok x /\
            pw_settings x = st /\ pw_unwrap P v w x pw = Ok key.
Proof. exact c74_standard_pw_text_opens. Qed.
Print Assumptions C74_standard_pw_text_opens.

Example C74_pw_text_example : forall (v : version) (w : wtype),
  let salt := repeat x05 (pw_salt_size v) in
  let n := repeat x06 (pw_nonce_size v) in
  let st := settings0 v in
  let kb := to_bytes Mini v (wtype_key w) (wrapped_key v w) in
  pw_safe v w n /\ state_u32 v st = true /\ kdf_accepts v (str "password") st /\
  is_ok (pw_parse v w (pw_h v w ++ base64url (pw_wrap_body Mini v w (str "password") salt n kb
     (st_mem v st) (st_time v st) (st_para v st) (st_iters v st)))) = true.
Proof. evaluate. Qed.

(** C74: a sealed text is opened to a key exactly if it is the standard's sealing of these 32
    bytes for some ephemeral key from which the receiver can derive a shared secret. *)
Theorem C74_unseal_accepts_iff_sealed :
  forall (P : Prims) (v : version) (s sk pdk : bytes),
  Sizes P -> valid_key P v Secret sk = true ->
  let hpk := hashed_pk P v (public_key P v sk) in
  ((exists x xk, seal_parse v s = Ok x /\ recv_xk P v sk (sl_epk x) = Some xk /\
                 seal_safe P v xk (sl_epk x) hpk /\ unseal P v x sk = Ok pdk) <->
   (exists epk xk, length epk = epk_size v /\ recv_xk P v sk epk = Some xk /\ seal_safe P v xk epk hpk /\
      length pdk = 32 /\ s = seal_h v ++ base64url (seal_body P v xk epk hpk pdk))).
Proof. exact c74_unseal_accepts_iff_sealed. Qed.
Print Assumptions C74_unseal_accepts_iff_sealed.

Example C74_seal_example : forall v : version,
  let x := seal0 Mini v in
  let xk := match recv_xk Mini v (sk0 v) (sl_epk x) with Some k => k | None => [] end in
  let hpk := hashed_pk Mini v (public_key Mini v (sk0 v)) in
  valid_key Mini v Secret (sk0 v) = true /\
  recv_xk Mini v (sk0 v) (sl_epk x) = Some xk /\ seal_safe Mini v xk (sl_epk x) hpk /\
  unseal Mini v x (sk0 v) = Ok other32 /\
  seal_parse v (seal_h v ++ base64url (seal_body Mini v xk (sl_epk x) hpk other32)) = Ok x.
Proof. evaluate. Qed.

(** C75: a local token fits every message of the same length: for each there is a cipher (all
    other primitives unchanged) under which encrypting that message gives the same token. *)
Theorem C75_token_fits_any_message :
  forall (P : Prims) (M F E : Type) (v : version) (EN : Encoding E M) (FC : FooterCodec F)
         (t t' : ValidatedToken M F E) (key implicit m m' : bytes) (r r' : rng) (tok : SecuredToken F E),
  SymLaws P ->
  e_encode EN (vt_encoding t) (vt_message t) = COk m ->
  e_encode EN (vt_encoding t') (vt_message t') = COk m' ->
  vt_encoding t' = vt_encoding t -> vt_footer t' = vt_footer t ->
  length m' = length m -> rust_slice m' ->
  encrypt_with_rng P v EN FC t key implicit r = (Ok tok, r') ->
  exists aes xchacha, let Q := recipher P aes xchacha in
    SymLaws Q /\ encrypt_with_rng Q v EN FC t' key implicit r = (Ok tok, r').
Proof. exact c75_token_fits_any_message. Qed.
Print Assumptions C75_token_fits_any_message.

(** 42 and 43 have encodings of the same length and different tokens under one cipher. *)
Example C75_token_example : forall v : version,
  let t' := {| vt_encoding := x07; vt_message := 43%N; vt_footer := str "kid" |} in
  let enc t := fst (encrypt_with_rng Mini v num_encoding (json_footer braces) t key32 ia rng0) in
  e_encode num_encoding x07 42%N = COk [x07; x2a] /\ e_encode num_encoding x07 43%N = COk [x07; x2b] /\
  enc tok0 = Ok (sealed_tok Mini v ia) /\ is_ok (enc t') = true /\ enc t' <> enc tok0.
Proof. evaluate. Qed.

(** C75: a PIE-wrapped key fits every key of its type. *)
Theorem C75_pie_fits_any_key :
  forall (P : Prims) (v : version) (w : wtype) (key key' wk : bytes) (r r' : rng) (x : PieWrapped),
  Sizes P -> valid_key P v (wtype_key w) key = true -> valid_key P v (wtype_key w) key' = true ->
  wrap_pie P v w key wk r = (Ok x, r') ->
  exists aes xchacha, let Q := recipher P aes xchacha in
    SymLaws Q /\ wrap_pie Q v w key' wk r = (Ok x, r').
Proof. exact c75_pie_fits_any_key. Qed.
Print Assumptions C75_pie_fits_any_key.

Example C75_pie_example : forall (v : version) (w : wtype),
  let k' := match w with WLocal => key32 | WSecret => sk0 v end in
  valid_key Mini v (wtype_key w) (wrapped_key v w) = true /\ valid_key Mini v (wtype_key w) k' = true /\
  fst (wrap_pie Mini v w (wrapped_key v w) key32 rng0) = Ok (pie0 Mini v w) /\
  fst (wrap_pie Mini v w k' key32 rng0) <> Ok (pie0 Mini v w).
Proof. evaluate. Qed.

(** C75: a password-wrapped key fits every key of its type. *)
Theorem C75_pw_fits_any_key :
  forall (P : Prims) (v : version) (w : wtype) (key key' pw : bytes) (st : kdf_state v) (r r' : rng) (x : PwWrapped v),
  Sizes P -> valid_key P v (wtype_key w) key = true -> valid_key P v (wtype_key w) key' = true ->
  pw_wrap P v w key pw st r = (Ok x, r') ->
  exists aes xchacha, let Q := recipher P aes xchacha in
    SymLaws Q /\ pw_wrap Q v w key' pw st r = (Ok x, r').
Proof. exact c75_pw_fits_any_key. Qed.
Print Assumptions C75_pw_fits_any_key.

Example C75_pw_example : forall (v : version) (w : wtype),
  let k' := match w with WLocal => key32 | WSecret => sk0 v end in
  fst (pw_wrap Mini v w (wrapped_key v w) (str "password") (settings0 v) rng0) = Ok (pw0 Mini v w) /\
  fst (pw_wrap Mini v w k' (str "password") (settings0 v) rng0) <> Ok (pw0 Mini v w).
Proof. evaluate. Qed.

(** C75: a sealed key fits every 32-byte key. *)
Theorem C75_seal_fits_any_key :
  forall (P : Prims) (v : version) (fuel : nat) (pdk pdk' pk : bytes) (r r' : rng) (x : Sealed),
  SymLaws P -> length pdk = 32 -> length pdk' = 32 ->
  seal P v fuel pdk pk r = Some (Ok x, r') ->
  exists aes xchacha, let Q := recipher P aes xchacha in
    SymLaws Q /\ seal Q v fuel pdk' pk r = Some (Ok x, r').
Proof. exact c75_seal_fits_any_key. Qed.
Print Assumptions C75_seal_fits_any_key.

Example C75_seal_example : forall v : version,
  let pk := public_key Mini v (sk0 v) in
  match seal Mini v 1 other32 pk rng0, seal Mini v 1 key32 pk rng0 with
  | Some (Ok x, _), Some (Ok x', _) => x = seal0 Mini v /\ x' <> x
  | _, _ => False
  end.
Proof.
  intros v. destruct v; vm_compute; (split; [reflexivity|discriminate]).
Qed.
