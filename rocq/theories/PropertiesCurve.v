(** Theorems of the property list; statements only, proofs are in [ProofsCurve]. *)
From Verif Require Import Bytes Outcome Base64 Prims Version Key Token Local Public KeyId Plaintext Wrap Pbkw Pke
  SpecBase64 SpecPaseto SpecPaserk SpecText SpecKey Observe CurveAsym Json Fuzz SpecJson.
From Verif Require Import BytesLemmas TokenLemmas CurveLemmas RealLaws ProofsText ProofsLocal
  ProofsPublic ProofsKey ProofsWrap ProofsFuzz ProofsMisc.
From Verif Require Import ProofsCurve Samples.

(** C82: the real primitives satisfy every law: public keys are accepted by their parsers,
    signatures verify, and both sides of a key exchange agree. *)
Theorem C82_real_laws : Laws Real.
Proof. exact c82_real_laws. Qed.
Print Assumptions C82_real_laws.

(** C82: with the real signature algorithms, every token signed by this library, printed and
    parsed, verifies under the signer's public key. *)
Theorem C82_real_sign_verify :
  forall (M F E : Type) (v : version) (EN : Encoding E M) (FC : FooterCodec F)
         (t : ValidatedToken M F E) (sk implicit : bytes) (tok : SecuredToken F E),
  valid_key Real v Secret sk = true ->
  (forall m, e_encode EN (vt_encoding t) (vt_message t) = COk m ->
             e_decode EN (e_default EN) m = COk (vt_message t)) ->
  (forall f, f_encode FC (vt_footer t) = Some f -> f_decode FC f = COk (vt_footer t)) ->
  sign_with_assertions Real v EN FC t sk implicit = Ok tok ->
  exists tok',
    token_parse v PPublic (suffix EN) (e_default EN) FC (token_display v PPublic (suffix EN) tok) = Ok tok' /\
    unverified_footer tok' = vt_footer t /\
    verify_with_assertions Real v EN tok' (public_key Real v sk) implicit =
      Ok {| vt_encoding := e_default EN; vt_message := vt_message t; vt_footer := vt_footer t |}.
Proof. exact c82_real_sign_verify. Qed.
Print Assumptions C82_real_sign_verify.

Example C82_sign_example :
  valid_key Real V4 Secret (sk0 V4) = true /\
  e_decode num_encoding (e_default num_encoding) m0 = COk (vt_message tok0) /\
  f_decode (json_footer braces) f0 = COk (vt_footer tok0) /\
  exists tok, sign_with_assertions Real V4 num_encoding (json_footer braces) tok0 (sk0 V4) ia = Ok tok.
Proof. split; [reflexivity|]. split; [reflexivity|]. split; [reflexivity|]. eexists. reflexivity. Qed.
(** For v3, where signing may fail, this is run by the virtual machine (see [VectorCheck]). *)
Definition C82_v3_signs : bool := Eval vm_compute in
  valid_key Real V3 Secret (sk0 V3) &&
  is_ok (sign_with_assertions Real V3 num_encoding (json_footer braces) tok0 (sk0 V3) ia).
Example C82_v3_sign_example : C82_v3_signs = true.
Proof. reflexivity. Qed.

(** C82: a key sealed to the public key of [sk] is opened by [sk]. *)
Theorem C82_real_seal :
  forall (v : version) (fuel : nat) (pdk sk : bytes) (r r' : rng) (res : outcome Sealed),
  length pdk = 32 -> valid_key Real v Secret sk = true ->
  seal Real v fuel pdk (public_key Real v sk) r = Some (res, r') ->
  exists x s, res = Ok x /\ seal_display v x = Ok s /\ seal_parse v s = Ok x /\
              unseal Real v x sk = Ok pdk.
Proof. exact c82_real_seal. Qed.
Print Assumptions C82_real_seal.

Example C82_seal_example : forall v : version,
  length other32 = 32 /\ valid_key Real v Secret (sk0 v) = true /\
  exists res r', seal Real v 1 other32 (public_key Real v (sk0 v)) rng0 = Some (res, r').
Proof. intros v. destruct v; (split; [reflexivity|]; split; [reflexivity|]; do 2 eexists; reflexivity). Qed.

(** C82: keys of all types and both versions are written and read back, as bytes and as PASERK
    text, and wrapped under a key or a password; public keys of secret keys are valid, and so
    is what the SEC1 and PEM constructors accept. *)
Theorem C82_real_keys :
  forall (v : version) (k : ktype) (key : bytes),
  valid_key Real v k key = true ->
  (length (to_bytes Real v k key) = key_size v k /\ key_from_bytes Real v k (to_bytes Real v k key) = Ok key) /\
  (exists s, plaintext_display Real v k key = Ok s /\ plaintext_parse Real v k s = Ok key) /\
  (k = Secret -> valid_key Real v Public (public_key Real v key) = true) /\
  (forall w wk r, wtype_key w = k ->
     exists x s, wrap_pie Real v w key wk r = (Ok x, advance r 32) /\ pie_display v w x = Ok s /\
                 pie_parse v w s = Ok x /\ unwrap_pie Real v w x wk = Ok key) /\
  (forall w pw st r, wtype_key w = k -> state_u32 v st = true -> kdf_accepts v pw st ->
     exists x s, pw_wrap Real v w key pw st r = (Ok x, advance r (pw_salt_size v + pw_nonce_size v)) /\
                 pw_display v w x = Ok s /\ pw_parse v w s = Ok x /\ pw_unwrap Real v w x pw = Ok key).
Proof. exact c82_real_keys. Qed.
Print Assumptions C82_real_keys.

Example C82_keys_example : forall (v : version) (k : ktype),
  valid_key Real v k (match k with Local => key32 | Secret => sk0 v | Public => public_key Real v (sk0 v) end) = true /\
  state_u32 v (settings0 v) = true /\ kdf_accepts v (str "password") (settings0 v).
Proof.
  intros v k. split; [|destruct v; evaluate].
  assert (S : valid_key Real v Secret (sk0 v) = true) by (destruct v; reflexivity).
  destruct k; [destruct v; reflexivity| |exact S]. destruct (c82_real_keys v Secret (sk0 v) S) as (_ & _ & H & _).
  exact (H eq_refl).
Qed.

(** C82: what the byte and SEC1 constructors accept as a v3 or v4 key is a valid key, so the other
    statements apply to it. *)
Theorem C82_real_accepted_keys :
  forall (v : version) (k : ktype) (b key : bytes),
  (length b = key_size v k -> key_from_bytes Real v k b = Ok key -> valid_key Real v k key = true) /\
  (plaintext_parse Real v k b = Ok key -> valid_key Real v k key = true) /\
  (v3_public_from_sec1 Real b = Ok key -> valid_key Real V3 Public key = true) /\
  (v3_public_from_pem Real b = Ok key -> valid_key Real V3 Public key = true).
Proof. exact c82_real_accepted_keys. Qed.
Print Assumptions C82_real_accepted_keys.

Example C82_accepted_example : forall (v : version) (k : ktype), exists b key : bytes,
  length b = key_size v k /\ key_from_bytes Real v k b = Ok key.
Proof.
  intros v k. destruct (C82_keys_example v k) as [H _]. apply c82_real_keys in H as ((H1 & H2) & _).
  eexists _, _. split; [exact H1|exact H2].
Qed.

(** C82: with the real primitives the wrapping and sealing fuzz targets never fail, nor does
    the v4 signing target. *)
Theorem C82_real_fuzz :
  forall (v : version) (w : wtype) (wk key sk eph : bytes) (x : FuzzInput),
  (valid_key Real v (wtype_key w) key = true -> 32 <= length eph -> fuzz_wrap Real v w wk key eph = Ok tt) /\
  (length key = 32 -> valid_key Real v Secret sk = true -> length eph = match v with V3 => 48 | V4 => 32 end ->
   fuzz_seal Real v key sk eph = Ok tt) /\
  (length (fz_key x) = 32 -> utf8_text (fz_data1 x) -> utf8_text (fz_data2 x) -> fuzz_public Real V4 x = Ok tt).
Proof. exact c82_real_fuzz. Qed.
Print Assumptions C82_real_fuzz.

Example C82_fuzz_example : forall (v : version) (w : wtype),
  valid_key Real v (wtype_key w) (wrapped_key v w) = true /\ 32 <= length key48 /\
  length other32 = 32 /\ valid_key Real v Secret (sk0 v) = true /\
  length (match v with V3 => key48 | V4 => key32 end) = match v with V3 => 48 | V4 => 32 end.
Proof. evaluate. Qed.
