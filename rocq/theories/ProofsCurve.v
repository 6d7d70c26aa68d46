(** Proofs for C82: with the executable Ed25519, X25519 and P-384 the theorems that assume the laws
    of the curves hold without assumptions. *)
From Verif Require Import Bytes Outcome Base64 Prims Version Key Token Local Public KeyId Plaintext Wrap Pbkw Pke
  SpecBase64 SpecPaseto SpecPaserk SpecText SpecKey Observe CurveAsym Json Fuzz SpecJson.
From Verif Require Import BytesLemmas TokenLemmas CurveLemmas RealLaws ProofsText ProofsLocal
  ProofsPublic ProofsKey ProofsWrap ProofsFuzz ProofsMisc.

(** C82: the real primitives satisfy every law: public keys are accepted by their parsers,
    signatures verify, and both sides of a key exchange agree. *)
Lemma c82_real_laws : Laws Real.
Proof. exact real_laws. Qed.

(** C82: with the real signature algorithms, every token signed by this library, printed and
    parsed, verifies under the signer's public key. *)
Lemma c82_real_sign_verify :
  forall (M F E : Type) (v : version) (EN : Encoding E M) (FC : FooterCodec F)
         (t : ValidatedToken M F E) (sk implicit : bytes) (tok : SecuredToken F E),
  valid_key Real v Secret sk = true ->
  (forall m, e_encode EN (vt_encoding t) (vt_message t) = COk m ->
             e_decode EN (e_default EN) m = COk (vt_message t)) ->
  (forall f, f_encode FC (vt_footer t) = Some f -> f_decode FC f = COk (vt_footer t)) ->
  sign_with_assertions Real v EN FC t sk implicit = Ok tok ->
  exists tok',
    token_parse v PPublic (suffix EN) (e_default EN) FC (token_display v PPublic (suffix EN) tok) = Ok tok' /\
    unverified_footer tok' = vt_footer t /\
    verify_with_assertions Real v EN tok' (public_key Real v sk) implicit =
      Ok {| vt_encoding := e_default EN; vt_message := vt_message t; vt_footer := vt_footer t |}.
Proof. intros M F E v EN FC t sk i tok. exact (c22_public_roundtrip Real M F E v EN FC t sk i tok real_laws). Qed.

(** C82: a key sealed to the public key of [sk] is opened by [sk]. *)
Lemma c82_real_seal :
  forall (v : version) (fuel : nat) (pdk sk : bytes) (r r' : rng) (res : outcome Sealed),
  length pdk = 32 -> valid_key Real v Secret sk = true ->
  seal Real v fuel pdk (public_key Real v sk) r = Some (res, r') ->
  exists x s, res = Ok x /\ seal_display v x = Ok s /\ seal_parse v s = Ok x /\
              unseal Real v x sk = Ok pdk.
Proof. intros v fuel pdk sk r r' res. exact (c46_seal_roundtrip Real v fuel pdk sk r r' res real_laws). Qed.

(** C82: keys of all types and both versions are written and read back, as bytes and as PASERK
    text, and wrapped under a key or a password; public keys of secret keys are valid, and so
    is what the SEC1 and PEM constructors accept. *)
Lemma c82_real_keys :
  forall (v : version) (k : ktype) (key : bytes),
  valid_key Real v k key = true ->
  (length (to_bytes Real v k key) = key_size v k /\ key_from_bytes Real v k (to_bytes Real v k key) = Ok key) /\
  (exists s, plaintext_display Real v k key = Ok s /\ plaintext_parse Real v k s = Ok key) /\
  (k = Secret -> valid_key Real v Public (public_key Real v key) = true) /\
  (forall w wk r, wtype_key w = k ->
     exists x s, wrap_pie Real v w key wk r = (Ok x, advance r 32) /\ pie_display v w x = Ok s /\
                 pie_parse v w s = Ok x /\ unwrap_pie Real v w x wk = Ok key) /\
  (forall w pw st r, wtype_key w = k -> state_u32 v st = true -> kdf_accepts v pw st ->
     exists x s, pw_wrap Real v w key pw st r = (Ok x, advance r (pw_salt_size v + pw_nonce_size v)) /\
                 pw_display v w x = Ok s /\ pw_parse v w s = Ok x /\ pw_unwrap Real v w x pw = Ok key).
Proof.
  intros v k key H. pose proof real_laws as L.
  assert (LE : v = V4 -> k = Secret -> EdLaws Real) by (intros _ _; apply L).
  split; [exact (c29_key_bytes_roundtrip Real v k key L LE H)|].
  split; [destruct (c32_plaintext_roundtrip Real v k key L LE H) as (s & H1 & _ & H2); exists s; split; assumption|].
  split; [intros ->; pose proof (c29_constructors Real [] L) as G; cbv zeta in G; destruct G as (_ & _ & _ & _ & _ & _ & _ & _ & _ & _ & G); exact (G L v key H)|].
  split.
  - intros w wk r <-. apply (c37_pie_roundtrip Real v w key wk r L); [intros _ _; apply L|exact H].
  - intros w pw st r <- Hs Ha.
    destruct (c41_pw_roundtrip Real v w key pw st r L) as (x & s & H1 & H2 & H3 & _ & H4); [intros _ _; apply L|assumption..|].
    exists x, s. repeat split; assumption.
Qed.

(** C82: what the byte and SEC1 constructors accept as a v3 or v4 key is a valid key, so the other
    statements apply to it. *)
Lemma c82_real_accepted_keys :
  forall (v : version) (k : ktype) (b key : bytes),
  (length b = key_size v k -> key_from_bytes Real v k b = Ok key -> valid_key Real v k key = true) /\
  (plaintext_parse Real v k b = Ok key -> valid_key Real v k key = true) /\
  (v3_public_from_sec1 Real b = Ok key -> valid_key Real V3 Public key = true) /\
  (v3_public_from_pem Real b = Ok key -> valid_key Real V3 Public key = true).
Proof.
  intros v k b key. pose proof real_laws as L.
  assert (A : length b = key_size v k -> key_from_bytes Real v k b = Ok key -> valid_key Real v k key = true).
  { intros Lb. destruct (c29_key_bytes_exact Real v k b L Lb) as (_ & G & _). apply G. intros _. exact L. }
  pose proof (c29_constructors Real b L) as G. cbv zeta in G. destruct G as (_ & _ & G & _).
  destruct (G L) as [G1 G2].
  split; [exact A|]. split; [|split].
  - intros E. apply (c32_plaintext_language Real v k b key L) in E as (b' & _ & Lb & E).
    destruct (c29_key_bytes_exact Real v k b' L Lb) as (G3 & G4 & _). apply G4; [intros _; exact L|]. apply G3, E.
  - intros E. destruct G2 as [(key' & E' & V)|E']; congruence.
  - intros E. destruct G1 as [(key' & E' & V)|E']; congruence.
Qed.

(** C82: with the real primitives the wrapping and sealing fuzz targets never fail, nor does
    the v4 signing target. *)
Lemma c82_real_fuzz :
  forall (v : version) (w : wtype) (wk key sk eph : bytes) (x : FuzzInput),
  (valid_key Real v (wtype_key w) key = true -> 32 <= length eph -> fuzz_wrap Real v w wk key eph = Ok tt) /\
  (length key = 32 -> valid_key Real v Secret sk = true -> length eph = match v with V3 => 48 | V4 => 32 end ->
   fuzz_seal Real v key sk eph = Ok tt) /\
  (length (fz_key x) = 32 -> utf8_text (fz_data1 x) -> utf8_text (fz_data2 x) -> fuzz_public Real V4 x = Ok tt).
Proof.
  intros v w wk key sk eph x. pose proof real_laws as L. split; [|split].
  - apply (c64_fuzz_wrap_never_fails Real v w wk key eph L). intros _ _. apply L.
  - apply (c64_fuzz_seal_never_fails Real v key sk eph L).
  - intros Lk. apply (c64_fuzz_public_never_fails Real V4 x L); [|discriminate].
    cbn [valid_key]. apply Nat.eqb_eq, Lk.
Qed.
