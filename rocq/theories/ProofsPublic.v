(** Proofs for public tokens. *)
From Coq Require Import ZArith ZifyBool ZifyNat ZifyN.
From Verif Require Import Bytes Outcome Base64 Pae Prims Version Key Token Local Public
  SpecBase64 SpecPaseto SpecPaserk SpecText Observe.
From Verif Require Import BytesLemmas Base64Lemmas PaeLemmas TextLemmas TokenLemmas CipherLemmas ProofsText ProofsLocal.
Ltac Zify.zify_post_hook ::= Z.div_mod_to_equations.

Lemma sig_size_eq v : sig_size v = sig_len v.
Proof. destruct v; reflexivity. Qed.

Definition public_pieces (v : version) (pk sfx m f i : bytes) : list bytes :=
  match v with
  | V3 => [pk; public_header V3 sfx; m; f; i]
  | V4 => [public_header V4 sfx; m; f; i]
  end.
Definition preauth (v : version) (pk sfx m f i : bytes) : bytes :=
  match v with V3 => preauth_v3 pk sfx m f i | V4 => preauth_v4 sfx m f i end.

Lemma preauth_flat v pk sfx m f i : preauth v pk sfx m f i = flat_pae (public_pieces v pk sfx m f i).
Proof.
  destruct v; cbn [preauth public_pieces]; unfold preauth_v3, preauth_v4; rewrite pae_flat;
    cbn [map concat]; rewrite !app_nil_r; reflexivity.
Qed.

Lemma public_pieces_slices v pk sfx m f i :
  (v = V3 -> rust_slice pk) -> public_sizes v sfx m f i -> Forall rust_slice (public_pieces v pk sfx m f i).
Proof.
  intros Hk (H1 & H2 & H3 & H4).
  destruct v; repeat (apply Forall_cons; [first [assumption|apply Hk; reflexivity]|]); apply Forall_nil.
Qed.

Lemma preauth_spec v pk sfx m f i :
  (v = V3 -> rust_slice pk) -> public_sizes v sfx m f i ->
  preauth v pk sfx m f i = public_m2 v sfx pk m f i.
Proof.
  intros Hk Hs. rewrite preauth_flat. pose proof (public_pieces_slices v pk sfx m f i Hk Hs) as F.
  destruct v; cbn [public_pieces public_m2] in *; symmetry; (apply PAE_flat; [reflexivity|exact F]).
Qed.

Lemma valid_v3_pk (P : Prims) pk : valid_key P V3 Public pk = true ->
  length pk = 49 /\ p_parse P pk = Some pk.
Proof.
  cbn [valid_key]. intros H. apply andb_prop in H as [H1 H2]. apply Nat.eqb_eq in H1. split; [exact H1|].
  destruct (p_parse P pk) as [k|]; [|discriminate]. apply bseqb_eq in H2. congruence.
Qed.
Lemma valid_pk_slice (P : Prims) v pk : valid_key P v Public pk = true -> v = V3 -> rust_slice pk.
Proof.
  intros H ->. apply valid_v3_pk in H as [H _]. unfold rust_slice, nlen. rewrite H. reflexivity.
Qed.

Lemma public_key_slice (P : Prims) v sk : P384Sizes P -> valid_key P v Secret sk = true -> v = V3 ->
  rust_slice (public_key P v sk).
Proof.
  intros L H ->. cbn [valid_key public_key] in *. pose proof (p_pub_max _ L sk H) as Hm.
  unfold rust_slice, nlen. revert Hm. generalize (length (p_pub P sk)). intros n Hn.
  apply (N.le_lt_trans _ 49); [lia|reflexivity].
Qed.

Lemma public_key_valid (P : Prims) v sk : Laws P -> valid_key P v Secret sk = true ->
  valid_key P v Public (public_key P v sk) = true.
Proof.
  intros L H. destruct v; cbn [valid_key public_key] in *.
  - rewrite (p_pub_len _ L) by exact H. rewrite (p_pub_parse _ L) by exact H. rewrite bseqb_refl. reflexivity.
  - apply Nat.eqb_eq in H. rewrite (ed_pub_len _ L), (ed_pub_ok _ L) by exact H. reflexivity.
Qed.

(** verification of a payload in two parts *)
Lemma verify_parts {M F E} (P : Prims) v (EN : Encoding E M) (t : SecuredToken F E) pk i m sg :
  st_payload t = m ++ sg -> length sg = sig_len v ->
  verify_with_assertions P v EN t pk i =
  if match v with V3 => negb (p_sig_ok sg) | V4 => false end then Panic else
  if valid_sig P v pk (preauth v pk (suffix EN) m (st_encoded_footer t) i) sg then
    let? message := payload_err (e_decode EN (st_encoding t) m) in
    Ok {| vt_encoding := st_encoding t; vt_message := message; vt_footer := st_footer t |}
  else Err CryptoError.
Proof.
  intros Hp Ls. unfold verify_with_assertions. rewrite Hp, sig_size_eq.
  rewrite usize_sub_ok by (rewrite app_length; lia). cbn [obind].
  replace (length (m ++ sg) - sig_len v) with (length m) by (rewrite app_length; lia).
  rewrite split_at_app by reflexivity. cbn [obind].
  destruct v; cbn [verify_raw valid_sig preauth]; [|reflexivity].
  destruct (p_sig_ok sg); reflexivity.
Qed.

Lemma pub_body_parts v b : sig_len v <= length b ->
  b = body_message v b ++ body_sig v b /\ length (body_sig v b) = sig_len v.
Proof.
  intros L. unfold body_message, body_sig. rewrite firstn_skipn, skipn_length. split; [reflexivity|lia].
Qed.

Lemma verify_body {M F E} (P : Prims) v (EN : Encoding E M) (t : SecuredToken F E) pk i :
  let m := body_message v (st_payload t) in
  let sg := body_sig v (st_payload t) in
  sig_len v <= length (st_payload t) ->
  verify_with_assertions P v EN t pk i =
  if match v with V3 => negb (p_sig_ok sg) | V4 => false end then Panic else
  if valid_sig P v pk (preauth v pk (suffix EN) m (st_encoded_footer t) i) sg then
    let? message := payload_err (e_decode EN (st_encoding t) m) in
    Ok {| vt_encoding := st_encoding t; vt_message := message; vt_footer := st_footer t |}
  else Err CryptoError.
Proof.
  intros m sg L. destruct (pub_body_parts v _ L) as [Eb Ls]. apply verify_parts; assumption.
Qed.

Lemma verify_short {M F E} (P : Prims) v (EN : Encoding E M) (t : SecuredToken F E) pk i :
  length (st_payload t) < sig_len v -> verify_with_assertions P v EN t pk i = Panic.
Proof.
  intros L. unfold verify_with_assertions. rewrite sig_size_eq, usize_sub_panic by exact L. reflexivity.
Qed.

Lemma sign_raw_eq (P : Prims) v sk h m f i :
  sign_raw P v sk h m f i =
  match v with
  | V3 => unwrap (p_sign P sk (sha384 P (preauth V3 (p_pub P sk) h m f i)))
  | V4 => Ok (ed_sign P sk (preauth V4 (ed_pub P sk) h m f i))
  end.
Proof. destruct v; reflexivity. Qed.

Lemma sign_raw_len (P : Prims) v sk h m f i sg :
  Sizes P -> valid_key P v Secret sk = true -> sign_raw P v sk h m f i = Ok sg -> length sg = sig_len v.
Proof.
  intros L Hk H. rewrite sign_raw_eq in H. destruct v; cbn [valid_key sig_len] in *.
  - destruct (p_sign P sk _) as [sg'|] eqn:S; [|discriminate]. injection H as ->.
    apply (p_sign_ok _ L _ _ _ Hk S).
  - injection H as <-. apply Nat.eqb_eq in Hk. apply (ed_sign_len _ L), Hk.
Qed.

Lemma sign_raw_ok (P : Prims) v sk h m f i sg :
  Laws P -> valid_key P v Secret sk = true -> sign_raw P v sk h m f i = Ok sg ->
  length sg = sig_len v /\
  match v with V3 => negb (p_sig_ok sg) | V4 => false end = false /\
  valid_sig P v (public_key P v sk) (preauth v (public_key P v sk) h m f i) sg = true.
Proof.
  intros L Hk H. rewrite sign_raw_eq in H. destruct v; cbn [valid_key public_key valid_sig sig_len] in *.
  - destruct (p_sign P sk _) as [sg'|] eqn:S; [|discriminate]. injection H as ->.
    destruct (p_sign_ok _ L _ _ _ Hk S) as [H1 H2]. rewrite H2. split; [exact H1|]. split; [reflexivity|].
    exact (p_correct _ L _ _ _ Hk S).
  - injection H as <-. apply Nat.eqb_eq in Hk. split; [apply (ed_sign_len _ L), Hk|]. split; [reflexivity|].
    apply (ed_correct _ L), Hk.
Qed.

(** C22: sign, print, parse, verify returns message and footer. *)
Lemma c22_public_roundtrip :
  forall (P : Prims) (M F E : Type) (v : version) (EN : Encoding E M) (FC : FooterCodec F)
         (t : ValidatedToken M F E) (sk implicit : bytes) (tok : SecuredToken F E),
  Laws P -> valid_key P v Secret sk = true ->
  (forall m, e_encode EN (vt_encoding t) (vt_message t) = COk m ->
             e_decode EN (e_default EN) m = COk (vt_message t)) ->
  (forall f, f_encode FC (vt_footer t) = Some f -> f_decode FC f = COk (vt_footer t)) ->
  sign_with_assertions P v EN FC t sk implicit = Ok tok ->
  exists tok',
    token_parse v PPublic (suffix EN) (e_default EN) FC (token_display v PPublic (suffix EN) tok) = Ok tok' /\
    unverified_footer tok' = vt_footer t /\
    verify_with_assertions P v EN tok' (public_key P v sk) implicit =
      Ok {| vt_encoding := e_default EN; vt_message := vt_message t; vt_footer := vt_footer t |}.
Proof.
  intros P M F E v EN FC t sk i tok L Hk Hd Hfd H. unfold sign_with_assertions in H.
  destruct (e_encode EN (vt_encoding t) (vt_message t)) as [m|] eqn:He; cbn [payload_err obind] in H; [|discriminate].
  destruct (f_encode FC (vt_footer t)) as [f|] eqn:Hf; cbn [unwrap obind] in H; [|discriminate].
  destruct (sign_raw P v sk (suffix EN) m f i) as [sg| |] eqn:Hs; cbn [obind] in H; try discriminate.
  injection H as <-. destruct (sign_raw_ok P v sk _ _ _ _ _ L Hk Hs) as (Ls & Hw & Hv).
  specialize (Hd m eq_refl). specialize (Hfd f eq_refl).
  rewrite (c07_token_text_roundtrip F E v PPublic (suffix EN) (e_default EN) FC _ (vt_footer t)) by exact Hfd.
  eexists. split; [reflexivity|]. split; [reflexivity|].
  rewrite (verify_parts P v EN _ _ i m sg); [|reflexivity|exact Ls].
  rewrite Hw. cbn [st_encoded_footer st_encoding st_footer]. rewrite Hv, Hd. reflexivity.
Qed.

(** C22: v4 signing always succeeds when message and footer can be encoded; v3 as well
    unless the ECDSA implementation yields a zero r or s; errors come only from the
    message encoder. *)
Lemma c22_sign_outcome :
  forall (P : Prims) (M F E : Type) (v : version) (EN : Encoding E M) (FC : FooterCodec F)
         (t : ValidatedToken M F E) (sk implicit : bytes),
  let res := sign_with_assertions P v EN FC t sk implicit in
  (forall e, res = Err e <->
     exists msg, e = PayloadError msg /\ e_encode EN (vt_encoding t) (vt_message t) = CErr msg) /\
  (res = Panic <->
     exists m, e_encode EN (vt_encoding t) (vt_message t) = COk m /\
       (f_encode FC (vt_footer t) = None \/
        exists f, f_encode FC (vt_footer t) = Some f /\ v = V3 /\
          p_sign P sk (sha384 P (preauth_v3 (p_pub P sk) (suffix EN) m f implicit)) = None)).
Proof.
  intros P M F E v EN FC t sk i res. unfold res, sign_with_assertions.
  destruct (e_encode EN (vt_encoding t) (vt_message t)) as [m|msg]; cbn [payload_err obind].
  - destruct (f_encode FC (vt_footer t)) as [f|]; cbn [unwrap obind].
    + destruct v; cbn [sign_raw unwrap obind].
      * destruct (p_sign P sk _) as [sg|] eqn:S; cbn [unwrap obind]; split.
        -- intros e. split; [discriminate|]. intros (x & _ & H). discriminate.
        -- split; [discriminate|]. intros (m' & Hm & [H|(f' & Hf & _ & H)]); [discriminate|].
           injection Hm as <-. injection Hf as <-. congruence.
        -- intros e. split; [discriminate|]. intros (x & _ & H). discriminate.
        -- split; [|reflexivity]. intros _. exists m. split; [reflexivity|]. right. exists f. auto.
      * split.
        -- intros e. split; [discriminate|]. intros (x & _ & H). discriminate.
        -- split; [discriminate|]. intros (m' & Hm & [H|(f' & Hf & HV & _)]); discriminate.
    + split.
      * intros e. split; [discriminate|]. intros (x & _ & H). discriminate.
      * split; [|reflexivity]. intros _. exists m. auto.
  - split.
    + intros e. split.
      * intros H. injection H as <-. eauto.
      * intros (x & -> & H). injection H as ->. reflexivity.
    + split; [discriminate|]. intros (m & H & _). discriminate.
Qed.

(** C23: the payload is message || signature over the standard's m2. *)
Lemma c23_sign_is_spec :
  forall (P : Prims) (M F E : Type) (v : version) (EN : Encoding E M) (FC : FooterCodec F)
         (t : ValidatedToken M F E) (sk implicit m f : bytes),
  Sizes P -> valid_key P v Secret sk = true ->
  e_encode EN (vt_encoding t) (vt_message t) = COk m ->
  f_encode FC (vt_footer t) = Some f ->
  public_sizes v (suffix EN) m f implicit ->
  let m2 := public_m2 v (suffix EN) (public_key P v sk) m f implicit in
  sign_with_assertions P v EN FC t sk implicit =
  match (match v with V3 => p_sign P sk (sha384 P m2) | V4 => Some (ed_sign P sk m2) end) with
  | Some sg => Ok {| st_encoding := vt_encoding t; st_payload := m ++ sg;
                     st_encoded_footer := f; st_footer := vt_footer t |}
  | None => Panic
  end.
Proof.
  intros P M F E v EN FC t sk i m f L Hk He Hf Hs m2. unfold sign_with_assertions. rewrite He, Hf.
  cbn [payload_err unwrap obind]. rewrite sign_raw_eq.
  assert (Hm2 : preauth v (public_key P v sk) (suffix EN) m f i = m2)
    by (apply preauth_spec; [apply (public_key_slice P v sk L Hk)|exact Hs]).
  destruct v; cbn [public_key] in *; rewrite Hm2.
  - destruct (p_sign P sk (sha384 P m2)); reflexivity.
  - reflexivity.
Qed.

(** C24: on a payload holding a (for v3: well-formed) signature, verification is the
    standard's signature check followed by the decoder. *)
Lemma c24_verify_is_spec :
  forall (P : Prims) (M F E : Type) (v : version) (EN : Encoding E M)
         (t : SecuredToken F E) (pk implicit : bytes),
  valid_key P v Public pk = true ->
  let b := st_payload t in
  let m := body_message v b in
  let sg := body_sig v b in
  sig_len v <= length b ->
  (v = V3 -> p_sig_ok sg = true) ->
  public_sizes v (suffix EN) m (st_encoded_footer t) implicit ->
  verify_with_assertions P v EN t pk implicit =
  if public_valid P v (suffix EN) pk m (st_encoded_footer t) implicit sg then
    match e_decode EN (st_encoding t) m with
    | COk msg => Ok {| vt_encoding := st_encoding t; vt_message := msg; vt_footer := st_footer t |}
    | CErr e => Err (PayloadError e)
    end
  else Err CryptoError.
Proof.
  intros P M F E v EN t pk i Hk b m sg Lb Hsg Hs. rewrite verify_body by exact Lb. fold b m sg.
  rewrite preauth_spec by (first [apply (valid_pk_slice P v _ Hk)|exact Hs]).
  replace (match v with V3 => negb (p_sig_ok sg) | V4 => false end) with false
    by (destruct v; [rewrite Hsg by reflexivity|]; reflexivity).
  replace (public_valid P v (suffix EN) pk m (st_encoded_footer t) i sg)
    with (valid_sig P v pk (public_m2 v (suffix EN) pk m (st_encoded_footer t) i) sg)
    by (destruct v; reflexivity).
  destruct (valid_sig P v pk _ sg); [|reflexivity].
  destruct (e_decode EN (st_encoding t) m); reflexivity.
Qed.

(** C17 for signatures: an invalid signature never yields anything that depends on the
    message decoder: the result is [CryptoError], or the v3 panic of C26. *)
Lemma c17_no_decoding_before_verification :
  forall (P : Prims) (M F E : Type) (v : version) (EN : Encoding E M)
         (t : SecuredToken F E) (pk implicit : bytes),
  valid_key P v Public pk = true ->
  let b := st_payload t in
  let m := body_message v b in
  let sg := body_sig v b in
  sig_len v <= length b ->
  public_sizes v (suffix EN) m (st_encoded_footer t) implicit ->
  public_valid P v (suffix EN) pk m (st_encoded_footer t) implicit sg = false ->
  verify_with_assertions P v EN t pk implicit =
  match v with V3 => if p_sig_ok sg then Err CryptoError else Panic | V4 => Err CryptoError end.
Proof.
  intros P M F E v EN t pk i Hk b m sg Lb Hs Hbad. rewrite verify_body by exact Lb. fold b m sg.
  rewrite preauth_spec by (first [apply (valid_pk_slice P v _ Hk)|exact Hs]).
  replace (valid_sig P v pk (public_m2 v (suffix EN) pk m (st_encoded_footer t) i) sg) with false
    by (rewrite <- Hbad; destruct v; reflexivity).
  destruct v; [destruct (p_sig_ok sg)|]; reflexivity.
Qed.

Lemma public_pieces_inj v pk1 pk2 sfx1 sfx2 m1 m2 f1 f2 i1 i2 :
  public_pieces v pk1 sfx1 m1 f1 i1 = public_pieces v pk2 sfx2 m2 f2 i2 ->
  sfx1 = sfx2 /\ m1 = m2 /\ f1 = f2 /\ i1 = i2 /\ (v = V3 -> pk1 = pk2).
Proof.
  intros H. destruct v; cbn [public_pieces] in H.
  - injection H as H0 H1 H2 H3 H4.
    apply app_inv_tail in H1. auto.
  - injection H as H1 H2 H3 H4.
    apply app_inv_tail in H1.
    repeat split; auto. discriminate.
Qed.

Lemma public_pieces_fits v pk sfx m f i :
  (v = V3 -> rust_slice pk) -> public_sizes v sfx m f i -> fits (public_pieces v pk sfx m f i).
Proof.
  intros Hk Hs. apply fits_slices; [destruct v; reflexivity|]. apply public_pieces_slices; assumption.
Qed.

(** C25: the signed bytes determine message, footer, assertion, encoding and, in v3, the
    public key. *)
Lemma c25_signed_bytes_injective :
  forall (v : version) (pk1 pk2 sfx1 sfx2 m1 m2 f1 f2 i1 i2 : bytes),
  (v = V3 -> rust_slice pk1 /\ rust_slice pk2) ->
  public_sizes v sfx1 m1 f1 i1 -> public_sizes v sfx2 m2 f2 i2 ->
  public_m2 v sfx1 pk1 m1 f1 i1 = public_m2 v sfx2 pk2 m2 f2 i2 ->
  sfx1 = sfx2 /\ m1 = m2 /\ f1 = f2 /\ i1 = i2 /\ (v = V3 -> pk1 = pk2).
Proof.
  intros v pk1 pk2 sfx1 sfx2 m1 m2 f1 f2 i1 i2 Hk S1 S2 H.
  assert (Hk1 : v = V3 -> rust_slice pk1) by (intros E; apply (Hk E)).
  assert (Hk2 : v = V3 -> rust_slice pk2) by (intros E; apply (Hk E)).
  rewrite <- !preauth_spec, !preauth_flat in H by assumption.
  apply flat_pae_inj in H; [|apply public_pieces_fits; assumption..].
  apply public_pieces_inj in H. exact H.
Qed.

Lemma verify_ok_inv {M F E} (P : Prims) v (EN : Encoding E M) (t : SecuredToken F E) pk i x :
  verify_with_assertions P v EN t pk i = Ok x ->
  let b := st_payload t in
  sig_len v <= length b /\
  valid_sig P v pk (preauth v pk (suffix EN) (body_message v b) (st_encoded_footer t) i) (body_sig v b) = true /\
  e_decode EN (st_encoding t) (body_message v b) = COk (vt_message x) /\
  x = {| vt_encoding := st_encoding t; vt_message := vt_message x; vt_footer := st_footer t |}.
Proof.
  intros H b. destruct (Nat.lt_ge_cases (length b) (sig_len v)) as [Lb|Lb].
  - rewrite verify_short in H by exact Lb. discriminate.
  - split; [exact Lb|]. rewrite verify_body in H by exact Lb. fold b in H.
    destruct (match v with V3 => _ | V4 => _ end); [discriminate|].
    destruct (valid_sig P v pk _ _); [|discriminate]. split; [reflexivity|].
    destruct (e_decode EN (st_encoding t) _) as [msg|]; [|discriminate]. injection H as <-. auto.
Qed.

(** C25, as transplant resistance: two accepted tokens carrying one signature agree on
    message, footer, assertion, encoding (and v3 key), or the signature is valid for two
    different byte strings, which are exhibited. *)
Lemma c25_no_transplant :
  forall (P : Prims) (M1 F1 E1 M2 F2 E2 : Type) (v : version)
         (EN1 : Encoding E1 M1) (EN2 : Encoding E2 M2)
         (t1 : SecuredToken F1 E1) (t2 : SecuredToken F2 E2) (pk1 pk2 i1 i2 : bytes) x1 x2,
  valid_key P v Public pk1 = true -> valid_key P v Public pk2 = true ->
  let b1 := st_payload t1 in let b2 := st_payload t2 in
  let m1 := body_message v b1 in let m2 := body_message v b2 in
  let f1 := st_encoded_footer t1 in let f2 := st_encoded_footer t2 in
  let sg := body_sig v b1 in
  public_sizes v (suffix EN1) m1 f1 i1 -> public_sizes v (suffix EN2) m2 f2 i2 ->
  verify_with_assertions P v EN1 t1 pk1 i1 = Ok x1 ->
  verify_with_assertions P v EN2 t2 pk2 i2 = Ok x2 ->
  body_sig v b2 = sg ->
  (m1 = m2 /\ f1 = f2 /\ i1 = i2 /\ suffix EN1 = suffix EN2 /\ (v = V3 -> pk1 = pk2)) \/
  (let s1 := public_m2 v (suffix EN1) pk1 m1 f1 i1 in
   let s2 := public_m2 v (suffix EN2) pk2 m2 f2 i2 in
   s1 <> s2 /\ valid_sig P v pk1 s1 sg = true /\ valid_sig P v pk2 s2 sg = true).
Proof.
  intros P M1 F1 E1 M2 F2 E2 v EN1 EN2 t1 t2 pk1 pk2 i1 i2 x1 x2 K1 K2 b1 b2 m1 m2 f1 f2 sg S1 S2 V1 V2 Hsg.
  apply verify_ok_inv in V1 as (_ & V1 & _). apply verify_ok_inv in V2 as (_ & V2 & _).
  fold b1 m1 f1 sg in V1. fold b2 m2 f2 in V2. rewrite Hsg in V2.
  pose proof (valid_pk_slice P v _ K1) as Sk1. pose proof (valid_pk_slice P v _ K2) as Sk2.
  rewrite preauth_spec in V1 by assumption. rewrite preauth_spec in V2 by assumption.
  cbv zeta. set (s1 := public_m2 v (suffix EN1) pk1 m1 f1 i1) in *.
  set (s2 := public_m2 v (suffix EN2) pk2 m2 f2 i2) in *.
  destruct (bytes_eq_dec s1 s2) as [Es|Ns]; [left|right; auto].
  apply c25_signed_bytes_injective in Es; [|auto|assumption|assumption]. tauto.
Qed.

(** C26: exact panic condition of verification. *)
Lemma c26_verify_panic_iff :
  forall (P : Prims) (M F E : Type) (v : version) (EN : Encoding E M)
         (t : SecuredToken F E) (pk implicit : bytes),
  let b := st_payload t in
  (verify_with_assertions P v EN t pk implicit = Panic <->
   length b < sig_len v \/
   (sig_len v <= length b /\ v = V3 /\
    ~ (scalar384 (firstn 48 (body_sig V3 b)) /\ scalar384 (skipn 48 (body_sig V3 b))))).
Proof.
  intros P M F E v EN t pk i b. rewrite <- sig_ok_false_iff. destruct (Nat.lt_ge_cases (length b) (sig_len v)) as [Lb|Lb].
  - rewrite verify_short by exact Lb. tauto.
  - rewrite verify_body by exact Lb. fold b. split.
    + destruct v.
      * destruct (p_sig_ok (body_sig V3 b)) eqn:S; cbn [negb]; [|auto].
        destruct (valid_sig P V3 pk _ _); [|discriminate].
        destruct (e_decode EN (st_encoding t) _); discriminate.
      * destruct (valid_sig P V4 pk _ _); [|discriminate].
        destruct (e_decode EN (st_encoding t) _); discriminate.
    + intros [H|(_ & -> & H)]; [lia|]. rewrite H. reflexivity.
Qed.

(** C26, ideal claim refuted: a short text that parses makes verification panic, for every
    key. *)
Lemma c26_verify_no_panic_refuted :
  forall (v : version), exists (s : bytes) (t : SecuredToken unit unit),
  token_parse v PPublic [] tt unit_footer s = Ok t /\
  forall (P : Prims) (M : Type) (J : JsonCodec M) (pk implicit : bytes),
  verify_with_assertions P v (json_encoding J) t pk implicit = Panic.
Proof.
  intros v.
  exists (match v with V3 => str "v3.public.AAAA" | V4 => str "v4.public.AAAA" end),
    {| st_encoding := tt; st_payload := [x00; x00; x00]; st_encoded_footer := []; st_footer := tt |}.
  split; [destruct v; vm_compute; reflexivity|].
  intros P M J pk i. apply verify_short. destruct v; cbn; lia.
Qed.

(** C26: v3 also panics on tokens of full length: a signature of 96 zero bytes. *)
Lemma c26_v3_zero_signature_refuted :
  exists (s : bytes) (t : SecuredToken unit unit),
  token_parse V3 PPublic [] tt unit_footer s = Ok t /\ length (st_payload t) = 98 /\
  forall (P : Prims) (M : Type) (J : JsonCodec M) (pk implicit : bytes),
  verify_with_assertions P V3 (json_encoding J) t pk implicit = Panic.
Proof.
  exists (str "v3.public.e30" ++ repeat "A"%byte 128),
    {| st_encoding := tt; st_payload := str "{}" ++ repeat x00 96; st_encoded_footer := []; st_footer := tt |}.
  split; [vm_compute; reflexivity|]. split; [reflexivity|].
  intros P M J pk i. apply c26_verify_panic_iff. right. split; [cbn; lia|]. split; [reflexivity|]. apply sig_ok_false_iff.
  vm_compute. reflexivity.
Qed.

(** C27, public: the short entry points. *)
Lemma c27_public_short_entry_points :
  forall (P : Prims) (M F E : Type) (v : version) (EN : Encoding E M) (FC : FooterCodec F)
         (t : ValidatedToken M F E) (tok : SecuredToken F E) (sk pk : bytes),
  sign P v EN FC t sk = sign_with_assertions P v EN FC t sk [] /\
  verify P v EN tok pk = verify_with_assertions P v EN tok pk [].
Proof. intros. split; reflexivity. Qed.

(** C27, public: a token valid with a non-empty assertion and accepted without one has a
    signature valid for two different byte strings. *)
Lemma c27_assertion_not_droppable_public :
  forall (P : Prims) (M F E M' F' E' : Type) (v : version) (EN : Encoding E M) (EN' : Encoding E' M')
         (tok : SecuredToken F E) (tok' : SecuredToken F' E') (pk i : bytes) x x',
  valid_key P v Public pk = true ->
  let b := st_payload tok in
  st_payload tok' = b -> i <> [] ->
  public_sizes v (suffix EN) (body_message v b) (st_encoded_footer tok) i ->
  public_sizes v (suffix EN') (body_message v b) (st_encoded_footer tok') [] ->
  verify_with_assertions P v EN tok pk i = Ok x ->
  verify P v EN' tok' pk = Ok x' ->
  exists s1 s2, s1 <> s2 /\ valid_sig P v pk s1 (body_sig v b) = true /\
                valid_sig P v pk s2 (body_sig v b) = true.
Proof.
  intros P M F E M' F' E' v EN EN' tok tok' pk i x x' K b Eb Ni S1 S2 D1 D2. unfold verify in D2.
  pose proof (c25_no_transplant P M F E M' F' E' v EN EN' tok tok' pk pk i [] x x' K K) as H.
  cbv zeta in H. rewrite Eb in H. fold b in H. specialize (H S1 S2 D1 D2 eq_refl).
  destruct H as [(_ & _ & H & _)|H]; [contradiction|]. eauto.
Qed.

(** C13 for public tokens: the received raw footer bytes are what is verified. *)
Lemma c13_raw_footer_verified :
  forall (P : Prims) (M F F' E : Type) (v : version) (EN : Encoding E M)
         (t : SecuredToken F E) (f' : F') (pk implicit : bytes),
  let t' := {| st_encoding := st_encoding t; st_payload := st_payload t;
               st_encoded_footer := st_encoded_footer t; st_footer := f' |} in
  verify_with_assertions P v EN t' pk implicit =
  omap (fun x => {| vt_encoding := vt_encoding x; vt_message := vt_message x; vt_footer := f' |})
       (verify_with_assertions P v EN t pk implicit) /\
  (forall x, verify_with_assertions P v EN t pk implicit = Ok x -> vt_footer x = st_footer t).
Proof.
  intros P M F F' E v EN t f' pk i t'. split.
  - unfold verify_with_assertions. subst t'. cbn [st_payload st_encoding st_encoded_footer st_footer].
    destruct (usize_sub _ _) as [k| |]; cbn [obind omap]; try reflexivity.
    destruct (split_at _ _) as [[m' tg]| |]; cbn [obind omap]; try reflexivity.
    destruct (verify_raw _ _ _ _ _ _ _ _) as [o| |]; cbn [obind omap]; try reflexivity.
    destruct o; [|reflexivity].
    destruct (payload_err _) as [y| |]; reflexivity.
  - intros x H. apply verify_ok_inv in H as (_ & _ & _ & ->). reflexivity.
Qed.

Definition auth_pieces (v : version) (p : purpose) (pk sfx n m f i : bytes) : list bytes :=
  match p with
  | PLocal => [local_header v sfx; n; m; f; i]
  | PPublic => public_pieces v pk sfx m f i
  end.

Lemma auth_pieces_ok (P : Prims) v p pk sfx n m f i :
  auth_sizes P v p pk sfx n m f i ->
  Forall rust_slice (auth_pieces v p pk sfx n m f i) /\
  auth_data v p pk sfx n m f i = flat_pae (auth_pieces v p pk sfx n m f i).
Proof.
  intros (H1 & H2 & H3 & H4 & H5 & H6). destruct p; cbn [auth_pieces auth_data token_header] in *.
  - assert (F : Forall rust_slice [local_header v sfx; n; m; f; i])
      by (repeat (apply Forall_cons; [assumption|]); apply Forall_nil).
    split; [exact F|]. apply PAE_flat; [reflexivity|exact F].
  - assert (Hk : v = V3 -> rust_slice pk) by (intros E; apply (valid_pk_slice P V3); [apply H6; auto|reflexivity]).
    assert (Hs : public_sizes v sfx m f i) by (repeat split; assumption).
    split; [apply public_pieces_slices; assumption|].
    rewrite <- preauth_flat. symmetry. apply preauth_spec; assumption.
Qed.

Lemma hd_public_pk (P : Prims) pk : P384Sizes P -> valid_key P V3 Public pk = true ->
  forall r, pk <> "v"%byte :: r.
Proof.
  intros L H r ->. apply valid_v3_pk in H as [_ H]. apply (p_parse_tag _ L) in H.
  destruct H as [H|[H|[H|H]]]; discriminate.
Qed.

(** C57: across all versions and purposes, the authenticated byte string determines the
    version, the purpose, the encoding and every field; in particular v3/v4, local/public
    never authenticate the same bytes. *)
Lemma c57_authenticated_data_determines_everything :
  forall (P : Prims) (v1 v2 : version) (p1 p2 : purpose)
         (pk1 sfx1 n1 m1 f1 i1 pk2 sfx2 n2 m2 f2 i2 : bytes),
  P384Sizes P ->
  auth_sizes P v1 p1 pk1 sfx1 n1 m1 f1 i1 -> auth_sizes P v2 p2 pk2 sfx2 n2 m2 f2 i2 ->
  auth_data v1 p1 pk1 sfx1 n1 m1 f1 i1 = auth_data v2 p2 pk2 sfx2 n2 m2 f2 i2 ->
  v1 = v2 /\ p1 = p2 /\ sfx1 = sfx2 /\ m1 = m2 /\ f1 = f2 /\ i1 = i2 /\
  (p1 = PLocal -> n1 = n2) /\ (v1 = V3 -> p1 = PPublic -> pk1 = pk2).
Proof.
  intros P v1 v2 p1 p2 pk1 sfx1 n1 m1 f1 i1 pk2 sfx2 n2 m2 f2 i2 L S1 S2 H.
  destruct (auth_pieces_ok P _ _ _ _ _ _ _ _ S1) as [F1 Q1].
  destruct (auth_pieces_ok P _ _ _ _ _ _ _ _ S2) as [F2 Q2].
  rewrite Q1, Q2 in H. apply flat_pae_inj in H;
    [|(apply fits_slices; [destruct v1, p1; reflexivity|assumption])
     |(apply fits_slices; [destruct v2, p2; reflexivity|assumption])].
  destruct S1 as (_ & _ & _ & _ & _ & K1). destruct S2 as (_ & _ & _ & _ & _ & K2).
  clear Q1 Q2 F1 F2.
  destruct p1, p2; cbn [auth_pieces] in H.
  - injection H as Hh -> -> -> ->.
    apply (token_header_inj v1 PLocal sfx1 v2 PLocal sfx2) in Hh as (-> & _ & ->).
    repeat split; auto. discriminate.
  - exfalso. destruct v2; cbn [public_pieces] in H; [|discriminate].
    injection H as Hh _ _ _ _. specialize (K2 eq_refl eq_refl).
    destruct v1; cbn in Hh; symmetry in Hh; exact (hd_public_pk P pk2 L K2 _ Hh).
  - exfalso. destruct v1; cbn [public_pieces] in H; [|discriminate].
    injection H as Hh _ _ _ _. specialize (K1 eq_refl eq_refl).
    destruct v2; cbn in Hh; exact (hd_public_pk P pk1 L K1 _ Hh).
  - destruct v1, v2; cbn [public_pieces] in H; try discriminate.
    + injection H as -> Hh -> -> ->.
      apply app_inv_tail in Hh as ->.
      repeat split; auto. discriminate.
    + injection H as Hh -> -> ->.
      apply app_inv_tail in Hh as ->.
      repeat split; auto; discriminate.
Qed.

(** C57: [auth_data] is what the implementation MACs and signs. *)
Lemma c57_auth_data_is_implemented :
  forall (P : Prims) (v : version) (pk key sfx n c m f i sg : bytes),
  (length n = 32 -> auth_sizes P v PLocal pk sfx n c f i ->
   generic_digest P v key sfx n c f i = mac P v key (auth_data v PLocal pk sfx n c f i)) /\
  (auth_sizes P v PPublic pk sfx n m f i ->
   verify_raw P v pk sfx m f i sg =
   if match v with V3 => negb (p_sig_ok sg) | V4 => false end then Panic
   else Ok (valid_sig P v pk (auth_data v PPublic pk sfx n m f i) sg)).
Proof.
  intros P v pk key sfx n c m f i sg. split.
  - intros Ln Hs. destruct (auth_pieces_ok P _ _ _ _ _ _ _ _ Hs) as [_ Q]. rewrite Q. cbn [auth_pieces].
    unfold generic_digest. rewrite digest_pae. destruct v; reflexivity.
  - intros Hs. destruct (auth_pieces_ok P _ _ _ _ _ _ _ _ Hs) as [_ Q]. rewrite Q. cbn [auth_pieces].
    rewrite <- preauth_flat. destruct v; cbn [verify_raw valid_sig preauth]; [|reflexivity].
    destruct (p_sig_ok sg); reflexivity.
Qed.

(** C53, public tokens. *)
Lemma c53_public_text_length :
  forall (P : Prims) (M F E : Type) (v : version) (EN : Encoding E M) (FC : FooterCodec F)
         (t : ValidatedToken M F E) (sk implicit m f : bytes) tok,
  Sizes P -> valid_key P v Secret sk = true ->
  e_encode EN (vt_encoding t) (vt_message t) = COk m -> f_encode FC (vt_footer t) = Some f ->
  sign_with_assertions P v EN FC t sk implicit = Ok tok ->
  length (token_display v PPublic (suffix EN) tok) =
  length (suffix EN) + 10 + (4 * (length m + sig_len v) + 2) / 3
  + match f with [] => 0 | _ => 1 + (4 * length f + 2) / 3 end.
Proof.
  intros P M F E v EN FC t sk i m f tok L Hk He Hf H. unfold sign_with_assertions in H.
  rewrite He, Hf in H. cbn [payload_err unwrap obind] in H.
  destruct (sign_raw P v sk (suffix EN) m f i) as [sg| |] eqn:Hs; cbn [obind] in H; try discriminate.
  injection H as <-. pose proof (sign_raw_len P v sk _ _ _ _ _ L Hk Hs) as Ls.
  rewrite token_display_spec. cbn [st_payload st_encoded_footer]. unfold token_text.
  assert (Lh : length (token_header v PPublic (suffix EN)) = length (suffix EN) + 10).
  { destruct v; cbn [token_header public_header]; rewrite !app_length; cbn [length str]; cbn; lia. }
  assert (Lb : length (m ++ sg) = length m + sig_len v) by (rewrite app_length, Ls; reflexivity).
  destruct f as [|x f].
  - rewrite app_length, base64url_length, Lh, Lb. lia.
  - rewrite !app_length, !base64url_length, Lh, Lb. cbn [length str]. cbn [list_byte_of_string]. cbn. lia.
Qed.
