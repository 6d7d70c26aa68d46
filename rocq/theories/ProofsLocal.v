(** Proofs for local tokens. *)
From Coq Require Import ZArith ZifyBool ZifyNat ZifyN.
From Verif Require Import Bytes Outcome Base64 Pae Prims Version Key Token Local
  SpecBase64 SpecPaseto SpecPaserk SpecText Observe.
From Verif Require Import BytesLemmas Base64Lemmas PaeLemmas TextLemmas TokenLemmas CipherLemmas ProofsText.
Ltac Zify.zify_post_hook ::= Z.div_mod_to_equations.

Lemma tag_size_eq v : tag_size v = tag_len v.
Proof. destruct v; reflexivity. Qed.

(** key split *)
Lemma kdf_ek (P : Prims) v key n :
  kdf_mac P v (key_iv_size v) key [str "paseto-encryption-key"; n] =
  match v with
  | V3 => hkdf_sha384 P key (str "paseto-encryption-key" ++ n) 48
  | V4 => blake2b_mac P 56 key (str "paseto-encryption-key" ++ n)
  end.
Proof. unfold kdf_mac. cbn [concat]. rewrite app_nil_r. destruct v; reflexivity. Qed.
Lemma kdf_ak (P : Prims) v key n :
  kdf_mac P v (auth_key_size v) key [str "paseto-auth-key-for-aead"; n] = local_ak P v key n.
Proof. unfold kdf_mac. cbn [concat]. rewrite app_nil_r. destruct v; reflexivity. Qed.

Definition local_ek (S : Sym) v key n : bytes := fst (fst (local_split S v key n)).

Lemma key_iv_apply_eq (P : Prims) v key n d :
  key_iv_apply P v (kdf_mac P v (key_iv_size v) key [str "paseto-encryption-key"; n]) d
  = apply_keystream P v (local_ek P v key n) (local_iv P v key n) d.
Proof. rewrite kdf_ek. destruct v; reflexivity. Qed.

Definition local_pieces v sfx (n c f i : bytes) : list bytes := [local_header v sfx; n; c; f; i].

Lemma digest_pae v sfx n c f i :
  pae [ [ paseto_header v; sfx; dot; purpose_header PLocal; dot ]; [ n ]; [ c ]; [ f ]; [ i ] ]
  = flat_pae (local_pieces v sfx n c f i).
Proof.
  rewrite pae_flat. cbn [map concat]. rewrite !app_nil_r.
  replace (paseto_header v ++ sfx ++ dot ++ purpose_header PLocal ++ dot) with (local_header v sfx)
    by (destruct v; reflexivity).
  reflexivity.
Qed.

Lemma rust_slice_32 n : length n = 32 -> rust_slice n.
Proof. intros L. unfold rust_slice, nlen. rewrite L. reflexivity. Qed.

Lemma local_pieces_slices v sfx n c f i :
  length n = 32 -> local_sizes v sfx c f i -> Forall rust_slice (local_pieces v sfx n c f i).
Proof.
  intros L (H1 & H2 & H3 & H4). repeat (apply Forall_cons; [try assumption|]); [|apply Forall_nil].
  apply rust_slice_32, L.
Qed.

Lemma local_pae v sfx n c f i :
  length n = 32 -> local_sizes v sfx c f i ->
  flat_pae (local_pieces v sfx n c f i) = PAE [local_header v sfx; n; c; f; i].
Proof.
  intros L S. symmetry. apply PAE_flat; [reflexivity|]. apply local_pieces_slices; assumption.
Qed.

Lemma fits_slices ps : (N.of_nat (length ps) < two64)%N -> Forall rust_slice ps -> fits ps.
Proof.
  intros L F. split; [exact L|]. eapply Forall_impl; [|exact F]. intros a. apply rust_slice_fits.
Qed.

Lemma generic_digest_eq (P : Prims) v key sfx n c f i :
  length n = 32 -> local_sizes v sfx c f i ->
  generic_digest P v (local_ak P v key n) sfx n c f i = local_tag P v sfx key n c f i.
Proof.
  intros L S. unfold generic_digest. rewrite digest_pae, local_pae by assumption.
  destruct v; reflexivity.
Qed.

Lemma local_tag_mac (P : Prims) v key sfx n c f i :
  local_tag P v sfx key n c f i = mac P v (local_ak P v key n) (PAE [local_header v sfx; n; c; f; i]).
Proof. destruct v; reflexivity. Qed.

(** model-level tag, without size hypotheses *)
Definition mtag (P : Prims) v sfx key n c f i : bytes :=
  mac P v (local_ak P v key n) (flat_pae (local_pieces v sfx n c f i)).
Lemma generic_digest_mtag (P : Prims) v key sfx n c f i :
  generic_digest P v (local_ak P v key n) sfx n c f i = mtag P v sfx key n c f i.
Proof. unfold generic_digest. rewrite digest_pae. destruct v; reflexivity. Qed.

Lemma mtag_spec (P : Prims) v sfx key n c f i :
  length n = 32 -> local_sizes v sfx c f i -> mtag P v sfx key n c f i = local_tag P v sfx key n c f i.
Proof. intros L S. rewrite <- generic_digest_mtag. apply generic_digest_eq; assumption. Qed.

Lemma mac_len (P : Prims) v k m : SymLaws P -> length (mac P v k m) = tag_len v.
Proof. intros L. destruct v; [apply (hmac_len _ L)|apply (blake2b_mac_len _ L); cbn [tag_len]; lia]. Qed.
Lemma mtag_len (P : Prims) v sfx key n c f i : SymLaws P -> length (mtag P v sfx key n c f i) = tag_len v.
Proof. apply mac_len. Qed.

(** encryption, unfolded *)
Lemma generic_encrypt_eq (P : Prims) v key sfx n m f i :
  generic_encrypt P v key sfx n m f i =
  (let? c := apply_keystream P v (local_ek P v key n) (local_iv P v key n) m in
   Ok (c, mtag P v sfx key n c f i)).
Proof.
  unfold generic_encrypt. rewrite key_iv_apply_eq, kdf_ak.
  destruct (apply_keystream P v _ _ m); cbn [obind]; [|reflexivity..].
  rewrite generic_digest_mtag. reflexivity.
Qed.

Lemma generic_decrypt_eq (P : Prims) v key sfx n c t f i :
  generic_decrypt P v key sfx n c t f i =
  if bseqb t (mtag P v sfx key n c f i)
  then (let? m := apply_keystream P v (local_ek P v key n) (local_iv P v key n) c in Ok (Some m))
  else Ok None.
Proof.
  unfold generic_decrypt. rewrite key_iv_apply_eq, kdf_ak, generic_digest_mtag.
  destruct (bseqb t _); reflexivity.
Qed.

(** decryption of a payload given by its three parts *)
Lemma decrypt_parts {M F E} (P : Prims) v (EN : Encoding E M) (t : SecuredToken F E) key i n c tg :
  st_payload t = n ++ c ++ tg -> length n = 32 -> length tg = tag_len v ->
  decrypt_with_assertions P v EN t key i =
  if bseqb tg (mtag P v (suffix EN) key n c (st_encoded_footer t) i) then
    let? m := apply_keystream P v (local_ek P v key n) (local_iv P v key n) c in
    let? message := payload_err (e_decode EN (st_encoding t) m) in
    Ok {| vt_encoding := st_encoding t; vt_message := message; vt_footer := st_footer t |}
  else Err CryptoError.
Proof.
  intros Hp Ln Lt. unfold decrypt_with_assertions. rewrite Hp.
  rewrite split_at_app by exact Ln. cbn [obind]. rewrite tag_size_eq.
  rewrite usize_sub_ok by (rewrite app_length; lia). cbn [obind].
  replace (length (c ++ tg) - tag_len v) with (length c) by (rewrite app_length; lia).
  rewrite split_at_app by reflexivity. cbn [obind]. rewrite generic_decrypt_eq.
  destruct (bseqb tg _); [|reflexivity].
  destruct (apply_keystream P v _ _ c); reflexivity.
Qed.

Lemma body_parts v b :
  32 + tag_len v <= length b ->
  b = body_nonce b ++ body_cipher v b ++ body_tag v b /\ length (body_nonce b) = 32 /\
  length (body_tag v b) = tag_len v /\ length (body_cipher v b) = length b - 32 - tag_len v.
Proof.
  intros L. unfold body_nonce, body_cipher, body_tag.
  assert (E : skipn (length b - tag_len v) b = skipn (length b - 32 - tag_len v) (skipn 32 b)).
  { rewrite skipn_skipn'. f_equal. lia. }
  rewrite E, firstn_skipn, firstn_skipn. split; [reflexivity|].
  rewrite <- E. rewrite !firstn_length, !skipn_length. lia.
Qed.

Lemma decrypt_body {M F E} (P : Prims) v (EN : Encoding E M) (t : SecuredToken F E) key i :
  let b := st_payload t in
  let n := body_nonce b in
  let c := body_cipher v b in
  32 + tag_len v <= length b ->
  decrypt_with_assertions P v EN t key i =
  if bseqb (body_tag v b) (mtag P v (suffix EN) key n c (st_encoded_footer t) i) then
    let? m := apply_keystream P v (local_ek P v key n) (local_iv P v key n) c in
    let? message := payload_err (e_decode EN (st_encoding t) m) in
    Ok {| vt_encoding := st_encoding t; vt_message := message; vt_footer := st_footer t |}
  else Err CryptoError.
Proof.
  intros b n c L. destruct (body_parts v b L) as (Eb & Ln & Lt & _).
  apply decrypt_parts; assumption.
Qed.

Lemma decrypt_short {M F E} (P : Prims) v (EN : Encoding E M) (t : SecuredToken F E) key i :
  length (st_payload t) < 32 + tag_len v -> decrypt_with_assertions P v EN t key i = Panic.
Proof.
  intros L. unfold decrypt_with_assertions.
  destruct (Nat.lt_ge_cases (length (st_payload t)) 32) as [H|H].
  - rewrite split_at_panic by exact H. reflexivity.
  - rewrite split_at_ok by exact H. cbn [obind]. rewrite tag_size_eq.
    rewrite usize_sub_panic; [reflexivity|]. rewrite skipn_length. unfold NONCE_LEN. lia.
Qed.

(** what [encrypt_inner] does *)
Lemma encrypt_inner_eq {M F E} (P : Prims) v (EN : Encoding E M) (FC : FooterCodec F)
      (t : ValidatedToken M F E) key n i :
  encrypt_inner P v EN FC t key n i =
  (let? m := payload_err (e_encode EN (vt_encoding t) (vt_message t)) in
   let? f := unwrap (f_encode FC (vt_footer t)) in
   let? c := apply_keystream P v (local_ek P v key n) (local_iv P v key n) m in
   Ok {| st_encoding := vt_encoding t; st_payload := n ++ c ++ mtag P v (suffix EN) key n c f i;
         st_encoded_footer := f; st_footer := vt_footer t |}).
Proof.
  unfold encrypt_inner. destruct (payload_err _); cbn [obind]; [|reflexivity..].
  destruct (unwrap _); cbn [obind]; [|reflexivity..].
  rewrite generic_encrypt_eq. destruct (apply_keystream P v _ _ a); reflexivity.
Qed.

Lemma local_iv_len (P : Prims) key n : SymLaws P -> length (local_iv P V3 key n) = 16.
Proof.
  intros L. unfold local_iv, local_split. cbn [fst snd]. rewrite skipn_length, (hkdf_len _ L) by lia. reflexivity.
Qed.

Lemma keystream_local_spec (P : Prims) v key n d :
  SymLaws P -> local_safe P v key n (length d) ->
  apply_keystream P v (local_ek P v key n) (local_iv P v key n) d = Ok (local_cipher P v key n d).
Proof.
  intros L S. rewrite apply_keystream_spec.
  - destruct v; reflexivity.
  - destruct v; cbn [cipher_ok local_safe] in *; [|exact S]. split; [apply local_iv_len, L|exact S].
Qed.

Lemma local_cipher_length (P : Prims) v key n d :
  SymLaws P -> length (local_cipher P v key n d) = length d.
Proof.
  intros L. unfold local_cipher. destruct (local_split P v key n) as [[ek n2] ak].
  destruct v; unfold aes256_ctr, xchacha20; rewrite bsxor_length.
  - rewrite (flat_map_const_length _ 16) by (intros; apply (aes_len _ L)). rewrite seq_length. lia.
  - rewrite (xchacha_len _ L). lia.
Qed.

(** C14: encrypt, print, parse, decrypt returns the message and the footer.  The codec
    hypotheses concern only this message and this footer. *)
Lemma c14_local_roundtrip :
  forall (P : Prims) (M F E : Type) (v : version) (EN : Encoding E M) (FC : FooterCodec F)
         (t : ValidatedToken M F E) (key implicit m f : bytes) (r : rng),
  SymLaws P ->
  e_encode EN (vt_encoding t) (vt_message t) = COk m ->
  e_decode EN (e_default EN) m = COk (vt_message t) ->
  f_encode FC (vt_footer t) = Some f ->
  f_decode FC f = COk (vt_footer t) ->
  within_limit v (nlen m) ->
  exists tok tok',
    encrypt_with_rng P v EN FC t key implicit r = (Ok tok, advance r 32) /\
    token_parse v PLocal (suffix EN) (e_default EN) FC (token_display v PLocal (suffix EN) tok) = Ok tok' /\
    unverified_footer tok' = vt_footer t /\
    decrypt_with_assertions P v EN tok' key implicit =
      Ok {| vt_encoding := e_default EN; vt_message := vt_message t; vt_footer := vt_footer t |}.
Proof.
  intros P M F E v EN FC t key i m f r L He Hd Hf Hfd Hlim.
  unfold encrypt_with_rng. rewrite fill_eq, encrypt_inner_eq, He, Hf. cbn [payload_err unwrap obind].
  set (n := draw r 0 32).
  destruct (apply_keystream_ok P v (local_ek P v key n) (local_iv P v key n) m Hlim) as [c Hc].
  change (draw r 0 NONCE_LEN) with n. change (advance r NONCE_LEN) with (advance r 32).
  rewrite Hc. cbn [obind].
  destruct (apply_keystream_invol P v _ _ _ _ L Hc) as [Lc Hinv].
  eexists. eexists. split; [reflexivity|].
  rewrite (c07_token_text_roundtrip F E v PLocal (suffix EN) (e_default EN) FC _ (vt_footer t))
    by exact Hfd.
  split; [reflexivity|]. split; [reflexivity|].
  rewrite (decrypt_parts P v EN _ key i n c (mtag P v (suffix EN) key n c f i));
    [|reflexivity|apply draw_length|apply mtag_len, L].
  cbn [st_encoded_footer st_encoding st_footer]. rewrite bseqb_refl, Hinv. cbn [obind].
  rewrite Hd. reflexivity.
Qed.

(** C14 with raw-byte footers and messages: no codec hypothesis is left. *)
Lemma c14_local_roundtrip_raw :
  forall (P : Prims) (v : version) (sfx message footer key implicit : bytes) (r : rng),
  SymLaws P -> within_limit v (nlen message) ->
  let EN := {| suffix := sfx; e_default := tt; e_encode := fun _ m => COk m;
               e_decode := fun _ m => COk m |} in
  let t := {| vt_encoding := tt; vt_message := message; vt_footer := footer |} in
  exists tok tok',
    encrypt_with_rng P v EN vec_footer t key implicit r = (Ok tok, advance r 32) /\
    token_parse v PLocal sfx tt vec_footer (token_display v PLocal sfx tok) = Ok tok' /\
    decrypt_with_assertions P v EN tok' key implicit = Ok t.
Proof.
  intros P v sfx message footer key i r L Hlim EN t.
  destruct (c14_local_roundtrip P bytes bytes unit v EN vec_footer t key i message footer r L
              eq_refl eq_refl eq_refl eq_refl Hlim) as (tok & tok' & H1 & H2 & _ & H3).
  exists tok, tok'. auto.
Qed.

(** C15: the encrypted payload is the standard's, with the 32 drawn bytes as nonce.
    [local_safe]: no 64-bit counter overflow for v3 (see C55), XChaCha20 length
    limit for v4 (see C58). *)
Lemma c15_encrypt_is_spec :
  forall (P : Prims) (M F E : Type) (v : version) (EN : Encoding E M) (FC : FooterCodec F)
         (t : ValidatedToken M F E) (key implicit m f : bytes) (r : rng),
  SymLaws P ->
  e_encode EN (vt_encoding t) (vt_message t) = COk m ->
  f_encode FC (vt_footer t) = Some f ->
  local_sizes v (suffix EN) m f implicit ->
  let n := draw r 0 32 in
  local_safe P v key n (length m) ->
  encrypt_with_rng P v EN FC t key implicit r =
  (Ok {| st_encoding := vt_encoding t;
         st_payload := local_encrypt P v (suffix EN) key n m f implicit;
         st_encoded_footer := f; st_footer := vt_footer t |}, advance r 32).
Proof.
  intros P M F E v EN FC t key i m f r L He Hf Hs n Hsafe.
  unfold encrypt_with_rng. rewrite fill_eq, encrypt_inner_eq, He, Hf. cbn [payload_err unwrap obind].
  change (draw r 0 NONCE_LEN) with n. rewrite keystream_local_spec by assumption. cbn [obind].
  unfold local_encrypt. rewrite mtag_spec; [reflexivity|apply draw_length|].
  destruct Hs as (H1 & H2 & H3 & H4). split; [exact H1|]. split; [|auto].
  unfold rust_slice, nlen in *. rewrite local_cipher_length by exact L. exact H2.
Qed.

(** C16: on a payload long enough to hold nonce and tag, decryption is the standard's
    Decrypt followed by the message decoder, with the error classes named. *)
Lemma c16_decrypt_is_spec :
  forall (P : Prims) (M F E : Type) (v : version) (EN : Encoding E M)
         (t : SecuredToken F E) (key implicit : bytes),
  SymLaws P ->
  let b := st_payload t in
  let n := body_nonce b in
  let c := body_cipher v b in
  let tg := body_tag v b in
  32 + tag_len v <= length b ->
  local_sizes v (suffix EN) c (st_encoded_footer t) implicit ->
  local_safe P v key n (length c) ->
  decrypt_with_assertions P v EN t key implicit =
  match local_decrypt P v (suffix EN) key n c tg (st_encoded_footer t) implicit with
  | None => Err CryptoError
  | Some m =>
      match e_decode EN (st_encoding t) m with
      | CErr e => Err (PayloadError e)
      | COk msg => Ok {| vt_encoding := st_encoding t; vt_message := msg; vt_footer := st_footer t |}
      end
  end.
Proof.
  intros P M F E v EN t key i L b n c tg Lb Hs Hsafe.
  rewrite decrypt_body by exact Lb. fold b n c tg.
  destruct (body_parts v b Lb) as (_ & Ln & _).
  rewrite mtag_spec by assumption. unfold local_decrypt.
  destruct (bseqb tg _); [|reflexivity].
  rewrite keystream_local_spec by assumption. cbn [obind].
  destruct (e_decode EN (st_encoding t) _); reflexivity.
Qed.

(** C17: a wrong tag gives [CryptoError] whatever the message type, decoder, decoded
    footer and encoding value are: the decoder is never consulted. *)
Lemma c17_no_decoding_before_authentication :
  forall (P : Prims) (M F E : Type) (v : version) (EN : Encoding E M)
         (t : SecuredToken F E) (key implicit : bytes),
  let b := st_payload t in
  32 + tag_len v <= length b ->
  local_sizes v (suffix EN) (body_cipher v b) (st_encoded_footer t) implicit ->
  body_tag v b <> local_tag P v (suffix EN) key (body_nonce b) (body_cipher v b)
                            (st_encoded_footer t) implicit ->
  decrypt_with_assertions P v EN t key implicit = Err CryptoError.
Proof.
  intros P M F E v EN t key i b Lb Hs Ht.
  rewrite decrypt_body by exact Lb. fold b. destruct (body_parts v b Lb) as (_ & Ln & _).
  rewrite mtag_spec by assumption. apply bseqb_neq in Ht. rewrite Ht. reflexivity.
Qed.

(** inversion of a successful decryption *)
Lemma decrypt_ok_inv {M F E} (P : Prims) v (EN : Encoding E M) (t : SecuredToken F E) key i x :
  decrypt_with_assertions P v EN t key i = Ok x ->
  let b := st_payload t in
  32 + tag_len v <= length b /\
  body_tag v b = mtag P v (suffix EN) key (body_nonce b) (body_cipher v b) (st_encoded_footer t) i /\
  exists m, apply_keystream P v (local_ek P v key (body_nonce b)) (local_iv P v key (body_nonce b))
              (body_cipher v b) = Ok m /\
    e_decode EN (st_encoding t) m = COk (vt_message x) /\
    x = {| vt_encoding := st_encoding t; vt_message := vt_message x; vt_footer := st_footer t |}.
Proof.
  intros H b. destruct (Nat.lt_ge_cases (length b) (32 + tag_len v)) as [Lb|Lb].
  - rewrite decrypt_short in H by exact Lb. discriminate.
  - split; [exact Lb|]. rewrite decrypt_body in H by exact Lb. fold b in H.
    destruct (bseqb (body_tag v b) _) eqn:T; [|discriminate]. apply bseqb_eq in T.
    split; [exact T|]. apply obind_ok in H as (m & Hm & H). exists m. split; [exact Hm|].
    destruct (e_decode EN (st_encoding t) m) as [msg|] eqn:D; [|discriminate].
    injection H as <-. auto.
Qed.

Lemma local_pieces_inj v sfx1 sfx2 n1 n2 c1 c2 f1 f2 i1 i2 :
  local_pieces v sfx1 n1 c1 f1 i1 = local_pieces v sfx2 n2 c2 f2 i2 ->
  sfx1 = sfx2 /\ n1 = n2 /\ c1 = c2 /\ f1 = f2 /\ i1 = i2.
Proof.
  intros H. injection H as H1 H2 H3 H4 H5.
  apply (token_header_inj v PLocal sfx1 v PLocal sfx2) in H1 as (_ & _ & H1). auto.
Qed.

(** C18: two tokens with equal tags accepted under one key agree on nonce,
    ciphertext, footer, assertion and encoding suffix, or the MAC has the exhibited
    collision.  The pair (authentication key, MAC message) of each is explicit. *)
Lemma c18_tamper_detection :
  forall (P : Prims) (M1 F1 E1 M2 F2 E2 : Type) (v : version)
         (EN1 : Encoding E1 M1) (EN2 : Encoding E2 M2)
         (t1 : SecuredToken F1 E1) (t2 : SecuredToken F2 E2) (key i1 i2 : bytes) x1 x2,
  let b1 := st_payload t1 in let b2 := st_payload t2 in
  let n1 := body_nonce b1 in let n2 := body_nonce b2 in
  let c1 := body_cipher v b1 in let c2 := body_cipher v b2 in
  let f1 := st_encoded_footer t1 in let f2 := st_encoded_footer t2 in
  local_sizes v (suffix EN1) c1 f1 i1 -> local_sizes v (suffix EN2) c2 f2 i2 ->
  decrypt_with_assertions P v EN1 t1 key i1 = Ok x1 ->
  decrypt_with_assertions P v EN2 t2 key i2 = Ok x2 ->
  body_tag v b1 = body_tag v b2 ->
  (n1 = n2 /\ c1 = c2 /\ f1 = f2 /\ i1 = i2 /\ suffix EN1 = suffix EN2) \/
  (let m1 := PAE [local_header v (suffix EN1); n1; c1; f1; i1] in
   let m2 := PAE [local_header v (suffix EN2); n2; c2; f2; i2] in
   m1 <> m2 /\ mac P v (local_ak P v key n1) m1 = mac P v (local_ak P v key n2) m2).
Proof.
  intros P M1 F1 E1 M2 F2 E2 v EN1 EN2 t1 t2 key i1 i2 x1 x2 b1 b2 n1 n2 c1 c2 f1 f2 S1 S2 D1 D2 T.
  apply decrypt_ok_inv in D1 as (L1 & T1 & _). apply decrypt_ok_inv in D2 as (L2 & T2 & _).
  fold b1 in L1, T1. fold b2 in L2, T2. fold n1 c1 f1 in T1. fold n2 c2 f2 in T2.
  destruct (body_parts v b1 L1) as (_ & Ln1 & _). destruct (body_parts v b2 L2) as (_ & Ln2 & _).
  fold n1 in Ln1. fold n2 in Ln2.
  rewrite <- !local_pae by assumption.
  set (m1 := flat_pae (local_pieces v (suffix EN1) n1 c1 f1 i1)) in *.
  set (m2 := flat_pae (local_pieces v (suffix EN2) n2 c2 f2 i2)) in *.
  destruct (bytes_eq_dec m1 m2) as [Em|Nm].
  - left. apply flat_pae_inj in Em.
    + apply local_pieces_inj in Em. tauto.
    + apply fits_slices; [reflexivity|apply local_pieces_slices; assumption].
    + apply fits_slices; [reflexivity|apply local_pieces_slices; assumption].
  - right. split; [exact Nm|]. unfold mtag in T1, T2. fold m1 in T1. fold m2 in T2. congruence.
Qed.

(** C18, as tamper evidence: take an honest token and change anything in its body
    (keeping the tag), footer, assertion or encoding: the result is [CryptoError]
    unless the MAC collides on the two explicit messages. *)
Lemma c18_honest_token_tampered :
  forall (P : Prims) (M2 F2 E2 : Type) (v : version) (EN2 : Encoding E2 M2)
         (sfx key n m f i : bytes) (t2 : SecuredToken F2 E2) (i2 : bytes),
  SymLaws P -> length n = 32 ->
  let c := local_cipher P v key n m in
  let body := local_encrypt P v sfx key n m f i in
  let b2 := st_payload t2 in
  let n2 := body_nonce b2 in let c2 := body_cipher v b2 in let f2 := st_encoded_footer t2 in
  32 + tag_len v <= length b2 ->
  local_sizes v sfx c f i -> local_sizes v (suffix EN2) c2 f2 i2 ->
  body_tag v b2 = body_tag v body ->
  (n2, c2, f2, i2, suffix EN2) <> (n, c, f, i, sfx) ->
  let m1 := PAE [local_header v sfx; n; c; f; i] in
  let m2 := PAE [local_header v (suffix EN2); n2; c2; f2; i2] in
  ~ (m1 <> m2 /\ mac P v (local_ak P v key n) m1 = mac P v (local_ak P v key n2) m2) ->
  decrypt_with_assertions P v EN2 t2 key i2 = Err CryptoError.
Proof.
  intros P M2 F2 E2 v EN2 sfx key n m f i t2 i2 L Ln c body b2 n2 c2 f2 Lb S1 S2 T Ne m1 m2 NC.
  destruct (body_parts v b2 Lb) as (_ & Ln2 & _). fold n2 in Ln2.
  apply c17_no_decoding_before_authentication; [exact Lb|exact S2|].
  fold b2 n2 c2 f2. intros T2. apply NC.
  assert (TB : body_tag v body = local_tag P v sfx key n c f i).
  { unfold body, local_encrypt, body_tag. fold c. set (tg := local_tag P v sfx key n c f i).
    assert (Lt : length tg = tag_len v) by (unfold tg; rewrite local_tag_mac; apply mac_len, L).
    rewrite app_assoc. apply skipn_app_exact. rewrite app_length with (l' := tg). lia. }
  rewrite T, TB, !local_tag_mac in T2. split; [|exact T2]. intros Em.
  unfold m1, m2 in Em. rewrite <- !local_pae in Em by assumption. apply flat_pae_inj in Em.
  - apply local_pieces_inj in Em as (-> & -> & -> & -> & ->). apply Ne. reflexivity.
  - apply fits_slices; [reflexivity|apply local_pieces_slices; assumption].
  - apply fits_slices; [reflexivity|apply local_pieces_slices; assumption].
Qed.

(** C19: exact panic condition of decryption. *)
Lemma c19_decrypt_panic_iff :
  forall (P : Prims) (M F E : Type) (v : version) (EN : Encoding E M)
         (t : SecuredToken F E) (key implicit : bytes),
  let b := st_payload t in
  local_sizes v (suffix EN) (body_cipher v b) (st_encoded_footer t) implicit ->
  (decrypt_with_assertions P v EN t key implicit = Panic <->
   length b < 32 + tag_len v \/
   (32 + tag_len v <= length b /\
    v = V4 /\ (xchacha20_limit < nlen (body_cipher v b))%N /\
    body_tag v b = local_tag P v (suffix EN) key (body_nonce b) (body_cipher v b)
                             (st_encoded_footer t) implicit)).
Proof.
  intros P M F E v EN t key i b Hs.
  destruct (Nat.lt_ge_cases (length b) (32 + tag_len v)) as [Lb|Lb].
  - rewrite decrypt_short by exact Lb. tauto.
  - rewrite decrypt_body by exact Lb. fold b. destruct (body_parts v b Lb) as (_ & Ln & _).
    rewrite mtag_spec by assumption. split.
    + destruct (bseqb (body_tag v b) _) eqn:T; [|discriminate]. apply bseqb_eq in T.
      destruct (apply_keystream P v _ _ (body_cipher v b)) as [m|e|] eqn:K; cbn [obind].
      * destruct (e_decode EN (st_encoding t) m); discriminate.
      * discriminate.
      * intros _. right. apply apply_keystream_panic in K.
        destruct v; cbn [within_limit] in K; [destruct (K I)|].
        repeat split; try assumption. lia.
    + intros [H|(_ & -> & Lim & T)]; [lia|]. rewrite T, bseqb_refl.
      assert (K : apply_keystream P V4 (local_ek P V4 key (body_nonce b)) (local_iv P V4 key (body_nonce b))
                    (body_cipher V4 b) = Panic).
      { apply apply_keystream_panic. cbn [within_limit]. lia. }
      rewrite K. reflexivity.
Qed.

(** C19, ideal claim refuted: a short text that parses makes decryption panic, for every
    key, assertion, primitives and message type, in both versions. *)
Lemma c19_decrypt_no_panic_refuted :
  forall (v : version), exists (s : bytes) (t : SecuredToken unit unit),
  token_parse v PLocal [] tt unit_footer s = Ok t /\
  forall (P : Prims) (M : Type) (J : JsonCodec M) (key implicit : bytes),
  decrypt_with_assertions P v (json_encoding J) t key implicit = Panic.
Proof.
  intros v.
  exists (match v with V3 => str "v3.local.AAAA" | V4 => str "v4.local.AAAA" end),
    {| st_encoding := tt; st_payload := [x00; x00; x00]; st_encoded_footer := []; st_footer := tt |}.
  split; [destruct v; vm_compute; reflexivity|].
  intros P M J key i. apply decrypt_short. destruct v; cbn; lia.
Qed.

(** C20: exactly when and how encryption fails, and that it always consumes exactly
    32 bytes of randomness. *)
Lemma c20_encrypt_outcome :
  forall (P : Prims) (M F E : Type) (v : version) (EN : Encoding E M) (FC : FooterCodec F)
         (t : ValidatedToken M F E) (key implicit : bytes) (r : rng),
  let res := encrypt_with_rng P v EN FC t key implicit r in
  snd res = advance r 32 /\
  (forall e, fst res = Err e <->
     exists msg, e = PayloadError msg /\ e_encode EN (vt_encoding t) (vt_message t) = CErr msg) /\
  (fst res = Panic <->
     exists m, e_encode EN (vt_encoding t) (vt_message t) = COk m /\
       (f_encode FC (vt_footer t) = None \/
        (f_encode FC (vt_footer t) <> None /\ ~ within_limit v (nlen m)))) /\
  (forall tok, fst res = Ok tok ->
     f_encode FC (vt_footer t) = Some (st_encoded_footer tok) /\
     st_footer tok = vt_footer t /\ st_encoding tok = vt_encoding t).
Proof.
  intros P M F E v EN FC t key i r res. unfold res, encrypt_with_rng. rewrite fill_eq. cbn [fst snd].
  rewrite encrypt_inner_eq. set (n := draw r 0 NONCE_LEN). split; [reflexivity|].
  destruct (e_encode EN (vt_encoding t) (vt_message t)) as [m|msg] eqn:He; cbn [payload_err obind].
  - destruct (f_encode FC (vt_footer t)) as [f|] eqn:Hf; cbn [unwrap obind].
    + destruct (apply_keystream P v _ _ m) as [c|e|] eqn:K; cbn [obind].
      * split; [|split].
        -- intros e. split; [discriminate|]. intros (x & _ & H). discriminate.
        -- split; [discriminate|]. intros (m' & Hm & [H|[_ H]]); [discriminate|].
           injection Hm as <-. apply apply_keystream_panic with (P := P) (key := local_ek P v key n) (iv := local_iv P v key n) in H.
           congruence.
        -- intros tok H. injection H as <-. auto.
      * destruct (apply_keystream_not_err _ _ _ _ _ _ K).
      * apply apply_keystream_panic in K. split; [|split].
        -- intros e. split; [discriminate|]. intros (x & _ & H). discriminate.
        -- split; [|reflexivity]. intros _. exists m. split; [reflexivity|]. right. split; [discriminate|exact K].
        -- discriminate.
    + split; [|split].
      * intros e. split; [discriminate|]. intros (x & _ & H). discriminate.
      * split; [|reflexivity]. eauto.
      * discriminate.
  - split; [|split].
    + intros e. split.
      * intros H. injection H as <-. eauto.
      * intros (x & -> & H). injection H as ->. reflexivity.
    + split; [discriminate|]. intros (m & H & _). discriminate.
    + discriminate.
Qed.

(** C20, finding: a JSON footer that serde_json cannot serialise makes encryption panic
    instead of returning [PayloadError]. *)
Lemma c20_json_footer_panics :
  forall (P : Prims) (M T : Type) (v : version) (J : JsonCodec M) (JF : JsonCodec T)
         (t : ValidatedToken M T unit) (key implicit m e : bytes) (r : rng),
  json_to_vec J (vt_message t) = COk m -> json_to_vec JF (vt_footer t) = CErr e ->
  fst (encrypt_with_rng P v (json_encoding J) (json_footer JF) t key implicit r) = Panic.
Proof.
  intros P M T v J JF t key i m e r H1 H2. unfold encrypt_with_rng. rewrite fill_eq. cbn [fst].
  rewrite encrypt_inner_eq. cbn [json_encoding e_encode json_footer f_encode]. rewrite H1, H2. reflexivity.
Qed.

(** ** C21: histories of encryptions from one generator *)

(** C21: in any sequence of encryption requests from one generator, whatever their
    types, versions, keys and outcomes, the nonce of the k-th one (if it succeeds) is the
    k-th 32-byte block of the generator's output. *)
Lemma c21_nonces_are_fresh_blocks :
  forall (P : Prims) (reqs : list enc_request) (r : rng),
  snd (run_encryptions P reqs r) = advance r (32 * length reqs) /\
  forall k body, nth_error (fst (run_encryptions P reqs r)) k = Some (Ok body) ->
  firstn 32 body = draw r (32 * k) 32.
Proof.
  intros P reqs. induction reqs as [|q reqs IH]; intros r.
  - split; [|intros k body H; destruct k; discriminate]. cbn. unfold advance. rewrite Nat.add_0_r. destruct r; reflexivity.
  - cbn [run_encryptions]. unfold encrypt_with_rng. rewrite fill_eq.
    specialize (IH (advance r NONCE_LEN)). destruct (run_encryptions P reqs (advance r NONCE_LEN)) as [l r'].
    cbn [fst snd] in *. destruct IH as [IH1 IH2]. split.
    + rewrite IH1, advance_advance. cbn [length]. f_equal. unfold NONCE_LEN. lia.
    + intros [|k] body H; cbn [nth_error] in H.
      * injection H as H. rewrite encrypt_inner_eq in H. change (32 * 0) with 0.
        change 32 with NONCE_LEN. assert (Ld := draw_length r 0 NONCE_LEN).
        revert H Ld. generalize (draw r 0 NONCE_LEN). intros d H Ld.
        destruct (payload_err _) as [m| |]; cbn [obind omap] in H; try discriminate.
        destruct (unwrap _) as [f| |]; cbn [obind omap] in H; try discriminate.
        destruct (apply_keystream P _ _ _ m) as [c| |]; cbn [obind omap] in H; try discriminate.
        injection H as <-. cbn [st_payload]. apply firstn_app_exact, Ld.
      * rewrite (IH2 k body H), draw_advance. f_equal. unfold NONCE_LEN. lia.
Qed.

(** C21: hence equal nonces at different points of a history mean that the generator
    repeated a 32-byte block. *)
Lemma c21_nonce_reuse_means_repeated_block :
  forall (P : Prims) (reqs : list enc_request) (r : rng) (j k : nat) (b1 b2 : bytes),
  nth_error (fst (run_encryptions P reqs r)) j = Some (Ok b1) ->
  nth_error (fst (run_encryptions P reqs r)) k = Some (Ok b2) ->
  firstn 32 b1 = firstn 32 b2 -> draw r (32 * j) 32 = draw r (32 * k) 32.
Proof.
  intros P reqs r j k b1 b2 H1 H2 H. destruct (c21_nonces_are_fresh_blocks P reqs r) as [_ G].
  rewrite <- (G _ _ H1), <- (G _ _ H2). exact H.
Qed.

(** C13: what is authenticated and returned does not depend on the decoded footer: the
    received raw bytes are authenticated, the decoded footer is only passed along. *)
Lemma c13_raw_footer_authenticated :
  forall (P : Prims) (M F F' E : Type) (v : version) (EN : Encoding E M)
         (t : SecuredToken F E) (f' : F') (key implicit : bytes),
  let t' := {| st_encoding := st_encoding t; st_payload := st_payload t;
               st_encoded_footer := st_encoded_footer t; st_footer := f' |} in
  decrypt_with_assertions P v EN t' key implicit =
  omap (fun x => {| vt_encoding := vt_encoding x; vt_message := vt_message x; vt_footer := f' |})
       (decrypt_with_assertions P v EN t key implicit) /\
  (forall x, decrypt_with_assertions P v EN t key implicit = Ok x -> vt_footer x = st_footer t).
Proof.
  intros P M F F' E v EN t f' key i t'. split.
  - unfold decrypt_with_assertions. subst t'. cbn [st_payload st_encoding st_encoded_footer st_footer].
    destruct (split_at _ _) as [[n m]| |]; cbn [obind omap]; try reflexivity.
    destruct (usize_sub _ _) as [k| |]; cbn [obind omap]; try reflexivity.
    destruct (split_at _ _) as [[m' tg]| |]; cbn [obind omap]; try reflexivity.
    destruct (generic_decrypt _ _ _ _ _ _ _ _ _) as [o| |]; cbn [obind omap]; try reflexivity.
    destruct (ok_or o CryptoError) as [x| |]; cbn [obind omap]; try reflexivity.
    destruct (payload_err _) as [y| |]; reflexivity.
  - intros x H. apply decrypt_ok_inv in H as (_ & _ & m & _ & _ & ->). reflexivity.
Qed.

(** C27, local: the short entry points are the assertion variants with an empty
    assertion. *)
Lemma c27_local_short_entry_points :
  forall (P : Prims) (M F E : Type) (v : version) (EN : Encoding E M) (FC : FooterCodec F)
         (t : ValidatedToken M F E) (tok : SecuredToken F E) (key : bytes) (r : rng),
  encrypt P v EN FC t key r = encrypt_with_rng P v EN FC t key [] r /\
  decrypt P v EN tok key = decrypt_with_assertions P v EN tok key [].
Proof. intros. split; reflexivity. Qed.

(** C27, local: a token made with a non-empty assertion and accepted without one is an
    explicit MAC collision. *)
Lemma c27_assertion_not_droppable :
  forall (P : Prims) (M F E M' F' E' : Type) (v : version) (EN : Encoding E M) (EN' : Encoding E' M')
         (tok : SecuredToken F E) (tok' : SecuredToken F' E') (key i : bytes) x x',
  let b := st_payload tok in
  st_payload tok' = b -> i <> [] ->
  local_sizes v (suffix EN) (body_cipher v b) (st_encoded_footer tok) i ->
  local_sizes v (suffix EN') (body_cipher v b) (st_encoded_footer tok') [] ->
  decrypt_with_assertions P v EN tok key i = Ok x ->
  decrypt P v EN' tok' key = Ok x' ->
  exists m1 m2, m1 <> m2 /\
    mac P v (local_ak P v key (body_nonce b)) m1 = mac P v (local_ak P v key (body_nonce b)) m2.
Proof.
  intros P M F E M' F' E' v EN EN' tok tok' key i x x' b Eb Ni S1 S2 D1 D2. unfold decrypt in D2.
  pose proof (c18_tamper_detection P M F E M' F' E' v EN EN' tok tok' key i [] x x') as H.
  cbv zeta in H. rewrite Eb in H. fold b in H. specialize (H S1 S2 D1 D2 eq_refl).
  destruct H as [(_ & _ & _ & H & _)|[H1 H2]]; [contradiction|]. eauto.
Qed.

(** C58: for v4 encryption panics exactly when the (encodable) message exceeds
    64*(2^32-1) bytes; v3 has no such limit. *)
Lemma c58_v4_length_limit :
  forall (P : Prims) (M F E : Type) (v : version) (EN : Encoding E M) (FC : FooterCodec F)
         (t : ValidatedToken M F E) (key implicit m f : bytes) (r : rng),
  e_encode EN (vt_encoding t) (vt_message t) = COk m ->
  f_encode FC (vt_footer t) = Some f ->
  (fst (encrypt_with_rng P v EN FC t key implicit r) = Panic <->
   v = V4 /\ (64 * (2 ^ 32 - 1) < nlen m)%N).
Proof.
  intros P M F E v EN FC t key i m f r He Hf.
  destruct (c20_encrypt_outcome P M F E v EN FC t key i r) as (_ & _ & H & _). rewrite H. clear H.
  rewrite He, Hf. change (64 * (2 ^ 32 - 1))%N with xchacha20_limit. split.
  - intros (m' & Hm & [H|[_ H]]); [discriminate|]. injection Hm as <-.
    destruct v; cbn [within_limit] in H; [destruct (H I)|]. split; [reflexivity|lia].
  - intros [-> H]. exists m. split; [reflexivity|]. right. split; [discriminate|]. cbn [within_limit]. lia.
Qed.

(** C55: block by block, the implementation's counter equals the standard's 128-bit
    counter exactly as long as the low 64 bits do not overflow. *)
Lemma c55_counter_blocks :
  forall (iv : bytes) (i : nat), length iv = 16 -> (N.of_nat i <= two64)%N ->
  (ctr64_block iv i = ctr128_block iv i <-> (be_val (skipn 8 iv) + N.of_nat i < two64)%N).
Proof. exact ctr_blocks_agree. Qed.

(** C55: so the v3 cipher is the standard's as long as there is no overflow... *)
Lemma c55_cipher_agrees :
  forall (P : Prims) (key iv d : bytes), length iv = 16 -> ctr_safe iv (length d) ->
  apply_keystream P V3 key iv d = Ok (aes256_ctr P key iv d).
Proof. intros P key iv d L C. apply (apply_keystream_spec P V3). split; assumption. Qed.

Lemma bsxor_cancel d k k' : length k = length d -> length k' = length d -> bsxor d k = bsxor d k' -> k = k'.
Proof.
  revert k k'. induction d as [|x d IH]; intros [|y k] [|z k'] H1 H2 H; try discriminate; [reflexivity|].
  cbn [bsxor] in H. injection H1 as H1. injection H2 as H2.
  pose proof (f_equal (hd x00) H) as Hh. pose proof (f_equal (@tl byte) H) as Ht. cbn [hd tl] in Hh, Ht.
  f_equal; [|exact (IH k k' H1 H2 Ht)].
  rewrite !(bxor_comm x) in Hh. rewrite <- (bxor_involutive y x), Hh. apply bxor_involutive.
Qed.

Lemma flat_map_app' {A B} (f : A -> list B) a b : flat_map f (a ++ b) = flat_map f a ++ flat_map f b.
Proof. induction a; [reflexivity|]. cbn [app flat_map]. rewrite IHa, app_assoc. reflexivity. Qed.

(** C55: ...and differs from it otherwise, for any block cipher that is injective (as AES
    is, see C80): data of whole blocks is encrypted as in the standard exactly if the low
    64 bits do not overflow. *)
Lemma c55_cipher_differs_on_overflow :
  forall (P : Prims) (key iv d : bytes) (n : nat),
  SymLaws P ->
  (forall a b, length a = 16 -> length b = 16 -> aes256 P key a = aes256 P key b -> a = b) ->
  length iv = 16 -> length d = 16 * n ->
  (apply_keystream P V3 key iv d = Ok (aes256_ctr P key iv d) <-> ctr_safe iv (length d)).
Proof.
  intros P key iv d n L Inj Liv Ld. split; [intros H|apply c55_cipher_agrees; exact Liv].
  unfold ctr_safe, blocks. rewrite Ld. replace ((16 * n + 15) / 16) with n by lia.
  destruct (N.le_gt_cases (be_val (skipn 8 iv) + N.of_nat n) two64) as [G|G]; [exact G|exfalso].
  cbn [apply_keystream] in H. unfold aes256ctr_ks, aes256_ctr in H. rewrite bsxor_firstn, Ld in H.
  replace ((16 * n + 15) / 16) with n in H by lia.
  apply (f_equal (fun o => match o with Ok x => x | _ => [] end)) in H. cbv beta iota in H.
  apply bsxor_cancel in H;
    [|rewrite (flat_map_const_length _ 16) by (intros; apply (aes_len _ L)); rewrite seq_length; lia..].
  pose proof (proj2 (proj2 (iv_val iv Liv))) as B.
  set (i := N.to_nat (two64 - be_val (skipn 8 iv))).
  assert (Hi : (N.of_nat i = two64 - be_val (skipn 8 iv))%N) by apply N2Nat.id.
  replace n with (i + S (n - S i)) in H by lia.
  rewrite seq_app, !flat_map_app' in H.
  apply app_inj_len in H as [_ H]; [|rewrite !(flat_map_const_length _ 16) by (intros; apply (aes_len _ L)); reflexivity].
  cbn [seq flat_map plus] in H. apply app_inj_len in H as [H _]; [|rewrite !(aes_len _ L); reflexivity].
  apply Inj in H.
  - apply ctr_blocks_agree in H; [lia|exact Liv|lia].
  - unfold ctr64_block. rewrite app_length, firstn_length, be_bytes_length. lia.
  - unfold ctr128_block. apply be_bytes_length.
Qed.

(** C55: so a v3 token for a message of whole blocks is the standard's token exactly if the
    low 64 bits of the derived counter do not overflow. *)
Lemma c55_token_is_spec_iff :
  forall (P : Prims) (M F E : Type) (EN : Encoding E M) (FC : FooterCodec F)
         (t : ValidatedToken M F E) (key implicit m f : bytes) (r : rng) (n : nat),
  SymLaws P ->
  (forall k a b, length a = 16 -> length b = 16 -> aes256 P k a = aes256 P k b -> a = b) ->
  e_encode EN (vt_encoding t) (vt_message t) = COk m ->
  f_encode FC (vt_footer t) = Some f ->
  local_sizes V3 (suffix EN) m f implicit -> length m = 16 * n ->
  (fst (encrypt_with_rng P V3 EN FC t key implicit r) =
   Ok {| st_encoding := vt_encoding t;
         st_payload := local_encrypt P V3 (suffix EN) key (draw r 0 32) m f implicit;
         st_encoded_footer := f; st_footer := vt_footer t |} <->
   ctr_safe (local_iv P V3 key (draw r 0 32)) (length m)).
Proof.
  intros P M F E EN FC t key i m f r n L Inj He Hf Hs Lm. split; intros H.
  - unfold encrypt_with_rng in H. rewrite fill_eq, encrypt_inner_eq, He, Hf in H.
    cbn [payload_err unwrap obind] in H. change (draw r 0 NONCE_LEN) with (draw r 0 32) in H.
    set (z := draw r 0 32) in *.
    apply (c55_cipher_differs_on_overflow P (local_ek P V3 key z) (local_iv P V3 key z) m n L (Inj _)
             (local_iv_len P key z L) Lm).
    destruct (apply_keystream P V3 (local_ek P V3 key z) (local_iv P V3 key z) m) as [c| |] eqn:Ec; try discriminate.
    cbn [obind fst] in H.
    apply (f_equal (fun o => match o with Ok x => st_payload x | _ => [] end)) in H. cbv beta iota in H.
    cbn [st_payload] in H. unfold local_encrypt in H. apply app_inv_head in H.
    apply app_inj_len in H as [H _].
    + rewrite H. reflexivity.
    + rewrite local_cipher_length by exact L. exact (proj1 (apply_keystream_invol _ _ _ _ _ _ L Ec)).
  - rewrite (c15_encrypt_is_spec P M F E V3 EN FC t key i m f r L He Hf Hs H). reflexivity.
Qed.

(** C53, local tokens: the printed length is determined by the lengths of message,
    footer and suffix. *)
Lemma c53_local_text_length :
  forall (P : Prims) (M F E : Type) (v : version) (EN : Encoding E M) (FC : FooterCodec F)
         (t : ValidatedToken M F E) (key implicit m f : bytes) (r : rng) tok r',
  SymLaws P ->
  e_encode EN (vt_encoding t) (vt_message t) = COk m -> f_encode FC (vt_footer t) = Some f ->
  encrypt_with_rng P v EN FC t key implicit r = (Ok tok, r') ->
  length (token_display v PLocal (suffix EN) tok) =
  length (suffix EN) + 9 + (4 * (32 + length m + tag_len v) + 2) / 3
  + match f with [] => 0 | _ => 1 + (4 * length f + 2) / 3 end.
Proof.
  intros P M F E v EN FC t key i m f r tok r' L He Hf H.
  unfold encrypt_with_rng in H. rewrite fill_eq, encrypt_inner_eq, He, Hf in H. cbn [payload_err unwrap obind] in H.
  assert (Ln : length (draw r 0 NONCE_LEN) = 32) by apply draw_length.
  set (n := draw r 0 NONCE_LEN) in *. clearbody n.
  destruct (apply_keystream P v _ _ m) as [c| |] eqn:K; cbn [obind] in H; try discriminate.
  injection H as <- <-. apply apply_keystream_invol in K as [Lc _]; [|exact L].
  rewrite token_display_spec. cbn [st_payload st_encoded_footer]. unfold token_text.
  assert (Lh : length (token_header v PLocal (suffix EN)) = length (suffix EN) + 9).
  { destruct v; cbn [token_header local_header]; rewrite !app_length; cbn [length str]; cbn; lia. }
  assert (Lb : length (n ++ c ++ mtag P v (suffix EN) key n c f i) = 32 + length m + tag_len v).
  { rewrite !app_length, mtag_len, Lc by exact L. lia. }
  destruct f as [|x f].
  - rewrite app_length, base64url_length, Lh, Lb. lia.
  - rewrite !app_length, !base64url_length, Lh, Lb. cbn [length str]. cbn [list_byte_of_string]. cbn. lia.
Qed.
