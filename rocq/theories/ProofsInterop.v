(** Proofs for C74 (what is accepted is exactly what the standards produce) and C75 (sealed
    texts fit every content of the same length). *)
From Coq Require Import ZArith ZifyBool ZifyNat ZifyN.
From Verif Require Import Bytes Outcome Base64 Prims Version Key Token Local Public Wrap Pbkw Pke
  SpecBase64 SpecPaseto SpecPaserk SpecText SpecKey SpecDetail Observe.
From Verif Require Import BytesLemmas Base64Lemmas TextLemmas TokenLemmas CipherLemmas ProofsText ProofsPublic
  ProofsLocal ProofsKey ProofsWrap.
Ltac Zify.zify_post_hook ::= Z.div_mod_to_equations.

(** ** C74 *)

Lemma body_of_parts v n c tg : length n = 32 -> length tg = tag_len v ->
  body_nonce (n ++ c ++ tg) = n /\ body_cipher v (n ++ c ++ tg) = c.
Proof.
  intros Ln Lt. unfold body_nonce, body_cipher. split; [apply firstn_app_exact, Ln|].
  rewrite (skipn_app_exact n) by exact Ln. apply firstn_app_exact. rewrite !app_length. lia.
Qed.

Lemma local_cipher_invol (P : Prims) v key n d : SymLaws P -> local_safe P v key n (length d) ->
  local_cipher P v key n (local_cipher P v key n d) = d.
Proof.
  intros L S. pose proof (keystream_local_spec P v key n d L S) as H1.
  apply apply_keystream_invol in H1 as [Lc H1]; [|exact L].
  rewrite keystream_local_spec in H1 by (first [exact L|rewrite Lc; exact S]). apply ok_inj in H1. exact H1.
Qed.

Lemma local_tag_len (P : Prims) v sfx key n c f i : SymLaws P ->
  length (local_tag P v sfx key n c f i) = tag_len v.
Proof.
  intros L. unfold local_tag. destruct (local_split P v key n) as [[ek n2] ak].
  destruct v; [apply (hmac_len _ L)|apply (blake2b_mac_len _ L); cbn [tag_len]; lia].
Qed.

(** C74: decryption yields a message exactly for the payloads that the standard's encryption
    produces, for some 32-byte nonce, from bytes that decode to the message. *)
Lemma c74_decrypt_accepts_iff_encrypted :
  forall (P : Prims) (M F E : Type) (v : version) (EN : Encoding E M)
         (t : SecuredToken F E) (key implicit : bytes) (x : ValidatedToken M F E),
  SymLaws P ->
  let b := st_payload t in
  let f := st_encoded_footer t in
  local_sizes v (suffix EN) (body_cipher v b) f implicit ->
  local_safe P v key (body_nonce b) (length (body_cipher v b)) ->
  (decrypt_with_assertions P v EN t key implicit = Ok x <->
   vt_encoding x = st_encoding t /\ vt_footer x = st_footer t /\
   exists n m, length n = 32 /\ b = local_encrypt P v (suffix EN) key n m f implicit /\
               e_decode EN (st_encoding t) m = COk (vt_message x)).
Proof.
  intros P M F E v EN t key i x L b f Hs S. split.
  - intros H. destruct (Nat.lt_ge_cases (length b) (32 + tag_len v)) as [Lb|Lb].
    { rewrite decrypt_short in H by exact Lb. discriminate. }
    rewrite decrypt_body in H by exact Lb. fold b f in H.
    destruct (body_parts v b Lb) as (Eb & Ln & Lt & _).
    rewrite mtag_spec in H by assumption.
    destruct (bseqb (body_tag v b) _) eqn:T; [|discriminate]. apply bseqb_eq in T.
    rewrite keystream_local_spec in H by assumption. cbn [obind] in H.
    destruct (e_decode EN (st_encoding t) _) as [msg|] eqn:D; cbn [payload_err obind] in H; [|discriminate].
    apply ok_inj in H. subst x. cbn [vt_encoding vt_footer vt_message]. split; [reflexivity|]. split; [reflexivity|].
    exists (body_nonce b), (local_cipher P v key (body_nonce b) (body_cipher v b)).
    split; [exact Ln|]. split; [|exact D]. unfold local_encrypt. cbv zeta.
    rewrite local_cipher_invol by assumption. rewrite <- T. exact Eb.
  - intros (He & Hf & n & m & Ln & Hb & D). unfold local_encrypt in Hb. cbv zeta in Hb.
    set (c := local_cipher P v key n m) in Hb. set (tg := local_tag P v _ key n c f i) in Hb.
    assert (Lt : length tg = tag_len v) by (apply local_tag_len, L).
    destruct (body_of_parts v n c tg Ln Lt) as [En Ec]. rewrite <- Hb in En, Ec. rewrite En, Ec in S. rewrite Ec in Hs.
    rewrite (decrypt_parts P v EN t key i n c tg Hb Ln Lt). fold f. rewrite mtag_spec by assumption. fold tg.
    rewrite bseqb_refl, keystream_local_spec by assumption. cbn [obind].
    assert (Lc : length c = length m) by (apply local_cipher_length, L).
    unfold c at 1. rewrite local_cipher_invol; [|exact L|rewrite <- Lc; exact S].
    rewrite D. cbn [payload_err obind]. rewrite <- He, <- Hf. destruct x; reflexivity.
Qed.

(** C74: every text the standard composes for a local token is read and decrypted to the
    message and the footer it was made from. *)
Lemma c74_standard_local_text_opens :
  forall (P : Prims) (M F E : Type) (v : version) (EN : Encoding E M) (FC : FooterCodec F)
         (key n m f implicit : bytes) (msg : M) (foot : F),
  SymLaws P -> length n = 32 ->
  local_sizes v (suffix EN) m f implicit -> local_safe P v key n (length m) ->
  e_decode EN (e_default EN) m = COk msg -> f_decode FC f = COk foot ->
  exists t : SecuredToken F E,
    token_parse v PLocal (suffix EN) (e_default EN) FC
      (token_text (local_header v (suffix EN)) (local_encrypt P v (suffix EN) key n m f implicit) f) = Ok t /\
    unverified_footer t = foot /\
    decrypt_with_assertions P v EN t key implicit =
      Ok {| vt_encoding := e_default EN; vt_message := msg; vt_footer := foot |}.
Proof.
  intros P M F E v EN FC key n m f i msg foot L Ln Hs S D Df.
  set (b := local_encrypt P v (suffix EN) key n m f i).
  set (t := {| st_encoding := e_default EN; st_payload := b; st_encoded_footer := f; st_footer := foot |}).
  exists t. split; [|split; [reflexivity|]].
  - change (local_header v (suffix EN)) with (token_header v PLocal (suffix EN)).
    change (token_text (token_header v PLocal (suffix EN)) b f)
      with (token_text (token_header v PLocal (suffix EN)) (st_payload t) (st_encoded_footer t)).
    rewrite <- token_display_spec.
    rewrite (c07_token_text_roundtrip F E v PLocal (suffix EN) (e_default EN) FC t foot Df). reflexivity.
  - set (c := local_cipher P v key n m).
    assert (Lc : length c = length m) by (apply local_cipher_length, L).
    destruct (body_of_parts v n c (local_tag P v (suffix EN) key n c f i) Ln (local_tag_len P v _ key n c f i L)) as [En Ec].
    change (n ++ c ++ local_tag P v (suffix EN) key n c f i) with b in En, Ec.
    assert (Hs' : local_sizes v (suffix EN) c f i).
    { destruct Hs as (H1 & H2 & H3 & H4). unfold local_sizes. repeat split; try assumption.
      unfold rust_slice, nlen in *. rewrite Lc. exact H2. }
    apply (c74_decrypt_accepts_iff_encrypted P M F E v EN t key i); cbn [t st_payload st_encoded_footer st_encoding st_footer].
    + exact L.
    + rewrite Ec. exact Hs'.
    + rewrite En, Ec, Lc. exact S.
    + cbn [vt_encoding vt_footer vt_message]. split; [reflexivity|]. split; [reflexivity|]. exists n, m. auto.
Qed.

(** C74: verification yields a message exactly for the payloads that consist of bytes decoding
    to the message and a signature (for v3: two scalars) that the standard accepts. *)
Lemma c74_verify_accepts_iff_signed :
  forall (P : Prims) (M F E : Type) (v : version) (EN : Encoding E M)
         (t : SecuredToken F E) (pk implicit : bytes) (x : ValidatedToken M F E),
  valid_key P v Public pk = true ->
  let b := st_payload t in
  let f := st_encoded_footer t in
  public_sizes v (suffix EN) (body_message v b) f implicit ->
  (verify_with_assertions P v EN t pk implicit = Ok x <->
   vt_encoding x = st_encoding t /\ vt_footer x = st_footer t /\
   exists m sg, b = m ++ sg /\ length sg = sig_len v /\
     (v = V3 -> scalar384 (firstn 48 sg) /\ scalar384 (skipn 48 sg)) /\
     public_valid P v (suffix EN) pk m f implicit sg = true /\
     e_decode EN (st_encoding t) m = COk (vt_message x)).
Proof.
  intros P M F E v EN t pk i x Hk b f Hs.
  assert (PV : forall m sg, public_sizes v (suffix EN) m f i ->
            valid_sig P v pk (preauth v pk (suffix EN) m f i) sg = public_valid P v (suffix EN) pk m f i sg).
  { intros m sg Hm. rewrite preauth_spec by (first [apply (valid_pk_slice P v _ Hk)|exact Hm]). destruct v; reflexivity. }
  assert (SG : forall sg, match v with V3 => negb (p_sig_ok sg) | V4 => false end = false <->
            (v = V3 -> scalar384 (firstn 48 sg) /\ scalar384 (skipn 48 sg))).
  { intros sg. destruct v; [|split; [discriminate|reflexivity]].
    rewrite negb_false_iff. unfold p_sig_ok. rewrite andb_true_iff, !scalar384_iff. tauto. }
  split.
  - intros H. destruct (Nat.lt_ge_cases (length b) (sig_len v)) as [Lb|Lb].
    { rewrite verify_short in H by exact Lb. discriminate. }
    destruct (pub_body_parts v b Lb) as [Eb Ls].
    rewrite verify_body in H by exact Lb. fold b f in H. rewrite PV in H by exact Hs.
    destruct (match v with V3 => _ | V4 => _ end) eqn:G; [discriminate|].
    destruct (public_valid P v _ pk _ f i _) eqn:V; [|discriminate].
    destruct (e_decode EN (st_encoding t) _) as [msg|] eqn:D; cbn [payload_err obind] in H; [|discriminate].
    apply ok_inj in H. subst x. cbn [vt_encoding vt_footer vt_message]. split; [reflexivity|]. split; [reflexivity|].
    exists (body_message v b), (body_sig v b).
    split; [exact Eb|]. split; [exact Ls|]. split; [exact (proj1 (SG _) G)|]. split; [exact V|exact D].
  - intros (He & Hf & m & sg & Hb & Ls & G0 & V & D). pose proof (proj2 (SG sg) G0) as G.
    assert (Em : body_message v b = m).
    { unfold body_message. rewrite Hb, app_length, Ls, Nat.add_sub. apply firstn_app_exact. reflexivity. }
    rewrite Em in Hs. rewrite (verify_parts P v EN t pk i m sg Hb Ls). fold f.
    rewrite G, PV, V, D by exact Hs. cbn [payload_err obind]. rewrite <- He, <- Hf. destruct x; reflexivity.
Qed.

(** C74: every text composed from bytes and a signature the standard accepts is read and
    verified. *)
Lemma c74_standard_public_text_opens :
  forall (P : Prims) (M F E : Type) (v : version) (EN : Encoding E M) (FC : FooterCodec F)
         (pk m f implicit sg : bytes) (msg : M) (foot : F),
  valid_key P v Public pk = true -> public_sizes v (suffix EN) m f implicit ->
  length sg = sig_len v -> (v = V3 -> scalar384 (firstn 48 sg) /\ scalar384 (skipn 48 sg)) ->
  public_valid P v (suffix EN) pk m f implicit sg = true ->
  e_decode EN (e_default EN) m = COk msg -> f_decode FC f = COk foot ->
  exists t : SecuredToken F E,
    token_parse v PPublic (suffix EN) (e_default EN) FC
      (token_text (public_header v (suffix EN)) (m ++ sg) f) = Ok t /\
    unverified_footer t = foot /\
    verify_with_assertions P v EN t pk implicit =
      Ok {| vt_encoding := e_default EN; vt_message := msg; vt_footer := foot |}.
Proof.
  intros P M F E v EN FC pk m f i sg msg foot Hk Hs Ls G V D Df.
  set (t := {| st_encoding := e_default EN; st_payload := m ++ sg; st_encoded_footer := f; st_footer := foot |}).
  exists t. split; [|split; [reflexivity|]].
  - change (public_header v (suffix EN)) with (token_header v PPublic (suffix EN)).
    change (token_text (token_header v PPublic (suffix EN)) (m ++ sg) f)
      with (token_text (token_header v PPublic (suffix EN)) (st_payload t) (st_encoded_footer t)).
    rewrite <- token_display_spec.
    rewrite (c07_token_text_roundtrip F E v PPublic (suffix EN) (e_default EN) FC t foot Df). reflexivity.
  - apply (c74_verify_accepts_iff_signed P M F E v EN t pk i); cbn [t st_payload st_encoded_footer st_encoding st_footer].
    + exact Hk.
    + unfold body_message. rewrite app_length, Ls, Nat.add_sub, (firstn_app_exact m) by reflexivity. exact Hs.
    + cbn [vt_encoding vt_footer vt_message]. split; [reflexivity|]. split; [reflexivity|]. exists m, sg. repeat (split; [first [reflexivity|assumption]|]). assumption.
Qed.

Lemma pie_cipher_invol (P : Prims) v w wk n d : SymLaws P -> length d = key_size v (wtype_key w) ->
  pie_safe P v w wk n ->
  length (pie_cipher P v wk n d) = length d /\ pie_cipher P v wk n (pie_cipher P v wk n d) = d.
Proof.
  intros L Ld S. pose proof (keystream_pie_spec P v w wk n d L Ld S) as H1.
  apply apply_keystream_invol in H1 as [Lc H1]; [|exact L].
  rewrite (keystream_pie_spec P v w) in H1 by (first [exact L|exact S|congruence]). apply ok_inj in H1. auto.
Qed.

Lemma encodes_length (P : Prims) v w b key : EdSizes P -> encodes P v (wtype_key w) b key ->
  length b = key_size v (wtype_key w).
Proof.
  intros L. destruct v, w; cbn [wtype_key encodes key_size].
  - intros [H ->]. exact H.
  - intros [H ->]. apply H.
  - intros [H ->]. exact H.
  - intros (H & _ & ->). rewrite app_length, (ed_pub_len _ L), H by exact H. reflexivity.
Qed.

(** C74: a PIE text is unwrapped to a key exactly if it is the standard's wrapping, under some
    nonce, of an encoding of that key. *)
Lemma c74_pie_accepts_iff_wrapped :
  forall (P : Prims) (v : version) (w : wtype) (wk s key : bytes),
  Sizes P ->
  ((exists x, pie_parse v w s = Ok x /\ pie_safe P v w wk (pie_nonce x) /\ unwrap_pie P v w x wk = Ok key) <->
   (exists n kb, length n = 32 /\ pie_safe P v w wk n /\ encodes P v (wtype_key w) kb key /\
      s = pie_h v w ++ base64url (pie_wrap_body P v w wk n kb))).
Proof.
  intros P v w wk s key L. split.
  - intros (x & Hp & S & H). apply pie_parse_ok_iff in Hp as [(Lt & Ln & Lk) ->].
    rewrite unwrap_pie_eq in H by exact L.
    destruct (bseqb (pie_tag x) _) eqn:T; [|discriminate]. apply bseqb_eq in T.
    rewrite (keystream_pie_spec P v w) in H by (first [exact L|assumption]). cbn [obind] in H.
    destruct (pie_cipher_invol P v w wk (pie_nonce x) (pie_key x) L Lk S) as [Lc Hi].
    exists (pie_nonce x), (pie_cipher P v wk (pie_nonce x) (pie_key x)).
    split; [exact Ln|]. split; [exact S|]. split.
    + apply key_from_bytes_iff; [exact L|congruence|exact H].
    + unfold pie_wrap_body. cbv zeta. rewrite Hi, <- T. reflexivity.
  - intros (n & kb & Ln & S & He & ->). pose proof (encodes_length P v w kb key L He) as Lk.
    unfold pie_wrap_body. cbv zeta. destruct (pie_cipher_invol P v w wk n kb L Lk S) as [Lc Hi].
    set (c := pie_cipher P v wk n kb) in *.
    exists {| pie_tag := pie_spec_tag P v w wk n c; pie_nonce := n; pie_key := c |}.
    split; [|split; [exact S|]].
    + apply pie_parse_ok_iff. split; [|reflexivity]. refine (conj _ (conj _ _)); cbn [pie_tag pie_nonce pie_key].
      * apply pie_spec_tag_len, L.
      * exact Ln.
      * congruence.
    + rewrite unwrap_pie_eq by exact L. cbn [pie_tag pie_nonce pie_key]. rewrite bseqb_refl.
      rewrite (keystream_pie_spec P v w) by (first [exact L|exact S|congruence]). cbn [obind]. rewrite Hi.
      apply key_from_bytes_iff; [exact L|exact Lk|exact He].
Qed.

Lemma pw_cipher_invol (P : Prims) v w ek n d : SymLaws P -> length d = key_size v (wtype_key w) ->
  length n = pw_nonce_size v -> pw_safe v w n ->
  length (cipher P v ek n d) = length d /\ cipher P v ek n (cipher P v ek n d) = d.
Proof.
  intros L Ld Ln S. pose proof (keystream_pw_spec P v w ek n d L Ld Ln S) as H1.
  apply apply_keystream_invol in H1 as [Lc H1]; [|exact L].
  rewrite (keystream_pw_spec P v w) in H1 by (first [exact L|exact S|exact Ln|congruence]). apply ok_inj in H1. auto.
Qed.

(** C74: a password-wrapped key is opened to a key exactly if its printed text is the
    standard's wrapping of an encoding of that key, under the settings it carries, and the key
    derivation accepts these.  (The printed text rather than the text read: see C44.) *)
Lemma c74_pw_accepts_iff_wrapped :
  forall (P : Prims) (v : version) (w : wtype) (x : PwWrapped v) (pw key : bytes),
  Sizes P -> pw_wf v w x -> pw_safe v w (pw_nonce x) ->
  let st := pw_settings x in
  (pw_unwrap P v w x pw = Ok key <->
   kdf_accepts v pw st /\
   exists kb, encodes P v (wtype_key w) kb key /\
     pw_display v w x =
       Ok (pw_h v w ++ base64url (pw_wrap_body P v w pw (pw_salt x) (pw_nonce x) kb
             (st_mem v st) (st_time v st) (st_para v st) (st_iters v st)))).
Proof.
  intros P v w x pw key L (Ls & Hu & Ln & Lk & Lt) S st. unfold pw_wrap_body. cbv zeta.
  fold (prekey P v pw (pw_salt x) st). rewrite <- encode_state_spec by exact Hu.
  set (k := prekey P v pw (pw_salt x) st). split.
  - intros H. destruct (kdf_accepts_dec v pw st) as [Ha|Ha]; [|rewrite pw_unwrap_panics in H by exact Ha; discriminate].
    split; [exact Ha|]. rewrite pw_unwrap_eq in H by exact Ha. change (pw_state x) with st in H. fold k in H.
    destruct (bseqb (pw_tag x) _) eqn:T; [|discriminate]. apply bseqb_eq in T.
    rewrite (keystream_pw_spec P v w) in H by (first [exact L|assumption]). cbn [obind] in H.
    destruct (pw_cipher_invol P v w (pw_ek P v k) (pw_nonce x) (pw_edk x) L Lk Ln S) as [Lc Hi].
    exists (cipher P v (pw_ek P v k) (pw_nonce x) (pw_edk x)). split.
    + apply key_from_bytes_iff; [exact L|congruence|exact H].
    + rewrite pw_display_eq, Hi, <- T. reflexivity.
  - intros (Ha & kb & He & Hd). pose proof (encodes_length P v w kb key L He) as Lkb.
    destruct (pw_cipher_invol P v w (pw_ek P v k) (pw_nonce x) kb L Lkb Ln S) as [Lc Hi].
    rewrite pw_display_eq in Hd. apply ok_inj in Hd. apply app_inv_head in Hd. apply base64url_inj in Hd.
    apply app_inv_head in Hd. change (pw_state x) with st in Hd. apply app_inv_head in Hd. apply app_inv_head in Hd.
    apply app_inj_len in Hd as [Ec Et]; [|congruence].
    rewrite pw_unwrap_eq by exact Ha. change (pw_state x) with st. fold k. rewrite Et, <- Ec, bseqb_refl.
    rewrite (keystream_pw_spec P v w) by (first [exact L|assumption]). cbn [obind]. rewrite Ec, Hi.
    apply key_from_bytes_iff; [exact L|exact Lkb|exact He].
Qed.

(** C74: every text of the password-wrapping standard with settings that the key derivation
    accepts is read, with these settings, and opened. *)
Lemma c74_standard_pw_text_opens :
  forall (P : Prims) (v : version) (w : wtype) (pw salt n kb key : bytes) (st : kdf_state v),
  Sizes P -> length salt = pw_salt_size v -> length n = pw_nonce_size v -> pw_safe v w n ->
  state_u32 v st = true -> kdf_accepts v pw st -> encodes P v (wtype_key w) kb key ->
  exists x, pw_parse v w (pw_h v w ++ base64url (pw_wrap_body P v w pw salt n kb
                (st_mem v st) (st_time v st) (st_para v st) (st_iters v st))) = Ok x /\
            pw_settings x = st /\ pw_unwrap P v w x pw = Ok key.
Proof.
  intros P v w pw salt n kb key st L Ls Ln S Hu Ha He. unfold pw_wrap_body. cbv zeta.
  fold (prekey P v pw salt st). rewrite <- encode_state_spec by exact Hu.
  set (k := prekey P v pw salt st). set (c := cipher P v (pw_ek P v k) n kb).
  pose proof (encodes_length P v w kb key L He) as Lkb.
  destruct (pw_cipher_invol P v w (pw_ek P v k) n kb L Lkb Ln S) as [Lc Hi]. fold c in Lc, Hi.
  set (x := {| pw_salt := salt; pw_state := st; pw_nonce := n; pw_edk := c;
               pw_tag := pw_spec_tag P v w k salt (encode_state v st) n c |} : PwWrapped v).
  assert (Hw : pw_wf v w x).
  { unfold pw_wf, x. cbn [pw_salt pw_state pw_nonce pw_edk pw_tag].
    split; [exact Ls|]. split; [exact Hu|]. split; [exact Ln|]. split; [congruence|apply pw_spec_tag_len, L]. }
  exists x. split; [|split; [reflexivity|]].
  - apply pw_parse_ok_raw. exists (encode_state v st). split; [exact Hw|]. split; [apply encode_state_length|].
    split; [apply decode_encode_state, Hu|reflexivity].
  - apply (c74_pw_accepts_iff_wrapped P v w x pw key L Hw S). split; [exact Ha|]. exists kb. split; [exact He|].
    rewrite pw_display_eq. unfold pw_wrap_body. cbv zeta. change (pw_settings x) with st. change (pw_salt x) with salt.
    change (pw_nonce x) with n. fold (prekey P v pw salt st). fold k. rewrite <- encode_state_spec by exact Hu. reflexivity.
Qed.

Lemma seal_cipher_invol (P : Prims) v xk epk hpk d : SymLaws P -> length d = 32 -> seal_safe P v xk epk hpk ->
  length (cipher P v (sl_ek P v xk epk hpk) (sl_n P v xk epk hpk) d) = length d /\
  cipher P v (sl_ek P v xk epk hpk) (sl_n P v xk epk hpk) (cipher P v (sl_ek P v xk epk hpk) (sl_n P v xk epk hpk) d) = d.
Proof.
  intros L Ld S. pose proof (keystream_seal_spec P v xk epk hpk d L Ld S) as H1.
  apply apply_keystream_invol in H1 as [Lc H1]; [|exact L].
  rewrite keystream_seal_spec in H1 by (first [exact L|exact S|congruence]). apply ok_inj in H1. auto.
Qed.

Lemma seal_body_eq (P : Prims) v xk epk hpk pdk : seal_body P v xk epk hpk pdk =
  let edk := cipher P v (sl_ek P v xk epk hpk) (sl_n P v xk epk hpk) pdk in
  seal_spec_tag P v xk epk hpk edk ++ epk ++ edk.
Proof. unfold seal_body, sl_ek, sl_n. destruct (seal_ek_n P v xk epk hpk). reflexivity. Qed.

(** C74: a sealed text is opened to a key exactly if it is the standard's sealing of these 32
    bytes for some ephemeral key from which the receiver can derive a shared secret. *)
Lemma c74_unseal_accepts_iff_sealed :
  forall (P : Prims) (v : version) (s sk pdk : bytes),
  Sizes P -> valid_key P v Secret sk = true ->
  let hpk := hashed_pk P v (public_key P v sk) in
  ((exists x xk, seal_parse v s = Ok x /\ recv_xk P v sk (sl_epk x) = Some xk /\
                 seal_safe P v xk (sl_epk x) hpk /\ unseal P v x sk = Ok pdk) <->
   (exists epk xk, length epk = epk_size v /\ recv_xk P v sk epk = Some xk /\ seal_safe P v xk epk hpk /\
      length pdk = 32 /\ s = seal_h v ++ base64url (seal_body P v xk epk hpk pdk))).
Proof.
  intros P v s sk pdk L Hk hpk. split.
  - intros (x & xk & Hp & Hx & S & H). apply seal_parse_ok_iff in Hp as [(Lt & Ln & Lk) ->].
    rewrite unseal_eq in H by exact Hk. rewrite Hx in H. fold hpk in H.
    destruct (bseqb (sl_tag x) _) eqn:T; [|discriminate]. apply bseqb_eq in T.
    rewrite keystream_seal_spec in H by (first [exact L|assumption]). apply ok_inj in H.
    destruct (seal_cipher_invol P v xk (sl_epk x) hpk (sl_edk x) L Lk S) as [Lc Hi].
    exists (sl_epk x), xk. split; [exact Ln|]. split; [exact Hx|]. split; [exact S|]. split; [congruence|].
    rewrite seal_body_eq. cbv zeta. rewrite <- H, Hi, <- T. reflexivity.
  - intros (epk & xk & Le & Hx & S & Lp & ->). rewrite seal_body_eq. cbv zeta.
    destruct (seal_cipher_invol P v xk epk hpk pdk L Lp S) as [Lc Hi].
    set (c := cipher P v (sl_ek P v xk epk hpk) (sl_n P v xk epk hpk) pdk) in *.
    exists {| sl_tag := seal_spec_tag P v xk epk hpk c; sl_epk := epk; sl_edk := c |}, xk.
    split; [|split; [exact Hx|split; [exact S|]]].
    + apply seal_parse_ok_iff. split; [|reflexivity]. unfold seal_wf. cbn [sl_tag sl_epk sl_edk].
      split; [rewrite seal_spec_tag_mac; apply mac_len, L|]. split; [exact Le|congruence].
    + rewrite unseal_eq by exact Hk. cbn [sl_tag sl_epk sl_edk]. rewrite Hx. fold hpk. rewrite bseqb_refl.
      rewrite keystream_seal_spec by (first [exact L|exact S|congruence]). rewrite Hi. reflexivity.
Qed.

(** ** C75 *)

(** The keystream that turns [d] into [c], 16 bytes at a time, looked up by counter block. *)
Definition chunk (x : bytes) (i : nat) : bytes :=
  firstn 16 (firstn 16 (skipn (16 * i) x) ++ repeat x00 16).
Definition fit_aes (P : Prims) (ek iv x : bytes) (k b : bytes) : bytes :=
  match find (fun i => bseqb (ctr64_block iv i) b) (seq 0 ((length x + 15) / 16)) with
  | Some i => if bseqb k ek then chunk x i else aes256 P k b
  | None => aes256 P k b
  end.
Definition fit_xchacha (P : Prims) (ek iv x : bytes) (k n : bytes) (len : nat) : bytes :=
  if bseqb k ek && bseqb n iv && (len =? length x) then x else xchacha20_ks P k n len.
Definition fit (P : Prims) (ek iv x : bytes) : Prims :=
  recipher P (fit_aes P ek iv x) (fit_xchacha P ek iv x).

Lemma chunk_length x i : length (chunk x i) = 16.
Proof. unfold chunk. rewrite firstn_length, app_length, repeat_length. lia. Qed.

Lemma fit_laws (P : Prims) ek iv x : SymLaws P -> SymLaws (fit P ek iv x).
Proof.
  intros L. constructor; cbn [sha384 hmac_sha384 hkdf_sha384 aes256 pbkdf2_sha384_32 blake2b blake2b_mac
    xchacha20_ks argon2id_32 fit recipher sym].
  - apply (sha384_len _ L).
  - apply (hmac_len _ L).
  - apply (hkdf_len _ L).
  - intros k b. unfold fit_aes. destruct (find _ _) as [i|]; [|apply (aes_len _ L)].
    destruct (bseqb k ek); [apply chunk_length|apply (aes_len _ L)].
  - apply (pbkdf2_len _ L).
  - apply (blake2b_len _ L).
  - apply (blake2b_mac_len _ L).
  - intros k n len. unfold fit_xchacha. destruct (bseqb k ek && bseqb n iv && (len =? length x)) eqn:E; [|apply (xchacha_len _ L)].
    apply andb_true_iff in E as [_ E]. apply Nat.eqb_eq in E. auto.
  - apply (argon2_len _ L).
Qed.

Lemma ctr64_block_inj iv i j : (N.of_nat i < two64)%N -> (N.of_nat j < two64)%N ->
  ctr64_block iv i = ctr64_block iv j -> i = j.
Proof.
  intros Hi Hj H. unfold ctr64_block in H. apply app_inv_head in H.
  apply be_bytes_inj in H; [|change (256 ^ N.of_nat 8)%N with two64; apply N.mod_lt; discriminate..].
  revert H. generalize (be_val (skipn 8 iv)). intros a H. unfold two64 in *.
  assert (E : ((a + N.of_nat i) mod 18446744073709551616 = (a + N.of_nat j) mod 18446744073709551616)%N) by exact H.
  lia.
Qed.

Lemma find_block iv n j : (N.of_nat n < two64)%N -> j < n ->
  find (fun i => bseqb (ctr64_block iv i) (ctr64_block iv j)) (seq 0 n) = Some j.
Proof.
  intros Hn Hj.
  destruct (find (fun i => bseqb (ctr64_block iv i) (ctr64_block iv j)) (seq 0 n)) as [i|] eqn:E.
  - apply find_some in E as [Hi E]. apply in_seq in Hi. apply bseqb_eq in E.
    apply ctr64_block_inj in E; [congruence|lia|lia].
  - exfalso. assert (Q : bseqb (ctr64_block iv j) (ctr64_block iv j) = false) by (apply (find_none _ _ E j), in_seq; lia).
    rewrite bseqb_refl in Q. discriminate.
Qed.

Lemma firstn_flat_chunks x : forall k, firstn (length x) (flat_map (chunk x) (seq 0 k)) = firstn (16 * k) x.
Proof.
  assert (HC : forall k, exists z, flat_map (chunk x) (seq 0 k) = firstn (16 * k) x ++ z /\ (16 * k <= length x -> z = [])).
  { induction k as [|k (z & IH & Hz)].
    - exists []. rewrite Nat.mul_0_r. auto.
    - rewrite seq_S, flat_map_app, IH. cbn [flat_map Nat.add]. rewrite app_nil_r.
      destruct (Nat.le_gt_cases (16 * S k) (length x)) as [H|H].
      + exists []. rewrite Hz by lia. rewrite !app_nil_r. split; [|auto].
        unfold chunk. rewrite (firstn_app_exact (firstn 16 (skipn (16 * k) x)))
          by (rewrite firstn_length, skipn_length; lia).
        replace (16 * S k) with (16 * k + 16) by lia.
        rewrite <- (firstn_skipn (16 * k) x) at 3. rewrite firstn_app, firstn_firstn, firstn_length.
        replace (Nat.min (16 * k + 16) (16 * k)) with (16 * k) by lia.
        replace (16 * k + 16 - Nat.min (16 * k) (length x)) with 16 by lia. reflexivity.
      + rewrite (firstn_all2 (n := 16 * S k) x) by lia.
        destruct (Nat.le_gt_cases (16 * k) (length x)) as [H2|H2].
        * rewrite Hz by exact H2. rewrite app_nil_r. unfold chunk.
          rewrite (firstn_all2 (n := 16) (skipn (16 * k) x)) by (rewrite skipn_length; lia).
          rewrite firstn_app, (firstn_all2 (n := 16) (skipn (16 * k) x)) by (rewrite skipn_length; lia).
          rewrite app_assoc, firstn_skipn. eexists. split; [reflexivity|]. lia.
        * rewrite firstn_all2 by lia. rewrite <- app_assoc. eexists. split; [reflexivity|]. lia. }
  intros k. destruct (HC k) as (z & -> & Hz).
  destruct (Nat.le_gt_cases (16 * k) (length x)) as [H|H].
  - rewrite Hz by exact H. rewrite app_nil_r, firstn_all2; [reflexivity|]. rewrite firstn_length. lia.
  - rewrite (firstn_all2 (n := 16 * k)) by lia. apply firstn_app_exact. reflexivity.
Qed.

Lemma fit_keystream (P : Prims) v ek iv d c : length d = length c -> within_limit v (nlen d) ->
  (nlen d < two64)%N -> apply_keystream (fit P ek iv (bsxor c d)) v ek iv d = Ok c.
Proof.
  intros Ld Hl Hb. set (x := bsxor c d).
  assert (Lx : length x = length d) by (unfold x; rewrite bsxor_length; lia).
  assert (Ex : bsxor d x = c).
  { unfold x. clear - Ld. revert c Ld. induction d as [|a d IH]; intros [|b c] L; cbn [length] in L; try discriminate; [reflexivity|].
    cbn [bsxor]. rewrite IH by lia. f_equal. rewrite (bxor_comm a). rewrite bxor_involutive. reflexivity. }
  destruct v; cbn [apply_keystream within_limit] in *.
  - f_equal. unfold aes256ctr_ks. rewrite <- Lx.
    assert (HF : flat_map (fun i => aes256 (fit P ek iv x) ek (ctr64_block iv i)) (seq 0 ((length x + 15) / 16))
                 = flat_map (chunk x) (seq 0 ((length x + 15) / 16))).
    { rewrite !flat_map_concat_map. f_equal. apply map_ext_in. intros i Hi. apply in_seq in Hi.
      cbn [aes256 fit recipher sym]. unfold fit_aes. rewrite find_block by (unfold nlen in Hb; lia).
      rewrite bseqb_refl. reflexivity. }
    rewrite HF, firstn_flat_chunks, firstn_all2 by lia. exact Ex.
  - destruct (N.ltb_spec xchacha20_limit (nlen d)); [lia|]. f_equal.
    cbn [xchacha20_ks fit recipher sym]. unfold fit_xchacha. rewrite !bseqb_refl, Lx, Nat.eqb_refl. exact Ex.
Qed.

Lemma slice_two64 b : rust_slice b -> (nlen b < two64)%N.
Proof. unfold rust_slice, two63, two64. lia. Qed.

(** C75: a local token fits every message of the same length: for each there is a cipher (all
    other primitives unchanged) under which encrypting that message gives the same token. *)
Lemma c75_token_fits_any_message :
  forall (P : Prims) (M F E : Type) (v : version) (EN : Encoding E M) (FC : FooterCodec F)
         (t t' : ValidatedToken M F E) (key implicit m m' : bytes) (r r' : rng) (tok : SecuredToken F E),
  SymLaws P ->
  e_encode EN (vt_encoding t) (vt_message t) = COk m ->
  e_encode EN (vt_encoding t') (vt_message t') = COk m' ->
  vt_encoding t' = vt_encoding t -> vt_footer t' = vt_footer t ->
  length m' = length m -> rust_slice m' ->
  encrypt_with_rng P v EN FC t key implicit r = (Ok tok, r') ->
  exists aes xchacha, let Q := recipher P aes xchacha in
    SymLaws Q /\ encrypt_with_rng Q v EN FC t' key implicit r = (Ok tok, r').
Proof.
  intros P M F E v EN FC t t' key i m m' r r' tok L He He' Hen Hft Ll Hm H.
  unfold encrypt_with_rng in *. rewrite fill_eq in *. change NONCE_LEN with 32 in *.
  set (n := draw r 0 32) in *.
  assert (Hr : advance r 32 = r') by congruence.
  assert (Ho : encrypt_inner P v EN FC t key n i = Ok tok) by congruence. clear H.
  rewrite encrypt_inner_eq, He in Ho. cbn [payload_err obind] in Ho.
  destruct (f_encode FC (vt_footer t)) as [f|] eqn:Hf; cbn [unwrap obind] in Ho; [|discriminate].
  destruct (apply_keystream P v (local_ek P v key n) (local_iv P v key n) m) as [c| |] eqn:Hc; cbn [obind] in Ho; try discriminate.
  pose proof (apply_keystream_invol P v _ _ _ _ L Hc) as [Lc _].
  assert (Hw : within_limit v (nlen m')).
  { unfold nlen. rewrite Ll. destruct v; [exact I|]. cbn [apply_keystream within_limit] in *. unfold nlen in Hc.
    destruct (N.ltb_spec xchacha20_limit (N.of_nat (length m))); [discriminate|lia]. }
  exists (fit_aes P (local_ek P v key n) (local_iv P v key n) (bsxor c m')),
         (fit_xchacha P (local_ek P v key n) (local_iv P v key n) (bsxor c m')).
  cbv zeta. fold (fit P (local_ek P v key n) (local_iv P v key n) (bsxor c m')).
  set (Q := fit P _ _ _). split; [apply fit_laws, L|]. rewrite Hr. f_equal.
  rewrite encrypt_inner_eq, He', Hft, Hf. cbn [payload_err unwrap obind].
  change (local_ek Q v key n) with (local_ek P v key n). change (local_iv Q v key n) with (local_iv P v key n).
  unfold Q at 1. rewrite fit_keystream by (first [congruence|exact Hw|apply slice_two64, Hm]). cbn [obind].
  rewrite Hen. exact Ho.
Qed.

(** C75: a PIE-wrapped key fits every key of its type. *)
Lemma c75_pie_fits_any_key :
  forall (P : Prims) (v : version) (w : wtype) (key key' wk : bytes) (r r' : rng) (x : PieWrapped),
  Sizes P -> valid_key P v (wtype_key w) key = true -> valid_key P v (wtype_key w) key' = true ->
  wrap_pie P v w key wk r = (Ok x, r') ->
  exists aes xchacha, let Q := recipher P aes xchacha in
    SymLaws Q /\ wrap_pie Q v w key' wk r = (Ok x, r').
Proof.
  intros P v w key key' wk r r' x L Hk Hk' H. rewrite wrap_pie_eq in H by exact L. cbv zeta in H.
  set (n := draw r 0 32) in *. assert (Hr : advance r 32 = r') by congruence.
  pose proof (key_to_bytes_length P v (wtype_key w) key L Hk) as Lk.
  pose proof (key_to_bytes_length P v (wtype_key w) key' L Hk') as Lk'.
  destruct (apply_keystream P v (pie_ek P v wk n) (pie_n2 P v wk n) _) as [c| |] eqn:Hc; cbn [obind] in H; try discriminate.
  pose proof (apply_keystream_invol P v _ _ _ _ L Hc) as [Lc _].
  set (kb := key_to_bytes P v (wtype_key w) key') in *.
  exists (fit_aes P (pie_ek P v wk n) (pie_n2 P v wk n) (bsxor c kb)),
         (fit_xchacha P (pie_ek P v wk n) (pie_n2 P v wk n) (bsxor c kb)).
  cbv zeta. fold (fit P (pie_ek P v wk n) (pie_n2 P v wk n) (bsxor c kb)).
  set (Q := fit P _ _ _). assert (LQ : SymLaws Q) by (apply fit_laws, L). split; [exact LQ|].
  rewrite wrap_pie_eq by exact LQ. cbv zeta. fold n. rewrite Hr.
  change (pie_ek Q v wk n) with (pie_ek P v wk n). change (pie_n2 Q v wk n) with (pie_n2 P v wk n).
  change (key_to_bytes Q v (wtype_key w) key') with kb.
  unfold Q at 1. rewrite fit_keystream; [|congruence|exact (key_limit v (wtype_key w) _ Lk')|].
  - cbn [obind]. rewrite Hr in H. exact H.
  - unfold nlen. rewrite Lk'. destruct v, w; reflexivity.
Qed.

(** C75: a password-wrapped key fits every key of its type. *)
Lemma c75_pw_fits_any_key :
  forall (P : Prims) (v : version) (w : wtype) (key key' pw : bytes) (st : kdf_state v) (r r' : rng) (x : PwWrapped v),
  Sizes P -> valid_key P v (wtype_key w) key = true -> valid_key P v (wtype_key w) key' = true ->
  pw_wrap P v w key pw st r = (Ok x, r') ->
  exists aes xchacha, let Q := recipher P aes xchacha in
    SymLaws Q /\ pw_wrap Q v w key' pw st r = (Ok x, r').
Proof.
  intros P v w key key' pw st r r' x L Hk Hk' H.
  destruct (kdf_accepts_dec v pw st) as [Ha|Ha]; [|rewrite pw_wrap_panics in H by exact Ha; discriminate].
  rewrite pw_wrap_eq in H by exact Ha. cbv zeta in H.
  set (salt := draw r 0 (pw_salt_size v)) in *. set (n := draw r (pw_salt_size v) (pw_nonce_size v)) in *.
  pose proof (key_to_bytes_length P v (wtype_key w) key L Hk) as Lk.
  pose proof (key_to_bytes_length P v (wtype_key w) key' L Hk') as Lk'.
  set (ek := pw_ek P v (prekey P v pw salt st)) in *.
  destruct (apply_keystream P v ek n _) as [c| |] eqn:Hc; cbn [obind] in H; try discriminate.
  pose proof (apply_keystream_invol P v _ _ _ _ L Hc) as [Lc _].
  set (kb := key_to_bytes P v (wtype_key w) key') in *.
  exists (fit_aes P ek n (bsxor c kb)), (fit_xchacha P ek n (bsxor c kb)).
  cbv zeta. fold (fit P ek n (bsxor c kb)).
  set (Q := fit P _ _ _). assert (LQ : SymLaws Q) by (apply fit_laws, L). split; [exact LQ|].
  rewrite pw_wrap_eq by exact Ha. cbv zeta. fold salt n.
  change (pw_ek Q v (prekey Q v pw salt st)) with ek. change (key_to_bytes Q v (wtype_key w) key') with kb.
  unfold Q at 1. rewrite fit_keystream; [|congruence|exact (key_limit v (wtype_key w) _ Lk')|].
  - cbn [obind]. exact H.
  - unfold nlen. rewrite Lk'. destruct v, w; reflexivity.
Qed.

(** C75: a sealed key fits every 32-byte key. *)
Lemma c75_seal_fits_any_key :
  forall (P : Prims) (v : version) (fuel : nat) (pdk pdk' pk : bytes) (r r' : rng) (x : Sealed),
  SymLaws P -> length pdk = 32 -> length pdk' = 32 ->
  seal P v fuel pdk pk r = Some (Ok x, r') ->
  exists aes xchacha, let Q := recipher P aes xchacha in
    SymLaws Q /\ seal Q v fuel pdk' pk r = Some (Ok x, r').
Proof.
  intros P v fuel pdk pdk' pk r r' x L Lp Lp' H.
  destruct (seal_inv _ _ _ _ _ _ _ _ H) as (e & He & Hx).
  assert (HS : forall (Q : Prims) d, seal Q v fuel d pk r = Some (seal_with Q v d pk e, r')).
  { intros Q d. destruct v; cbn [seal ephemeral] in *.
    - rewrite He. reflexivity.
    - rewrite fill_eq. assert (E1 : draw r 0 32 = e) by congruence. assert (E2 : advance r 32 = r') by congruence.
      rewrite E1, E2. reflexivity. }
  rewrite seal_with_eq in Hx. cbv zeta in Hx.
  set (xk := send_xk P v e pk) in *. set (epk := send_epk P v e) in *. set (hpk := hashed_pk P v pk) in *.
  destruct (apply_keystream P v (sl_ek P v xk epk hpk) (sl_n P v xk epk hpk) pdk) as [c| |] eqn:Hc;
    cbn [obind] in Hx; try discriminate.
  pose proof (apply_keystream_invol P v _ _ _ _ L Hc) as [Lc _].
  exists (fit_aes P (sl_ek P v xk epk hpk) (sl_n P v xk epk hpk) (bsxor c pdk')),
         (fit_xchacha P (sl_ek P v xk epk hpk) (sl_n P v xk epk hpk) (bsxor c pdk')).
  cbv zeta. fold (fit P (sl_ek P v xk epk hpk) (sl_n P v xk epk hpk) (bsxor c pdk')).
  set (Q := fit P _ _ _). split; [apply fit_laws, L|]. rewrite HS. f_equal. f_equal.
  rewrite seal_with_eq. cbv zeta.
  change (send_xk Q v e pk) with xk. change (send_epk Q v e) with epk. change (hashed_pk Q v pk) with hpk.
  change (sl_ek Q v xk epk hpk) with (sl_ek P v xk epk hpk). change (sl_n Q v xk epk hpk) with (sl_n P v xk epk hpk).
  unfold Q at 1. rewrite fit_keystream; [|congruence| |].
  - cbn [obind]. symmetry. exact Hx.
  - apply (key_limit v Local). destruct v; exact Lp'.
  - unfold nlen. rewrite Lp'. reflexivity.
Qed.
