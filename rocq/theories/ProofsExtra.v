(** Proofs about malleability, key commitment, separation of features and URL safety. *)
From Coq Require Import ZArith ZifyBool ZifyNat ZifyN.
From Verif Require Import Bytes Outcome Base64 Pae Prims Version Key Token Local Public Plaintext KeyId
  Wrap Pbkw Pke SpecBase64 SpecPaseto SpecPaserk SpecText SpecKey SpecSep Observe.
From Verif Require Import BytesLemmas Base64Lemmas PaeLemmas TextLemmas TokenLemmas CipherLemmas
  ProofsText ProofsLocal ProofsPublic ProofsKey ProofsWrap.

(** ** C59: signatures and tags *)

Lemma be_bytes48 n : (n < p384_n)%N -> be_val (be_bytes 48 n) = n.
Proof. intros H. apply be_val_be_bytes. eapply N.lt_trans; [exact H|]. reflexivity. Qed.

(** C59: v3.public tokens are malleable.  ECDSA verification accepts (r, n - s) whenever it
    accepts (r, s); then every accepted token has a different text that is accepted as the same
    token. *)
Lemma c59_v3_token_text_unique_refuted :
  forall (P : Prims) (M F E : Type) (EN : Encoding E M) (FC : FooterCodec F)
         (t : SecuredToken F E) (pk implicit : bytes) (out : ValidatedToken M F E),
  (forall k d r s s', length r = 48 -> p_scalar_ok s = true -> p_scalar_ok s' = true -> (be_val s + be_val s' = p384_n)%N ->
     p_verify P k d (r ++ s) = p_verify P k d (r ++ s')) ->
  f_decode FC (st_encoded_footer t) = COk (st_footer t) -> st_encoding t = e_default EN ->
  verify_with_assertions P V3 EN t pk implicit = Ok out ->
  exists text t',
    text <> token_display V3 PPublic (suffix EN) t /\
    token_parse V3 PPublic (suffix EN) (e_default EN) FC text = Ok t' /\
    st_encoded_footer t' = st_encoded_footer t /\
    body_message V3 (st_payload t') = body_message V3 (st_payload t) /\
    verify_with_assertions P V3 EN t' pk implicit = Ok out.
Proof.
  intros P M F E EN FC t pk i out Sy Hf He H. pose proof H as H0.
  apply verify_ok_inv in H as (Lb & Hv & Hd & Ho). cbv zeta in *.
  set (m := body_message V3 (st_payload t)) in *. set (sg := body_sig V3 (st_payload t)) in *.
  destruct (pub_body_parts V3 _ Lb) as (Eb & Ls). fold m in Eb. fold sg in Eb, Ls. cbn [sig_len] in Ls.
  assert (Hok : p_sig_ok sg = true).
  { rewrite (verify_parts P V3 EN t pk i m sg Eb Ls) in H0. destruct (p_sig_ok sg); [reflexivity|discriminate]. }
  set (r := firstn 48 sg). set (s := skipn 48 sg).
  assert (Es : sg = r ++ s) by (symmetry; apply firstn_skipn).
  assert (Lr : length r = 48) by (unfold r; rewrite firstn_length; lia).
  assert (Hok2 := Hok). unfold p_sig_ok in Hok2. fold r in Hok2. fold s in Hok2. apply andb_true_iff in Hok2 as (Kr & Ks).
  assert (Ks2 := Ks). unfold p_scalar_ok in Ks2. rewrite !andb_true_iff, negb_true_iff in Ks2.
  destruct Ks2 as ((K1 & K2) & K3).
  apply Nat.eqb_eq in K1. apply N.eqb_neq in K2. apply N.ltb_lt in K3.
  set (s' := be_bytes 48 (p384_n - be_val s)).
  assert (Ls' : length s' = 48) by apply be_bytes_length.
  assert (Bs' : be_val s' = (p384_n - be_val s)%N) by (apply be_bytes48; lia).
  assert (Ks' : p_scalar_ok s' = true).
  { unfold p_scalar_ok. rewrite !andb_true_iff, negb_true_iff, Ls', Bs'.
    split; [split; [reflexivity|apply N.eqb_neq; lia]|apply N.ltb_lt; lia]. }
  assert (Ne : s' <> s).
  { intros C. assert (D : be_val s' = be_val s) by congruence. rewrite Bs' in D.
    assert (D2 : (p384_n = 2 * be_val s)%N) by lia.
    assert (O : N.odd p384_n = true) by reflexivity.
    rewrite D2, N.odd_mul in O. discriminate O. }
  set (t' := {| st_encoding := e_default EN; st_payload := m ++ r ++ s';
                st_encoded_footer := st_encoded_footer t; st_footer := st_footer t |}).
  exists (token_display V3 PPublic (suffix EN) t'), t'. refine (conj _ (conj _ (conj _ (conj _ _)))).
  - intros C. rewrite !token_display_spec in C. apply Ne.
    assert (D : token_parse V3 PPublic (suffix EN) (e_default EN) FC (token_display V3 PPublic (suffix EN) t')
              = token_parse V3 PPublic (suffix EN) (e_default EN) FC (token_display V3 PPublic (suffix EN) t)).
    { rewrite !token_display_spec, C. reflexivity. }
    rewrite !(c07_token_text_roundtrip F E V3 PPublic (suffix EN) (e_default EN) FC _ (st_footer t)) in D by exact Hf.
    assert (D2 : m ++ r ++ s' = m ++ r ++ s) by (rewrite <- Es, <- Eb; unfold t' in D; cbn [st_payload] in D; congruence).
    apply app_inv_head in D2. apply app_inv_head in D2. exact D2.
  - rewrite (c07_token_text_roundtrip F E V3 PPublic (suffix EN) (e_default EN) FC _ (st_footer t)) by exact Hf. reflexivity.
  - reflexivity.
  - unfold body_message, t'. cbn [st_payload sig_len]. apply firstn_app_exact. rewrite !app_length, Lr, Ls'. lia.
  - rewrite (verify_parts P V3 EN t' pk i m (r ++ s')) by (try reflexivity; rewrite app_length, Lr, Ls'; reflexivity).
    assert (Q : p_sig_ok (r ++ s') = true).
    { unfold p_sig_ok. rewrite (firstn_app_exact r), (skipn_app_exact r), Kr, Ks' by exact Lr. reflexivity. }
    rewrite Q. cbn [negb]. cbn [valid_sig t' st_encoded_footer st_encoding st_footer] in *.
    rewrite <- (Sy _ _ r s s' Lr Ks Ks') by lia. rewrite <- Es, Hv, <- He, Hd. cbn [payload_err obind].
    rewrite <- Ho. reflexivity.
Qed.

(** C59: for local tokens and wrapped keys there is exactly one accepted tag: two accepted
    values that agree in everything but the tag are equal. *)
Lemma c59_tags_are_unique :
  forall (P : Prims) (v : version), Sizes P ->
  (forall (M F E : Type) (EN : Encoding E M) (t1 t2 : SecuredToken F E) key i x1 x2,
     decrypt_with_assertions P v EN t1 key i = Ok x1 -> decrypt_with_assertions P v EN t2 key i = Ok x2 ->
     body_nonce (st_payload t1) = body_nonce (st_payload t2) ->
     body_cipher v (st_payload t1) = body_cipher v (st_payload t2) ->
     st_encoded_footer t1 = st_encoded_footer t2 ->
     st_payload t1 = st_payload t2) /\
  (forall w x1 x2 wk k1 k2,
     unwrap_pie P v w x1 wk = Ok k1 -> unwrap_pie P v w x2 wk = Ok k2 ->
     pie_nonce x1 = pie_nonce x2 -> pie_key x1 = pie_key x2 -> x1 = x2) /\
  (forall w (x1 x2 : PwWrapped v) pw k1 k2,
     pw_unwrap P v w x1 pw = Ok k1 -> pw_unwrap P v w x2 pw = Ok k2 ->
     pw_salt x1 = pw_salt x2 -> pw_state x1 = pw_state x2 -> pw_nonce x1 = pw_nonce x2 -> pw_edk x1 = pw_edk x2 ->
     x1 = x2) /\
  (forall x1 x2 sk k1 k2, valid_key P v Secret sk = true ->
     unseal P v x1 sk = Ok k1 -> unseal P v x2 sk = Ok k2 ->
     sl_epk x1 = sl_epk x2 -> sl_edk x1 = sl_edk x2 -> x1 = x2).
Proof.
  intros P v L. refine (conj _ (conj _ (conj _ _))).
  - intros M F E EN t1 t2 key i x1 x2 D1 D2 Hn Hc Hf.
    apply decrypt_ok_inv in D1 as (L1 & T1 & _). apply decrypt_ok_inv in D2 as (L2 & T2 & _). cbv zeta in *.
    destruct (body_parts v _ L1) as (E1 & _). destruct (body_parts v _ L2) as (E2 & _). congruence.
  - intros w x1 x2 wk k1 k2 D1 D2 Hn Hk. rewrite unwrap_pie_eq in D1, D2 by exact L.
    destruct (bseqb (pie_tag x1) _) eqn:B1; [|discriminate]. destruct (bseqb (pie_tag x2) _) eqn:B2; [|discriminate].
    apply bseqb_eq in B1, B2. destruct x1 as [t1 n1 e1], x2 as [t2 n2 e2]. cbn [pie_tag pie_nonce pie_key] in *. congruence.
  - intros w x1 x2 pw k1 k2 D1 D2 Hs Hst Hn Hk.
    destruct (kdf_accepts_dec v pw (pw_state x1)) as [A1|A1]; [|rewrite pw_unwrap_panics in D1 by exact A1; discriminate].
    assert (A2 : kdf_accepts v pw (pw_state x2)) by (rewrite <- Hst; exact A1).
    rewrite pw_unwrap_eq in D1 by exact A1. rewrite pw_unwrap_eq in D2 by exact A2. cbv zeta in *.
    destruct (bseqb (pw_tag x1) _) eqn:B1; [|discriminate]. destruct (bseqb (pw_tag x2) _) eqn:B2; [|discriminate].
    apply bseqb_eq in B1, B2. destruct x1 as [s1 q1 n1 e1 t1], x2 as [s2 q2 n2 e2 t2]. cbn [pw_salt pw_state pw_nonce pw_edk pw_tag] in *. congruence.
  - intros x1 x2 sk k1 k2 Vk D1 D2 He Hd. rewrite unseal_eq in D1, D2 by exact Vk.
    destruct (recv_xk P v sk (sl_epk x1)) as [xk1|] eqn:R1; [|discriminate].
    destruct (recv_xk P v sk (sl_epk x2)) as [xk2|] eqn:R2; [|discriminate].
    destruct (bseqb (sl_tag x1) _) eqn:B1; [|discriminate]. destruct (bseqb (sl_tag x2) _) eqn:B2; [|discriminate].
    apply bseqb_eq in B1, B2. destruct x1 as [t1 p1 e1], x2 as [t2 p2 e2]. cbn [sl_tag sl_epk sl_edk] in *. congruence.
Qed.

(** ** C63: key commitment *)

(** C63: a local token accepted under two pairs of key and assertion: the pairs are equal, or
    the key derivation collides, or the MAC collides on explicit inputs. *)
Lemma c63_token_commits_to_key :
  forall (P : Prims) (M1 M2 F E : Type) (v : version) (EN1 : Encoding E M1) (EN2 : Encoding E M2)
         (t : SecuredToken F E) (key1 key2 i1 i2 : bytes) x1 x2,
  let n := body_nonce (st_payload t) in
  let c := body_cipher v (st_payload t) in
  let f := st_encoded_footer t in
  local_sizes v (suffix EN1) c f i1 -> local_sizes v (suffix EN2) c f i2 ->
  decrypt_with_assertions P v EN1 t key1 i1 = Ok x1 ->
  decrypt_with_assertions P v EN2 t key2 i2 = Ok x2 ->
  let a1 := local_ak P v key1 n in
  let a2 := local_ak P v key2 n in
  let m1 := PAE [local_header v (suffix EN1); n; c; f; i1] in
  let m2 := PAE [local_header v (suffix EN2); n; c; f; i2] in
  (key1 = key2 /\ i1 = i2 /\ suffix EN1 = suffix EN2) \/
  (key1 <> key2 /\ a1 = a2) \/
  ((a1, m1) <> (a2, m2) /\ mac P v a1 m1 = mac P v a2 m2).
Proof.
  intros P M1 M2 F E v EN1 EN2 t key1 key2 i1 i2 x1 x2 n c f S1 S2 D1 D2 a1 a2 m1 m2.
  apply decrypt_ok_inv in D1 as (L1 & T1 & _). apply decrypt_ok_inv in D2 as (L2 & T2 & _). cbv zeta in *.
  fold n c f in T1, T2. destruct (body_parts v _ L1) as (_ & Ln & _). fold n in Ln.
  rewrite mtag_spec, local_tag_mac in T1 by assumption. rewrite mtag_spec, local_tag_mac in T2 by assumption.
  fold a1 m1 in T1. fold a2 m2 in T2.
  destruct (bytes_eq_dec a1 a2) as [Ea|Na]; [|right; right; split; congruence].
  destruct (bytes_eq_dec m1 m2) as [Em|Nm]; [|right; right; split; congruence].
  destruct (bytes_eq_dec key1 key2) as [Ek|Nk]; [|right; left; split; assumption].
  left. unfold m1, m2 in Em. rewrite <- !local_pae in Em by assumption. apply flat_pae_inj in Em.
  - apply local_pieces_inj in Em. tauto.
  - apply fits_slices; [reflexivity|apply local_pieces_slices; assumption].
  - apply fits_slices; [reflexivity|apply local_pieces_slices; assumption].
Qed.

(** C63: a wrapped key accepted under two wrapping keys. *)
Lemma c63_pie_commits_to_key :
  forall (P : Prims) (v : version) (w1 w2 : wtype) (x : PieWrapped) (wk1 wk2 k1 k2 : bytes),
  Sizes P ->
  unwrap_pie P v w1 x wk1 = Ok k1 -> unwrap_pie P v w2 x wk2 = Ok k2 ->
  let a1 := pie_ak P v wk1 (pie_nonce x) in
  let a2 := pie_ak P v wk2 (pie_nonce x) in
  let m1 := pie_h v w1 ++ pie_nonce x ++ pie_key x in
  let m2 := pie_h v w2 ++ pie_nonce x ++ pie_key x in
  (wk1 = wk2 /\ w1 = w2 /\ k1 = k2) \/ (wk1 <> wk2 /\ a1 = a2) \/
  ((a1, m1) <> (a2, m2) /\ mac P v a1 m1 = mac P v a2 m2).
Proof.
  intros P v w1 w2 x wk1 wk2 k1 k2 L D1 D2 a1 a2 m1 m2. assert (D1' := D1). assert (D2' := D2).
  rewrite unwrap_pie_eq in D1, D2 by exact L.
  destruct (bseqb (pie_tag x) (pie_spec_tag P v w1 wk1 _ _)) eqn:B1; [|discriminate].
  destruct (bseqb (pie_tag x) (pie_spec_tag P v w2 wk2 _ _)) eqn:B2; [|discriminate].
  apply bseqb_eq in B1, B2. rewrite pie_spec_tag_mac in B1, B2. fold a1 m1 in B1. fold a2 m2 in B2.
  destruct (bytes_eq_dec a1 a2) as [Ea|Na]; [|right; right; split; congruence].
  destruct (bytes_eq_dec m1 m2) as [Em|Nm]; [|right; right; split; congruence].
  destruct (bytes_eq_dec wk1 wk2) as [Ek|Nk]; [|right; left; split; assumption].
  left. apply pie_h_split in Em as (Ew & _). subst wk2 w2.
  split; [reflexivity|]. split; [reflexivity|]. congruence.
Qed.

(** C63: a password-wrapped key accepted under two passwords. *)
Lemma c63_pw_commits_to_password :
  forall (P : Prims) (v : version) (w : wtype) (x : PwWrapped v) (pw1 pw2 k1 k2 : bytes),
  Sizes P ->
  pw_unwrap P v w x pw1 = Ok k1 -> pw_unwrap P v w x pw2 = Ok k2 ->
  let st := pw_settings x in
  let pre pw := pw_prekey P v pw (pw_salt x) (st_mem v st) (st_time v st) (st_para v st) (st_iters v st) in
  let a1 := pw_ak P v (pre pw1) in
  let a2 := pw_ak P v (pre pw2) in
  pw1 = pw2 \/
  (pw1 <> pw2 /\ pre pw1 = pre pw2) \/
  (pre pw1 <> pre pw2 /\ a1 = a2) \/
  (a1 <> a2 /\ exists m, mac P v a1 m = mac P v a2 m /\ starts (pw_h v w) m).
Proof.
  intros P v w x pw1 pw2 k1 k2 L D1 D2 st pre a1 a2.
  destruct (kdf_accepts_dec v pw1 (pw_state x)) as [A1|A1]; [|rewrite pw_unwrap_panics in D1 by exact A1; discriminate].
  destruct (kdf_accepts_dec v pw2 (pw_state x)) as [A2|A2]; [|rewrite pw_unwrap_panics in D2 by exact A2; discriminate].
  rewrite pw_unwrap_eq in D1 by exact A1. rewrite pw_unwrap_eq in D2 by exact A2. cbv zeta in *.
  destruct (bseqb (pw_tag x) (pw_spec_tag P v w (prekey P v pw1 _ _) _ _ _ _)) eqn:B1; [|discriminate].
  destruct (bseqb (pw_tag x) (pw_spec_tag P v w (prekey P v pw2 _ _) _ _ _ _)) eqn:B2; [|discriminate].
  apply bseqb_eq in B1, B2. rewrite pw_spec_tag_mac in B1, B2.
  change (prekey P v pw1 (pw_salt x) (pw_state x)) with (pre pw1) in B1.
  change (prekey P v pw2 (pw_salt x) (pw_state x)) with (pre pw2) in B2.
  fold a1 in B1. fold a2 in B2.
  destruct (bytes_eq_dec pw1 pw2) as [?|N1]; [left; assumption|right].
  destruct (bytes_eq_dec (pre pw1) (pre pw2)) as [?|N2]; [left; split; assumption|right].
  destruct (bytes_eq_dec a1 a2) as [?|N3]; [left; split; assumption|right].
  split; [exact N3|]. eexists. split; [rewrite <- B1; exact B2|]. eexists. reflexivity.
Qed.

(** C63: a sealed key opened by two secret keys: same public key in the hashes and same shared
    secret, or a collision of the key-derivation hash or of the MAC. *)
Lemma c63_seal_commits_to_recipient :
  forall (P : Prims) (v : version) (s : bytes) (x : Sealed) (sk1 sk2 k1 k2 xk1 xk2 : bytes),
  Sizes P -> seal_parse v s = Ok x ->
  valid_key P v Secret sk1 = true -> valid_key P v Secret sk2 = true ->
  recv_xk P v sk1 (sl_epk x) = Some xk1 -> recv_xk P v sk2 (sl_epk x) = Some xk2 ->
  unseal P v x sk1 = Ok k1 -> unseal P v x sk2 = Ok k2 ->
  let h1 := hashed_pk P v (public_key P v sk1) in
  let h2 := hashed_pk P v (public_key P v sk2) in
  let a1 := seal_ak P v xk1 (sl_epk x) h1 in
  let a2 := seal_ak P v xk2 (sl_epk x) h2 in
  let m := seal_h v ++ sl_epk x ++ sl_edk x in
  (xk1 = xk2 /\ h1 = h2 /\ k1 = k2) \/
  ((xk1, h1) <> (xk2, h2) /\ a1 = a2) \/
  (a1 <> a2 /\ mac P v a1 m = mac P v a2 m).
Proof.
  intros P v s x sk1 sk2 k1 k2 xk1 xk2 L Hp V1 V2 R1 R2 D1 D2 h1 h2 a1 a2 m.
  rewrite unseal_eq in D1, D2 by assumption. rewrite R1 in D1. rewrite R2 in D2. fold h1 in D1. fold h2 in D2.
  destruct (bseqb (sl_tag x) (seal_spec_tag P v xk1 _ _ _)) eqn:B1; [|discriminate].
  destruct (bseqb (sl_tag x) (seal_spec_tag P v xk2 _ _ _)) eqn:B2; [|discriminate].
  apply bseqb_eq in B1, B2. rewrite seal_spec_tag_mac in B1, B2. fold a1 m in B1. fold a2 m in B2.
  destruct (bytes_eq_dec a1 a2) as [Ea|Na]; [|right; right; split; congruence].
  destruct (bytes_eq_dec xk1 xk2) as [Ex|Nx]; [|right; left; split; congruence].
  destruct (bytes_eq_dec h1 h2) as [Eh|Nh]; [|right; left; split; congruence].
  left. split; [exact Ex|]. split; [exact Eh|]. congruence.
Qed.

(** ** C60: separation of features *)

Lemma starts_first p b m : starts (b :: p) m -> exists r, m = b :: r.
Proof. intros (r & ->). exists (p ++ r). reflexivity. Qed.

Lemma kind_starts a b m : is_paserk a = true -> is_paserk b = true ->
  starts (kind_header a) m -> starts (kind_header b) m -> a = b.
Proof.
  intros Ka Kb (x & ->) (y & H). apply paserk_kinds_all in Ka, Kb.
  apply prefix_compare in H as [C|C]; [|symmetry]; apply paserk_headers_disjoint; assumption.
Qed.

(** C60: no message is given to the MAC, or to the hash, by two different features, even when
    they share a key. *)
Lemma c60_features_disjoint :
  forall (f g : feature) (m : bytes),
  (mac_use f m -> mac_use g m -> f = g) /\
  (forall out, hash_use f out m -> hash_use g out m -> f = g).
Proof.
  assert (K : forall a, is_paserk a = true -> exists p, kind_header a = x6b :: p).
  { intros a Ha. apply paserk_kinds_all in Ha. vm_compute in Ha.
    repeat (destruct Ha as [<-|Ha]; [vm_compute; eexists; reflexivity|]). destruct Ha. }
  (* the first byte decides, except among the headers *)
  assert (S0 : forall a m, is_paserk a = true -> starts (kind_header a) m -> exists r, m = x6b :: r).
  { intros a m Ha H. destruct (K a Ha) as (p & E). rewrite E in H. exact (starts_first _ _ _ H). }
  assert (T0 : forall m, starts (LE64 5) m -> exists r, m = x05 :: r).
  { intros m H. change (LE64 5) with [x05; x00; x00; x00; x00; x00; x00; x00] in H. exact (starts_first _ _ _ H). }
  assert (T1 : forall m, starts (str "paseto-encryption-key") m -> exists r, m = x70 :: r).
  { intros m H. change (str "paseto-encryption-key") with (x70 :: str "aseto-encryption-key") in H. exact (starts_first _ _ _ H). }
  assert (T2 : forall m, starts (str "paseto-auth-key-for-aead") m -> exists r, m = x70 :: r).
  { intros m H. change (str "paseto-auth-key-for-aead") with (x70 :: str "aseto-auth-key-for-aead") in H. exact (starts_first _ _ _ H). }
  assert (One : forall b m, starts [b] m -> exists r, m = b :: r) by (intros b m; apply starts_first).
  assert (FM : forall f m, mac_use f m ->
    match f with
    | FToken => exists r, m = x70 :: r \/ m = x05 :: r
    | FPie => (exists r, m = x80 :: r \/ m = x81 :: r) \/ exists v w, starts (kind_header (KPie v w)) m
    | FPw => exists v w, starts (kind_header (KPw v w)) m
    | FSeal => exists v, starts (kind_header (KSeal v)) m
    | _ => False
    end).
  { intros f m. destruct f; cbn [mac_use kind_header]; try (intros H; exact H).
    - intros [H|[H|H]]; [apply T1 in H|apply T2 in H|apply T0 in H]; destruct H as (r & ->); exists r; auto.
    - intros [H|[H|H]]; [apply One in H|apply One in H|]; [left|left|right; exact H]; destruct H as (r & ->); exists r; auto. }
  intros f g m. split.
  - intros H1 H2. apply FM in H1, H2.
    destruct f, g; try reflexivity; try contradiction; exfalso;
      repeat match goal with
      | H : exists _, _ |- _ => destruct H
      | H : _ \/ _ |- _ => destruct H
      | H : starts (kind_header ?a) m, G : starts (kind_header ?b) m |- _ =>
          pose proof (kind_starts a b m eq_refl eq_refl H G); clear H; discriminate
      | H : starts (kind_header ?a) m |- _ =>
          let r := fresh "r" in destruct (S0 a m eq_refl H) as (r & ?); clear H
      end; try congruence; discriminate.
  - intros out H1 H2. destruct f, g; try reflexivity; try contradiction; exfalso; cbn [hash_use] in *;
      repeat match goal with
      | H : _ /\ _ |- _ => destruct H
      | H : exists _, _ |- _ => destruct H
      | H : _ \/ _ |- _ => destruct H
      | H : starts [_] m |- _ => apply One in H
      | H : starts (LE64 5) m |- _ => apply T0 in H
      | H : starts (id_h ?v ?k) m |- _ => apply (S0 (KId v k) m eq_refl) in H
      end; congruence.
Qed.

(** C60: inside the key-wrapping features, version and key type are separated too: a tag message
    carries the header of exactly one kind of PASERK. *)
Lemma c60_headers_disjoint :
  forall (a b : text_kind) (m : bytes),
  is_paserk a = true -> is_paserk b = true ->
  starts (kind_header a) m -> starts (kind_header b) m -> a = b.
Proof. exact kind_starts. Qed.

Section Confined.
  Context (A : Asym) (S1 S2 : Sym).
  Let P1 := {| sym := S1; asym := A |}.
  Let P2 := {| sym := S2; asym := A |}.

  Lemma keystream_agree f v key iv d : f <> FSign -> f <> FId -> agree f S1 S2 ->
    apply_keystream P1 v key iv d = apply_keystream P2 v key iv d.
  Proof.
    intros N1 N2 G. destruct v; unfold apply_keystream.
    - do 2 f_equal. unfold aes256ctr_ks. f_equal. apply flat_map_ext_in. intros a _. cbn. apply (ag_aes _ _ _ G N1 N2).
    - destruct (_ <? _)%N; [reflexivity|]. do 2 f_equal. apply (ag_xchacha _ _ _ G N1 N2).
  Qed.

  Lemma pae_first a b c d e : starts (LE64 5) (pae [a; b; c; d; e]).
  Proof.
    unfold pae. cbn [fold_left]. rewrite <- !app_assoc. eexists. f_equal.
  Qed.

  Lemma mac_token v n k m : agree FToken S1 S2 -> mac_use FToken m ->
    tag_mac P1 v k m = tag_mac P2 v k m /\
    (v = V4 -> blake2b_mac P1 n k m = blake2b_mac P2 n k m).
  Proof.
    intros G H. split; [destruct v|]; [apply (ag_hmac _ _ _ G); exact H|apply (ag_bmac _ _ _ G); exact H|].
    intros _. apply (ag_bmac _ _ _ G). exact H.
  Qed.

  Lemma kdf_token v n k info nonce : agree FToken S1 S2 ->
    (info = str "paseto-encryption-key" \/ info = str "paseto-auth-key-for-aead") ->
    kdf_mac P1 v n k [info; nonce] = kdf_mac P2 v n k [info; nonce].
  Proof.
    intros G H. destruct v; unfold kdf_mac; [apply (ag_hkdf _ _ _ G eq_refl)|]. apply (ag_bmac _ _ _ G).
    cbn [concat]. destruct H as [-> | ->]; [left|right; left]; eexists; reflexivity.
  Qed.

  Lemma digest_token v k h n c f i : agree FToken S1 S2 ->
    generic_digest P1 v k h n c f i = generic_digest P2 v k h n c f i.
  Proof. intros G. unfold generic_digest. apply (mac_token v 0); [exact G|]. right. right. apply pae_first. Qed.

  Lemma encrypt_agree v k h n m f i : agree FToken S1 S2 ->
    generic_encrypt P1 v k h n m f i = generic_encrypt P2 v k h n m f i.
  Proof.
    intros G. unfold generic_encrypt, key_iv_apply. cbv zeta.
    rewrite !(kdf_token v _ k _ n G) by auto. rewrite (keystream_agree FToken) by first [discriminate|exact G].
    destruct (apply_keystream P2 v _ _ m); cbn [obind]; [|reflexivity..]. rewrite digest_token by exact G. reflexivity.
  Qed.
  Lemma decrypt_agree v k h n m t f i : agree FToken S1 S2 ->
    generic_decrypt P1 v k h n m t f i = generic_decrypt P2 v k h n m t f i.
  Proof.
    intros G. unfold generic_decrypt, key_iv_apply. cbv zeta.
    rewrite !(kdf_token v _ k _ n G) by auto. rewrite digest_token by exact G.
    destruct (negb _); [reflexivity|]. rewrite (keystream_agree FToken) by first [discriminate|exact G]. reflexivity.
  Qed.

  Lemma pie_macs v w k n c : agree FPie S1 S2 ->
    pie_enc_key_mac P1 v k ([x80] ++ n) = pie_enc_key_mac P2 v k ([x80] ++ n) /\
    pie_auth_key_mac P1 v k ([x81] ++ n) = pie_auth_key_mac P2 v k ([x81] ++ n) /\
    pie_tag_mac P1 v k (pie_tag_message v w n c) = pie_tag_mac P2 v k (pie_tag_message v w n c).
  Proof.
    intros G.
    assert (H1 : mac_use FPie ([x80] ++ n)) by (left; eexists; reflexivity).
    assert (H2 : mac_use FPie ([x81] ++ n)) by (right; left; eexists; reflexivity).
    assert (H3 : mac_use FPie (pie_tag_message v w n c)).
    { right. right. exists v, w, (n ++ c). destruct v, w; reflexivity. }
    destruct v; repeat split;
      first [apply (ag_hmac _ _ _ G); assumption|apply (ag_bmac _ _ _ G); assumption].
  Qed.

  Lemma pw_hashes v k : agree FPw S1 S2 ->
    pw_key_hash P1 v ([xff] ++ k) = pw_key_hash P2 v ([xff] ++ k) /\
    pw_key_hash P1 v ([xfe] ++ k) = pw_key_hash P2 v ([xfe] ++ k).
  Proof.
    intros G. destruct v; split;
      first [apply (ag_sha _ _ _ G)|apply (ag_blake _ _ _ G)]; (split; [discriminate|]);
      first [right; eexists; reflexivity|left; eexists; reflexivity].
  Qed.
  Lemma pw_tags v w k s st n e : agree FPw S1 S2 ->
    pw_tag_mac P1 v k (pw_tag_message v w s st n e) = pw_tag_mac P2 v k (pw_tag_message v w s st n e).
  Proof.
    intros G. assert (H : mac_use FPw (pw_tag_message v w s st n e)).
    { exists v, w. eexists. unfold pw_tag_message. destruct v, w; reflexivity. }
    destruct v; [apply (ag_hmac _ _ _ G)|apply (ag_bmac _ _ _ G)]; exact H.
  Qed.
  Lemma pw_kdf_agree v pw s st : agree FPw S1 S2 -> pw_kdf P1 v pw s st = pw_kdf P2 v pw s st.
  Proof.
    intros G. destruct v; unfold pw_kdf.
    - f_equal. apply (ag_pbkdf2 _ _ _ G eq_refl).
    - destruct (_ && _); [|reflexivity]. f_equal. apply (ag_argon2 _ _ _ G eq_refl).
  Qed.
End Confined.

Definition with_sym (S : Sym) (A : Asym) : Prims := {| sym := S; asym := A |}.

(** C60: each operation depends on the hash functions only at the inputs of its own feature:
    replacing them everywhere else (in particular at all inputs of every other feature) changes
    nothing. *)
Lemma c60_token_operations_confined :
  forall (A : Asym) (S1 S2 : Sym) (M F E : Type) (v : version) (EN : Encoding E M) (FC : FooterCodec F),
  let P1 := {| sym := S1; asym := A |} in
  let P2 := {| sym := S2; asym := A |} in
  (agree FToken S1 S2 ->
   (forall t key i r, encrypt_with_rng P1 v EN FC t key i r = encrypt_with_rng P2 v EN FC t key i r) /\
   (forall (t : SecuredToken F E) key i,
      decrypt_with_assertions P1 v EN t key i = decrypt_with_assertions P2 v EN t key i)) /\
  (agree FSign S1 S2 ->
   (forall t sk i, sign_with_assertions P1 v EN FC t sk i = sign_with_assertions P2 v EN FC t sk i) /\
   (forall (t : SecuredToken F E) pk i,
      verify_with_assertions P1 v EN t pk i = verify_with_assertions P2 v EN t pk i)).
Proof.
  intros A S1 S2 M F E v EN FC P1 P2. split; intros G; split.
  - intros t key i r. unfold encrypt_with_rng. destruct (fill NONCE_LEN r) as (n & r'). f_equal.
    unfold encrypt_inner. destruct (payload_err _); cbn [obind]; [|reflexivity..].
    destruct (unwrap _); cbn [obind]; [|reflexivity..].
    unfold P1, P2. rewrite (encrypt_agree A S1 S2) by exact G. reflexivity.
  - intros t key i. unfold decrypt_with_assertions.
    destruct (split_at _ _) as [(n & m)| |]; cbn [obind]; [|reflexivity..].
    destruct (usize_sub _ _); cbn [obind]; [|reflexivity..].
    destruct (split_at _ _) as [(c & tg)| |]; cbn [obind]; [|reflexivity..].
    unfold P1, P2. rewrite (decrypt_agree A S1 S2) by exact G. reflexivity.
  - intros t sk i. unfold sign_with_assertions. destruct (payload_err _); cbn [obind]; [|reflexivity..].
    destruct (unwrap _); cbn [obind]; [|reflexivity..].
    assert (Q : sign_raw P1 v sk (suffix EN) a a0 i = sign_raw P2 v sk (suffix EN) a a0 i); [|rewrite Q; reflexivity].
    destruct v; cbn [sign_raw P1 P2 asym]; [|reflexivity].
    do 2 f_equal. apply (ag_sha _ _ _ G). split; [discriminate|apply pae_first].
  - intros t pk i. unfold verify_with_assertions. destruct (usize_sub _ _); cbn [obind]; [|reflexivity..].
    destruct (split_at _ _) as [(c & tg)| |]; cbn [obind]; [|reflexivity..].
    assert (Q : verify_raw P1 v pk (suffix EN) c (st_encoded_footer t) i tg
              = verify_raw P2 v pk (suffix EN) c (st_encoded_footer t) i tg); [|rewrite Q; reflexivity].
    destruct v; cbn [verify_raw P1 P2 asym]; [|reflexivity].
    cbv zeta. destruct (p_sig_ok tg); [|reflexivity]. f_equal.
    change (p_verify A pk (sha384 S1 (preauth_v3 pk (suffix EN) c (st_encoded_footer t) i)) tg
          = p_verify A pk (sha384 S2 (preauth_v3 pk (suffix EN) c (st_encoded_footer t) i)) tg).
    rewrite (ag_sha _ _ _ G); [reflexivity|]. split; [discriminate|apply pae_first].
Qed.

(** C60: the same for the PASERK operations. *)
Lemma c60_paserk_operations_confined :
  forall (A : Asym) (S1 S2 : Sym) (v : version),
  let P1 := {| sym := S1; asym := A |} in
  let P2 := {| sym := S2; asym := A |} in
  (agree FPie S1 S2 -> forall w,
   (forall key wk r, wrap_pie P1 v w key wk r = wrap_pie P2 v w key wk r) /\
   (forall x wk, unwrap_pie P1 v w x wk = unwrap_pie P2 v w x wk)) /\
  (agree FPw S1 S2 -> forall w,
   (forall key pw st r, pw_wrap P1 v w key pw st r = pw_wrap P2 v w key pw st r) /\
   (forall x pw, pw_unwrap P1 v w x pw = pw_unwrap P2 v w x pw)) /\
  (agree FSeal S1 S2 ->
   (forall fuel pdk pk r, seal P1 v fuel pdk pk r = seal P2 v fuel pdk pk r) /\
   (forall x sk, unseal P1 v x sk = unseal P2 v x sk)) /\
  (agree FId S1 S2 -> forall k key, to_id P1 v k key = to_id P2 v k key).
Proof.
  intros A S1 S2 v P1 P2. refine (conj _ (conj _ (conj _ _))).
  - intros G w. split.
    + intros key wk r. unfold wrap_pie. destruct (fill 32 r) as (n & r'). cbv zeta.
      destruct (pie_macs A S1 S2 v w wk n [] G) as (M1 & M2 & _). unfold P1, P2. rewrite M1, M2.
      rewrite (keystream_agree A S1 S2 FPie) by first [discriminate|exact G].
      change (key_to_bytes {| sym := S1; asym := A |} v (wtype_key w) key)
        with (key_to_bytes {| sym := S2; asym := A |} v (wtype_key w) key).
      destruct (apply_keystream _ v _ _ _) as [c| |]; cbn [obind]; [|reflexivity..].
      destruct (split_at _ _) as [(ak & ?)| |]; cbn [obind]; [|reflexivity..].
      destruct (pie_macs A S1 S2 v w ak n c G) as (_ & _ & M3). rewrite M3. reflexivity.
    + intros x wk. unfold unwrap_pie. cbv zeta.
      destruct (pie_macs A S1 S2 v w wk (pie_nonce x) [] G) as (M1 & M2 & _). unfold P1, P2. rewrite M1, M2.
      destruct (split_at _ _) as [(ak & ?)| |]; cbn [obind]; [|reflexivity..].
      destruct (pie_macs A S1 S2 v w ak (pie_nonce x) (pie_key x) G) as (_ & _ & M3). rewrite M3.
      destruct (negb _); [reflexivity|]. rewrite (keystream_agree A S1 S2 FPie) by first [discriminate|exact G]. reflexivity.
  - intros G w. split.
    + intros key pw st r. unfold pw_wrap. destruct (fill _ r) as (salt & r1).
      unfold P1, P2. rewrite (pw_kdf_agree A S1 S2) by exact G.
      destruct (pw_kdf _ v pw salt st) as [k| |]; [|reflexivity..].
      destruct (fill _ r1) as (n & r2). cbv zeta. destruct (pw_hashes A S1 S2 v k G) as (M1 & M2). rewrite M1, M2.
      rewrite (keystream_agree A S1 S2 FPw) by first [discriminate|exact G]. f_equal.
      change (key_to_bytes {| sym := S1; asym := A |} v (wtype_key w) key)
        with (key_to_bytes {| sym := S2; asym := A |} v (wtype_key w) key).
      destruct (apply_keystream _ v _ _ _) as [c| |]; cbn [obind]; [|reflexivity..].
      rewrite (pw_tags A S1 S2) by exact G. reflexivity.
    + intros x pw. unfold pw_unwrap. unfold P1, P2. rewrite (pw_kdf_agree A S1 S2) by exact G.
      destruct (pw_kdf _ v pw _ _) as [k| |]; cbn [obind]; [|reflexivity..].
      cbv zeta. destruct (pw_hashes A S1 S2 v k G) as (M1 & M2). rewrite M1, M2.
      rewrite (pw_tags A S1 S2) by exact G. destruct (negb _); [reflexivity|].
      rewrite (keystream_agree A S1 S2 FPw) by first [discriminate|exact G]. reflexivity.
  - intros G.
    assert (KD : forall d xk epk pk, d = x01 \/ d = x02 ->
        sha384 S1 (seal_kdf_msg V3 d xk epk pk) = sha384 S2 (seal_kdf_msg V3 d xk epk pk) /\
        blake2b S1 32 (seal_kdf_msg V4 d xk epk pk) = blake2b S2 32 (seal_kdf_msg V4 d xk epk pk)).
    { intros d xk epk pk Hd. split; [apply (ag_sha _ _ _ G)|apply (ag_blake _ _ _ G)]; right;
        destruct Hd as [-> | ->]; [left|right|left|right]; eexists; reflexivity. }
    assert (NN : forall m, blake2b S1 24 m = blake2b S2 24 m) by (intros m; apply (ag_blake _ _ _ G); left; reflexivity).
    assert (TG : forall k epk edk,
        hmac_sha384 S1 k (seal_tag_msg V3 epk edk) = hmac_sha384 S2 k (seal_tag_msg V3 epk edk) /\
        blake2b_mac S1 32 k (seal_tag_msg V4 epk edk) = blake2b_mac S2 32 k (seal_tag_msg V4 epk edk)).
    { intros k epk edk. split; [apply (ag_hmac _ _ _ G); exists V3|apply (ag_bmac _ _ _ G); exists V4];
        eexists; reflexivity. }
    split.
    + intros fuel pdk pk r. destruct v; cbn [seal].
      * destruct (p384_random fuel r) as [(esk & r')|]; [|reflexivity]. do 2 f_equal. unfold seal_v3. cbv zeta.
        cbn [sym asym P1 P2]. unfold P1, P2. rewrite !(proj1 (KD _ _ _ _ (or_introl eq_refl))), !(proj1 (KD _ _ _ _ (or_intror eq_refl))).
        rewrite (keystream_agree A S1 S2 FSeal) by first [discriminate|exact G].
        destruct (apply_keystream _ V3 _ _ _) as [c| |]; cbn [obind]; [|reflexivity..].
        rewrite (proj1 (TG _ _ _)). reflexivity.
      * destruct (fill 32 r) as (eb & r'). do 2 f_equal. unfold seal_v4. cbv zeta.
        cbn [sym asym P1 P2]. unfold P1, P2. rewrite !(proj2 (KD _ _ _ _ (or_introl eq_refl))), !(proj2 (KD _ _ _ _ (or_intror eq_refl))), NN.
        rewrite (keystream_agree A S1 S2 FSeal) by first [discriminate|exact G].
        destruct (apply_keystream _ V4 _ _ _) as [c| |]; cbn [obind]; [|reflexivity..].
        rewrite (proj2 (TG _ _ _)). reflexivity.
    + intros x sk. destruct v; cbn [unseal].
      * unfold unseal_v3. cbn [sym asym P1 P2]. destruct (p_scalar_ok sk); cbn [obind]; [|reflexivity].
        destruct (unwrap _); cbn [obind]; [|reflexivity..]. cbv zeta.
        rewrite !(proj1 (KD _ _ _ _ (or_introl eq_refl))), !(proj1 (KD _ _ _ _ (or_intror eq_refl))), (proj1 (TG _ _ _)).
        destruct (negb _); [reflexivity|]. unfold P1, P2. apply (keystream_agree A S1 S2 FSeal); first [discriminate|exact G].
      * unfold unseal_v4. cbn [sym asym P1 P2]. cbv zeta.
        rewrite !(proj2 (KD _ _ _ _ (or_introl eq_refl))), !(proj2 (KD _ _ _ _ (or_intror eq_refl))), (proj2 (TG _ _ _)), NN.
        destruct (negb _); [reflexivity|]. unfold P1, P2. apply (keystream_agree A S1 S2 FSeal); first [discriminate|exact G].
  - intros G k key. unfold to_id.
    change (key_to_bytes P1 v k key) with (key_to_bytes P2 v k key).
    destruct (encode_buf _ _) as [p|]; cbn [unwrap obind]; [|reflexivity].
    assert (H : forall o, o <> 24 -> hash_use FId o (id_hash_message v k p)).
    { intros o Ho. split; [exact Ho|]. exists v, k. eexists. unfold id_hash_message. destruct v, k; reflexivity. }
    destruct v; cbn [sym P1 P2].
    + rewrite (ag_sha _ _ _ G) by (apply H; discriminate). reflexivity.
    + rewrite (ag_blake _ _ _ G) by (apply H; discriminate). reflexivity.
Qed.

(** ** C61 *)

(** C61: k3.public texts are not unique: a point in SEC1 "compact" form (tag 05) is accepted for
    the key whose printed text starts differently; its identifier is that of the printed text. *)
Lemma c61_k3_public_text_unique_refuted :
  forall (P : Prims) (x key : bytes),
  Laws P -> length x = 48 -> p_parse P (x05 :: x) = Some key -> (forall r, key <> x05 :: r) ->
  let s := plaintext_paserk V3 Public (x05 :: x) in
  exists s', plaintext_parse P V3 Public s = Ok key /\ plaintext_display P V3 Public key = Ok s' /\
    s' <> s /\ plaintext_parse P V3 Public s' = Ok key /\
    to_id P V3 Public key = Ok (id_hash P V3 (id_h V3 Public ++ s')).
Proof.
  intros P x key L Lx Hp Ht s.
  destruct (p_parse_canon _ L _ _ Hp) as (Lk & Ck).
  assert (Vk : valid_key P V3 Public key = true).
  { cbn [valid_key]. rewrite Lk, Ck, bseqb_refl. reflexivity. }
  destruct (c32_plaintext_roundtrip P V3 Public key L ltac:(discriminate) Vk) as (s' & D & Es' & R).
  exists s'. refine (conj _ (conj D (conj _ (conj R _)))).
  - apply (c32_plaintext_language P V3 Public s key L). exists (x05 :: x). split; [reflexivity|].
    split; [cbn [length key_size]; lia|]. split; [cbn [length]; lia|exact Hp].
  - subst s'. unfold s, plaintext_paserk, to_bytes. cbn [key_to_bytes]. intros C.
    apply app_inv_head in C. apply base64url_inj in C. exact (Ht _ C).
  - rewrite to_id_eq by (first [exact L|exact Vk]). subst s'. reflexivity.
Qed.

(** ** C62 *)

(** C62: everything the crate prints consists of the characters A-Z a-z 0-9 - _ and dots, so it
    can be placed in URLs and headers unescaped (tokens: if the encoding's suffix can). *)
Lemma c62_printed_texts_are_url_safe :
  let safe := Forall (fun b => In b alphabet \/ b = x2e) in
  (forall (F E : Type) v p sfx (t : SecuredToken F E), safe sfx -> safe (token_display v p sfx t)) /\
  (forall P v k key s, plaintext_display P v k key = Ok s -> safe s) /\
  (forall v k id s, id_display v k id = Ok s -> safe s) /\
  (forall v w x s, pie_display v w x = Ok s -> safe s) /\
  (forall v w x s, pw_display v w x = Ok s -> safe s) /\
  (forall v x s, seal_display v x = Ok s -> safe s) /\
  (forall P k s, (forall v p sfx, k = KToken v p sfx -> safe sfx) -> accepts P k s -> safe s).
Proof.
  set (safe := Forall (fun b => In b alphabet \/ b = x2e)).
  assert (B : forall l, safe (base64url l)).
  { intros l. eapply Forall_impl; [|apply base64url_alphabet]. auto. }
  assert (C : forall l, forallb (fun b => existsb (beqb b) alphabet || beqb b x2e) l = true -> safe l).
  { intros l H. apply Forall_forall. intros b Hb. rewrite forallb_forall in H. specialize (H b Hb).
    apply orb_true_iff in H as [H|H]; [left|right; apply beqb_eq; exact H].
    apply existsb_exists in H as (c & Hc & E). apply beqb_eq in E. subst c. exact Hc. }
  assert (K : forall a, is_paserk a = true -> safe (kind_header a)).
  { intros a Ha. apply C. apply paserk_kinds_all in Ha. vm_compute in Ha.
    repeat (destruct Ha as [<-|Ha]; [vm_compute; reflexivity|]). destruct Ha. }
  assert (AP : forall a b, safe a -> safe b -> safe (a ++ b)) by (intros; apply Forall_app; auto).
  assert (TH : forall v p sfx, safe sfx -> safe (token_header v p sfx)).
  { intros v p sfx H. rewrite token_header_split.
    change (str "v" ++ ?x) with ([x76] ++ x). apply AP; [apply C; reflexivity|].
    change (?a :: sfx ++ x2e :: purpose_header p ++ [x2e]) with ([a] ++ sfx ++ ([x2e] ++ purpose_header p ++ [x2e])).
    apply AP; [destruct v; apply C; reflexivity|]. apply AP; [exact H|]. destruct p; apply C; reflexivity. }
  assert (TG : forall v p sfx s b f, safe sfx -> token_grammar v p sfx s b f -> safe s).
  { intros v p sfx s b f H [body|body foot]; repeat apply AP; auto; apply C; reflexivity. }
  refine (conj _ (conj _ (conj _ (conj _ (conj _ (conj _ _)))))).
  - intros F E v p sfx t H. eapply TG; [exact H|apply token_display_grammar].
  - intros P v k key s H. rewrite plaintext_display_eq in H. apply ok_inj in H. subst s.
    apply AP; [exact (K (KPlain v k) eq_refl)|apply B].
  - intros v k id s H. rewrite id_display_eq in H. apply ok_inj in H. subst s.
    apply AP; [exact (K (KId v k) eq_refl)|apply B].
  - intros v w x s H. rewrite pie_display_eq in H. apply ok_inj in H. subst s.
    apply AP; [exact (K (KPie v w) eq_refl)|apply B].
  - intros v w x s H. rewrite pw_display_eq in H. apply ok_inj in H. subst s.
    apply AP; [exact (K (KPw v w) eq_refl)|apply B].
  - intros v x s H. rewrite seal_display_eq in H. apply ok_inj in H. subst s.
    apply AP; [exact (K (KSeal v) eq_refl)|apply B].
  - intros P k s Hs H. destruct H as [F E v p sfx e0 FC s t H|v k s key H|v k s id H|v w s x H|v w s x H|v s x H].
    + apply token_parse_ok_iff in H as (b & f & x & G & _). eapply TG; [eapply Hs; reflexivity|exact G].
    + rewrite plaintext_parse_eq in H. apply paserk_read_ok_iff in H as (b & -> & _). apply AP; [exact (K (KPlain v k) eq_refl)|apply B].
    + rewrite id_parse_eq in H. apply paserk_read_ok_iff in H as (b & -> & _). apply AP; [exact (K (KId v k) eq_refl)|apply B].
    + rewrite pie_parse_eq in H. apply paserk_read_ok_iff in H as (b & -> & _). apply AP; [exact (K (KPie v w) eq_refl)|apply B].
    + rewrite pw_parse_eq in H. apply paserk_read_ok_iff in H as (b & -> & _). apply AP; [exact (K (KPw v w) eq_refl)|apply B].
    + rewrite seal_parse_eq in H. apply paserk_read_ok_iff in H as (b & -> & _). apply AP; [exact (K (KSeal v) eq_refl)|apply B].
Qed.
