(** Proofs about histories: everything accepted was issued, or the MAC / signature is forged. *)
From Coq Require Import ZArith ZifyBool ZifyNat ZifyN.
From Verif Require Import Bytes Outcome Base64 Pae Prims Version Key Token Local Public Plaintext KeyId
  Wrap Pbkw Pke SpecBase64 SpecPaseto SpecPaserk SpecText SpecKey Observe History.
From Verif Require Import BytesLemmas Base64Lemmas PaeLemmas TextLemmas TokenLemmas CipherLemmas
  ProofsText ProofsLocal ProofsPublic ProofsKey ProofsWrap.

(** every event of a history comes from one of its actions *)
Lemma perform_all_in P fuel l : forall r h r', perform_all P fuel l r = Some (h, r') ->
  forall e, In e h -> exists a ra rb, perform P fuel a ra = Some (e, rb).
Proof.
  induction l as [|a l IH]; cbn [perform_all]; intros r h r' H e He.
  - injection H as <- _. destruct He.
  - destruct (perform P fuel a r) as [[e1 r1]|] eqn:H1; [|discriminate].
    destruct (perform_all P fuel l r1) as [[es r2]|] eqn:H2; [|discriminate].
    injection H as <- _. destruct He as [<-|He]; [eauto|]. eapply IH; eassumption.
Qed.

Lemma some_pair {A B} (a c : A) (b d : B) : Some (a, b) = Some (c, d) -> a = c /\ b = d.
Proof. intros H. split; congruence. Qed.
Lemma query_dec (a b : option (bytes * bytes)) : {a = b} + {a <> b}.
Proof.
  assert (D : forall x y : bytes, {x = y} + {x <> y}).
  { intros x y. destruct (bseqb x y) eqn:H; [left; apply bseqb_eq, H|right]. intros ->. rewrite bseqb_refl in H. discriminate. }
  destruct a as [[a1 a2]|], b as [[b1 b2]|]; [|right; discriminate|right; discriminate|left; reflexivity].
  destruct (D a1 b1) as [->|N]; [|right; congruence]. destruct (D a2 b2) as [->|N]; [left; reflexivity|right; congruence].
Defined.
Lemma authenticated_dec h s m : {authenticated h s m} + {~ authenticated h s m}.
Proof.
  unfold authenticated. induction h as [|e h IH].
  - right. intros (e & [] & _).
  - destruct IH as [IH|IH].
    + left. destruct IH as (e' & H1 & H2). exists e'. split; [right; exact H1|exact H2].
    + assert (D : {tag_query e = Some (s, m)} + {tag_query e <> Some (s, m)}).
      { apply query_dec. }
      destruct D as [D|D].
      * left. exists e. split; [left; reflexivity|exact D].
      * right. intros (e' & [<-|H1] & H2); [exact (D H2)|]. apply IH. eauto.
Qed.
Lemma signed_dec P h s m : {signed P h s m} + {~ signed P h s m}.
Proof.
  unfold signed. induction h as [|e h IH].
  - right. intros (e & [] & _).
  - destruct IH as [IH|IH].
    + left. destruct IH as (e' & H1 & H2). exists e'. split; [right; exact H1|exact H2].
    + assert (D : {sign_query P e = Some (s, m)} + {sign_query P e <> Some (s, m)}).
      { apply query_dec. }
      destruct D as [D|D].
      * left. exists e. split; [left; reflexivity|exact D].
      * right. intros (e' & [<-|H1] & H2); [exact (D H2)|]. apply IH. eauto.
Qed.

(** the messages of the three features start differently *)
Lemma PAE5_head a b c d e : exists r, PAE [a; b; c; d; e] = x05 :: r.
Proof. eexists. reflexivity. Qed.
Lemma pie_h_head v w : exists r, pie_h v w = x6b :: r.
Proof. destruct v, w; eexists; reflexivity. Qed.
Lemma pw_h_head v w : exists r, pw_h v w = x6b :: r.
Proof. destruct v, w; eexists; reflexivity. Qed.
Lemma pae_not_pie a b c d e v w r : PAE [a; b; c; d; e] <> pie_h v w ++ r.
Proof.
  destruct (PAE5_head a b c d e) as [x ->]. destruct (pie_h_head v w) as [y ->]. discriminate.
Qed.
Lemma pae_not_pw a b c d e v w r : PAE [a; b; c; d; e] <> pw_h v w ++ r.
Proof.
  destruct (PAE5_head a b c d e) as [x ->]. destruct (pw_h_head v w) as [y ->]. discriminate.
Qed.
Lemma pie_not_pw v w r v' w' r' : pie_h v w ++ r <> pw_h v' w' ++ r'.
Proof. intros H. destruct v, w, v', w'; vm_compute in H; discriminate. Qed.
Lemma pie_h_split2 v1 v2 w1 w2 a b : pie_h v1 w1 ++ a = pie_h v2 w2 ++ b -> v1 = v2 /\ w1 = w2 /\ a = b.
Proof.
  intros H. destruct v1, v2; try (exfalso; destruct w1, w2; vm_compute in H; discriminate);
    (apply pie_h_split in H as [-> ->]; auto).
Qed.
Lemma pw_h_split2 v1 v2 w1 w2 a b : pw_h v1 w1 ++ a = pw_h v2 w2 ++ b -> v1 = v2 /\ w1 = w2 /\ a = b.
Proof.
  intros H. destruct v1, v2, w1, w2; try (exfalso; vm_compute in H; discriminate); (apply app_inv_head in H; auto).
Qed.

(** issued payloads *)
Lemma encrypt_event {M F E} (P : Prims) v (EN : Encoding E M) (FC : FooterCodec F) t key i r b r' :
  SymLaws P ->
  encrypt_with_rng P v EN FC t key i r = (b, r') -> forall p, omap st_payload b = Ok p ->
  exists m c, e_encode EN (vt_encoding t) (vt_message t) = COk m /\
    f_encode FC (vt_footer t) = Some (footer_bytes FC (vt_footer t)) /\
    length (body_nonce p) = 32 /\ body_cipher v p = c /\
    apply_keystream P v (local_ek P v key (body_nonce p)) (local_iv P v key (body_nonce p)) m = Ok c /\
    p = body_nonce p ++ c ++ mtag P v (suffix EN) key (body_nonce p) c (footer_bytes FC (vt_footer t)) i.
Proof.
  intros L H p Hp. unfold encrypt_with_rng in H. rewrite fill_eq in H. change NONCE_LEN with 32 in H.
  assert (H' : encrypt_inner P v EN FC t key (draw r 0 32) i = b) by congruence. clear H.
  rewrite encrypt_inner_eq in H'. rewrite <- H' in Hp. clear H' b.
  destruct (e_encode EN _ _) as [m|]; [|discriminate]. cbn [payload_err obind] in Hp.
  unfold footer_bytes. destruct (f_encode FC _) as [f|]; [|discriminate]. cbn [unwrap obind] in Hp.
  set (n := draw r 0 32) in *. assert (Ln : length n = 32) by apply draw_length.
  destruct (apply_keystream P v (local_ek P v key n) (local_iv P v key n) m) as [c| |] eqn:Hc; [|discriminate..].
  cbn [obind omap st_payload] in Hp. apply ok_inj in Hp. subst p.
  pose proof (mtag_len P v (suffix EN) key n c f i L) as Lt.
  set (tg := mtag P v (suffix EN) key n c f i) in *.
  assert (B1 : body_nonce (n ++ c ++ tg) = n).
  { unfold body_nonce. rewrite firstn_app_exact by exact Ln. reflexivity. }
  assert (B2 : body_cipher v (n ++ c ++ tg) = c).
  { unfold body_cipher. rewrite skipn_app_exact by exact Ln. apply firstn_app_exact.
    rewrite !app_length, Lt, Ln. lia. }
  exists m, c. rewrite B1. repeat (split; [first [reflexivity|assumption]|]). reflexivity.
Qed.

(** C68: authenticity of local tokens over any history of use.  Take any sequence of
    encryptions, signatures, wrappings, sealings and key generations, with any inputs, keys and
    generator.  A token accepted under [key] has the payload, encoding, footer and assertion of
    a token encrypted under [key] in that history, and its message is the decoding of the bytes
    encoded there.  Otherwise its tag is a valid MAC on a message never authenticated from
    [key] by any operation of the history. *)
Lemma c68_local_history :
  forall (P : Prims) fuel actions r h r' (M F E : Type) (v : version) (EN : Encoding E M)
         (t : SecuredToken F E) (key i : bytes) x,
  SymLaws P -> perform_all P fuel actions r = Some (h, r') -> Forall event_sizes h ->
  let b := st_payload t in
  let f := st_encoded_footer t in
  local_sizes v (suffix EN) (body_cipher v b) f i ->
  decrypt_with_assertions P v EN t key i = Ok x ->
  (exists q m, In (ERand (OpEncrypt q) (RToken (Ok b))) h /\
     rq_version q = v /\ rq_key q = key /\ rq_implicit q = i /\ suffix (rq_encoding q) = suffix EN /\
     f_encode (rq_footer q) (vt_footer (rq_token q)) = Some f /\
     e_encode (rq_encoding q) (vt_encoding (rq_token q)) (vt_message (rq_token q)) = COk m /\
     e_decode EN (st_encoding t) m = COk (vt_message x)) \/
  (let a := PAE [local_header v (suffix EN); body_nonce b; body_cipher v b; f; i] in
   mac P v (local_ak P v key (body_nonce b)) a = body_tag v b /\ ~ authenticated h key a).
Proof.
  intros P fuel actions r h r' M F E v EN t key i x L Hr Hs b f Sz H.
  destruct (decrypt_ok_inv P v EN t key i x H) as (Lb & Ht & m & Hm & Hd & _). fold b f in Lb, Ht, Hm.
  destruct (body_parts v b Lb) as (Eb & Ln & _ & _).
  set (a := PAE [local_header v (suffix EN); body_nonce b; body_cipher v b; f; i]).
  destruct (authenticated_dec h key a) as [Ha|Ha].
  2:{ right. split; [|exact Ha]. rewrite Ht, mtag_spec by assumption. symmetry. apply local_tag_mac. }
  left. destruct Ha as (e & He & Hq). pose proof (proj1 (Forall_forall _ _) Hs e He) as Se.
  destruct (perform_all_in _ _ _ _ _ _ Hr e He) as (act & ra & rb & Hp). clear Hr Hs.
  destruct act as [o|sq]; cbn [perform] in Hp.
  2:{ injection Hp as <- _. cbn [tag_query] in Hq. discriminate. }
  destruct (run_op P fuel o ra) as [[y rc]|] eqn:Ho; [|discriminate].
  injection Hp as <- _. destruct o as [q|v' w' k' wk'|v' w' k' pw' st'|v' pdk pk| |v']; cbn [run_op] in Ho.
  - destruct (encrypt_with_rng _ _ _ _ _ _ _ _) as [res rd] eqn:He2. injection Ho as <- _.
    destruct (omap st_payload res) as [p| |] eqn:Hres; cbn [tag_query event_sizes] in Hq, Se; [|discriminate..].
    apply some_pair in Hq as [Hk Hpae].
    destruct (encrypt_event _ _ _ _ _ _ _ _ _ _ L He2 p Hres) as (m' & c' & E1 & E2 & E3 & E4 & E5 & E6).
    assert (EQ : [local_header (rq_version q) (suffix (rq_encoding q)); body_nonce p; body_cipher (rq_version q) p;
             footer_bytes (rq_footer q) (vt_footer (rq_token q)); rq_implicit q] =
             [local_header v (suffix EN); body_nonce b; body_cipher v b; f; i]).
    { apply flat_pae_inj.
      - apply fits_slices; [reflexivity|]. apply local_pieces_slices; assumption.
      - apply fits_slices; [reflexivity|]. apply local_pieces_slices; assumption.
      - fold (local_pieces (rq_version q) (suffix (rq_encoding q)) (body_nonce p) (body_cipher (rq_version q) p)
                (footer_bytes (rq_footer q) (vt_footer (rq_token q))) (rq_implicit q)).
        fold (local_pieces v (suffix EN) (body_nonce b) (body_cipher v b) f i).
        rewrite !local_pae by assumption. exact Hpae. }
    injection EQ as Q1 Q2 Q3 Q4 Q5.
    apply (token_header_inj _ PLocal _ _ PLocal _) in Q1 as (Qv & _ & Qs).
    exists q, m'.
    assert (Epb : p = b).
    { rewrite E6, Eb. rewrite Ht. rewrite <- Q2. f_equal. rewrite <- E4, Q3. f_equal.
      rewrite Qv, Qs, Hk, Q4, Q5. reflexivity. }
    split; [rewrite <- Epb; exact He|].
    split; [exact Qv|]. split; [exact Hk|]. split; [exact Q5|]. split; [exact Qs|].
    split; [rewrite E2, Q4; reflexivity|]. split; [exact E1|].
    rewrite <- E4, Q3, Qv, Hk, Q2 in E5.
    assert (m = m'); [|congruence].
    destruct (apply_keystream_invol P v _ _ _ _ L E5) as [_ E7]. rewrite E7 in Hm. congruence.
  - destruct (wrap_pie P v' w' k' wk' ra) as [z rd]. injection Ho as <- _. cbn [tag_query] in Hq.
    destruct z as [z| |]; [|discriminate..]. apply some_pair in Hq as [_ Hq]. symmetry in Hq. destruct (pae_not_pie _ _ _ _ _ _ _ _ Hq).
  - destruct (pw_wrap P v' w' k' pw' st' ra) as [z rd]. injection Ho as <- _. cbn [tag_query] in Hq.
    destruct z as [z| |]; [|discriminate..]. apply some_pair in Hq as [_ Hq]. symmetry in Hq. destruct (pae_not_pw _ _ _ _ _ _ _ _ Hq).
  - destruct (seal P v' fuel pdk pk ra) as [[z rd]|]; [|discriminate]. injection Ho as <- _. discriminate Hq.
  - destruct (local_new_random ra) as [z rd]. injection Ho as <- _. discriminate Hq.
  - destruct v'.
    + destruct (v3_secret_new_random fuel ra) as [[z rd]|]; [|discriminate]. injection Ho as <- _. discriminate Hq.
    + destruct (v4_secret_new_random ra) as [z rd]. injection Ho as <- _. discriminate Hq.
Qed.

(** C69 *)
Lemma public_m2_version (v1 v2 : version) (pk1 pk2 sfx1 sfx2 m1 m2 f1 f2 i1 i2 : bytes) :
  public_m2 v1 sfx1 pk1 m1 f1 i1 = public_m2 v2 sfx2 pk2 m2 f2 i2 -> v1 = v2.
Proof. destruct v1, v2; [reflexivity|discriminate|discriminate|reflexivity]. Qed.

Lemma sign_event {M F E} (P : Prims) v (EN : Encoding E M) (FC : FooterCodec F) t sk i p :
  Sizes P -> valid_key P v Secret sk = true ->
  omap st_payload (sign_with_assertions P v EN FC t sk i) = Ok p ->
  e_encode EN (vt_encoding t) (vt_message t) = COk (body_message v p) /\
  f_encode FC (vt_footer t) = Some (footer_bytes FC (vt_footer t)).
Proof.
  intros L Hk Hp. unfold sign_with_assertions in Hp.
  destruct (e_encode EN _ _) as [m|]; [|discriminate]. cbn [payload_err obind] in Hp.
  unfold footer_bytes. destruct (f_encode FC _) as [f|]; [|discriminate]. cbn [unwrap obind] in Hp.
  destruct (sign_raw P v sk (suffix EN) m f i) as [sg| |] eqn:Hs; [|discriminate..].
  cbn [obind omap st_payload] in Hp. apply ok_inj in Hp. subst p.
  pose proof (sign_raw_len P v sk _ _ _ _ sg L Hk Hs) as Lg. split; [|reflexivity].
  f_equal. unfold body_message. symmetry. apply firstn_app_exact. rewrite app_length, Lg. lia.
Qed.

(** C69: authenticity of public tokens over any history of use.  A token accepted under the
    public key of [sk] carries the message bytes, encoding, footer and assertion of a token
    signed with [sk] in the history (not necessarily its signature, C59).  Otherwise its
    signature is valid for a byte string that [sk] never signed. *)
Lemma c69_public_history :
  forall (P : Prims) fuel actions r h r' (M F E : Type) (v : version) (EN : Encoding E M)
         (t : SecuredToken F E) (sk i : bytes) x,
  Sizes P -> perform_all P fuel actions r = Some (h, r') -> Forall event_sizes h ->
  valid_key P v Secret sk = true ->
  let pk := public_key P v sk in
  let m := body_message v (st_payload t) in
  let f := st_encoded_footer t in
  public_sizes v (suffix EN) m f i ->
  verify_with_assertions P v EN t pk i = Ok x ->
  (exists q b, In (ESign q (Ok b)) h /\ body_message v b = m /\
     sq_version q = v /\ sq_sk q = sk /\ sq_implicit q = i /\ suffix (sq_encoding q) = suffix EN /\
     f_encode (sq_footer q) (vt_footer (sq_token q)) = Some f /\
     e_encode (sq_encoding q) (vt_encoding (sq_token q)) (vt_message (sq_token q)) = COk m /\
     e_decode EN (st_encoding t) m = COk (vt_message x)) \/
  (let a := public_m2 v (suffix EN) pk m f i in
   valid_sig P v pk a (body_sig v (st_payload t)) = true /\ ~ signed P h sk a).
Proof.
  intros P fuel actions r h r' M F E v EN t sk i x L Hr Hs Hk pk m f Sz H.
  destruct (verify_ok_inv P v EN t pk i x H) as (_ & Hv & Hd & _). fold m f in Hv, Hd.
  pose proof (public_key_slice P v sk L Hk) as Hpk. fold pk in Hpk.
  rewrite preauth_spec in Hv by assumption.
  set (a := public_m2 v (suffix EN) pk m f i) in *.
  destruct (signed_dec P h sk a) as [Ha|Ha]; [|right; auto].
  left. destruct Ha as (e & He & Hq). pose proof (proj1 (Forall_forall _ _) Hs e He) as Se.
  destruct (perform_all_in _ _ _ _ _ _ Hr e He) as (act & ra & rb & Hp). clear Hr Hs.
  destruct act as [o|q]; cbn [perform] in Hp.
  { destruct (run_op P fuel o ra) as [[y rc]|]; [|discriminate]. injection Hp as <- _. discriminate Hq. }
  injection Hp as <- _. cbn [sign_query event_sizes] in Hq, Se.
  destruct (omap st_payload _) as [p| |] eqn:Hres; [|discriminate..].
  apply some_pair in Hq as [Hsk Hm2].
  pose proof (public_m2_version _ _ _ _ _ _ _ _ _ _ _ _ Hm2) as Hv2.
  rewrite Hv2, Hsk in *. fold pk in Hm2.
  apply c25_signed_bytes_injective in Hm2 as (Q1 & Q2 & Q3 & Q4 & _); [|auto|exact Se|exact Sz].
  destruct (sign_event P _ _ _ _ _ _ p L Hk Hres) as [E1 E2]. rewrite Q2 in E1. rewrite Q3 in E2.
  exists q, p. auto 12.
Qed.

(** C70 *)
(** C70: authenticity of PIE-wrapped keys over any history of use.  Every wrapped key accepted
    under [wk] was produced by wrapping with [wk] in that history, and unwraps to the key
    wrapped there; or its tag is a MAC on a message never authenticated from [wk]. *)
Lemma c70_pie_history :
  forall (P : Prims) fuel actions r h r' (v : version) (w : wtype) (x : PieWrapped) (wk key : bytes),
  Sizes P -> perform_all P fuel actions r = Some (h, r') ->
  pie_wf v w x -> unwrap_pie P v w x wk = Ok key ->
  (exists key', In (ERand (OpPie v w key' wk) (RPie (Ok x))) h /\
     (valid_key P v (wtype_key w) key' = true -> key = key')) \/
  (let a := pie_h v w ++ pie_nonce x ++ pie_key x in
   mac P v (pie_ak P v wk (pie_nonce x)) a = pie_tag x /\ ~ authenticated h wk a).
Proof.
  intros P fuel actions r h r' v w x wk key L Hr (Lt & Ln & Lk) H.
  pose proof H as H0. rewrite unwrap_pie_eq in H by exact L.
  destruct (bseqb (pie_tag x) _) eqn:T; [|discriminate]. apply bseqb_eq in T.
  set (a := pie_h v w ++ pie_nonce x ++ pie_key x).
  destruct (authenticated_dec h wk a) as [Ha|Ha].
  2:{ right. split; [|exact Ha]. rewrite T. symmetry. apply pie_spec_tag_mac. }
  left. destruct Ha as (e & He & Hq).
  destruct (perform_all_in _ _ _ _ _ _ Hr e He) as (act & ra & rb & Hp). clear Hr.
  destruct act as [o|sq]; cbn [perform] in Hp.
  2:{ injection Hp as <- _. cbn [tag_query] in Hq. discriminate. }
  destruct (run_op P fuel o ra) as [[y rc]|] eqn:Ho; [|discriminate].
  injection Hp as <- _. destruct o as [q|v' w' k' wk'|v' w' k' pw' st'|v' pdk pk| |v']; cbn [run_op] in Ho.
  - destruct (encrypt_with_rng _ _ _ _ _ _ _ _) as [res rd]. injection Ho as <- _. cbn [tag_query] in Hq.
    destruct (omap st_payload res) as [p| |]; [|discriminate..]. apply some_pair in Hq as [_ Hq].
    destruct (pae_not_pie _ _ _ _ _ _ _ _ Hq).
  - destruct (wrap_pie P v' w' k' wk' ra) as [z rd] eqn:Hw. injection Ho as <- _. cbn [tag_query] in Hq.
    destruct z as [z| |]; [|discriminate..]. apply some_pair in Hq as [-> Hq].
    apply pie_h_split2 in Hq as (-> & -> & Hq). pose proof Hw as Hw0.
    rewrite wrap_pie_eq in Hw by exact L. cbv zeta in Hw.
    match type of Hw with context [apply_keystream P v ?a1 ?a2 ?a3] =>
      destruct (apply_keystream P v a1 a2 a3) as [c| |] end; cbn [obind] in Hw; [|discriminate..].
    injection Hw as Ez _. rewrite <- Ez in Hq. cbn [pie_nonce pie_key] in Hq.
    apply app_inj_len in Hq as [Hn Hc]; [|rewrite draw_length, Ln; reflexivity].
    assert (z = x) as ->.
    { rewrite <- Ez, Hn, Hc, <- T. destruct x. reflexivity. }
    exists k'. split; [exact He|]. intros Hk.
    destruct (pie_wrap_ok P v w k' wk ra L Hk) as (x' & R1 & _ & _ & R2).
    rewrite Hw0 in R1. assert (x = x') by congruence. subst x'. rewrite R2 in H0. exact (key_back P v _ _ _ L Hk H0).
  - destruct (pw_wrap P v' w' k' pw' st' ra) as [z rd]. injection Ho as <- _. cbn [tag_query] in Hq.
    destruct z as [z| |]; [|discriminate..]. apply some_pair in Hq as [_ Hq]. symmetry in Hq. destruct (pie_not_pw _ _ _ _ _ _ Hq).
  - destruct (seal P v' fuel pdk pk ra) as [[z rd]|]; [|discriminate]. injection Ho as <- _. discriminate Hq.
  - destruct (local_new_random ra) as [z rd]. injection Ho as <- _. discriminate Hq.
  - destruct v'.
    + destruct (v3_secret_new_random fuel ra) as [[z rd]|]; [|discriminate]. injection Ho as <- _. discriminate Hq.
    + destruct (v4_secret_new_random ra) as [z rd]. injection Ho as <- _. discriminate Hq.
Qed.

Lemma params_len v m t p i : length (pw_params_bytes v m t p i) = match v with V3 => 4 | V4 => 16 end.
Proof. destruct v; cbn [pw_params_bytes]; rewrite ?app_length, !be_bytes_length; reflexivity. Qed.
Lemma params_inj v (s1 s2 : kdf_state v) : state_u32 v s1 = true -> state_u32 v s2 = true ->
  pw_params_bytes v (st_mem v s1) (st_time v s1) (st_para v s1) (st_iters v s1) =
  pw_params_bytes v (st_mem v s2) (st_time v s2) (st_para v s2) (st_iters v s2) -> s1 = s2.
Proof.
  destruct v; cbn [pw_params_bytes st_mem st_time st_para st_iters].
  - cbn [state_u32]. rewrite !N.ltb_lt. intros H1 H2 H. apply be_bytes_inj in H; [|exact H1|exact H2].
    destruct s1 as [n1], s2 as [n2]. cbn [iterations] in H. congruence.
  - rewrite !state_u32_v4. intros (A1 & A2 & A3) (B1 & B2 & B3) H.
    apply app_inj_len in H as [Hm H]; [|rewrite !be_bytes_length; reflexivity].
    apply app_inj_len in H as [Ht H]; [|rewrite !be_bytes_length; reflexivity].
    apply be_bytes_inj in Hm; [|eapply N.lt_trans; [eassumption|reflexivity]..].
    apply be_bytes_inj in Ht; [|exact A2|exact B2]. apply be_bytes_inj in H; [|exact A3|exact B3].
    destruct s1 as [m1 t1 p1], s2 as [m2 t2 p2]. cbn [mem time para] in *. congruence.
Qed.

(** C70: the same for password-wrapped keys. *)
Lemma c70_pw_history :
  forall (P : Prims) fuel actions r h r' (v : version) (w : wtype) (x : PwWrapped v) (pw key : bytes),
  Sizes P -> perform_all P fuel actions r = Some (h, r') -> Forall event_sizes h ->
  pw_wf v w x -> pw_unwrap P v w x pw = Ok key ->
  (exists key', In (ERand (OpPw v w key' pw (pw_state x)) (RPw v (Ok x))) h /\
     (valid_key P v (wtype_key w) key' = true -> key = key')) \/
  (let st := pw_state x in
   let a := pw_h v w ++ pw_salt x ++ pw_params_bytes v (st_mem v st) (st_time v st) (st_para v st) (st_iters v st)
              ++ pw_nonce x ++ pw_edk x in
   mac P v (pw_auth_key P v pw (pw_salt x) st) a = pw_tag x /\ ~ authenticated h pw a).
Proof.
  intros P fuel actions r h r' v w x pw key L Hr Hs (Ls & Lu & Ln & Le & Lt) H.
  pose proof H as H0.
  assert (Ha : kdf_accepts v pw (pw_state x)).
  { destruct (kdf_accepts_dec v pw (pw_state x)) as [K|K]; [exact K|]. rewrite pw_unwrap_panics in H by exact K. discriminate. }
  rewrite pw_unwrap_eq in H by exact Ha.
  destruct (bseqb (pw_tag x) _) eqn:T; [|discriminate]. apply bseqb_eq in T.
  rewrite encode_state_spec in T by exact Lu. set (st := pw_state x) in *.
  set (a := pw_h v w ++ pw_salt x ++ pw_params_bytes v (st_mem v st) (st_time v st) (st_para v st) (st_iters v st)
              ++ pw_nonce x ++ pw_edk x).
  destruct (authenticated_dec h pw a) as [Hau|Hau].
  2:{ right. split; [|exact Hau]. rewrite T, pw_spec_tag_mac. unfold pw_auth_key, a. reflexivity. }
  left. destruct Hau as (e & He & Hq). pose proof (proj1 (Forall_forall _ _) Hs e He) as Se.
  destruct (perform_all_in _ _ _ _ _ _ Hr e He) as (act & ra & rb & Hp). clear Hr Hs.
  destruct act as [o|sq]; cbn [perform] in Hp.
  2:{ injection Hp as <- _. cbn [tag_query] in Hq. discriminate. }
  destruct (run_op P fuel o ra) as [[y rc]|] eqn:Ho; [|discriminate].
  injection Hp as <- _. destruct o as [q|v' w' k' wk'|v' w' k' pw' st'|v' pdk pk| |v']; cbn [run_op] in Ho.
  - destruct (encrypt_with_rng _ _ _ _ _ _ _ _) as [res rd]. injection Ho as <- _. cbn [tag_query] in Hq.
    destruct (omap st_payload res) as [p| |]; [|discriminate..]. apply some_pair in Hq as [_ Hq].
    destruct (pae_not_pw _ _ _ _ _ _ _ _ Hq).
  - destruct (wrap_pie P v' w' k' wk' ra) as [z rd] eqn:Hw. injection Ho as <- _. cbn [tag_query] in Hq.
    destruct z as [z| |]; [|discriminate..]. apply some_pair in Hq as [_ Hq]. destruct (pie_not_pw _ _ _ _ _ _ Hq).
  - destruct (pw_wrap P v' w' k' pw' st' ra) as [z rd] eqn:Hw. injection Ho as <- _. cbn [tag_query event_sizes] in Hq, Se.
    destruct z as [z| |]; [|discriminate..]. apply some_pair in Hq as [-> Hq].
    apply pw_h_split2 in Hq as (-> & -> & Hq). pose proof Hw as Hw0.
    assert (Ha' : kdf_accepts v pw st').
    { destruct (kdf_accepts_dec v pw st') as [K|K]; [exact K|]. exfalso.
      unfold pw_wrap in Hw. rewrite fill_eq in Hw. rewrite pw_kdf_panic in Hw by exact K. discriminate. }
    rewrite pw_wrap_eq in Hw by exact Ha'. cbv zeta in Hw.
    match type of Hw with context [apply_keystream P v ?a1 ?a2 ?a3] =>
      destruct (apply_keystream P v a1 a2 a3) as [c| |] end; cbn [obind] in Hw; [|discriminate..].
    rewrite encode_state_spec in Hw by exact Se.
    injection Hw as Ez _. rewrite <- Ez in Hq. cbn [pw_state pw_salt pw_nonce pw_edk] in Hq.
    apply app_inj_len in Hq as [Hsalt Hq]; [|rewrite draw_length, Ls; reflexivity].
    apply app_inj_len in Hq as [Hpar Hq]; [|rewrite !params_len; reflexivity].
    apply app_inj_len in Hq as [Hn Hc]; [|rewrite draw_length, Ln; reflexivity].
    apply params_inj in Hpar; [|assumption..].
    assert (z = x) as ->.
    { rewrite <- Ez, Hpar, Hsalt, Hn, Hc, <- T. unfold st. destruct x. reflexivity. }
    exists k'. rewrite <- Hpar. split; [exact He|]. intros Hk.
    destruct (pw_wrap_ok P v w k' pw st' ra L Hk Se Ha') as (x' & R1 & _ & _ & _ & _ & R2).
    rewrite Hw0 in R1. assert (x = x') by congruence. subst x'. rewrite R2 in H0. exact (key_back P v _ _ _ L Hk H0).
  - destruct (seal P v' fuel pdk pk ra) as [[z rd]|]; [|discriminate]. injection Ho as <- _. discriminate Hq.
  - destruct (local_new_random ra) as [z rd]. injection Ho as <- _. discriminate Hq.
  - destruct v'.
    + destruct (v3_secret_new_random fuel ra) as [[z rd]|]; [|discriminate]. injection Ho as <- _. discriminate Hq.
    + destruct (v4_secret_new_random ra) as [z rd]. injection Ho as <- _. discriminate Hq.
Qed.
