(** Proofs for C78 (what a system that reads texts accepts) and C79 (key ids in footers). *)
From Coq Require Import ZArith ZifyBool ZifyNat ZifyN.
From Verif Require Import Bytes Outcome Base64 Prims Version Key Token Local Public KeyId Plaintext Wrap Pbkw Pke
  SpecBase64 SpecPaseto SpecPaserk SpecText SpecKey Observe History Fmt AnyRng SpecEffects SpecSystem.
From Verif Require Import BytesLemmas Base64Lemmas TokenLemmas CipherLemmas ProofsText ProofsLocal ProofsWrap ProofsKey ProofsForge ProofsEffects.
Ltac Zify.zify_post_hook ::= Z.div_mod_to_equations.

Lemma encrypt_footer {M F E} P v (EN : Encoding E M) (FC : FooterCodec F) t key n i x :
  encrypt_inner P v EN FC t key n i = Ok x -> f_encode FC (vt_footer t) = Some (st_encoded_footer x).
Proof.
  unfold encrypt_inner. destruct (payload_err _); cbn [obind]; try discriminate.
  destruct (f_encode FC _); cbn [unwrap obind]; try discriminate.
  destruct (generic_encrypt _ _ _ _ _ _ _ _) as [[c tg]| |]; cbn [obind]; try discriminate.
  intros H. apply ok_inj in H. subst x. reflexivity.
Qed.
Lemma sign_footer {M F E} P v (EN : Encoding E M) (FC : FooterCodec F) t sk i x :
  sign_with_assertions P v EN FC t sk i = Ok x -> f_encode FC (vt_footer t) = Some (st_encoded_footer x).
Proof.
  unfold sign_with_assertions. destruct (payload_err _); cbn [obind]; try discriminate.
  destruct (f_encode FC _); cbn [unwrap obind]; try discriminate.
  destruct (sign_raw _ _ _ _ _ _ _) as [sg| |]; cbn [obind]; try discriminate.
  intros H. apply ok_inj in H. subst x. reflexivity.
Qed.

(** The published texts are what displaying the returned values gives. *)
Lemma c78_published_is_display :
  forall (P : Prims) fuel,
  (forall q r t r', encrypt_with_rng P (rq_version q) (rq_encoding q) (rq_footer q) (rq_token q) (rq_key q)
                      (rq_implicit q) r = (Ok t, r') ->
     run_op P fuel (OpEncrypt q) r = Some (RToken (Ok (st_payload t)), r') /\
     published (ERand (OpEncrypt q) (RToken (Ok (st_payload t)))) =
       Some (token_display (rq_version q) PLocal (suffix (rq_encoding q)) t)) /\
  (forall q r t, sign_with_assertions P (sq_version q) (sq_encoding q) (sq_footer q) (sq_token q) (sq_sk q)
                      (sq_implicit q) = Ok t ->
     perform P fuel (ASign q) r = Some (ESign q (Ok (st_payload t)), r) /\
     published (ESign q (Ok (st_payload t))) =
       Some (token_display (sq_version q) PPublic (suffix (sq_encoding q)) t)) /\
  (forall v w key wk x s, pie_display v w x = Ok s -> published (ERand (OpPie v w key wk) (RPie (Ok x))) = Some s) /\
  (forall v w key pw st x s, state_u32 v (pw_state x) = true -> pw_display v w x = Ok s ->
     published (ERand (OpPw v w key pw st) (RPw v (Ok x))) = Some s) /\
  (forall v pdk pk x s, seal_display v x = Ok s -> published (ERand (OpSeal v pdk pk) (RSeal (Ok x))) = Some s).
Proof.
  intros P fuel. split; [|split; [|split; [|split]]].
  - intros q r t r' H. cbn [run_op]. rewrite H. split; [reflexivity|]. cbn [published].
    rewrite token_display_spec. unfold encrypt_with_rng in H. destruct (fill NONCE_LEN r) as [n r1].
    assert (Hx : encrypt_inner P (rq_version q) (rq_encoding q) (rq_footer q) (rq_token q) (rq_key q) n (rq_implicit q) = Ok t)
      by congruence.
    unfold footer_bytes. rewrite (encrypt_footer _ _ _ _ _ _ _ _ _ Hx). reflexivity.
  - intros q r t H. cbn [perform]. rewrite H. split; [reflexivity|]. cbn [published].
    rewrite token_display_spec. unfold footer_bytes. rewrite (sign_footer _ _ _ _ _ _ _ _ H). reflexivity.
  - intros v w key wk x s H. rewrite pie_display_eq in H. apply ok_inj in H. subst s. reflexivity.
  - intros v w key pw st x s Hu H. rewrite pw_display_eq in H. cbn [published].
    cbv zeta. rewrite <- (encode_state_spec v (pw_state x) Hu).
    apply ok_inj in H. subst s. reflexivity.
  - intros v pdk pk x s H. rewrite seal_display_eq in H. apply ok_inj in H. subst s. reflexivity.
Qed.

Lemma slice_text h b f s : s = h ++ base64url b ++ f -> rust_slice s -> rust_slice h /\ rust_slice b /\ rust_slice f.
Proof.
  unfold rust_slice, nlen. intros -> H. rewrite !app_length, base64url_length in H. lia.
Qed.
Lemma slice_le a b : length a <= length b -> rust_slice b -> rust_slice a.
Proof. unfold rust_slice, nlen. lia. Qed.

Lemma grammar_slices v p sfx s b f : token_grammar v p sfx s b f -> rust_slice s ->
  rust_slice (token_header v p sfx) /\ rust_slice b /\ rust_slice f.
Proof.
  intros G. destruct G as [b|b f]; intros H.
  - destruct (slice_text (token_header v p sfx) b [] _ (eq_sym (f_equal (app _) (app_nil_r _))) H) as (A & B & C).
    auto.
  - destruct (slice_text _ _ _ _ eq_refl H) as (A & B & C). split; [exact A|]. split; [exact B|].
    apply (slice_le f (str "." ++ base64url f)); [|exact C]. rewrite app_length, base64url_length. cbn [length str list_byte_of_string]. lia.
Qed.
Lemma grammar_text v p sfx s b f : token_grammar v p sfx s b f ->
  s = token_text (token_header v p sfx) b f \/ (f = [] /\ s = token_text (token_header v p sfx) b f ++ str ".").
Proof.
  intros G. destruct G as [b|b [|x f]]; unfold token_text.
  - left. rewrite ?app_nil_r. reflexivity.
  - right. split; [reflexivity|]. rewrite ?app_nil_r, <- ?app_assoc. reflexivity.
  - left. reflexivity.
Qed.

(** C78: a system that issued texts with any generator and reads an arbitrary text [s]: if [s]
    is parsed and decrypted, [s] is the text of a token issued under that key with that
    assertion (possibly with a final dot added to a token without footer), and the message
    obtained is the decoding of the bytes encoded there; otherwise [s] carries a valid MAC on a
    message the history never authenticated from that key. *)
Lemma c78_local_text :
  forall S (P : Prims) fuel (g : gen S) actions s0 h s1 (M F E : Type) (v : version) (EN : Encoding E M)
         (FC : FooterCodec F) e0 (s key i : bytes) (t : SecuredToken F E) x,
  SymLaws P -> fills g -> ghistory P fuel g actions s0 h s1 -> Forall event_sizes h ->
  rust_slice s -> rust_slice i ->
  token_parse v PLocal (suffix EN) e0 FC s = Ok t -> decrypt_with_assertions P v EN t key i = Ok x ->
  (exists q b m text, In (ERand (OpEncrypt q) (RToken (Ok b))) h /\ rq_key q = key /\ rq_implicit q = i /\
     published (ERand (OpEncrypt q) (RToken (Ok b))) = Some text /\
     (s = text \/ (st_encoded_footer t = [] /\ s = text ++ str ".")) /\
     e_encode (rq_encoding q) (vt_encoding (rq_token q)) (vt_message (rq_token q)) = COk m /\
     e_decode EN e0 m = COk (vt_message x)) \/
  (let b := st_payload t in
   let a := PAE [local_header v (suffix EN); body_nonce b; body_cipher v b; st_encoded_footer t; i] in
   mac P v (local_ak P v key (body_nonce b)) a = body_tag v b /\ ~ authenticated h key a).
Proof.
  intros S P fuel g actions s0 h s1 M F E v EN FC e0 s key i t x L Hg Hh Hs Ss Si Hp Hd.
  destruct (c77_any_generator_is_a_tape S P fuel g actions s0 h s1 Hg Hh) as (l' & r & n & _ & _ & Hr).
  apply token_parse_ok_iff in Hp as (b & f & y & G & Df & ->).
  destruct (grammar_slices _ _ _ _ _ _ G Ss) as (S1 & S2 & S3).
  assert (Sz : local_sizes v (suffix EN) (body_cipher v b) f i).
  { split; [exact S1|]. split; [|split; assumption]. apply (slice_le _ b); [|exact S2].
    unfold body_cipher. rewrite firstn_length, skipn_length. lia. }
  destruct (c68_local_history P fuel l' r h _ M F E v EN (mk_tok e0 b f y) key i x L Hr Hs Sz Hd)
    as [(q & m & Hin & Qv & Qk & Qi & Qs & Qf & Qe & Qd)|R]; [left|right; exact R].
  cbn [mk_tok st_payload st_encoded_footer st_encoding] in *.
  exists q, b, m. eexists. split; [exact Hin|]. split; [exact Qk|]. split; [exact Qi|].
  split; [reflexivity|]. split; [|split; assumption].
  unfold footer_bytes. rewrite Qf, Qv, Qs. apply (grammar_text v PLocal (suffix EN)), G.
Qed.

(** C78: the same for public tokens: an accepted text carries message bytes, footer and
    encoding of a published text signed with that key and assertion.  (The signature itself may
    be another valid one, see C59.) *)
Lemma c78_public_text :
  forall S (P : Prims) fuel (g : gen S) actions s0 h s1 (M F E : Type) (v : version) (EN : Encoding E M)
         (FC : FooterCodec F) e0 (s sk i : bytes) (t : SecuredToken F E) x,
  Sizes P -> fills g -> ghistory P fuel g actions s0 h s1 -> Forall event_sizes h ->
  rust_slice s -> rust_slice i -> valid_key P v Secret sk = true ->
  token_parse v PPublic (suffix EN) e0 FC s = Ok t ->
  verify_with_assertions P v EN t (public_key P v sk) i = Ok x ->
  let m := body_message v (st_payload t) in
  let f := st_encoded_footer t in
  (exists q b', In (ESign q (Ok b')) h /\ sq_sk q = sk /\ sq_implicit q = i /\
     body_message v b' = m /\
     published (ESign q (Ok b')) = Some (token_text (public_header v (suffix EN)) b' f) /\
     (s = token_text (public_header v (suffix EN)) (st_payload t) f \/
      (f = [] /\ s = token_text (public_header v (suffix EN)) (st_payload t) f ++ str ".")) /\
     e_encode (sq_encoding q) (vt_encoding (sq_token q)) (vt_message (sq_token q)) = COk m /\
     e_decode EN e0 m = COk (vt_message x)) \/
  (let a := public_m2 v (suffix EN) (public_key P v sk) m f i in
   valid_sig P v (public_key P v sk) a (body_sig v (st_payload t)) = true /\ ~ signed P h sk a).
Proof.
  intros S P fuel g actions s0 h s1 M F E v EN FC e0 s sk i t x L Hg Hh Hs Ss Si Hk Hp Hd.
  destruct (c77_any_generator_is_a_tape S P fuel g actions s0 h s1 Hg Hh) as (l' & r & n & _ & _ & Hr).
  apply token_parse_ok_iff in Hp as (b & f & y & G & Df & ->).
  destruct (grammar_slices _ _ _ _ _ _ G Ss) as (S1 & S2 & S3). cbv zeta. cbn [mk_tok st_payload st_encoded_footer].
  assert (Sz : public_sizes v (suffix EN) (body_message v b) f i).
  { split; [exact S1|]. split; [|split; assumption]. apply (slice_le _ b); [|exact S2].
    unfold body_message. rewrite firstn_length. lia. }
  destruct (c69_public_history P fuel l' r h _ M F E v EN (mk_tok e0 b f y) sk i x L Hr Hs Hk Sz Hd)
    as [(q & b' & Hin & Qm & Qv & Qk & Qi & Qs & Qf & Qe & Qd)|R]; [left|right; exact R].
  cbn [mk_tok st_payload st_encoded_footer st_encoding] in *.
  exists q, b'. repeat (split; [assumption|]). split.
  { cbn [published]. unfold footer_bytes. rewrite Qf, Qv, Qs. reflexivity. }
  split; [apply (grammar_text v PPublic (suffix EN)), G|]. split; assumption.
Qed.

(** C78: PIE-wrapped keys: an accepted text is a published text, or carries a forged MAC. *)
Lemma c78_pie_text :
  forall S (P : Prims) fuel (g : gen S) actions s0 h s1 (v : version) (w : wtype) (s wk key : bytes) (x : PieWrapped),
  Sizes P -> fills g -> ghistory P fuel g actions s0 h s1 ->
  pie_parse v w s = Ok x -> unwrap_pie P v w x wk = Ok key ->
  (exists key', In (ERand (OpPie v w key' wk) (RPie (Ok x))) h /\
     published (ERand (OpPie v w key' wk) (RPie (Ok x))) = Some s /\
     (valid_key P v (wtype_key w) key' = true -> key = key')) \/
  (let a := pie_h v w ++ pie_nonce x ++ pie_key x in
   mac P v (pie_ak P v wk (pie_nonce x)) a = pie_tag x /\ ~ authenticated h wk a).
Proof.
  intros S P fuel g actions s0 h s1 v w s wk key x L Hg Hh Hp Hu.
  destruct (c77_any_generator_is_a_tape S P fuel g actions s0 h s1 Hg Hh) as (l' & r & n & _ & _ & Hr).
  apply pie_parse_ok_iff in Hp as [Hw ->].
  destruct (c70_pie_history P fuel l' r h _ v w x wk key L Hr Hw Hu) as [(key' & Hin & He)|R]; [left|right; exact R].
  exists key'. split; [exact Hin|]. split; [reflexivity|exact He].
Qed.

(** C78: password-wrapped keys: an accepted text is read as the same value as a published text
    (for k3 it is that text; for k4 see C44), or carries a forged MAC. *)
Lemma c78_pw_text :
  forall S (P : Prims) fuel (g : gen S) actions s0 h s1 (v : version) (w : wtype) (s pw key : bytes) (x : PwWrapped v),
  Sizes P -> fills g -> ghistory P fuel g actions s0 h s1 -> Forall event_sizes h ->
  pw_parse v w s = Ok x -> pw_unwrap P v w x pw = Ok key ->
  (exists key' text, In (ERand (OpPw v w key' pw (pw_state x)) (RPw v (Ok x))) h /\
     published (ERand (OpPw v w key' pw (pw_state x)) (RPw v (Ok x))) = Some text /\
     pw_parse v w text = Ok x /\ (v = V3 -> s = text) /\
     (valid_key P v (wtype_key w) key' = true -> key = key')) \/
  (let st := pw_state x in
   let a := pw_h v w ++ pw_salt x ++ pw_params_bytes v (st_mem v st) (st_time v st) (st_para v st) (st_iters v st)
              ++ pw_nonce x ++ pw_edk x in
   mac P v (pw_auth_key P v pw (pw_salt x) st) a = pw_tag x /\ ~ authenticated h pw a).
Proof.
  intros S P fuel g actions s0 h s1 v w s pw key x L Hg Hh Hs Hp Hu.
  destruct (c77_any_generator_is_a_tape S P fuel g actions s0 h s1 Hg Hh) as (l' & r & n & _ & _ & Hr).
  pose proof (proj1 (proj2 (c44_pw_text v w s x)) Hp) as Hw.
  destruct (c70_pw_history P fuel l' r h _ v w x pw key L Hr Hs Hw Hu) as [(key' & Hin & He)|R]; [left|right; exact R].
  destruct (pw_parse_display v w x Hw) as (text & Hd & Ht).
  exists key', text. split; [exact Hin|]. split.
  { pose proof Hd as Hd'. rewrite pw_display_eq in Hd'. cbn [published].
    cbv zeta. rewrite <- (encode_state_spec v (pw_state x)) by apply Hw.
    apply ok_inj in Hd'. subst text. reflexivity. }
  split; [exact Ht|]. split; [|exact He].
  intros V. pose proof (proj2 (proj2 (c44_pw_text v w s x)) V Hp) as D. congruence.
Qed.

(** For the examples: histories on a tape are histories on a generator. *)
Lemma tape_ghistory P fuel l : forall r h r', perform_all P fuel l r = Some (h, r') -> ghistory P fuel tape_gen l r h r'.
Proof.
  induction l as [|a l IH]; intros r h r' H; cbn [perform_all] in H.
  - injection H as <- <-. constructor.
  - destruct (perform P fuel a r) as [[e r1]|] eqn:Ha; [|discriminate].
    destruct (perform_all P fuel l r1) as [[es r2]|] eqn:Hl; [|discriminate]. injection H as <- <-.
    eapply gh_done; [|apply IH, Hl]. destruct a as [o|q]; cbn [perform gperform] in *.
    + rewrite c77_tapes_are_generators. destruct (run_op P fuel o r) as [[y r']|]; [|discriminate].
      injection Ha as <- <-. reflexivity.
    + injection Ha as <- <-. reflexivity.
Qed.
Lemma tape_gen_fills : fills tape_gen.
Proof. intros r n b r' H. unfold tape_gen in H. rewrite fill_eq in H. injection H as <- _. apply draw_length. Qed.

(** ** C79 *)

Lemma exchange_laws P a b : Sizes P -> Sizes (rehash P (exchange a b (sha384 P)) (fun o => exchange a b (blake2b P o))).
Proof.
  intros [S E Q]. constructor; [|exact E|exact Q].
  destruct S. constructor; cbn; try assumption.
  - intros m. unfold exchange. destruct (bseqb m a); [auto|]. destruct (bseqb m b); auto.
  - intros o m Ho. unfold exchange. destruct (bseqb m a); [auto|]. destruct (bseqb m b); auto.
Qed.

(** C79: a key id, which may be put into a footer in the clear, fits every key of its type: with
    two inputs of the hash exchanged, the other key has this id.  So the id depends on the key
    only through one hash value.  (The other two types marked [SafeForFooter], PIE-wrapped and
    sealed keys, are covered by C75.) *)
Lemma c79_id_fits_any_key :
  forall (P : Prims) (v : version) (k : ktype) (key key' id : bytes),
  Sizes P -> valid_key P v k key = true -> valid_key P v k key' = true ->
  to_id P v k key = Ok id ->
  exists a b, let Q := rehash P (exchange a b (sha384 P)) (fun o => exchange a b (blake2b P o)) in
    SymLaws Q /\ to_id Q v k key' = Ok id /\ valid_key Q v k key' = true.
Proof.
  intros P v k key key' id L H H' Hid.
  set (a := id_input v k (to_bytes P v k key')). set (b := id_input v k (to_bytes P v k key)).
  exists a, b. cbv zeta.
  pose proof (exchange_laws P a b L) as LQ.
  set (Q := rehash P (exchange a b (sha384 P)) (fun o => exchange a b (blake2b P o))) in *.
  assert (V : valid_key Q v k key' = true) by exact H'.
  split; [exact LQ|]. split; [|exact V].
  destruct (c34_id_is_spec Q v k key' LQ V) as [-> _].
  destruct (c34_id_is_spec P v k key L H) as [E _]. rewrite E in Hid. rewrite <- Hid. f_equal.
  change (to_bytes Q v k key') with (to_bytes P v k key').
  unfold id_digest, id_hash. fold a b. unfold Q, rehash. cbn [sym sha384 blake2b].
  unfold exchange. rewrite bseqb_refl. reflexivity.
Qed.
