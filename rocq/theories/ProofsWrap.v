(** Proofs for PIE-wrapped, password-wrapped and sealed keys. *)
From Coq Require Import ZArith ZifyBool ZifyNat ZifyN.
From Verif Require Import Bytes Outcome Base64 Prims Version Key Local Wrap Pbkw Pke
  SpecBase64 SpecPaseto SpecPaserk SpecText SpecKey Observe.
From Verif Require Import BytesLemmas Base64Lemmas TextLemmas TokenLemmas CipherLemmas ProofsText ProofsPublic
  ProofsLocal ProofsKey.
Ltac Zify.zify_post_hook ::= Z.div_mod_to_equations.

Lemma ok_inj {A} (a b : A) : Ok a = Ok b -> a = b.
Proof. intros H. injection H. auto. Qed.
Lemma omap_ok {A B} (f : A -> B) x b : omap f x = Ok b -> exists a, x = Ok a /\ b = f a.
Proof. unfold omap. intros H. apply obind_ok in H as (a & H1 & H2). exists a. split; congruence. Qed.

(** ** PIE *)

Lemma pie_total_eq v w : pie_total_len v w = tag_len v + 32 + key_size v (wtype_key w).
Proof. destruct v, w; reflexivity. Qed.

Lemma pie_split_join v w x : pie_wf v w x -> pie_split v (pie_tag x ++ pie_nonce x ++ pie_key x) = x.
Proof.
  intros (H1 & H2 & H3). unfold pie_split. replace (pie_tag_len v) with (tag_len v) by (destruct v; reflexivity).
  rewrite app_assoc.
  rewrite (firstn_app_exact (pie_tag x ++ pie_nonce x)), (skipn_app_exact (pie_tag x ++ pie_nonce x))
    by (rewrite app_length; lia).
  rewrite (firstn_app_exact (pie_tag x)), (skipn_app_exact (pie_tag x)) by exact H1. destruct x; reflexivity.
Qed.

Lemma pie_join_split v w b : length b = pie_total_len v w ->
  pie_wf v w (pie_split v b) /\
  pie_tag (pie_split v b) ++ pie_nonce (pie_split v b) ++ pie_key (pie_split v b) = b.
Proof.
  intros L. rewrite pie_total_eq in L. unfold pie_wf, pie_split.
  replace (pie_tag_len v) with (tag_len v) by (destruct v; reflexivity). cbn [pie_tag pie_nonce pie_key].
  rewrite app_assoc, !firstn_skipn. split; [|reflexivity].
  rewrite !firstn_length, !skipn_length, !firstn_length. lia.
Qed.

Lemma pie_body_length v w x : pie_wf v w x ->
  length (pie_tag x ++ pie_nonce x ++ pie_key x) = pie_total_len v w.
Proof. intros (H1 & H2 & H3). rewrite !app_length, pie_total_eq. lia. Qed.

Lemma pie_parse_ok_iff v w s x :
  pie_parse v w s = Ok x <->
  pie_wf v w x /\ s = pie_h v w ++ base64url (pie_tag x ++ pie_nonce x ++ pie_key x).
Proof.
  rewrite pie_parse_eq, paserk_read_ok_iff. split.
  - intros (b & -> & L & H). injection H as <-. destruct (pie_join_split v w b L) as [H1 H2].
    split; [exact H1|]. rewrite H2. reflexivity.
  - intros [H ->]. eexists. split; [reflexivity|]. split; [apply pie_body_length, H|].
    f_equal. apply (pie_split_join v w), H.
Qed.

(** The pieces of the model equal the standard's. *)
Definition pie_ek (P : Prims) v wk n : bytes := fst (pie_ek_n2 P v wk n).
Definition pie_n2 (P : Prims) v wk n : bytes := snd (pie_ek_n2 P v wk n).
Lemma pie_ek_eq (P : Prims) v wk n : firstn 32 (pie_enc_key_mac P v wk ([x80] ++ n)) = pie_ek P v wk n.
Proof. destruct v; reflexivity. Qed.
Lemma pie_n2_eq (P : Prims) v wk n : skipn 32 (pie_enc_key_mac P v wk ([x80] ++ n)) = pie_n2 P v wk n.
Proof. destruct v; reflexivity. Qed.
Lemma pie_ak_split (P : Prims) v wk n : SymLaws P ->
  split_at 32 (pie_auth_key_mac P v wk ([x81] ++ n))
  = Ok (pie_ak P v wk n, skipn 32 (pie_auth_key_mac P v wk ([x81] ++ n))).
Proof.
  intros L. destruct v; cbn [pie_auth_key_mac app].
  - rewrite split_at_ok by (rewrite (hmac_len _ L); lia). reflexivity.
  - rewrite split_at_ok by (rewrite (blake2b_mac_len _ L); lia).
    rewrite firstn_all2 by (rewrite (blake2b_mac_len _ L); lia). reflexivity.
Qed.
Lemma pie_tag_eq (P : Prims) v w wk n c :
  pie_tag_mac P v (pie_ak P v wk n) (pie_tag_message v w n c) = pie_spec_tag P v w wk n c.
Proof. destruct v, w; reflexivity. Qed.
Lemma pie_spec_tag_mac (P : Prims) v w wk n c :
  pie_spec_tag P v w wk n c = mac P v (pie_ak P v wk n) (pie_h v w ++ n ++ c).
Proof. destruct v; reflexivity. Qed.
Lemma pie_spec_tag_len (P : Prims) v w wk n c : SymLaws P -> length (pie_spec_tag P v w wk n c) = tag_len v.
Proof. intros L. rewrite pie_spec_tag_mac. apply mac_len, L. Qed.

Lemma wrap_pie_eq (P : Prims) v w key wk r : SymLaws P ->
  wrap_pie P v w key wk r =
  let n := draw r 0 32 in
  (let? c := apply_keystream P v (pie_ek P v wk n) (pie_n2 P v wk n) (key_to_bytes P v (wtype_key w) key) in
   Ok {| pie_tag := pie_spec_tag P v w wk n c; pie_nonce := n; pie_key := c |}, advance r 32).
Proof.
  intros L. unfold wrap_pie. rewrite fill_eq. cbv zeta. f_equal. rewrite pie_ek_eq, pie_n2_eq.
  destruct (apply_keystream P v _ _ _); cbn [obind]; [|reflexivity..].
  rewrite pie_ak_split by exact L. cbn [obind]. rewrite pie_tag_eq. reflexivity.
Qed.

Lemma unwrap_pie_eq (P : Prims) v w x wk : SymLaws P ->
  unwrap_pie P v w x wk =
  if bseqb (pie_tag x) (pie_spec_tag P v w wk (pie_nonce x) (pie_key x)) then
    let? ptk := apply_keystream P v (pie_ek P v wk (pie_nonce x)) (pie_n2 P v wk (pie_nonce x)) (pie_key x) in
    key_from_bytes P v (wtype_key w) ptk
  else Err CryptoError.
Proof.
  intros L. unfold unwrap_pie. rewrite pie_ak_split by exact L. cbn [obind]. rewrite pie_tag_eq.
  destruct (bseqb _ _); cbn [negb]; [|reflexivity]. rewrite pie_ek_eq, pie_n2_eq. reflexivity.
Qed.

Lemma key_size_limit v k : within_limit v (N.of_nat (key_size v k)).
Proof. destruct v, k; cbn; try exact I; unfold xchacha20_limit; lia. Qed.
Lemma key_limit v k b : length b = key_size v k -> within_limit v (nlen b).
Proof. intros H. unfold nlen. rewrite H. apply key_size_limit. Qed.

Lemma pie_wrap_ok (P : Prims) v w key wk r : Sizes P -> valid_key P v (wtype_key w) key = true ->
  exists x, wrap_pie P v w key wk r = (Ok x, advance r 32) /\ pie_wf v w x /\
    pie_nonce x = draw r 0 32 /\
    unwrap_pie P v w x wk = key_from_bytes P v (wtype_key w) (key_to_bytes P v (wtype_key w) key).
Proof.
  intros L Hk. rewrite wrap_pie_eq by exact L. cbv zeta. set (n := draw r 0 32).
  pose proof (key_to_bytes_length P v (wtype_key w) key L Hk) as Lk.
  destruct (apply_keystream_ok P v (pie_ek P v wk n) (pie_n2 P v wk n) _ (key_limit v (wtype_key w) _ Lk)) as [c Hc].
  rewrite Hc. cbn [obind]. destruct (apply_keystream_invol P v _ _ _ _ L Hc) as [Lc Hinv].
  eexists. split; [reflexivity|]. split; [|split; [reflexivity|]].
  - refine (conj _ (conj _ _)); cbn [pie_tag pie_nonce pie_key].
    + apply pie_spec_tag_len, L.
    + apply draw_length.
    + congruence.
  - rewrite unwrap_pie_eq by exact L. cbn [pie_tag pie_nonce pie_key]. rewrite bseqb_refl, Hinv. reflexivity.
Qed.

(** C37: wrap, print, parse, unwrap returns the key. *)
Lemma c37_pie_roundtrip :
  forall (P : Prims) (v : version) (w : wtype) (key wk : bytes) (r : rng),
  Sizes P -> (v = V4 -> w = WSecret -> EdLaws P) -> valid_key P v (wtype_key w) key = true ->
  exists x s, wrap_pie P v w key wk r = (Ok x, advance r 32) /\
              pie_display v w x = Ok s /\ pie_parse v w s = Ok x /\
              unwrap_pie P v w x wk = Ok key.
Proof.
  intros P v w key wk r L LE Hk. destruct (pie_wrap_ok P v w key wk r L Hk) as (x & H1 & H2 & _ & H3).
  rewrite key_roundtrip in H3 by (first [assumption|intros V W; apply LE; [exact V|destruct w; [discriminate W|reflexivity]]]).
  exists x. eexists. split; [exact H1|]. split; [apply pie_display_eq|]. split; [|exact H3].
  apply pie_parse_ok_iff. auto.
Qed.

(** C37: print/parse is the identity both ways on wrapped keys. *)
Lemma c37_pie_text :
  forall (v : version) (w : wtype) (s : bytes) (x : PieWrapped),
  pie_parse v w s = Ok x <-> pie_wf v w x /\ pie_display v w x = Ok s.
Proof.
  intros v w s x. rewrite pie_parse_ok_iff, pie_display_eq. split; intros [H1 H2]; (split; [exact H1|]).
  - rewrite H2. reflexivity.
  - apply ok_inj in H2. symmetry. exact H2.
Qed.

Lemma pie_n2_len (P : Prims) wk n : SymLaws P -> length (pie_n2 P V3 wk n) = 16.
Proof. intros L. unfold pie_n2, pie_ek_n2. cbn [snd]. rewrite skipn_length, (hmac_len _ L). reflexivity. Qed.

Lemma keystream_pie_spec (P : Prims) v w wk n d : SymLaws P -> length d = key_size v (wtype_key w) ->
  pie_safe P v w wk n ->
  apply_keystream P v (pie_ek P v wk n) (pie_n2 P v wk n) d = Ok (pie_cipher P v wk n d).
Proof.
  intros L Ld S. rewrite apply_keystream_spec.
  - unfold pie_cipher, pie_ek, pie_n2. destruct (pie_ek_n2 P v wk n). reflexivity.
  - destruct v; cbn [cipher_ok pie_safe] in *.
    + split; [apply pie_n2_len, L|]. rewrite Ld. exact S.
    + rewrite Ld. destruct w; cbn; unfold xchacha20_limit; lia.
Qed.

(** C38: the printed text is the standard's t || n || c. *)
Lemma c38_pie_wrap_is_spec :
  forall (P : Prims) (v : version) (w : wtype) (key wk : bytes) (r : rng) x r',
  Sizes P -> valid_key P v (wtype_key w) key = true ->
  let n := draw r 0 32 in
  pie_safe P v w wk n ->
  wrap_pie P v w key wk r = (Ok x, r') ->
  pie_display v w x =
  Ok (pie_h v w ++ base64url (pie_wrap_body P v w wk n (to_bytes P v (wtype_key w) key))).
Proof.
  intros P v w key wk r x r' L Hk n S H. rewrite wrap_pie_eq in H by exact L. cbv zeta in H. fold n in H.
  pose proof (key_to_bytes_length P v (wtype_key w) key L Hk) as Lk.
  rewrite (keystream_pie_spec P v w) in H by (first [exact L|exact Lk|exact S]). cbn [obind] in H.
  assert (Hx : x = {| pie_tag := pie_spec_tag P v w wk n (pie_cipher P v wk n (key_to_bytes P v (wtype_key w) key));
                      pie_nonce := n; pie_key := pie_cipher P v wk n (key_to_bytes P v (wtype_key w) key) |})
    by congruence.
  rewrite pie_display_eq, Hx. reflexivity.
Qed.

(** C38: unwrapping is the standard's, with the error classes named. *)
Lemma c38_pie_unwrap_is_spec :
  forall (P : Prims) (v : version) (w : wtype) (wk s : bytes) (x : PieWrapped),
  Sizes P -> pie_parse v w s = Ok x ->
  let n := pie_nonce x in
  pie_safe P v w wk n ->
  match pie_unwrap_spec P v w wk (pie_tag x) n (pie_key x) with
  | None => unwrap_pie P v w x wk = Err CryptoError
  | Some ptk =>
      (forall key, unwrap_pie P v w x wk = Ok key <-> encodes P v (wtype_key w) ptk key) /\
      ((forall key, ~ encodes P v (wtype_key w) ptk key) -> unwrap_pie P v w x wk = Err InvalidKey)
  end.
Proof.
  intros P v w wk s x L Hp n S. apply pie_parse_ok_iff in Hp as [(_ & _ & Lk) _].
  rewrite unwrap_pie_eq by exact L. fold n. unfold pie_unwrap_spec.
  destruct (bseqb (pie_tag x) _); [|reflexivity].
  pose proof (keystream_pie_spec P v w wk n (pie_key x) L Lk S) as Hc. rewrite Hc. cbn [obind].
  assert (Lp : length (pie_cipher P v wk n (pie_key x)) = key_size v (wtype_key w)).
  { apply apply_keystream_invol in Hc as [Hc _]; [congruence|exact L]. }
  destruct (c29_key_bytes_exact P v (wtype_key w) _ L Lp) as (H1 & _ & H3 & _). auto.
Qed.

(** C39: parsing and unwrapping untrusted text never panics, and yields only valid keys. *)
Lemma c39_pie_unwrap_no_panic :
  forall (P : Prims) (v : version) (w : wtype) (wk s : bytes) (x : PieWrapped),
  Sizes P -> pie_parse v w s = Ok x ->
  (exists key, unwrap_pie P v w x wk = Ok key /\ valid_key P v (wtype_key w) key = true) \/
  unwrap_pie P v w x wk = Err CryptoError \/ unwrap_pie P v w x wk = Err InvalidKey.
Proof.
  intros P v w wk s x L Hp. apply pie_parse_ok_iff in Hp as [(_ & _ & Lk) _].
  rewrite unwrap_pie_eq by exact L. destruct (bseqb (pie_tag x) _); [|auto].
  destruct (apply_keystream_ok P v (pie_ek P v wk (pie_nonce x)) (pie_n2 P v wk (pie_nonce x)) _ (key_limit v (wtype_key w) _ Lk)) as [c Hc].
  rewrite Hc. cbn [obind]. apply apply_keystream_invol in Hc as [Lc _]; [|exact L].
  assert (Lc' : length c = key_size v (wtype_key w)) by congruence.
  destruct (key_from_bytes P v (wtype_key w) c) as [key|e|] eqn:K.
  - left. exists key. split; [reflexivity|]. apply (encodes_valid P v _ c); [destruct w; discriminate|].
    apply key_from_bytes_iff; [exact L|exact Lc'|exact K].
  - right. right. apply key_from_bytes_err in K. congruence.
  - destruct (key_from_bytes_no_panic _ _ _ _ K).
Qed.

Lemma pie_h_split v w1 w2 a b : pie_h v w1 ++ a = pie_h v w2 ++ b -> w1 = w2 /\ a = b.
Proof.
  intros H. destruct v, w1, w2; try (exfalso; vm_compute in H; discriminate); (apply app_inv_head in H; auto).
Qed.

(** C40: two wrapped keys with one tag accepted under one wrapping key have the same type,
    nonce and ciphertext, or the MAC collides on two explicit messages. *)
Lemma c40_pie_binding :
  forall (P : Prims) (v : version) (w1 w2 : wtype) (wk s1 s2 : bytes) (x1 x2 : PieWrapped) k1 k2,
  Sizes P -> pie_parse v w1 s1 = Ok x1 -> pie_parse v w2 s2 = Ok x2 ->
  unwrap_pie P v w1 x1 wk = Ok k1 -> unwrap_pie P v w2 x2 wk = Ok k2 ->
  pie_tag x1 = pie_tag x2 ->
  (w1 = w2 /\ s1 = s2 /\ x1 = x2 /\ k1 = k2) \/
  (let m1 := pie_h v w1 ++ pie_nonce x1 ++ pie_key x1 in
   let m2 := pie_h v w2 ++ pie_nonce x2 ++ pie_key x2 in
   m1 <> m2 /\ mac P v (pie_ak P v wk (pie_nonce x1)) m1 = mac P v (pie_ak P v wk (pie_nonce x2)) m2).
Proof.
  intros P v w1 w2 wk s1 s2 x1 x2 k1 k2 L Hp1 Hp2 U1 U2 T. pose proof (U1, U2) as U.
  rewrite unwrap_pie_eq in U1, U2 by exact L.
  destruct (bseqb (pie_tag x1) _) eqn:T1; [|discriminate]. destruct (bseqb (pie_tag x2) _) eqn:T2; [|discriminate].
  apply bseqb_eq in T1, T2. rewrite pie_spec_tag_mac in T1, T2. cbv zeta.
  set (m1 := pie_h v w1 ++ pie_nonce x1 ++ pie_key x1) in *. set (m2 := pie_h v w2 ++ pie_nonce x2 ++ pie_key x2) in *.
  destruct (bytes_eq_dec m1 m2) as [E|N]; [left|right; split; [exact N|congruence]].
  apply pie_parse_ok_iff in Hp1 as [(_ & Ln1 & _) ->]. apply pie_parse_ok_iff in Hp2 as [(_ & Ln2 & _) ->].
  apply pie_h_split in E as [-> E]. apply app_inj_len in E as [En Ek]; [|congruence].
  assert (Ex : x1 = x2) by (destruct x1 as [t1 n1 c1], x2 as [t2 n2 c2]; cbn [pie_tag pie_nonce pie_key] in *; congruence).
  subst x2. destruct U as [U U']. rewrite U in U'. injection U' as ->. auto.
Qed.

(** ** PBKW *)

Lemma salt_len_eq v : salt_len v = pw_salt_size v. Proof. destruct v; reflexivity. Qed.
Lemma iv_len_eq v : iv_len v = pw_nonce_size v. Proof. destruct v; reflexivity. Qed.

Lemma be4_len n : length (be_bytes 4 n) = 4. Proof. apply be_bytes_length. Qed.
Lemma be4_val n : (n < two32)%N -> be_val (be_bytes 4 n) = n.
Proof. intros H. apply be_val_be_bytes. exact H. Qed.
Lemma be4_bound b : length b = 4 -> (be_val b < two32)%N.
Proof. intros H. pose proof (be_val_bound b) as B. rewrite H in B. exact B. Qed.

Lemma encode_state_length v st : length (encode_state v st) = state_len v.
Proof. destruct v; cbn [encode_state state_len]; rewrite ?app_length, ?be4_len; reflexivity. Qed.

Lemma state_u32_v4 (st : argon2_state) : state_u32 V4 st = true <->
  (mem st < two32 /\ time st < two32 /\ para st < two32)%N.
Proof. cbn [state_u32]. rewrite !andb_true_iff, !N.ltb_lt. tauto. Qed.

Lemma decode_v4 hi m t p : length hi = 4 -> (m < two32)%N -> (t < two32)%N -> (p < two32)%N ->
  decode_state V4 (hi ++ be_bytes 4 m ++ be_bytes 4 t ++ be_bytes 4 p) = {| mem := m; time := t; para := p |}.
Proof.
  intros L Hm Ht Hp. cbn [decode_state].
  rewrite (skipn_app_exact hi) by exact L.
  rewrite (firstn_app_exact (be_bytes 4 m)), (skipn_app_exact (be_bytes 4 m)) by apply be4_len.
  rewrite (firstn_app_exact (be_bytes 4 t)), (skipn_app_exact (be_bytes 4 t)) by apply be4_len.
  rewrite !be4_val by assumption. reflexivity.
Qed.

Lemma decode_encode_state v st : state_u32 v st = true -> decode_state v (encode_state v st) = st.
Proof.
  destruct v; intros H.
  - destruct st as [i]. cbn [state_u32 iterations] in H. apply N.ltb_lt in H.
    cbn [encode_state decode_state iterations]. rewrite be4_val by exact H. reflexivity.
  - apply state_u32_v4 in H as (H1 & H2 & H3). destruct st as [m t p]. cbn [mem time para] in *.
    cbn [encode_state mem time para]. apply (decode_v4 [x00; x00; x00; x00]); [reflexivity|assumption..].
Qed.

Lemma be4_of_val b : length b = 4 -> be_bytes 4 (be_val b) = b.
Proof. intros H. rewrite <- H. apply be_bytes_be_val. Qed.

Lemma decode_state_u32 v b : length b = state_len v -> state_u32 v (decode_state v b) = true.
Proof.
  destruct v; cbn [state_len]; intros L.
  - cbn [decode_state state_u32 iterations]. apply N.ltb_lt, be4_bound, L.
  - apply state_u32_v4. cbn [decode_state mem time para].
    repeat split; apply be4_bound; rewrite ?firstn_length, ?skipn_length, L; reflexivity.
Qed.

Lemma encode_decode_v3 b : length b = 4 -> encode_state V3 (decode_state V3 b) = b.
Proof. intros L. cbn [encode_state decode_state iterations]. apply be4_of_val, L. Qed.

Lemma decode_v4_parts b : length b = 16 ->
  b = firstn 4 b ++ be_bytes 4 (mem (decode_state V4 b)) ++ be_bytes 4 (time (decode_state V4 b))
        ++ be_bytes 4 (para (decode_state V4 b)).
Proof.
  intros L. cbn [decode_state mem time para].
  rewrite !be4_of_val by (rewrite ?firstn_length, ?skipn_length, L; reflexivity).
  rewrite !firstn_skipn. reflexivity.
Qed.

Definition pw_body {v} (x : PwWrapped v) : bytes :=
  pw_salt x ++ encode_state v (pw_state x) ++ pw_nonce x ++ pw_edk x ++ pw_tag x.

Lemma pw_total_eq v w : pw_total_len v w =
  pw_salt_size v + state_len v + pw_nonce_size v + key_size v (wtype_key w) + tag_len v.
Proof. destruct v, w; reflexivity. Qed.

Lemma pw_split_parts v w a b c d e :
  length a = pw_salt_size v -> length b = state_len v -> length c = pw_nonce_size v ->
  length d = key_size v (wtype_key w) ->
  pw_split v w (a ++ b ++ c ++ d ++ e) =
  {| pw_salt := a; pw_state := decode_state v b; pw_nonce := c; pw_edk := d; pw_tag := e |}.
Proof.
  intros La Lb Lc Ld. unfold pw_split. rewrite salt_len_eq, iv_len_eq, key_len_eq.
  replace (a ++ b ++ c ++ d ++ e) with ((((a ++ b) ++ c) ++ d) ++ e) by (rewrite !app_assoc; reflexivity).
  rewrite (firstn_app_exact (((a ++ b) ++ c) ++ d)), (skipn_app_exact (((a ++ b) ++ c) ++ d))
    by (rewrite !app_length; lia).
  rewrite (firstn_app_exact ((a ++ b) ++ c)), (skipn_app_exact ((a ++ b) ++ c)) by (rewrite !app_length; lia).
  rewrite (firstn_app_exact (a ++ b)), (skipn_app_exact (a ++ b)) by (rewrite !app_length; lia).
  rewrite (firstn_app_exact a), (skipn_app_exact a) by exact La. reflexivity.
Qed.

Lemma five_parts (t : bytes) p q r s : length t >= p + q + r + s ->
  exists a b c d e, t = a ++ b ++ c ++ d ++ e /\ length a = p /\ length b = q /\ length c = r /\ length d = s.
Proof.
  intros L. exists (firstn p t), (firstn q (skipn p t)), (firstn r (skipn q (skipn p t))),
    (firstn s (skipn r (skipn q (skipn p t)))), (skipn s (skipn r (skipn q (skipn p t)))).
  rewrite !firstn_skipn. split; [reflexivity|]. rewrite !firstn_length, !skipn_length. lia.
Qed.

(** exact language of pw texts: [st4] is the raw state field *)
Lemma pw_parse_ok_raw v w s x :
  pw_parse v w s = Ok x <->
  exists st4, pw_wf v w x /\ length st4 = state_len v /\ decode_state v st4 = pw_state x /\
    s = pw_h v w ++ base64url (pw_salt x ++ st4 ++ pw_nonce x ++ pw_edk x ++ pw_tag x).
Proof.
  rewrite pw_parse_eq, paserk_read_ok_iff. split.
  - intros (b & -> & L & H). rewrite pw_total_eq in L.
    destruct (five_parts b (pw_salt_size v) (state_len v) (pw_nonce_size v) (key_size v (wtype_key w)))
      as (sa & sb & n & d & e & -> & La & Lb & Lc & Ld); [lia|].
    rewrite pw_split_parts in H by assumption. injection H as <-. exists sb.
    cbn [pw_salt pw_state pw_nonce pw_edk pw_tag]. unfold pw_wf. cbn [pw_salt pw_state pw_nonce pw_edk pw_tag].
    repeat split; try assumption.
    + apply decode_state_u32, Lb.
    + rewrite !app_length in L. lia.
  - intros (st4 & (H1 & H2 & H3 & H4 & H5) & Ls & Hd & ->). eexists. split; [reflexivity|]. split.
    + rewrite !app_length, pw_total_eq. lia.
    + rewrite pw_split_parts by assumption. rewrite Hd. destruct x; reflexivity.
Qed.

Lemma pw_parse_display v w x : pw_wf v w x -> exists s, pw_display v w x = Ok s /\ pw_parse v w s = Ok x.
Proof.
  intros H. eexists. split; [apply pw_display_eq|]. apply pw_parse_ok_raw.
  exists (encode_state v (pw_state x)). split; [exact H|]. split; [apply encode_state_length|].
  split; [apply decode_encode_state, H|reflexivity].
Qed.

Definition prekey (P : Prims) v pw salt st : bytes :=
  pw_prekey P v pw salt (st_mem v st) (st_time v st) (st_para v st) (st_iters v st).

Lemma kdf_accepts_iff v pw (st : kdf_state v) :
  kdf_accepts v pw st <->
  match v return kdf_state v -> bool with
  | V3 => fun _ => true
  | V4 => fun st => argon2_params_ok (mem st / 1024) (time st) (para st) && argon2_pw_ok pw
  end st = true.
Proof.
  destruct v; cbn [kdf_accepts]; [tauto|].
  unfold argon2_params_ok, argon2_pw_ok. rewrite !andb_true_iff, !N.leb_le, N.ltb_lt. tauto.
Qed.

Lemma pw_kdf_ok (P : Prims) v pw salt st : kdf_accepts v pw st -> pw_kdf P v pw salt st = Ok (prekey P v pw salt st).
Proof.
  intros H. apply kdf_accepts_iff in H. destruct v; cbn [pw_kdf]; [reflexivity|]. rewrite H. reflexivity.
Qed.
Lemma pw_kdf_panic (P : Prims) v pw salt st : ~ kdf_accepts v pw st -> pw_kdf P v pw salt st = Panic.
Proof.
  intros H. rewrite kdf_accepts_iff in H. destruct v; cbn [pw_kdf]; [destruct (H eq_refl)|].
  destruct (argon2_params_ok _ _ _ && _); [destruct (H eq_refl)|reflexivity].
Qed.
Lemma kdf_accepts_dec v pw st : kdf_accepts v pw st \/ ~ kdf_accepts v pw st.
Proof. rewrite kdf_accepts_iff. destruct (match v with V3 => _ | V4 => _ end st); [left; reflexivity|right; discriminate]. Qed.

Lemma be8_small m : (m < two32)%N -> be_bytes 8 m = [x00; x00; x00; x00] ++ be_bytes 4 m.
Proof.
  intros H. unfold be_bytes. rewrite (le_bytes_app 4 4), rev_app_distr. f_equal.
  change (256 ^ N.of_nat 4)%N with two32. rewrite N.div_small by exact H. reflexivity.
Qed.

Lemma encode_state_spec v st : state_u32 v st = true ->
  encode_state v st = pw_params_bytes v (st_mem v st) (st_time v st) (st_para v st) (st_iters v st).
Proof.
  destruct v; cbn [encode_state pw_params_bytes st_mem st_time st_para st_iters]; [reflexivity|].
  intros H. apply state_u32_v4 in H as (H & _). rewrite be8_small, <- !app_assoc by exact H. reflexivity.
Qed.

Lemma pw_ek_eq (P : Prims) v k : split_ek v (pw_key_hash P v ([xff] ++ k)) = pw_ek P v k.
Proof. destruct v; reflexivity. Qed.
Lemma pw_ak_eq (P : Prims) v k : pw_key_hash P v ([xfe] ++ k) = pw_ak P v k.
Proof. destruct v; reflexivity. Qed.
Lemma pw_tag_eq (P : Prims) v w k salt st n edk :
  pw_tag_mac P v (pw_ak P v k) (pw_tag_message v w salt st n edk) =
  pw_spec_tag P v w k salt (encode_state v st) n edk.
Proof.
  unfold pw_tag_message. replace (paserk_header v ++ dot ++ pw_header w ++ salt ++ encode_state v st ++ n ++ edk)
    with (pw_h v w ++ salt ++ encode_state v st ++ n ++ edk) by (destruct v, w; reflexivity).
  destruct v; reflexivity.
Qed.
Lemma pw_spec_tag_mac (P : Prims) v w k salt params n edk :
  pw_spec_tag P v w k salt params n edk = mac P v (pw_ak P v k) (pw_h v w ++ salt ++ params ++ n ++ edk).
Proof. destruct v; reflexivity. Qed.
Lemma pw_spec_tag_len (P : Prims) v w k salt params n edk : SymLaws P ->
  length (pw_spec_tag P v w k salt params n edk) = tag_len v.
Proof. intros L. rewrite pw_spec_tag_mac. apply mac_len, L. Qed.

Lemma pw_wrap_eq (P : Prims) v w key pw st r : kdf_accepts v pw st ->
  pw_wrap P v w key pw st r =
  let salt := draw r 0 (pw_salt_size v) in
  let n := draw r (pw_salt_size v) (pw_nonce_size v) in
  let k := prekey P v pw salt st in
  (let? edk := apply_keystream P v (pw_ek P v k) n (key_to_bytes P v (wtype_key w) key) in
   Ok {| pw_salt := salt; pw_state := st; pw_nonce := n; pw_edk := edk;
         pw_tag := pw_spec_tag P v w k salt (encode_state v st) n edk |},
   advance r (pw_salt_size v + pw_nonce_size v)).
Proof.
  intros H. unfold pw_wrap. rewrite fill_eq, salt_len_eq, iv_len_eq. cbv zeta.
  rewrite pw_kdf_ok by exact H. rewrite fill_eq, draw_advance, advance_advance, Nat.add_0_r.
  f_equal. rewrite pw_ek_eq, pw_ak_eq.
  destruct (apply_keystream P v _ _ _); cbn [obind]; [|reflexivity..]. rewrite pw_tag_eq. reflexivity.
Qed.

Lemma pw_wrap_panics (P : Prims) v w key pw st r : ~ kdf_accepts v pw st ->
  pw_wrap P v w key pw st r = (Panic, advance r (pw_salt_size v)).
Proof.
  intros H. unfold pw_wrap. rewrite fill_eq, salt_len_eq. rewrite pw_kdf_panic by exact H. reflexivity.
Qed.

Lemma bseqb_sym a b : bseqb a b = bseqb b a.
Proof.
  destruct (bseqb a b) eqn:E; symmetry; [apply bseqb_eq in E; apply bseqb_eq; auto|].
  apply bseqb_neq in E. apply bseqb_neq. auto.
Qed.

Lemma pw_unwrap_eq (P : Prims) v w x pw : kdf_accepts v pw (pw_state x) ->
  let k := prekey P v pw (pw_salt x) (pw_state x) in
  pw_unwrap P v w x pw =
  if bseqb (pw_tag x) (pw_spec_tag P v w k (pw_salt x) (encode_state v (pw_state x)) (pw_nonce x) (pw_edk x)) then
    let? ptk := apply_keystream P v (pw_ek P v k) (pw_nonce x) (pw_edk x) in
    key_from_bytes P v (wtype_key w) ptk
  else Err CryptoError.
Proof.
  intros H k. unfold pw_unwrap. rewrite pw_kdf_ok by exact H. cbn [obind].
  rewrite pw_ak_eq, pw_tag_eq, pw_ek_eq, bseqb_sym. fold k. destruct (bseqb _ _); reflexivity.
Qed.

Lemma pw_unwrap_panics (P : Prims) v w x pw : ~ kdf_accepts v pw (pw_state x) -> pw_unwrap P v w x pw = Panic.
Proof. intros H. unfold pw_unwrap. rewrite pw_kdf_panic by exact H. reflexivity. Qed.

Lemma pw_wrap_ok (P : Prims) v w key pw st r :
  Sizes P -> valid_key P v (wtype_key w) key = true -> state_u32 v st = true -> kdf_accepts v pw st ->
  exists x, pw_wrap P v w key pw st r = (Ok x, advance r (pw_salt_size v + pw_nonce_size v)) /\ pw_wf v w x /\
    pw_salt x = draw r 0 (pw_salt_size v) /\ pw_nonce x = draw r (pw_salt_size v) (pw_nonce_size v) /\
    pw_state x = st /\
    pw_unwrap P v w x pw = key_from_bytes P v (wtype_key w) (key_to_bytes P v (wtype_key w) key).
Proof.
  intros L Hk Hu Ha. rewrite pw_wrap_eq by exact Ha. cbv zeta.
  set (salt := draw r 0 (pw_salt_size v)). set (n := draw r (pw_salt_size v) (pw_nonce_size v)).
  pose proof (key_to_bytes_length P v (wtype_key w) key L Hk) as Lk.
  destruct (apply_keystream_ok P v (pw_ek P v (prekey P v pw salt st)) n _ (key_limit v (wtype_key w) _ Lk)) as [c Hc].
  rewrite Hc. cbn [obind]. destruct (apply_keystream_invol P v _ _ _ _ L Hc) as [Lc Hinv].
  eexists. split; [reflexivity|]. split; [|split; [reflexivity|split; [reflexivity|split; [reflexivity|]]]].
  - unfold pw_wf. cbn [pw_salt pw_state pw_nonce pw_edk pw_tag]. split; [apply draw_length|]. split; [exact Hu|].
    split; [apply draw_length|]. split; [congruence|apply pw_spec_tag_len, L].
  - rewrite pw_unwrap_eq by exact Ha. cbn [pw_salt pw_state pw_nonce pw_edk pw_tag]. rewrite bseqb_refl, Hinv.
    reflexivity.
Qed.

(** C41: wrap with a password, print, parse, unwrap returns the key and the settings. *)
Lemma c41_pw_roundtrip :
  forall (P : Prims) (v : version) (w : wtype) (key pw : bytes) (st : kdf_state v) (r : rng),
  Sizes P -> (v = V4 -> w = WSecret -> EdLaws P) -> valid_key P v (wtype_key w) key = true ->
  state_u32 v st = true -> kdf_accepts v pw st ->
  exists x s, pw_wrap P v w key pw st r = (Ok x, advance r (pw_salt_size v + pw_nonce_size v)) /\
              pw_display v w x = Ok s /\ pw_parse v w s = Ok x /\
              pw_settings x = st /\ pw_unwrap P v w x pw = Ok key.
Proof.
  intros P v w key pw st r L LE Hk Hu Ha.
  destruct (pw_wrap_ok P v w key pw st r L Hk Hu Ha) as (x & H1 & H2 & _ & _ & H3 & H4).
  rewrite key_roundtrip in H4 by (first [assumption|intros V W; apply LE; [exact V|destruct w; [discriminate W|reflexivity]]]).
  destruct (pw_parse_display v w x H2) as (s & H5 & H6). exists x, s. auto.
Qed.

(** C41: the default settings (100000 iterations; 64 MiB, 2 passes, 1 lane) are accepted for
    every password below 2^32 bytes, so the default entry point round-trips too. *)
Lemma c41_pw_default_settings :
  forall (P : Prims) (v : version) (w : wtype) (key pw : bytes) (r : rng),
  Sizes P -> (v = V4 -> w = WSecret -> EdLaws P) -> valid_key P v (wtype_key w) key = true -> (nlen pw < two32)%N ->
  exists x s, pw_wrap_default P v w key pw r = (Ok x, advance r (pw_salt_size v + pw_nonce_size v)) /\
              pw_display v w x = Ok s /\ pw_parse v w s = Ok x /\
              pw_settings x = match v return kdf_state v with
                              | V3 => {| iterations := 100000 |}
                              | V4 => {| mem := 64 * 1024 * 1024; time := 2; para := 1 |}
                              end /\
              pw_unwrap P v w x pw = Ok key.
Proof.
  intros P v w key pw r L LE Hk Hp. unfold pw_wrap_default.
  replace (match v return kdf_state v with
           | V3 => {| iterations := 100000 |}
           | V4 => {| mem := 64 * 1024 * 1024; time := 2; para := 1 |}
           end) with (default_state v) by (destruct v; reflexivity).
  apply c41_pw_roundtrip; try assumption.
  - destruct v; reflexivity.
  - destruct v; [exact I|]. cbn [kdf_accepts default_state mem time para]. change (67108864 / 1024)%N with 65536%N. lia.
Qed.

Lemma keystream_pw_spec (P : Prims) v w ek n d : SymLaws P -> length d = key_size v (wtype_key w) ->
  length n = pw_nonce_size v -> pw_safe v w n ->
  apply_keystream P v ek n d = Ok (cipher P v ek n d).
Proof.
  intros L Ld Ln S. apply apply_keystream_spec. destruct v; cbn [cipher_ok pw_safe pw_nonce_size] in *.
  - split; [exact Ln|]. rewrite Ld. exact S.
  - rewrite Ld. destruct w; cbn; unfold xchacha20_limit; lia.
Qed.

(** C42: the printed text is the standard's s || params || n || edk || t. *)
Lemma c42_pw_wrap_is_spec :
  forall (P : Prims) (v : version) (w : wtype) (key pw : bytes) (st : kdf_state v) (r : rng) x r',
  Sizes P -> valid_key P v (wtype_key w) key = true -> state_u32 v st = true ->
  let salt := draw r 0 (pw_salt_size v) in
  let n := draw r (pw_salt_size v) (pw_nonce_size v) in
  pw_safe v w n ->
  pw_wrap P v w key pw st r = (Ok x, r') ->
  pw_display v w x =
  Ok (pw_h v w ++ base64url (pw_wrap_body P v w pw salt n (to_bytes P v (wtype_key w) key)
                               (st_mem v st) (st_time v st) (st_para v st) (st_iters v st))).
Proof.
  intros P v w key pw st r x r' L Hk Hu salt n S H.
  destruct (kdf_accepts_dec v pw st) as [Ha|Ha]; [|rewrite pw_wrap_panics in H by exact Ha; discriminate].
  rewrite pw_wrap_eq in H by exact Ha. cbv zeta in H. fold salt n in H.
  pose proof (key_to_bytes_length P v (wtype_key w) key L Hk) as Lk.
  rewrite (keystream_pw_spec P v w) in H by (first [exact L|exact Lk|apply draw_length|exact S]). cbn [obind] in H.
  set (edk := cipher P v _ n _) in H.
  assert (Hx : x = {| pw_salt := salt; pw_state := st; pw_nonce := n; pw_edk := edk;
         pw_tag := pw_spec_tag P v w (prekey P v pw salt st) salt (encode_state v st) n edk |}) by congruence.
  rewrite pw_display_eq, Hx. cbn [pw_salt pw_state pw_nonce pw_edk pw_tag].
  rewrite encode_state_spec by exact Hu. reflexivity.
Qed.

(** C42: unwrapping is the standard's, with the error classes named. *)
Lemma c42_pw_unwrap_is_spec :
  forall (P : Prims) (v : version) (w : wtype) (pw s : bytes) (x : PwWrapped v),
  Sizes P -> pw_parse v w s = Ok x ->
  let st := pw_settings x in
  let n := pw_nonce x in
  kdf_accepts v pw st -> pw_safe v w n ->
  match pw_unwrap_spec P v w pw (pw_salt x) n (pw_edk x) (pw_tag x)
          (st_mem v st) (st_time v st) (st_para v st) (st_iters v st) with
  | None => pw_unwrap P v w x pw = Err CryptoError
  | Some ptk =>
      (forall key, pw_unwrap P v w x pw = Ok key <-> encodes P v (wtype_key w) ptk key) /\
      ((forall key, ~ encodes P v (wtype_key w) ptk key) -> pw_unwrap P v w x pw = Err InvalidKey)
  end.
Proof.
  intros P v w pw s x L Hp st n Ha S.
  apply pw_parse_ok_raw in Hp as (st4 & (_ & Hu & Ln & Lk & _) & _).
  rewrite pw_unwrap_eq by exact Ha. unfold pw_unwrap_spec. fold n.
  unfold st, pw_settings. rewrite <- encode_state_spec by exact Hu. fold (prekey P v pw (pw_salt x) (pw_state x)).
  destruct (bseqb (pw_tag x) _); [|reflexivity].
  pose proof (keystream_pw_spec P v w (pw_ek P v (prekey P v pw (pw_salt x) (pw_state x))) n (pw_edk x) L Lk Ln S) as Hc.
  rewrite Hc. cbn [obind]. apply apply_keystream_invol in Hc as [Lp _]; [|exact L].
  assert (Lp' : length (cipher P v (pw_ek P v (prekey P v pw (pw_salt x) (pw_state x))) n (pw_edk x))
                = key_size v (wtype_key w)) by congruence.
  destruct (c29_key_bytes_exact P v (wtype_key w) _ L Lp') as (H1 & _ & H3 & _). auto.
Qed.

(** C43: exact panic condition of unwrapping: the key derivation rejects the settings in
    the text or the password.  In particular never for k3. *)
Lemma c43_pw_unwrap_panic_iff :
  forall (P : Prims) (v : version) (w : wtype) (pw s : bytes) (x : PwWrapped v),
  Sizes P -> pw_parse v w s = Ok x ->
  (pw_unwrap P v w x pw = Panic <-> ~ kdf_accepts v pw (pw_settings x)) /\
  (v = V3 -> pw_unwrap P v w x pw <> Panic) /\
  (forall key, pw_unwrap P v w x pw = Ok key -> valid_key P v (wtype_key w) key = true) /\
  (forall e, pw_unwrap P v w x pw = Err e -> e = CryptoError \/ e = InvalidKey).
Proof.
  intros P v w pw s x L Hp. apply pw_parse_ok_raw in Hp as (st4 & (_ & Hu & Ln & Lk & _) & _).
  assert (Main : kdf_accepts v pw (pw_state x) ->
    (exists key, pw_unwrap P v w x pw = Ok key /\ valid_key P v (wtype_key w) key = true) \/
    pw_unwrap P v w x pw = Err CryptoError \/ pw_unwrap P v w x pw = Err InvalidKey).
  { intros Ha. rewrite pw_unwrap_eq by exact Ha. destruct (bseqb (pw_tag x) _); [|auto].
    destruct (apply_keystream_ok P v (pw_ek P v (prekey P v pw (pw_salt x) (pw_state x))) (pw_nonce x) _ (key_limit v (wtype_key w) _ Lk)) as [c Hc].
    rewrite Hc. cbn [obind]. apply apply_keystream_invol in Hc as [Lc _]; [|exact L].
    assert (Lc' : length c = key_size v (wtype_key w)) by congruence.
    destruct (key_from_bytes P v (wtype_key w) c) as [key|e|] eqn:K.
    - left. exists key. split; [reflexivity|]. apply (encodes_valid P v _ c); [destruct w; discriminate|].
      apply key_from_bytes_iff; [exact L|exact Lc'|exact K].
    - right. right. apply key_from_bytes_err in K. congruence.
    - destruct (key_from_bytes_no_panic _ _ _ _ K). }
  unfold pw_settings. split; [|split; [|split]].
  - split; [|apply pw_unwrap_panics]. intros H Ha.
    destruct (Main Ha) as [(key & H1 & _)|[H1|H1]]; rewrite H1 in H; discriminate.
  - intros ->. destruct (Main I) as [(key & H1 & _)|[H1|H1]]; rewrite H1; discriminate.
  - intros key H. destruct (kdf_accepts_dec v pw (pw_state x)) as [Ha|Ha].
    + destruct (Main Ha) as [(key' & H1 & H2)|[H1|H1]]; rewrite H1 in H; try discriminate. injection H as <-. exact H2.
    + rewrite pw_unwrap_panics in H by exact Ha. discriminate.
  - intros e H. destruct (kdf_accepts_dec v pw (pw_state x)) as [Ha|Ha].
    + destruct (Main Ha) as [(key' & H1 & H2)|[H1|H1]]; rewrite H1 in H; try discriminate; injection H as <-; auto.
    + rewrite pw_unwrap_panics in H by exact Ha. discriminate.
Qed.

(** C43, ideal claim refuted for k4: a text (its body is 120 zero bytes) that parses
    and panics when unwrapped, for every password. *)
Lemma c43_pw_unwrap_no_panic_refuted :
  exists (s : bytes) (x : PwWrapped V4),
  pw_parse V4 WLocal s = Ok x /\
  forall (P : Prims) (pw : bytes), pw_unwrap P V4 WLocal x pw = Panic.
Proof.
  exists (str "k4.local-pw." ++ repeat "A"%byte 160),
    {| pw_salt := repeat x00 16; pw_state := ({| mem := 0; time := 0; para := 0 |} : kdf_state V4);
       pw_nonce := repeat x00 24; pw_edk := repeat x00 32; pw_tag := repeat x00 32 |}.
  split; [vm_compute; reflexivity|]. intros P pw. apply pw_unwrap_panics. cbn. lia.
Qed.

(** C43: wrapping panics exactly for the same settings and passwords. *)
Lemma c43_pw_wrap_outcome :
  forall (P : Prims) (v : version) (w : wtype) (key pw : bytes) (st : kdf_state v) (r : rng),
  Sizes P -> valid_key P v (wtype_key w) key = true -> state_u32 v st = true ->
  (fst (pw_wrap P v w key pw st r) = Panic <-> ~ kdf_accepts v pw st) /\
  (forall e, fst (pw_wrap P v w key pw st r) <> Err e).
Proof.
  intros P v w key pw st r L Hk Hu. destruct (kdf_accepts_dec v pw st) as [Ha|Ha].
  - destruct (pw_wrap_ok P v w key pw st r L Hk Hu Ha) as (x & H1 & _). rewrite H1. cbn [fst].
    split; [split; [discriminate|contradiction]|discriminate].
  - rewrite pw_wrap_panics by exact Ha. cbn [fst]. split; [tauto|discriminate].
Qed.

(** C44, ideal claim refuted for k4: two different texts denote the same value. *)
Lemma c44_pw_text_unique_refuted :
  exists (s1 s2 : bytes) (x : PwWrapped V4),
  s1 <> s2 /\ pw_parse V4 WLocal s1 = Ok x /\ pw_parse V4 WLocal s2 = Ok x.
Proof.
  exists (str "k4.local-pw." ++ base64url (repeat x00 16 ++ [x00;x00;x00;x00; x04;x00;x00;x00; x00;x00;x00;x02; x00;x00;x00;x01] ++ repeat x00 88)),
    (str "k4.local-pw." ++ base64url (repeat x00 16 ++ [xff;xff;xff;xff; x04;x00;x00;x00; x00;x00;x00;x02; x00;x00;x00;x01] ++ repeat x00 88)),
    {| pw_salt := repeat x00 16; pw_state := ({| mem := 67108864; time := 2; para := 1 |} : kdf_state V4);
       pw_nonce := repeat x00 24; pw_edk := repeat x00 32; pw_tag := repeat x00 32 |}.
  split; [intros H; apply (f_equal (fun l => firstn 40 l)) in H; vm_compute in H; discriminate|].
  split; vm_compute; reflexivity.
Qed.

(** C44: the exact texts of a value: for k4 all those with any four bytes in place of the high
    half of the memory cost; the printed one has zeros there. *)
Lemma c44_k4_pw_language :
  forall (w : wtype) (s : bytes) (x : PwWrapped V4),
  pw_parse V4 w s = Ok x <->
  pw_wf V4 w x /\ exists hi : bytes, length hi = 4 /\
    let st : argon2_state := pw_settings x in
    s = pw_h V4 w ++ base64url (pw_salt x
          ++ (hi ++ be_bytes 4 (mem st) ++ be_bytes 4 (time st) ++ be_bytes 4 (para st))
          ++ pw_nonce x ++ pw_edk x ++ pw_tag x).
Proof.
  intros w s x. rewrite pw_parse_ok_raw. unfold pw_settings. split.
  - intros (st4 & Hw & Ls & Hd & ->). split; [exact Hw|]. exists (firstn 4 st4). cbn [state_len] in Ls.
    split; [rewrite firstn_length, Ls; reflexivity|]. cbv zeta. rewrite <- Hd. rewrite <- decode_v4_parts by exact Ls.
    reflexivity.
  - intros [Hw (hi & Lh & ->)]. cbv zeta.
    exists (hi ++ be_bytes 4 (mem (pw_state x)) ++ be_bytes 4 (time (pw_state x)) ++ be_bytes 4 (para (pw_state x))).
    split; [exact Hw|]. split; [rewrite !app_length, !be4_len, Lh; reflexivity|]. split; [|reflexivity].
    destruct Hw as (_ & Hu & _). apply state_u32_v4 in Hu as (H1 & H2 & H3).
    rewrite decode_v4 by assumption. destruct (pw_state x); reflexivity.
Qed.

(** C44: for k3, parse and print are mutually inverse; for k4 print then parse is the
    identity. *)
Lemma c44_pw_text :
  forall (v : version) (w : wtype) (s : bytes) (x : PwWrapped v),
  (pw_wf v w x -> pw_display v w x = Ok s -> pw_parse v w s = Ok x) /\
  (pw_parse v w s = Ok x -> pw_wf v w x) /\
  (v = V3 -> pw_parse v w s = Ok x -> pw_display v w x = Ok s).
Proof.
  intros v w s x. split; [|split].
  - intros H1 H2. destruct (pw_parse_display v w x H1) as (s' & H3 & H4). congruence.
  - intros H. apply pw_parse_ok_raw in H as (_ & H & _). exact H.
  - intros -> H. apply pw_parse_ok_raw in H as (st4 & _ & Ls & Hd & ->). rewrite pw_display_eq, <- Hd.
    rewrite encode_decode_v3 by exact Ls. reflexivity.
Qed.

Lemma pw_h_split v w1 w2 a b : pw_h v w1 ++ a = pw_h v w2 ++ b -> w1 = w2 /\ a = b.
Proof.
  intros H. destruct v, w1, w2; try (exfalso; vm_compute in H; discriminate); (apply app_inv_head in H; auto).
Qed.

Lemma encode_state_inj v s1 s2 : state_u32 v s1 = true -> state_u32 v s2 = true ->
  encode_state v s1 = encode_state v s2 -> s1 = s2.
Proof. intros H1 H2 H. rewrite <- (decode_encode_state v s1 H1), H. apply decode_encode_state, H2. Qed.

(** C45: two password-wrapped keys of one version with one tag, both accepted (under whatever
    passwords), agree on type, salt, settings, nonce and ciphertext, or the MAC collides on
    two explicit messages. *)
Lemma c45_pw_binding :
  forall (P : Prims) (v : version) (w1 w2 : wtype) (pw1 pw2 s1 s2 : bytes) (x1 x2 : PwWrapped v) k1 k2,
  Sizes P -> pw_parse v w1 s1 = Ok x1 -> pw_parse v w2 s2 = Ok x2 ->
  pw_unwrap P v w1 x1 pw1 = Ok k1 -> pw_unwrap P v w2 x2 pw2 = Ok k2 ->
  pw_tag x1 = pw_tag x2 ->
  (w1 = w2 /\ x1 = x2) \/
  (let params (x : PwWrapped v) :=
     let st := pw_settings x in
     pw_params_bytes v (st_mem v st) (st_time v st) (st_para v st) (st_iters v st) in
   let m1 := pw_h v w1 ++ pw_salt x1 ++ params x1 ++ pw_nonce x1 ++ pw_edk x1 in
   let m2 := pw_h v w2 ++ pw_salt x2 ++ params x2 ++ pw_nonce x2 ++ pw_edk x2 in
   m1 <> m2 /\ mac P v (pw_auth_key P v pw1 (pw_salt x1) (pw_settings x1)) m1
             = mac P v (pw_auth_key P v pw2 (pw_salt x2) (pw_settings x2)) m2).
Proof.
  intros P v w1 w2 pw1 pw2 s1 s2 x1 x2 k1 k2 L Hp1 Hp2 U1 U2 T.
  apply pw_parse_ok_raw in Hp1 as (_ & (Ls1 & Hu1 & Ln1 & Lk1 & _) & _).
  apply pw_parse_ok_raw in Hp2 as (_ & (Ls2 & Hu2 & Ln2 & Lk2 & _) & _).
  destruct (kdf_accepts_dec v pw1 (pw_state x1)) as [A1|A1]; [|rewrite pw_unwrap_panics in U1 by exact A1; discriminate].
  destruct (kdf_accepts_dec v pw2 (pw_state x2)) as [A2|A2]; [|rewrite pw_unwrap_panics in U2 by exact A2; discriminate].
  rewrite pw_unwrap_eq in U1 by exact A1. rewrite pw_unwrap_eq in U2 by exact A2.
  destruct (bseqb (pw_tag x1) _) eqn:T1; [|discriminate]. destruct (bseqb (pw_tag x2) _) eqn:T2; [|discriminate].
  apply bseqb_eq in T1, T2. rewrite pw_spec_tag_mac in T1, T2. cbv zeta. unfold pw_settings.
  rewrite <- !encode_state_spec by assumption. unfold pw_auth_key. fold (prekey P v pw1 (pw_salt x1) (pw_state x1)).
  fold (prekey P v pw2 (pw_salt x2) (pw_state x2)).
  set (m1 := pw_h v w1 ++ _) in *. set (m2 := pw_h v w2 ++ _) in *.
  destruct (bytes_eq_dec m1 m2) as [E|N]; [left|right; split; [exact N|congruence]].
  apply pw_h_split in E as [-> E]. split; [reflexivity|].
  apply app_inj_len in E as [E1 E]; [|congruence].
  apply app_inj_len in E as [E2 E]; [|rewrite !encode_state_length; reflexivity].
  apply app_inj_len in E as [E3 E4]; [|congruence].
  apply encode_state_inj in E2; [|assumption..].
  destruct x1 as [a1 b1 c1 d1 e1], x2 as [a2 b2 c2 d2 e2]; cbn [pw_salt pw_state pw_nonce pw_edk pw_tag] in *; congruence.
Qed.

(** ** Sealing *)

Lemma sl_total_eq v : sl_total_len v = tag_len v + epk_size v + 32.
Proof. destruct v; reflexivity. Qed.

Lemma seal_parse_ok_iff v s x :
  seal_parse v s = Ok x <->
  seal_wf v x /\ s = seal_h v ++ base64url (sl_tag x ++ sl_epk x ++ sl_edk x).
Proof.
  rewrite seal_parse_eq, paserk_read_ok_iff.
  assert (HS : forall a b c, length a = tag_len v -> length b = epk_size v ->
            sl_split v (a ++ b ++ c) = {| sl_tag := a; sl_epk := b; sl_edk := c |}).
  { intros a b c La Lb. unfold sl_split. replace (sl_tag_len v) with (tag_len v) by (destruct v; reflexivity).
    replace (epk_len v) with (epk_size v) by (destruct v; reflexivity).
    rewrite (firstn_app_exact a), (skipn_app_exact a) by exact La.
    rewrite (firstn_app_exact b), (skipn_app_exact b) by exact Lb. reflexivity. }
  split.
  - intros (b & -> & L & H). rewrite sl_total_eq in L.
    destruct (five_parts b (tag_len v) (epk_size v) 0 0) as (t & e & n & d & c & -> & Lt & Le & Ln & Ld); [lia|].
    destruct n; [|discriminate]. destruct d; [|discriminate]. cbn [app] in *.
    rewrite HS in H by assumption. injection H as <-. unfold seal_wf. cbn [sl_tag sl_epk sl_edk].
    rewrite !app_length in L. repeat split; try assumption; lia.
  - intros [(H1 & H2 & H3) ->]. eexists. split; [reflexivity|]. split.
    + rewrite !app_length, sl_total_eq. lia.
    + rewrite HS by assumption. destruct x; reflexivity.
Qed.

Lemma kdf_msg_eq v d xk epk pk : seal_kdf_msg v d xk epk pk = d :: seal_h v ++ xk ++ epk ++ pk.
Proof. destruct v; reflexivity. Qed.
Lemma tag_msg_eq v epk edk : seal_tag_msg v epk edk = seal_h v ++ epk ++ edk.
Proof. destruct v; reflexivity. Qed.

Lemma seal_spec_tag_mac (P : Prims) v xk epk pk edk :
  seal_spec_tag P v xk epk pk edk = mac P v (seal_ak P v xk epk pk) (seal_h v ++ epk ++ edk).
Proof. destruct v; reflexivity. Qed.

Definition sl_ek (P : Prims) v xk epk pk : bytes := fst (seal_ek_n P v xk epk pk).
Definition sl_n (P : Prims) v xk epk pk : bytes := snd (seal_ek_n P v xk epk pk).

Definition seal_with (P : Prims) v pdk pk e : outcome Sealed :=
  match v with V3 => seal_v3 P pdk pk e | V4 => seal_v4 P pdk pk e end.

Lemma seal_with_eq (P : Prims) v pdk pk e :
  let xk := send_xk P v e pk in let epk := send_epk P v e in let hpk := hashed_pk P v pk in
  seal_with P v pdk pk e =
  (let? edk := apply_keystream P v (sl_ek P v xk epk hpk) (sl_n P v xk epk hpk) pdk in
   Ok {| sl_tag := seal_spec_tag P v xk epk hpk edk; sl_epk := epk; sl_edk := edk |}).
Proof.
  intros xk epk hpk. destruct v; cbn [seal_with]; unfold seal_v3, seal_v4; rewrite !kdf_msg_eq; cbv zeta;
    unfold sl_ek, sl_n; cbn [seal_ek_n fst snd].
  - fold epk xk. destruct (apply_keystream P V3 _ _ pdk); cbn [obind]; [|reflexivity..].
    rewrite tag_msg_eq. reflexivity.
  - fold epk xk. destruct (apply_keystream P V4 _ _ pdk); cbn [obind]; [|reflexivity..].
    rewrite tag_msg_eq. reflexivity.
Qed.

Lemma unseal_eq (P : Prims) v x sk : valid_key P v Secret sk = true ->
  let hpk := hashed_pk P v (public_key P v sk) in
  unseal P v x sk =
  match recv_xk P v sk (sl_epk x) with
  | None => Panic
  | Some xk =>
      if bseqb (sl_tag x) (seal_spec_tag P v xk (sl_epk x) hpk (sl_edk x))
      then apply_keystream P v (sl_ek P v xk (sl_epk x) hpk) (sl_n P v xk (sl_epk x) hpk) (sl_edk x)
      else Err CryptoError
  end.
Proof.
  intros Hk hpk. destruct v; cbn [unseal valid_key recv_xk] in *; unfold unseal_v3, unseal_v4.
  - rewrite Hk. cbn [obind]. destruct (p_parse P (sl_epk x)) as [q|]; cbn [unwrap obind]; [|reflexivity].
    rewrite !kdf_msg_eq, tag_msg_eq. cbv zeta. unfold sl_ek, sl_n. cbn [seal_ek_n fst snd].
    change (hmac_sha384 P (sha384 P (x02 :: seal_h V3 ++ p_dh P sk q ++ sl_epk x ++ p_pub P sk)) (seal_h V3 ++ sl_epk x ++ sl_edk x))
      with (seal_spec_tag P V3 (p_dh P sk q) (sl_epk x) hpk (sl_edk x)).
    destruct (bseqb (sl_tag x) _); reflexivity.
  - rewrite !kdf_msg_eq, tag_msg_eq. cbv zeta. unfold sl_ek, sl_n. cbn [seal_ek_n fst snd].
    change (blake2b_mac P 32 (blake2b P 32 (x02 :: seal_h V4 ++ x_mul P (ed_scalar P sk) (sl_epk x) ++ sl_epk x ++ ed_to_mont P (ed_pub P sk))) (seal_h V4 ++ sl_epk x ++ sl_edk x))
      with (seal_spec_tag P V4 (x_mul P (ed_scalar P sk) (sl_epk x)) (sl_epk x) hpk (sl_edk x)).
    destruct (bseqb (sl_tag x) _); reflexivity.
Qed.

(** The ephemeral randomness of a sealing. *)
Lemma seal_inv (P : Prims) v fuel pdk pk r res r' :
  seal P v fuel pdk pk r = Some (res, r') ->
  exists e, ephemeral v fuel r = Some (e, r') /\ res = seal_with P v pdk pk e.
Proof.
  destruct v; cbn [seal ephemeral].
  - destruct (p384_random fuel r) as [[e r1]|]; [|discriminate]. intros H. injection H as <- <-. exists e. auto.
  - rewrite fill_eq. intros H. injection H as <- <-. exists (draw r 0 32). auto.
Qed.

Lemma p384_random_ok fuel : forall r e r', p384_random fuel r = Some (e, r') -> p_scalar_ok e = true.
Proof.
  induction fuel as [|f IH]; intros r key r' H; [discriminate|].
  cbn [p384_random] in H. rewrite fill_eq in H. destruct (p_scalar_ok (draw r 0 48)) eqn:S.
  - assert (Hd : key = draw r 0 48) by congruence. rewrite Hd. exact S.
  - exact (IH _ _ _ H).
Qed.

Lemma ephemeral_valid (P : Prims) v fuel r e r' : ephemeral v fuel r = Some (e, r') ->
  valid_key P v Secret e = true.
Proof.
  destruct v; cbn [ephemeral valid_key].
  - apply p384_random_ok.
  - intros H. assert (He : e = draw r 0 32) by congruence. rewrite He, draw_length. reflexivity.
Qed.

(** Diffie-Hellman *)
Lemma dh_agree (P : Prims) v e sk : Laws P -> valid_key P v Secret e = true -> valid_key P v Secret sk = true ->
  recv_xk P v sk (send_epk P v e) = Some (send_xk P v e (public_key P v sk)).
Proof.
  intros L He Hs. destruct v; cbn [valid_key recv_xk send_epk send_xk public_key] in *.
  - rewrite (p_pub_parse _ L) by exact He. f_equal. apply (p_dh_comm _ L); assumption.
  - apply Nat.eqb_eq in He, Hs. f_equal. symmetry. apply (x_dh _ L); assumption.
Qed.

Lemma send_epk_len (P : Prims) v e : Laws P -> valid_key P v Secret e = true -> length (send_epk P v e) = epk_size v.
Proof.
  intros L He. destruct v; cbn [valid_key send_epk epk_size] in *; [apply (p_pub_len _ L), He|apply (x_base_len _ L)].
Qed.

Lemma seal_with_ok (P : Prims) v pdk sk e : Laws P ->
  length pdk = 32 -> valid_key P v Secret sk = true -> valid_key P v Secret e = true ->
  exists x, seal_with P v pdk (public_key P v sk) e = Ok x /\ seal_wf v x /\ sl_epk x = send_epk P v e /\
    unseal P v x sk = Ok pdk.
Proof.
  intros L Lp Hs He. rewrite seal_with_eq. cbv zeta. set (xk := send_xk P v e _). set (epk := send_epk P v e).
  set (hpk := hashed_pk P v _).
  destruct (apply_keystream_ok P v (sl_ek P v xk epk hpk) (sl_n P v xk epk hpk) pdk) as [c Hc].
  { apply (key_limit v Local). destruct v; exact Lp. }
  rewrite Hc. cbn [obind]. destruct (apply_keystream_invol P v _ _ _ _ L Hc) as [Lc Hinv].
  eexists. split; [reflexivity|]. split; [|split; [reflexivity|]].
  - unfold seal_wf. cbn [sl_tag sl_epk sl_edk]. split; [rewrite seal_spec_tag_mac; apply mac_len, L|].
    split; [apply send_epk_len; assumption|congruence].
  - rewrite unseal_eq by exact Hs. cbn [sl_tag sl_epk sl_edk]. unfold epk. rewrite dh_agree by assumption.
    fold xk epk hpk. rewrite bseqb_refl. exact Hinv.
Qed.

(** C46: seal, print, parse, unseal returns the key, whenever the rejection sampling of the
    ephemeral P-384 scalar terminates (always for k4). *)
Lemma c46_seal_roundtrip :
  forall (P : Prims) (v : version) (fuel : nat) (pdk sk : bytes) (r r' : rng) (res : outcome Sealed),
  Laws P -> length pdk = 32 -> valid_key P v Secret sk = true ->
  seal P v fuel pdk (public_key P v sk) r = Some (res, r') ->
  exists x s, res = Ok x /\ seal_display v x = Ok s /\ seal_parse v s = Ok x /\
              unseal P v x sk = Ok pdk.
Proof.
  intros P v fuel pdk sk r r' res L Lp Hs H. apply seal_inv in H as (e & He & ->).
  apply (ephemeral_valid P) in He. destruct (seal_with_ok P v pdk sk e L Lp Hs He) as (x & H1 & H2 & _ & H3).
  exists x. eexists. split; [exact H1|]. split; [apply seal_display_eq|]. split; [|exact H3].
  apply seal_parse_ok_iff. auto.
Qed.

(** C46: sealing terminates: always for k4, and for k3 as soon as one of the first [fuel]
    48-byte blocks is a valid scalar; more fuel never changes the result. *)
Lemma c46_seal_terminates :
  forall (P : Prims) (v : version) (fuel : nat) (pdk pk : bytes) (r : rng),
  (seal P v fuel pdk pk r <> None <->
   v = V4 \/ exists k, k < fuel /\ p_scalar_ok (draw r (48 * k) 48) = true) /\
  (forall fuel' res, fuel <= fuel' -> seal P v fuel pdk pk r = Some res -> seal P v fuel' pdk pk r = Some res).
Proof.
  intros P v fuel pdk pk r.
  assert (HT : forall fuel r, p384_random fuel r <> None <-> exists k, k < fuel /\ p_scalar_ok (draw r (48 * k) 48) = true).
  { clear. induction fuel as [|f IH]; intros r; cbn [p384_random].
    - split; [contradiction|]. intros (k & H & _). lia.
    - rewrite fill_eq. destruct (p_scalar_ok (draw r 0 48)) eqn:ES.
      + split; [|discriminate]. intros _. exists 0. split; [lia|exact ES].
      + rewrite IH. split.
        * intros (k & Hk & H). exists (S k). split; [lia|]. rewrite draw_advance in H.
          replace (48 * S k) with (48 + 48 * k) by lia. exact H.
        * intros (k & Hk & H). destruct k as [|k]; [change (48 * 0) with 0 in H; congruence|].
          exists k. split; [lia|]. rewrite draw_advance. replace (48 + 48 * k) with (48 * S k) by lia. exact H. }
  assert (HM : forall fuel r fuel' x, fuel <= fuel' -> p384_random fuel r = Some x -> p384_random fuel' r = Some x).
  { clear. induction fuel as [|f IH]; intros r fuel' x Hle H; [discriminate|].
    destruct fuel' as [|f']; [lia|]. cbn [p384_random] in *. rewrite fill_eq in *.
    destruct (p_scalar_ok (draw r 0 48)); [exact H|]. apply IH; [lia|exact H]. }
  split.
  - destruct v; cbn [seal].
    + split.
      * intros H. right. apply HT. destruct (p384_random fuel r) as [[]|]; [discriminate|contradiction].
      * intros [H|H]; [discriminate|]. apply HT in H. destruct (p384_random fuel r) as [[]|]; [discriminate|contradiction].
    + rewrite fill_eq. split; [auto|discriminate].
  - intros fuel' res Hle H. destruct v; cbn [seal] in *; [|exact H].
    destruct (p384_random fuel r) as [[e r1]|] eqn:E; [|discriminate].
    rewrite (HM _ _ _ _ Hle E). exact H.
Qed.

Lemma keystream_seal_spec (P : Prims) v xk epk hpk d : SymLaws P -> length d = 32 ->
  seal_safe P v xk epk hpk ->
  apply_keystream P v (sl_ek P v xk epk hpk) (sl_n P v xk epk hpk) d
  = Ok (cipher P v (sl_ek P v xk epk hpk) (sl_n P v xk epk hpk) d).
Proof.
  intros L Ld S. apply apply_keystream_spec. destruct v; cbn [cipher_ok seal_safe] in *.
  - split.
    + unfold sl_n. cbn [seal_ek_n snd]. rewrite skipn_length, (sha384_len _ L). reflexivity.
    + rewrite Ld. exact S.
  - rewrite Ld. unfold xchacha20_limit. lia.
Qed.

(** C47: the printed text is the standard's t || epk || edk, for the ephemeral secret that was
    drawn. *)
Lemma c47_seal_is_spec :
  forall (P : Prims) (v : version) (fuel : nat) (pdk pk : bytes) (r r' : rng) (x : Sealed),
  Sizes P -> length pdk = 32 ->
  seal P v fuel pdk pk r = Some (Ok x, r') ->
  exists e, ephemeral v fuel r = Some (e, r') /\
  let xk := send_xk P v e pk in
  let epk := send_epk P v e in
  let hpk := hashed_pk P v pk in
  (seal_safe P v xk epk hpk ->
   seal_display v x = Ok (seal_h v ++ base64url (seal_body P v xk epk hpk pdk))).
Proof.
  intros P v fuel pdk pk r r' x L Lp H. apply seal_inv in H as (e & He & Hx). exists e. split; [exact He|].
  cbv zeta. intros S. rewrite seal_with_eq in Hx. cbv zeta in Hx.
  rewrite keystream_seal_spec in Hx by (first [exact L|assumption]). cbn [obind] in Hx.
  rewrite seal_display_eq. unfold seal_body. unfold sl_ek, sl_n in Hx.
  destruct (seal_ek_n P v (send_xk P v e pk) (send_epk P v e) (hashed_pk P v pk)) as [ek n]. cbn [fst snd] in Hx.
  injection Hx as ->. reflexivity.
Qed.

(** C47: unsealing is the standard's. *)
Lemma c47_unseal_is_spec :
  forall (P : Prims) (v : version) (s : bytes) (x : Sealed) (sk xk : bytes),
  Sizes P -> seal_parse v s = Ok x -> valid_key P v Secret sk = true ->
  recv_xk P v sk (sl_epk x) = Some xk ->
  let hpk := hashed_pk P v (public_key P v sk) in
  seal_safe P v xk (sl_epk x) hpk ->
  unseal P v x sk =
  match unseal_spec P v xk (sl_epk x) hpk (sl_tag x) (sl_edk x) with
  | Some key => Ok key
  | None => Err CryptoError
  end.
Proof.
  intros P v s x sk xk L Hp Hs Hx hpk S. apply seal_parse_ok_iff in Hp as [(_ & _ & Le) _].
  rewrite unseal_eq by exact Hs. rewrite Hx. fold hpk. unfold unseal_spec.
  destruct (bseqb (sl_tag x) _); [|reflexivity]. rewrite keystream_seal_spec by (first [exact L|assumption]).
  unfold sl_ek, sl_n. destruct (seal_ek_n P v xk (sl_epk x) hpk). reflexivity.
Qed.

(** C48: exact panic condition: k3 with an ephemeral key that is not a point; never k4.  All
    keys obtained have 32 bytes and the only error is [CryptoError]. *)
Lemma c48_unseal_panic_iff :
  forall (P : Prims) (v : version) (s : bytes) (x : Sealed) (sk : bytes),
  Sizes P -> seal_parse v s = Ok x -> valid_key P v Secret sk = true ->
  (unseal P v x sk = Panic <-> v = V3 /\ p_parse P (sl_epk x) = None) /\
  (forall key, unseal P v x sk = Ok key -> length key = 32) /\
  (forall e, unseal P v x sk = Err e -> e = CryptoError).
Proof.
  intros P v s x sk L Hp Hs. apply seal_parse_ok_iff in Hp as [(_ & _ & Le) _].
  rewrite unseal_eq by exact Hs.
  destruct (recv_xk P v sk (sl_epk x)) as [xk|] eqn:Hx.
  - assert (NV : ~ (v = V3 /\ p_parse P (sl_epk x) = None)).
    { intros [-> H]. cbn [recv_xk] in Hx. rewrite H in Hx. discriminate. }
    set (hpk := hashed_pk P v (public_key P v sk)).
    destruct (apply_keystream_ok P v (sl_ek P v xk (sl_epk x) hpk) (sl_n P v xk (sl_epk x) hpk) (sl_edk x)) as [c Hc].
    { apply (key_limit v Local). destruct v; exact Le. }
    rewrite Hc. destruct (bseqb (sl_tag x) _).
    + split; [split; [discriminate|contradiction]|]. split; [|discriminate].
      intros key H. injection H as <-. apply apply_keystream_invol in Hc as [Hc _]; [congruence|exact L].
    + split; [split; [discriminate|contradiction]|]. split; [discriminate|]. intros e H. congruence.
  - split; [|split; discriminate]. split; [|reflexivity]. intros _. destruct v; cbn [recv_xk] in Hx; [|discriminate].
    split; [reflexivity|]. destruct (p_parse P (sl_epk x)); [discriminate|reflexivity].
Qed.

(** C48, ideal claim refuted for k3: a text that parses and panics when unsealed, for every
    secret key. *)
Lemma c48_unseal_no_panic_refuted :
  exists (s : bytes) (x : Sealed), seal_parse V3 s = Ok x /\
  forall (P : Prims) (sk : bytes), Sizes P -> valid_key P V3 Secret sk = true -> unseal P V3 x sk = Panic.
Proof.
  exists (str "k3.seal." ++ repeat "A"%byte 172),
    {| sl_tag := repeat x00 48; sl_epk := repeat x00 49; sl_edk := repeat x00 32 |}.
  assert (HP : seal_parse V3 (str "k3.seal." ++ repeat "A"%byte 172)
     = Ok {| sl_tag := repeat x00 48; sl_epk := repeat x00 49; sl_edk := repeat x00 32 |}) by (vm_compute; reflexivity).
  split; [exact HP|]. intros P sk L Hs. apply (c48_unseal_panic_iff P V3 _ _ sk L HP Hs). split; [reflexivity|].
  cbn [sl_epk]. destruct (p_parse P (repeat x00 49)) as [k|] eqn:E; [|reflexivity].
  apply (p_parse_tag _ L) in E. destruct E as [E|[E|[E|E]]]; discriminate.
Qed.

(** C49: two sealed keys with one tag accepted under one secret key are identical, or the MAC
    collides on two explicit messages. *)
Lemma c49_seal_binding :
  forall (P : Prims) (v : version) (s1 s2 : bytes) (x1 x2 : Sealed) (sk k1 k2 xk1 xk2 : bytes),
  Sizes P -> seal_parse v s1 = Ok x1 -> seal_parse v s2 = Ok x2 -> valid_key P v Secret sk = true ->
  recv_xk P v sk (sl_epk x1) = Some xk1 -> recv_xk P v sk (sl_epk x2) = Some xk2 ->
  unseal P v x1 sk = Ok k1 -> unseal P v x2 sk = Ok k2 ->
  sl_tag x1 = sl_tag x2 ->
  (s1 = s2 /\ x1 = x2 /\ k1 = k2) \/
  (let hpk := hashed_pk P v (public_key P v sk) in
   let m1 := seal_h v ++ sl_epk x1 ++ sl_edk x1 in
   let m2 := seal_h v ++ sl_epk x2 ++ sl_edk x2 in
   m1 <> m2 /\ mac P v (seal_ak P v xk1 (sl_epk x1) hpk) m1 = mac P v (seal_ak P v xk2 (sl_epk x2) hpk) m2).
Proof.
  intros P v s1 s2 x1 x2 sk k1 k2 xk1 xk2 L Hp1 Hp2 Hs X1 X2 U1 U2 T. pose proof (U1, U2) as U.
  rewrite unseal_eq in U1, U2 by exact Hs. rewrite X1 in U1. rewrite X2 in U2.
  destruct (bseqb (sl_tag x1) _) eqn:T1; [|discriminate]. destruct (bseqb (sl_tag x2) _) eqn:T2; [|discriminate].
  apply bseqb_eq in T1, T2. rewrite seal_spec_tag_mac in T1, T2. cbv zeta.
  set (m1 := seal_h v ++ sl_epk x1 ++ sl_edk x1) in *. set (m2 := seal_h v ++ sl_epk x2 ++ sl_edk x2) in *.
  destruct (bytes_eq_dec m1 m2) as [E|N]; [left|right; split; [exact N|congruence]].
  apply seal_parse_ok_iff in Hp1 as [(_ & Ln1 & _) ->]. apply seal_parse_ok_iff in Hp2 as [(_ & Ln2 & _) ->].
  apply app_inv_head in E. apply app_inj_len in E as [En Ek]; [|congruence].
  assert (Ex : x1 = x2) by (destruct x1 as [t1 n1 c1], x2 as [t2 n2 c2]; cbn [sl_tag sl_epk sl_edk] in *; congruence).
  subst x2. destruct U as [U U']. rewrite U in U'. injection U' as ->. auto.
Qed.

(** C53, PASERKs: every value that was parsed, wrapped, sealed or derived prints to the length
    fixed by its kind. *)
Lemma c53_paserk_text_length :
  forall (P : Prims) (v : version) (k : ktype) (w : wtype) (s : bytes),
  Sizes P ->
  let size kind := length (kind_header kind) + (4 * body_size kind + 2) / 3 in
  (forall key, valid_key P v k key = true -> Plaintext.plaintext_display P v k key = Ok s -> length s = size (KPlain v k)) /\
  (forall id, length id = 33 -> KeyId.id_display v k id = Ok s -> length s = size (KId v k)) /\
  (forall x, pie_wf v w x -> pie_display v w x = Ok s -> length s = size (KPie v w)) /\
  (forall x, pw_wf v w x -> pw_display v w x = Ok s -> length s = size (KPw v w)) /\
  (forall x, seal_wf v x -> seal_display v x = Ok s -> length s = size (KSeal v)).
Proof.
  intros P v k w s L size. unfold size. clear size.
  assert (HL : forall h b n, length b = n -> Ok (h ++ base64url b) = Ok s -> length s = length h + (4 * n + 2) / 3).
  { intros h b n Hn H. apply ok_inj in H. assert (Hs : s = h ++ base64url b) by (symmetry; exact H). rewrite Hs, app_length, base64url_length, Hn. reflexivity. }
  refine (conj _ (conj _ (conj _ (conj _ _)))).
  - intros key Hk. rewrite plaintext_display_eq. apply HL. apply key_to_bytes_length; [exact L|exact Hk].
  - intros id Hi. rewrite id_display_eq. apply HL. exact Hi.
  - intros x Hx. rewrite pie_display_eq. apply HL. rewrite (pie_body_length v w) by exact Hx. apply pie_total_eq.
  - intros x (H1 & H2 & H3 & H4 & H5). rewrite pw_display_eq. apply HL. rewrite !app_length, encode_state_length, H1, H3, H4, H5.
    destruct v; cbn [body_size pw_salt_size state_len pw_nonce_size tag_len]; lia.
  - intros x (H1 & H2 & H3). rewrite seal_display_eq. apply HL. rewrite !app_length, H1, H2, H3.
    destruct v; reflexivity.
Qed.

(** C53: parsing, wrapping and sealing only produce such values. *)
Lemma c53_values_well_sized :
  forall (P : Prims) (v : version) (w : wtype),
  Sizes P ->
  (forall s x, pie_parse v w s = Ok x -> pie_wf v w x) /\
  (forall s x, pw_parse v w s = Ok x -> pw_wf v w x) /\
  (forall s x, seal_parse v s = Ok x -> seal_wf v x) /\
  (forall key wk r x r', valid_key P v (wtype_key w) key = true ->
     wrap_pie P v w key wk r = (Ok x, r') -> pie_wf v w x) /\
  (forall key pw st r x r', valid_key P v (wtype_key w) key = true -> state_u32 v st = true ->
     pw_wrap P v w key pw st r = (Ok x, r') -> pw_wf v w x) /\
  (Laws P -> forall fuel pdk sk r x r', length pdk = 32 -> valid_key P v Secret sk = true ->
     seal P v fuel pdk (public_key P v sk) r = Some (Ok x, r') -> seal_wf v x).
Proof.
  intros P v w L. refine (conj _ (conj _ (conj _ (conj _ (conj _ _))))).
  - intros s x H. apply pie_parse_ok_iff in H. tauto.
  - intros s x H. apply pw_parse_ok_raw in H as (_ & H & _). exact H.
  - intros s x H. apply seal_parse_ok_iff in H. tauto.
  - intros key wk r x r' Hk H. destruct (pie_wrap_ok P v w key wk r L Hk) as (x' & H1 & H2 & _).
    rewrite H1 in H. assert (Hx : x' = x) by congruence. rewrite <- Hx. exact H2.
  - intros key pw st r x r' Hk Hu H.
    destruct (kdf_accepts_dec v pw st) as [Ha|Ha]; [|rewrite pw_wrap_panics in H by exact Ha; discriminate].
    destruct (pw_wrap_ok P v w key pw st r L Hk Hu Ha) as (x' & H1 & H2 & _).
    rewrite H1 in H. assert (Hx : x' = x) by congruence. rewrite <- Hx. exact H2.
  - intros LL fuel pdk sk r x r' Lp Hs H. apply seal_inv in H as (e & He & Hx).
    apply (ephemeral_valid P) in He. destruct (seal_with_ok P v pdk sk e LL Lp Hs He) as (x' & H1 & H2 & _).
    rewrite H1 in Hx. injection Hx as ->. exact H2.
Qed.
