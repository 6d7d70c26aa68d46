(** Proofs about [Base64] against [SpecBase64]. *)
From Coq Require Import ZArith ZifyBool ZifyNat ZifyN.
From Verif Require Import Bytes BytesLemmas Outcome Base64 SpecBase64.
Ltac Zify.zify_post_hook ::= Z.div_mod_to_equations.

(** ** finite sweeps *)
Definition all_bytes : bytes := map (fun i => n2b (N.of_nat i)) (seq 0 256).

Lemma in_all_bytes b : In b all_bytes.
Proof.
  unfold all_bytes. rewrite <- (n2b_b2n b). rewrite <- (N2Nat.id (b2n b)).
  apply in_map_iff. exists (N.to_nat (b2n b)). split; [reflexivity|].
  apply in_seq. pose proof (b2n_lt b). lia.
Qed.

Lemma forall_byte (f : byte -> bool) : forallb f all_bytes = true -> forall b, f b = true.
Proof. intros H b. rewrite forallb_forall in H. apply H, in_all_bytes. Qed.

Lemma forall_byte2 (f : byte -> byte -> bool) :
  forallb (fun a => forallb (f a) all_bytes) all_bytes = true -> forall a b, f a b = true.
Proof.
  intros H a b. pose proof (forall_byte _ H a) as Ha. exact (forall_byte _ Ha b).
Qed.

Definition all64 : list N := map N.of_nat (seq 0 64).
Lemma in_all64 n : (n < 64)%N -> In n all64.
Proof.
  intros H. unfold all64. rewrite <- (N2Nat.id n). apply in_map. apply in_seq. lia.
Qed.
Lemma forall64 (f : N -> bool) : forallb f all64 = true -> forall n, (n < 64)%N -> f n = true.
Proof. intros H n Hn. rewrite forallb_forall in H. apply H, in_all64, Hn. Qed.

(** ** 6-bit groups *)
Lemma dec_enc6 n : (n < 64)%N -> decode_6bits (encode_6bits n) = Some n.
Proof.
  intros H.
  assert (E : (match decode_6bits (encode_6bits n) with Some m => N.eqb m n | None => false end) = true).
  { revert n H. apply forall64. vm_compute. reflexivity. }
  destruct (decode_6bits (encode_6bits n)); [|discriminate]. apply N.eqb_eq in E. congruence.
Qed.

Lemma enc_dec6 b n : decode_6bits b = Some n -> (n < 64)%N /\ encode_6bits n = b.
Proof.
  intros H.
  assert (E : (match decode_6bits b with Some m => N.ltb m 64 && beqb (encode_6bits m) b | None => true end) = true).
  { revert b H. intros b _. revert b. apply forall_byte. vm_compute. reflexivity. }
  rewrite H in E. apply andb_true_iff in E as [E1 E2]. apply N.ltb_lt in E1. apply beqb_eq in E2. auto.
Qed.

Lemma encode_6bits_not_dot n : (n < 64)%N -> encode_6bits n <> x2e.
Proof.
  intros H E. pose proof (dec_enc6 n H) as D. rewrite E in D. discriminate D.
Qed.

(** ** blocks *)
Lemma enc3_lt a b c : (b2n a / 4 < 64 /\ b2n a mod 4 * 16 + b2n b / 16 < 64 /\
  b2n b mod 16 * 4 + b2n c / 64 < 64 /\ b2n c mod 64 < 64)%N.
Proof. pose proof (b2n_lt a). pose proof (b2n_lt b). pose proof (b2n_lt c). lia. Qed.

Lemma dec3_enc3 a b c w x y z :
  encode_3bytes a b c = [w; x; y; z] -> decode_3bytes w x y z = Some [a; b; c].
Proof.
  intros H. unfold encode_3bytes in H. injection H as <- <- <- <-.
  pose proof (enc3_lt a b c) as (H1 & H2 & H3 & H4).
  unfold decode_3bytes. rewrite !dec_enc6 by assumption.
  pose proof (b2n_lt a). pose proof (b2n_lt b). pose proof (b2n_lt c).
  f_equal. f_equal; [|f_equal; [|f_equal]]; apply b2n_inj; rewrite b2n_n2b; lia.
Qed.

Lemma enc3_dec3 w x y z a b c :
  decode_3bytes w x y z = Some [a; b; c] -> encode_3bytes a b c = [w; x; y; z].
Proof.
  unfold decode_3bytes.
  destruct (decode_6bits w) as [w'|] eqn:Ew; [|discriminate].
  destruct (decode_6bits x) as [x'|] eqn:Ex; [|discriminate].
  destruct (decode_6bits y) as [y'|] eqn:Ey; [|discriminate].
  destruct (decode_6bits z) as [z'|] eqn:Ez; [|discriminate].
  apply enc_dec6 in Ew as [Lw <-]. apply enc_dec6 in Ex as [Lx <-].
  apply enc_dec6 in Ey as [Ly <-]. apply enc_dec6 in Ez as [Lz <-].
  intros H. injection H as <- <- <-. unfold encode_3bytes. rewrite !b2n_n2b.
  f_equal; [|f_equal; [|f_equal; [|f_equal]]]; f_equal; lia.
Qed.

Lemma dec3_some w x y z d : decode_3bytes w x y z = Some d -> exists a b c, d = [a; b; c].
Proof.
  unfold decode_3bytes. destruct (decode_6bits w); [|discriminate].
  destruct (decode_6bits x); [|discriminate]. destruct (decode_6bits y); [|discriminate].
  destruct (decode_6bits z); [|discriminate]. intros H. injection H as <-. eauto.
Qed.

(** ** induction by blocks *)
Lemma list3_ind (Q : bytes -> Prop) :
  Q [] -> (forall a, Q [a]) -> (forall a b, Q [a; b]) ->
  (forall a b c r, Q r -> Q (a :: b :: c :: r)) -> forall l, Q l.
Proof.
  intros H0 H1 H2 H3 l.
  assert (G : Q l /\ (forall a, Q (a :: l)) /\ (forall a b, Q (a :: b :: l))).
  { induction l as [|x l (IH0 & IH1 & IH2)].
    - auto.
    - split; [apply IH1|]. split; [intros a; apply IH2|]. intros a b. apply H3, IH0. }
  apply G.
Qed.

Lemma list4_ind (Q : bytes -> Prop) :
  Q [] -> (forall a, Q [a]) -> (forall a b, Q [a; b]) -> (forall a b c, Q [a; b; c]) ->
  (forall a b c d r, Q r -> Q (a :: b :: c :: d :: r)) -> forall l, Q l.
Proof.
  intros H0 H1 H2 H3 H4 l.
  assert (G : Q l /\ (forall a, Q (a :: l)) /\ (forall a b, Q (a :: b :: l)) /\
              (forall a b c, Q (a :: b :: c :: l))).
  { induction l as [|x l (IH0 & IH1 & IH2 & IH3)].
    - auto.
    - split; [apply IH1|]. split; [intros a; apply IH2|]. split; [intros a b; apply IH3|].
      intros a b c. apply H4, IH0. }
  apply G.
Qed.

Lemma enc3_cons a b c r : encode_string (a :: b :: c :: r) = encode_3bytes a b c ++ encode_string r.
Proof. reflexivity. Qed.

Lemma dec4_cons w x y z r : decode_body (w :: x :: y :: z :: r) =
  match decode_3bytes w x y z, decode_body r with Some d, Some ds => Some (d ++ ds) | _, _ => None end.
Proof. reflexivity. Qed.

(** ** lengths *)
Lemma encode_3bytes_length a b c : length (encode_3bytes a b c) = 4.
Proof. reflexivity. Qed.

Lemma encode_string_length s : length (encode_string s) = encoded_len (length s).
Proof.
  induction s as [|a|a b|a b c r IH] using list3_ind; try reflexivity.
  rewrite enc3_cons, app_length, IH, encode_3bytes_length. cbn [length]. unfold encoded_len.
  destruct (4 * length r mod 3 =? 0) eqn:E1;
  destruct (4 * S (S (S (length r))) mod 3 =? 0) eqn:E2; lia.
Qed.

Lemma decoded_encoded_len n : decoded_len (encoded_len n) = n.
Proof.
  unfold decoded_len, encoded_len. cbv zeta.
  destruct (4 * n mod 3 =? 0) eqn:E; lia.
Qed.

Lemma encoded_len_inj m n : encoded_len m = encoded_len n -> m = n.
Proof. intros H. rewrite <- (decoded_encoded_len m), H. apply decoded_encoded_len. Qed.

Lemma encoded_len_add3 k n : encoded_len (3 * k + n) = 4 * k + encoded_len n.
Proof.
  unfold encoded_len.
  destruct (4 * (3 * k + n) mod 3 =? 0) eqn:E1; destruct (4 * n mod 3 =? 0) eqn:E2; lia.
Qed.

Lemma encoded_len_mono m n : m <= n -> encoded_len m <= encoded_len n.
Proof.
  intros H. unfold encoded_len.
  destruct (4 * m mod 3 =? 0) eqn:E1; destruct (4 * n mod 3 =? 0) eqn:E2; lia.
Qed.

(** ** block-wise structure of encode_string *)
Lemma encode_string_app (p s : bytes) k :
  length p = 3 * k -> encode_string (p ++ s) = encode_string p ++ encode_string s.
Proof.
  revert k. induction p as [|a|a b|a b c r IH] using list3_ind; intros k L.
  - reflexivity.
  - exfalso. cbn [length] in L. lia.
  - exfalso. cbn [length] in L. lia.
  - change ((a :: b :: c :: r) ++ s) with (a :: b :: c :: (r ++ s)).
    rewrite !enc3_cons, (IH (k - 1)) by (cbn [length] in L; lia).
    rewrite app_assoc. reflexivity.
Qed.

Lemma encode_string_skipn k s :
  encode_string (skipn (3 * k) s) = skipn (4 * k) (encode_string s).
Proof.
  destruct (Nat.le_gt_cases (3 * k) (length s)) as [L|L].
  - assert (Lf : length (firstn (3 * k) s) = 3 * k) by (rewrite firstn_length; lia).
    rewrite <- (firstn_skipn (3 * k) s) at 2.
    rewrite (encode_string_app _ _ k Lf).
    rewrite skipn_app_exact; [reflexivity|].
    rewrite encode_string_length, Lf. replace (3 * k) with (3 * k + 0) by lia.
    rewrite encoded_len_add3. cbn. lia.
  - rewrite !skipn_all2; [reflexivity| |lia].
    rewrite encode_string_length. unfold encoded_len.
    destruct (4 * length s mod 3 =? 0) eqn:E; lia.
Qed.

(** ** decode . encode *)
Lemma decode_body_encode s : decode_body (encode_string s) = Some s.
Proof.
  induction s as [|a|a b|a b c r IH] using list3_ind.
  - reflexivity.
  - cbn [encode_string firstn encode_3bytes decode_body].
    pose proof (enc3_lt a x00 x00) as (H1 & H2 & H3 & H4).
    assert (E : decode_3bytes (encode_6bits (b2n a / 4)) (encode_6bits (b2n a mod 4 * 16 + b2n x00 / 16)) x41 x41
            = Some [a; x00; x00]).
    { apply dec3_enc3. reflexivity. }
    cbv zeta. rewrite E. reflexivity.
  - cbn [encode_string firstn encode_3bytes decode_body].
    pose proof (enc3_lt a b x00) as (H1 & H2 & H3 & H4).
    assert (E : decode_3bytes (encode_6bits (b2n a / 4)) (encode_6bits (b2n a mod 4 * 16 + b2n b / 16))
              (encode_6bits (b2n b mod 16 * 4 + b2n x00 / 64)) x41
            = Some [a; b; x00]).
    { apply dec3_enc3. reflexivity. }
    cbv zeta. rewrite E. reflexivity.
  - rewrite enc3_cons. destruct (encode_3bytes a b c) as [|w [|x [|y [|z [|? ?]]]]] eqn:E;
      try discriminate E.
    change ([w; x; y; z] ++ encode_string r) with (w :: x :: y :: z :: encode_string r).
    rewrite dec4_cons, IH, (dec3_enc3 _ _ _ _ _ _ _ E). reflexivity.
Qed.

Lemma zip_eqb_refl a : zip_eqb a a = true.
Proof. induction a; simpl; [reflexivity|]. rewrite beqb_refl. assumption. Qed.

Lemma zip_eqb_eq a b : length a = length b -> zip_eqb a b = true -> a = b.
Proof.
  revert b; induction a as [|x a IH]; intros [|y b] L H; try discriminate L; [reflexivity|].
  simpl in H. apply andb_true_iff in H as [H1 H2]. apply beqb_eq in H1. injection L as L.
  rewrite (IH _ L H2), H1. reflexivity.
Qed.

Lemma last_block_match n :
  1 <= n -> (n - 1) / 3 = (encoded_len n - 1) / 4.
Proof.
  intros H. unfold encoded_len. destruct (4 * n mod 3 =? 0) eqn:E; lia.
Qed.

Lemma validate_encode d : validate_last_block (encode_string d) d = true.
Proof.
  destruct (Nat.eq_dec (length d) 0) as [Z|NZ].
  - destruct d; [reflexivity|discriminate Z].
  - assert (V : validate_last_block (encode_string d) d =
      zip_eqb (encode_string (skipn (last_block_start (length d) 3) d))
              (skipn (last_block_start (length (encode_string d)) 4) (encode_string d))).
    { destruct d; [exfalso; apply NZ; reflexivity|]. unfold validate_last_block.
      destruct (encode_string (b :: d)); reflexivity. }
    rewrite V. unfold last_block_start. rewrite encode_string_length.
    rewrite <- last_block_match by lia.
    rewrite (Nat.mul_comm _ 3), (Nat.mul_comm _ 4), encode_string_skipn. apply zip_eqb_refl.
Qed.

(** structure of a successfully decoded text *)
Lemma decode_body_structure (s d : bytes) :
  decode_body s = Some d ->
  exists k p t dp dt, s = p ++ t /\ d = dp ++ dt /\ length p = 4 * k /\ length dp = 3 * k /\
    p = encode_string dp /\
    ((t = [] /\ dt = []) \/ (length t = 2 /\ length dt = 1) \/ (length t = 3 /\ length dt = 2)).
Proof.
  revert d. induction s as [|a|a b|a b c|w x y z r IH] using list4_ind; intros d H.
  - injection H as <-. exists 0, [], [], [], []. repeat split; auto.
  - discriminate H.
  - cbn [decode_body] in H. destruct (decode_3bytes a b x41 x41) as [l|] eqn:E; [|discriminate].
    apply dec3_some in E as (u & v & q & ->). injection H as <-.
    exists 0, [], [a; b], [], [u]. repeat split; auto.
  - cbn [decode_body] in H. destruct (decode_3bytes a b c x41) as [l|] eqn:E; [|discriminate].
    apply dec3_some in E as (u & v & q & ->). injection H as <-.
    exists 0, [], [a; b; c], [], [u; v]. repeat split; auto.
  - rewrite dec4_cons in H. destruct (decode_3bytes w x y z) as [l|] eqn:E; [|discriminate].
    destruct (decode_body r) as [ds|] eqn:R; [|discriminate]. injection H as <-.
    pose proof (dec3_some _ _ _ _ _ E) as (u & v & q & ->).
    destruct (IH _ eq_refl) as (k & p & t & dp & dt & -> & -> & Lp & Ld & Ep & HT).
    exists (S k), (w :: x :: y :: z :: p), t, (u :: v :: q :: dp), dt.
    repeat split; auto.
    + cbn [length]. lia.
    + cbn [length]. lia.
    + rewrite enc3_cons, <- Ep. rewrite (enc3_dec3 _ _ _ _ _ _ _ E). reflexivity.
Qed.

Lemma decode_body_length s d : decode_body s = Some d -> length d = decoded_len (length s).
Proof.
  intros H. apply decode_body_structure in H
    as (k & p & t & dp & dt & -> & -> & Lp & Ld & _ & HT).
  rewrite !app_length, Lp, Ld. unfold decoded_len. cbv zeta.
  destruct HT as [[-> ->]|[[-> ->]|[-> ->]]]; cbn [length]; lia.
Qed.

Lemma decode_body_canonical s d :
  decode_body s = Some d -> validate_last_block s d = true -> s = encode_string d.
Proof.
  intros H V. apply decode_body_structure in H
    as (k & p & t & dp & dt & -> & -> & Lp & Ld & Ep & HT).
  rewrite (encode_string_app _ _ _ Ld), <- Ep. f_equal.
  destruct HT as [[-> ->]|HT]; [reflexivity|].
  assert (Lt : length (encode_string dt) = length t).
  { rewrite encode_string_length. destruct HT as [[-> ->]|[-> ->]]; reflexivity. }
  assert (V' : zip_eqb (encode_string (skipn (last_block_start (length (dp ++ dt)) 3) (dp ++ dt)))
              (skipn (last_block_start (length (p ++ t)) 4) (p ++ t)) = true).
  { revert V. unfold validate_last_block. destruct (p ++ t) eqn:E1; [|exact (fun x => x)].
    apply app_eq_nil in E1 as [-> ->]. destruct HT as [[? _]|[? _]]; discriminate. }
  unfold last_block_start in V'. rewrite !app_length, Lp, Ld in V'.
  replace ((3 * k + length dt - 1) / 3 * 3) with (3 * k) in V' by (destruct HT as [[_ ->]|[_ ->]]; lia).
  replace ((4 * k + length t - 1) / 4 * 4) with (4 * k) in V' by (destruct HT as [[-> _]|[-> _]]; lia).
  rewrite !skipn_app_exact in V' by assumption.
  symmetry. apply zip_eqb_eq; [exact Lt|exact V'].
Qed.

(** ** The decoder accepts exactly the encodings. *)
Lemma decode_buf_iff cap s d :
  decode_buf cap s = Some d <-> s = encode_string d /\ length d <= cap.
Proof.
  unfold decode_buf. split.
  - destruct (cap <? decoded_len (length s)) eqn:C; [discriminate|].
    destruct (decode_body s) as [x|] eqn:B; [|discriminate].
    destruct (validate_last_block s x) eqn:V; [|discriminate].
    intros H. injection H as ->. split; [apply decode_body_canonical; assumption|].
    rewrite (decode_body_length _ _ B). lia.
  - intros [-> L]. rewrite encode_string_length, decoded_encoded_len.
    replace (cap <? length d) with false by lia.
    rewrite decode_body_encode, validate_encode. reflexivity.
Qed.

Lemma decode_vec_iff s d : decode_vec s = Some d <-> s = encode_string d.
Proof.
  unfold decode_vec. rewrite decode_buf_iff. split; [tauto|].
  intros ->. split; [reflexivity|]. rewrite encode_string_length, decoded_encoded_len. lia.
Qed.

Lemma decode_vec_encode d : decode_vec (encode_string d) = Some d.
Proof. apply decode_vec_iff. reflexivity. Qed.

Lemma encode_string_inj a b : encode_string a = encode_string b -> a = b.
Proof.
  intros H. pose proof (decode_vec_encode a) as Ha. rewrite H, decode_vec_encode in Ha. congruence.
Qed.

(** ** alphabet *)
Lemma encode_3bytes_no_dot a b c : ~ In x2e (encode_3bytes a b c).
Proof.
  intros H. pose proof (enc3_lt a b c) as (H1 & H2 & H3 & H4). unfold encode_3bytes in H.
  cbv zeta in H. cbn [In] in H.
  destruct H as [E|[E|[E|[E|[]]]]]; revert E; apply encode_6bits_not_dot; assumption.
Qed.

Lemma firstn_in {A} n (l : list A) x : In x (firstn n l) -> In x l.
Proof. intros H. rewrite <- (firstn_skipn n l). apply in_or_app. auto. Qed.

Lemma encode_string_no_dot s : ~ In x2e (encode_string s).
Proof.
  induction s as [|a|a b|a b c r IH] using list3_ind.
  - intros [].
  - intros H. apply (firstn_in 2) in H. exact (encode_3bytes_no_dot _ _ _ H).
  - intros H. apply (firstn_in 3) in H. exact (encode_3bytes_no_dot _ _ _ H).
  - rewrite enc3_cons. intros H. apply in_app_or in H as [H|H]; [|exact (IH H)].
    exact (encode_3bytes_no_dot _ _ _ H).
Qed.

(** ** equality with RFC 4648 *)
Lemma alphabet_nth n : n < 64 -> nth n alphabet x00 = encode_6bits (N.of_nat n).
Proof.
  intros H.
  assert (E : beqb (nth (N.to_nat (N.of_nat n)) alphabet x00) (encode_6bits (N.of_nat n)) = true).
  { apply (forall64 (fun m => beqb (nth (N.to_nat m) alphabet x00) (encode_6bits m))).
    - vm_compute. reflexivity.
    - lia. }
  rewrite Nat2N.id in E. apply beqb_eq in E. exact E.
Qed.

Definition grp (l : list bool) : byte := nth (val_of_bits l) alphabet x00.
Definition tb (b : byte) (i : nat) : bool := N.testbit (b2n b) (N.of_nat i).

Lemma grp1 a : grp [tb a 7; tb a 6; tb a 5; tb a 4; tb a 3; tb a 2] = encode_6bits (b2n a / 4).
Proof.
  apply beqb_eq. revert a. apply forall_byte. vm_compute. reflexivity.
Qed.
Lemma grp2 a b : grp [tb a 1; tb a 0; tb b 7; tb b 6; tb b 5; tb b 4]
  = encode_6bits (b2n a mod 4 * 16 + b2n b / 16).
Proof.
  apply beqb_eq. revert a b. apply forall_byte2. vm_compute. reflexivity.
Qed.
Lemma grp3 b c : grp [tb b 3; tb b 2; tb b 1; tb b 0; tb c 7; tb c 6]
  = encode_6bits (b2n b mod 16 * 4 + b2n c / 64).
Proof.
  apply beqb_eq. revert b c. apply forall_byte2. vm_compute. reflexivity.
Qed.
Lemma grp4 c : grp [tb c 5; tb c 4; tb c 3; tb c 2; tb c 1; tb c 0] = encode_6bits (b2n c mod 64).
Proof.
  apply beqb_eq. revert c. apply forall_byte. vm_compute. reflexivity.
Qed.

Lemma base64url_cons3 a b c r :
  base64url (a :: b :: c :: r) = encode_3bytes a b c ++ base64url r.
Proof.
  unfold encode_3bytes. cbv zeta. rewrite <- grp1, <- grp2, <- grp3, <- grp4. reflexivity.
Qed.

Lemma base64url_1 a : base64url [a] = firstn 2 (encode_3bytes a x00 x00).
Proof.
  unfold encode_3bytes. cbv zeta. cbn [firstn]. rewrite <- grp1, <- grp2. reflexivity.
Qed.

Lemma base64url_2 a b : base64url [a; b] = firstn 3 (encode_3bytes a b x00).
Proof.
  unfold encode_3bytes. cbv zeta. cbn [firstn]. rewrite <- grp1, <- grp2, <- grp3. reflexivity.
Qed.

Lemma encode_string_spec s : encode_string s = base64url s.
Proof.
  induction s as [|a|a b|a b c r IH] using list3_ind.
  - reflexivity.
  - rewrite base64url_1. reflexivity.
  - rewrite base64url_2. reflexivity.
  - rewrite enc3_cons, base64url_cons3, IH. reflexivity.
Qed.

(** ** write_b64, read_b64 *)
Lemma chunks_fuel_length_irrel f n l :
  0 < n -> length l <= f -> concat (chunks_fuel f n l) = l /\ Forall (fun c => length c <= n) (chunks_fuel f n l).
Proof.
  intros Hn. revert l; induction f as [|f IH]; intros l L.
  - destruct l; [|cbn [length] in L; lia]. split; [reflexivity|constructor].
  - destruct l as [|x l]; [split; [reflexivity|constructor]|].
    cbn [chunks_fuel concat].
    destruct (IH (skipn n (x :: l))) as [IH1 IH2].
    { rewrite skipn_length. cbn [length] in *. lia. }
    rewrite IH1, firstn_skipn. split; [reflexivity|].
    constructor; [|exact IH2]. rewrite firstn_length. lia.
Qed.

Lemma write_chunks_fuel f l :
  length l <= f -> write_chunks (chunks_fuel f 48 l) = Ok (encode_string l).
Proof.
  revert l; induction f as [|f IH]; intros l L.
  - destruct l; [reflexivity|cbn [length] in L; lia].
  - destruct l as [|x l]; [reflexivity|].
    remember (x :: l) as q eqn:Q.
    assert (Hq : chunks_fuel (S f) 48 q = firstn 48 q :: chunks_fuel f 48 (skipn 48 q)).
    { subst q. reflexivity. }
    rewrite Hq. cbn [write_chunks]. unfold encode_buf.
    assert (Lc : length (firstn 48 q) <= 48) by (rewrite firstn_length; lia).
    apply encoded_len_mono in Lc. change (encoded_len 48) with 64 in Lc.
    replace (64 <? encoded_len (length (firstn 48 q))) with false by lia.
    cbn [unwrap obind].
    rewrite IH by (rewrite skipn_length; subst q; cbn [length] in *; lia).
    cbn [obind]. f_equal.
    destruct (Nat.le_gt_cases 48 (length q)) as [G|G].
    + rewrite <- (encode_string_app (firstn 48 q) _ 16), firstn_skipn by (rewrite firstn_length; lia).
      reflexivity.
    + rewrite firstn_all2, skipn_all2 by lia. cbn [encode_string]. apply app_nil_r.
Qed.

Lemma write_b64_ok b : write_b64 b = Ok (encode_string b).
Proof. unfold write_b64, chunks. apply write_chunks_fuel. lia. Qed.

Lemma read_b64_ok_iff n s d :
  read_b64 n s = Ok d <-> s = encode_string d /\ length d = n.
Proof.
  unfold read_b64. split.
  - destruct ((length s + 3) / 4 * 3 <? n) eqn:E; [discriminate|].
    destruct (decode_buf n s) as [x|] eqn:D; [|discriminate]. cbn [ok_or obind].
    destruct (length x =? n) eqn:L; [|discriminate]. cbn [negb]. intros H. injection H as ->.
    apply decode_buf_iff in D as [-> _]. split; [reflexivity|lia].
  - intros [-> <-]. rewrite encode_string_length.
    replace ((encoded_len (length d) + 3) / 4 * 3 <? length d) with false.
    2:{ unfold encoded_len. destruct (4 * length d mod 3 =? 0) eqn:E; lia. }
    assert (D : decode_buf (length d) (encode_string d) = Some d) by (apply decode_buf_iff; auto).
    rewrite D. cbn [ok_or obind]. rewrite Nat.eqb_refl. reflexivity.
Qed.

Lemma read_b64_err n s : (forall d, read_b64 n s <> Ok d) -> read_b64 n s = Err Base64DecodeError.
Proof.
  unfold read_b64. intros H.
  destruct ((length s + 3) / 4 * 3 <? n); [reflexivity|].
  destruct (decode_buf n s) as [x|]; [|reflexivity]. cbn [ok_or obind] in *.
  destruct (length x =? n); cbn [negb] in *; [|reflexivity].
  exfalso. apply (H x). reflexivity.
Qed.

Lemma read_b64_cases n s :
  (exists d, read_b64 n s = Ok d) \/ read_b64 n s = Err Base64DecodeError.
Proof.
  unfold read_b64.
  destruct ((length s + 3) / 4 * 3 <? n); [right; reflexivity|].
  destruct (decode_buf n s) as [x|]; [|right; reflexivity]. cbn [ok_or obind].
  destruct (length x =? n); cbn [negb]; [left; eauto|right; reflexivity].
Qed.

Lemma read_b64_encode d : read_b64 (length d) (encode_string d) = Ok d.
Proof. apply read_b64_ok_iff. auto. Qed.
