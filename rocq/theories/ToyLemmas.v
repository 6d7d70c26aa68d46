(** * ToyLemmas: the laws hold of [ToyAsym]. *)
From Coq Require Import ZArith ZifyBool ZifyNat ZifyN.
From Verif Require Import Bytes BytesLemmas Prims ToyAsym.

Lemma le_bytes_32_mod n : le_bytes 32 n = le_bytes 32 (n mod 256 ^ 32).
Proof.
  rewrite <- (le_bytes_le_val (le_bytes 32 n)) at 1.
  rewrite le_bytes_length, le_val_le_bytes. reflexivity.
Qed.

Lemma le_bytes_32_eq m n : (m mod 256 ^ 32 = n mod 256 ^ 32)%N -> le_bytes 32 m = le_bytes 32 n.
Proof. intros H. rewrite (le_bytes_32_mod m), (le_bytes_32_mod n), H. reflexivity. Qed.

Lemma le_val_32 n : le_val (le_bytes 32 n) = (n mod 256 ^ 32)%N.
Proof. apply le_val_le_bytes. Qed.

Lemma even_le_val n : N.even n = true -> N.even (le_val (le_bytes 32 n)) = true.
Proof.
  intros He. cbn [le_bytes le_val]. rewrite b2n_n2b.
  rewrite N.even_add, N.even_mul. change (N.even 256) with true. rewrite orb_true_l.
  destruct (N.even (n mod 256)) eqn:Ee; [reflexivity|exfalso].
  rewrite <- N.negb_odd in Ee. apply negb_false_iff, N.odd_spec in Ee. destruct Ee as [k Ek].
  apply N.even_spec in He. destruct He as [j Ej].
  pose proof (N.div_mod n 256 ltac:(discriminate)). lia.
Qed.

Lemma toy_ed_sizes S : SymLaws S -> EdSizes (ToyAsym S).
Proof.
  intros L. constructor; cbn [ed_pub ed_sign ed_to_mont x_base x_mul ToyAsym]; intros;
    try apply le_bytes_length.
  apply (blake2b_mac_len _ L). lia.
Qed.

Lemma toy_ed_laws S : EdLaws (ToyAsym S).
Proof.
  constructor;
    cbn [ed_pub ed_pk_ok ed_sign ed_verify ed_to_mont ed_scalar x_scalar x_base x_mul ToyAsym]; intros.
  - unfold toy_ed_pk_ok, toy_ed_pub. rewrite le_bytes_length, even_le_val; [reflexivity|].
    rewrite N.even_mul. reflexivity.
  - unfold toy_ed_verify, toy_ed_sign. apply bseqb_refl.
  - unfold toy_x_mul, toy_ed_pub, toy_x_base, toy_le32. apply le_bytes_32_eq.
    rewrite !le_val_32. rewrite !N.mod_mod by discriminate.
    rewrite N.mul_mod_idemp_r by discriminate.
    rewrite N.mul_mod_idemp_r by discriminate.
    rewrite N.mul_mod_idemp_l by discriminate.
    f_equal. lia.
Qed.

Lemma p384_n_lt : (p384_n < 256 ^ 48)%N.
Proof. reflexivity. Qed.
Lemma p384_n_pos : (0 < p384_n)%N.
Proof. reflexivity. Qed.

Lemma mod_n_lt x : (x mod p384_n < p384_n)%N.
Proof. apply N.mod_lt. discriminate. Qed.

Lemma be_val_48 x : (x < p384_n)%N -> be_val (be_bytes 48 x) = x.
Proof.
  intros H. apply be_val_be_bytes. eapply N.lt_trans; [exact H|exact p384_n_lt].
Qed.

Lemma toy_scalar_range h : (0 < toy_scalar_of h < p384_n)%N.
Proof.
  unfold toy_scalar_of.
  assert (be_val h mod (p384_n - 1) < p384_n - 1)%N as H by (apply N.mod_lt; discriminate).
  revert H. generalize (be_val h mod (p384_n - 1))%N. intros x Hx.
  assert (0 < p384_n)%N by reflexivity. revert Hx H. generalize p384_n. lia.
Qed.

Lemma p_scalar_ok_iff b :
  p_scalar_ok b = true <-> length b = 48 /\ (0 < be_val b < p384_n)%N.
Proof.
  unfold p_scalar_ok. rewrite !andb_true_iff, negb_true_iff, Nat.eqb_eq, N.eqb_neq, N.ltb_lt. lia.
Qed.

Lemma toy_x_ok_be x : (x < p384_n)%N -> toy_p_x_ok (be_bytes 48 x) = true.
Proof.
  intros H. unfold toy_p_x_ok. rewrite be_bytes_length, be_val_48 by exact H.
  rewrite (proj2 (N.ltb_lt _ _) H). reflexivity.
Qed.

Lemma toy_p_parse_canon b k :
  toy_p_parse b = Some k -> length k = 49 /\ toy_p_parse k = Some k.
Proof.
  assert (Hl : forall t r, toy_p_x_ok r = true -> length (t :: r) = 49).
  { intros t r H. unfold toy_p_x_ok in H. apply andb_true_iff in H as [H _].
    apply Nat.eqb_eq in H. cbn [length]. lia. }
  destruct b as [|t r]; [discriminate|].
  destruct t; try discriminate; unfold toy_p_parse at 1.
  - destruct (toy_p_x_ok r) eqn:Hx; [|discriminate]. intros H.
    assert (k = x02 :: r) by congruence; subst k. split; [auto|]. unfold toy_p_parse. rewrite Hx. reflexivity.
  - destruct (toy_p_x_ok r) eqn:Hx; [|discriminate]. intros H.
    assert (k = x03 :: r) by congruence; subst k. split; [auto|]. unfold toy_p_parse. rewrite Hx. reflexivity.
  - destruct (length r =? 96) eqn:H96; [|discriminate]. rewrite andb_true_l.
    destruct (toy_p_x_ok (firstn 48 r)) eqn:Hx; [|discriminate]. intros H.
    destruct (N.even (be_val (skipn 48 r))).
    + assert (k = x02 :: firstn 48 r) by congruence; subst k. split; [auto|].
      unfold toy_p_parse. rewrite Hx. reflexivity.
    + assert (k = x03 :: firstn 48 r) by congruence; subst k. split; [auto|].
      unfold toy_p_parse. rewrite Hx. reflexivity.
  - destruct (toy_p_x_ok r) eqn:Hx; [|discriminate]. intros H.
    assert (k = x02 :: r) by congruence; subst k. split; [auto|]. unfold toy_p_parse. rewrite Hx. reflexivity.
Qed.

Lemma toy_p_sk_slice_ok b k : toy_p_sk_slice b = Some k -> p_scalar_ok k = true.
Proof.
  unfold toy_p_sk_slice. cbv zeta. destruct (24 <=? length b); [|discriminate]. rewrite andb_true_l.
  destruct (p_scalar_ok (repeat x00 (48 - length b) ++ b)) eqn:Ek; [|discriminate].
  intros H. assert (k = repeat x00 (48 - length b) ++ b) by congruence. subst k. exact Ek.
Qed.

Lemma toy_p_pub_length s : length (toy_p_pub s) = 49.
Proof. unfold toy_p_pub. cbn [length]. rewrite be_bytes_length. reflexivity. Qed.

Lemma toy_p384_sizes S : P384Sizes (ToyAsym S).
Proof.
  constructor; cbn [p_sk_slice p_sk_pem p_pub p_parse p_sign p_dh ToyAsym].
  - intros b Hb. unfold toy_p_sk_slice. rewrite Hb. reflexivity.
  - apply toy_p_sk_slice_ok.
  - apply toy_p_sk_slice_ok.
  - intros s _. rewrite toy_p_pub_length. apply le_n.
  - intros b k H. apply (toy_p_parse_canon b k H).
  - intros t r k. destruct t; try discriminate; auto.
  - intros s d sg _. unfold toy_p_sign. cbv zeta. intros H.
    match type of H with Some ?x = _ => assert (sg = x) by congruence end. subst sg. clear H.
    pose proof (toy_scalar_range (hmac_sha384 S (toy_p_pub s) d)) as Hr.
    pose proof (toy_scalar_range (hmac_sha384 S (x01 :: toy_p_pub s) d)) as Hs.
    fold (toy_p_r S (toy_p_pub s) d) in Hr. fold (toy_p_s S (toy_p_pub s) d) in Hs.
    split; [rewrite app_length, !be_bytes_length; reflexivity|].
    unfold p_sig_ok.
    rewrite (firstn_app_exact (be_bytes 48 (toy_p_r S (toy_p_pub s) d))) by apply be_bytes_length.
    rewrite (skipn_app_exact (be_bytes 48 (toy_p_r S (toy_p_pub s) d))) by apply be_bytes_length.
    apply andb_true_iff. split; apply p_scalar_ok_iff; rewrite be_bytes_length, be_val_48; tauto.
  - intros. apply be_bytes_length.
Qed.

Lemma toy_p384_laws S : P384Laws (ToyAsym S).
Proof.
  constructor; cbn [p_pk_pem p_pub p_parse p_sign p_verify p_dh ToyAsym].
  - apply toy_p_parse_canon.
  - intros s _. apply toy_p_pub_length.
  - intros s _. unfold toy_p_pub, toy_p_parse. rewrite toy_x_ok_be by apply mod_n_lt. reflexivity.
  - apply toy_p_parse_canon.
  - intros s d sg _. unfold toy_p_sign. cbv zeta. intros H.
    match type of H with Some ?x = _ => assert (sg = x) by congruence end. subst sg. clear H.
    unfold toy_p_verify. cbv zeta.
    rewrite (firstn_app_exact (be_bytes 48 (toy_p_r S (toy_p_pub s) d))) by apply be_bytes_length.
    rewrite (skipn_app_exact (be_bytes 48 (toy_p_r S (toy_p_pub s) d))) by apply be_bytes_length.
    rewrite !be_val_48 by apply toy_scalar_range.
    rewrite !N.eqb_refl. reflexivity.
  - intros s t _ _. unfold toy_p_dh, toy_p_pub. cbn [tl]. f_equal.
    rewrite !be_val_48 by apply mod_n_lt.
    rewrite !N.mul_mod_idemp_r by discriminate.
    f_equal. lia.
Qed.

Theorem toy_laws S : SymLaws S -> Laws (with_toy S).
Proof.
  intros L. constructor; [|exact (toy_ed_laws S)|exact (toy_p384_laws S)].
  constructor; [exact L|exact (toy_ed_sizes S L)|exact (toy_p384_sizes S)].
Qed.
