(** Lemmas about [Bytes].  No model content. *)
From Coq Require Import Strings.Byte ZArith.
From Verif Require Import Bytes.
From Coq Require Import ZifyBool ZifyNat ZifyN.
Ltac Zify.zify_post_hook ::= Z.div_mod_to_equations.

Lemma b2n_lt b : (b2n b < 256)%N.
Proof. unfold b2n. pose proof (Byte.to_N_bounded b). lia. Qed.

Lemma n2b_b2n b : n2b (b2n b) = b.
Proof.
  unfold n2b, b2n. rewrite N.mod_small by apply (b2n_lt b).
  rewrite Byte.of_to_N. reflexivity.
Qed.

Lemma b2n_n2b n : b2n (n2b n) = (n mod 256)%N.
Proof.
  unfold n2b, b2n. destruct (Byte.of_N (n mod 256)) eqn:E.
  - apply Byte.to_of_N in E. exact E.
  - apply Byte.of_N_None_iff in E. lia.
Qed.

Lemma b2n_inj a b : b2n a = b2n b -> a = b.
Proof. intros H. rewrite <- (n2b_b2n a), <- (n2b_b2n b), H. reflexivity. Qed.

Lemma n2b_mod n : n2b (n mod 256) = n2b n.
Proof. unfold n2b. rewrite N.mod_mod by lia. reflexivity. Qed.

Lemma beqb_eq a b : beqb a b = true <-> a = b.
Proof. unfold beqb. split.
  - apply Byte.byte_dec_bl.
  - apply Byte.byte_dec_lb.
Qed.

Lemma beqb_refl a : beqb a a = true.
Proof. apply beqb_eq. reflexivity. Qed.

Lemma beqb_neq a b : beqb a b = false <-> a <> b.
Proof.
  split.
  - intros H E. apply beqb_eq in E. congruence.
  - intros H. destruct (beqb a b) eqn:E; [|reflexivity].
    apply beqb_eq in E. contradiction.
Qed.

Lemma bseqb_eq a b : bseqb a b = true <-> a = b.
Proof.
  revert b; induction a as [|x a IH]; intros [|y b]; simpl; split; intros H;
    try reflexivity; try discriminate.
  - apply andb_true_iff in H as [H1 H2]. apply beqb_eq in H1. apply IH in H2. congruence.
  - inversion H; subst. rewrite beqb_refl. apply IH. reflexivity.
Qed.

Lemma bseqb_refl a : bseqb a a = true.
Proof. apply bseqb_eq. reflexivity. Qed.

Lemma bseqb_neq a b : bseqb a b = false <-> a <> b.
Proof.
  split.
  - intros H E. apply bseqb_eq in E. congruence.
  - intros H. destruct (bseqb a b) eqn:E; [|reflexivity].
    apply bseqb_eq in E. contradiction.
Qed.

Lemma bytes_eq_dec (a b : bytes) : {a = b} + {a <> b}.
Proof.
  destruct (bseqb a b) eqn:E.
  - left. apply bseqb_eq. exact E.
  - right. apply bseqb_neq. exact E.
Qed.

(** xor *)
Lemma bxor_comm a b : bxor a b = bxor b a.
Proof. unfold bxor. rewrite N.lxor_comm. reflexivity. Qed.
Lemma bxor_involutive a b : bxor (bxor a b) b = a.
Proof.
  apply b2n_inj. unfold bxor. rewrite !b2n_n2b.
  assert (Hlt : (N.lxor (b2n a) (b2n b) < 256)%N).
  { destruct (N.eq_dec (N.lxor (b2n a) (b2n b)) 0) as [E|E]; [rewrite E; reflexivity|].
    apply (N.log2_lt_pow2 _ 8); [lia|].
    pose proof (N.log2_lxor (b2n a) (b2n b)) as H.
    pose proof (b2n_lt a). pose proof (b2n_lt b).
    assert (forall x, (x < 256)%N -> (N.log2 x < 8)%N).
    { intros x Hx. destruct (N.eq_dec x 0) as [->|]; [reflexivity|].
      apply N.log2_lt_pow2; [lia|]. exact Hx. }
    pose proof (H2 _ H0). pose proof (H2 _ H1). lia. }
  rewrite (N.mod_small _ _ Hlt).
  rewrite N.lxor_assoc, N.lxor_nilpotent, N.lxor_0_r.
  apply N.mod_small, b2n_lt.
Qed.

Lemma bsxor_length a b : length (bsxor a b) = Nat.min (length a) (length b).
Proof. revert b; induction a; intros [|y b]; simpl; auto. Qed.

Lemma bsxor_involutive a k :
  length a <= length k -> bsxor (bsxor a k) k = a.
Proof.
  revert k; induction a as [|x a IH]; intros [|y k] H; simpl in *; try reflexivity; try lia.
  rewrite bxor_involutive, IH by lia. reflexivity.
Qed.

(** little/big endian *)
Lemma le_bytes_length k n : length (le_bytes k n) = k.
Proof. revert n; induction k; intros; simpl; auto. Qed.

Lemma le_val_le_bytes k n : le_val (le_bytes k n) = (n mod 256 ^ N.of_nat k)%N.
Proof.
  revert n; induction k as [|k IH]; intros n.
  - simpl. rewrite N.mod_1_r. reflexivity.
  - cbn [le_bytes le_val]. rewrite IH, b2n_n2b.
    replace (N.of_nat (S k)) with (N.succ (N.of_nat k)) by lia.
    rewrite N.pow_succ_r'. rewrite N.mod_mul_r; lia.
Qed.

Lemma le_val_bound l : (le_val l < 256 ^ N.of_nat (length l))%N.
Proof.
  induction l as [|b l IH]; [reflexivity|].
  cbn [le_val length]. replace (N.of_nat (S (length l))) with (N.succ (N.of_nat (length l))) by lia.
  rewrite N.pow_succ_r'. pose proof (b2n_lt b). nia.
Qed.

Lemma le_bytes_le_val l : le_bytes (length l) (le_val l) = l.
Proof.
  induction l as [|b l IH]; [reflexivity|].
  cbn [le_val length le_bytes]. f_equal.
  - rewrite <- n2b_mod. replace ((b2n b + 256 * le_val l) mod 256)%N with (b2n b).
    + apply n2b_b2n.
    + pose proof (b2n_lt b). lia.
  - replace ((b2n b + 256 * le_val l) / 256)%N with (le_val l).
    + exact IH.
    + pose proof (b2n_lt b). lia.
Qed.

Lemma le_bytes_inj k m n :
  (m < 256 ^ N.of_nat k)%N -> (n < 256 ^ N.of_nat k)%N ->
  le_bytes k m = le_bytes k n -> m = n.
Proof.
  intros Hm Hn H. apply (f_equal le_val) in H. rewrite !le_val_le_bytes in H.
  rewrite !N.mod_small in H; assumption.
Qed.

Lemma be_bytes_length k n : length (be_bytes k n) = k.
Proof. unfold be_bytes. rewrite rev_length. apply le_bytes_length. Qed.

Lemma be_val_be_bytes k n : (n < 256 ^ N.of_nat k)%N -> be_val (be_bytes k n) = n.
Proof.
  intros H. unfold be_val, be_bytes. rewrite rev_involutive, le_val_le_bytes.
  apply N.mod_small, H.
Qed.

Lemma be_bytes_be_val l : be_bytes (length l) (be_val l) = l.
Proof.
  unfold be_val, be_bytes. rewrite <- (rev_length l), le_bytes_le_val, rev_involutive.
  reflexivity.
Qed.

Lemma be_val_bound l : (be_val l < 256 ^ N.of_nat (length l))%N.
Proof. unfold be_val. rewrite <- (rev_length l). apply le_val_bound. Qed.

Lemma be_bytes_inj k m n :
  (m < 256 ^ N.of_nat k)%N -> (n < 256 ^ N.of_nat k)%N ->
  be_bytes k m = be_bytes k n -> m = n.
Proof.
  intros Hm Hn H. apply (f_equal be_val) in H. rewrite !be_val_be_bytes in H; assumption.
Qed.

(** lists *)
Lemma app_inj_len {A} (a b c d : list A) :
  length a = length c -> a ++ b = c ++ d -> a = c /\ b = d.
Proof.
  revert c; induction a as [|x a IH]; intros [|y c] L H; simpl in *; try discriminate.
  - auto.
  - inversion H; subst. injection L as L. destruct (IH _ L H2); subst; auto.
Qed.

Lemma app_inj_len_r {A} (a b c d : list A) :
  length b = length d -> a ++ b = c ++ d -> a = c /\ b = d.
Proof.
  intros L H. apply app_inj_len; [|exact H].
  apply (f_equal (@length A)) in H. rewrite !app_length in H. lia.
Qed.

Lemma firstn_app_exact {A} (a b : list A) n : length a = n -> firstn n (a ++ b) = a.
Proof. intros <-. rewrite firstn_app, Nat.sub_diag, firstn_all, firstn_O, app_nil_r. reflexivity. Qed.

Lemma skipn_app_exact {A} (a b : list A) n : length a = n -> skipn n (a ++ b) = b.
Proof. intros <-. rewrite skipn_app, Nat.sub_diag, skipn_all. reflexivity. Qed.

Lemma nlen_app a b : nlen (a ++ b) = (nlen a + nlen b)%N.
Proof. unfold nlen. rewrite app_length. lia. Qed.

Lemma skipn_skipn' {A} a b (l : list A) : skipn a (skipn b l) = skipn (b + a) l.
Proof.
  revert l. induction b as [|b IH]; intros l; [reflexivity|].
  destruct l as [|x l]; [rewrite !skipn_nil; reflexivity|]. cbn [skipn plus]. apply IH.
Qed.
