(** [strip_prefix], [split_once], [outcome] lemmas. *)
From Verif Require Import Bytes BytesLemmas Outcome.

Lemma strip_prefix_iff p s r : strip_prefix p s = Some r <-> s = p ++ r.
Proof.
  revert s; induction p as [|x p IH]; intros s; cbn [strip_prefix app].
  - split; [intros H; injection H as ->; reflexivity|intros ->; reflexivity].
  - destruct s as [|y s]; [split; discriminate|].
    destruct (beqb x y) eqn:E.
    + apply beqb_eq in E as ->. rewrite IH. split; [intros ->; reflexivity|intros H; injection H; auto].
    + split; [discriminate|]. intros H. injection H as -> _. rewrite beqb_refl in E. discriminate.
Qed.

Lemma strip_prefix_self p r : strip_prefix p (p ++ r) = Some r.
Proof. apply strip_prefix_iff. reflexivity. Qed.

Lemma strip_prefix_none p s : strip_prefix p s = None <-> forall r, s <> p ++ r.
Proof.
  split.
  - intros H r ->. rewrite strip_prefix_self in H. discriminate.
  - intros H. destruct (strip_prefix p s) eqn:E; [|reflexivity].
    apply strip_prefix_iff in E. destruct (H _ E).
Qed.

Lemma strip_prefix_app a b s :
  strip_prefix (a ++ b) s = match strip_prefix a s with Some r => strip_prefix b r | None => None end.
Proof.
  destruct (strip_prefix a s) as [r|] eqn:E.
  - apply strip_prefix_iff in E as ->. destruct (strip_prefix b r) as [q|] eqn:F.
    + apply strip_prefix_iff in F as ->. apply strip_prefix_iff. apply app_assoc.
    + apply strip_prefix_none. intros q H. rewrite <- app_assoc in H. apply app_inv_head in H.
      apply (proj1 (strip_prefix_none b r)) with (r := q) in F. contradiction.
  - apply strip_prefix_none. intros q ->. rewrite <- app_assoc in E. rewrite strip_prefix_self in E.
    discriminate.
Qed.

Lemma strip_bind {A} a s (k : bytes -> outcome A) b :
  (let? s1 := ok_or (strip_prefix a s) InvalidToken in
   let? s2 := ok_or (strip_prefix b s1) InvalidToken in k s2)
  = (let? s2 := ok_or (strip_prefix (a ++ b) s) InvalidToken in k s2).
Proof. rewrite strip_prefix_app. destruct (strip_prefix a s); reflexivity. Qed.

Lemma split_once_some c s a b :
  split_once c s = Some (a, b) <-> s = a ++ c :: b /\ ~ In c a.
Proof.
  revert a; induction s as [|x s IH]; intros a; cbn [split_once].
  - split; [discriminate|]. intros [H _]. destruct a; discriminate.
  - destruct (beqb x c) eqn:E.
    + apply beqb_eq in E as ->. split.
      * intros H. injection H as <- <-. split; [reflexivity|intros []].
      * intros [H N]. destruct a as [|y a]; [injection H as <-; reflexivity|].
        injection H as -> _. destruct N. left. reflexivity.
    + destruct (split_once c s) as [[a' b']|] eqn:R.
      * split.
        -- intros H. injection H as <- <-. destruct (proj1 (IH a')) as [-> N]; [reflexivity|].
           split; [reflexivity|]. intros [->|H]; [rewrite beqb_refl in E; discriminate|auto].
        -- intros [H N]. destruct a as [|y a]; [injection H as -> _; rewrite beqb_refl in E; discriminate|].
           injection H as <- ->. f_equal. 
           assert (H : Some (a', b') = Some (a, b)).
           { apply IH. split; [reflexivity|]. intros G. apply N. right. exact G. }
           injection H as -> ->. reflexivity.
      * split; [discriminate|]. intros [H N]. destruct a as [|y a].
        -- injection H as -> _. rewrite beqb_refl in E. discriminate.
        -- injection H as <- ->. assert (H : None = Some (a, b)); [|discriminate].
           apply IH. split; [reflexivity|]. intros G. apply N. right. exact G.
Qed.

Lemma split_once_none c s : split_once c s = None <-> ~ In c s.
Proof.
  induction s as [|x s IH]; cbn [split_once].
  - split; [intros _ []|reflexivity].
  - destruct (beqb x c) eqn:E.
    + apply beqb_eq in E as ->. split; [discriminate|]. intros H. destruct H. left. reflexivity.
    + destruct (split_once c s) as [[a b]|].
      * split; [discriminate|]. intros H. assert (~ In c s) as G by (intros G; apply H; right; exact G).
        apply IH in G. discriminate.
      * split; [|reflexivity]. intros _ [->|G]; [rewrite beqb_refl in E; discriminate|].
        apply (proj1 IH); auto.
Qed.

Lemma split_at_ok n l : n <= length l -> split_at n l = Ok (firstn n l, skipn n l).
Proof. intros H. unfold split_at. destruct (Nat.ltb_spec (length l) n); [lia|reflexivity]. Qed.
Lemma split_at_panic n l : length l < n -> split_at n l = Panic.
Proof. intros H. unfold split_at. destruct (Nat.ltb_spec (length l) n); [reflexivity|lia]. Qed.
Lemma split_at_app a b n : length a = n -> split_at n (a ++ b) = Ok (a, b).
Proof.
  intros H. rewrite split_at_ok by (rewrite app_length; lia).
  rewrite firstn_app_exact, skipn_app_exact by assumption. reflexivity.
Qed.
Lemma usize_sub_ok a b : b <= a -> usize_sub a b = Ok (a - b).
Proof. intros H. unfold usize_sub. destruct (Nat.ltb_spec a b); [lia|reflexivity]. Qed.
Lemma usize_sub_panic a b : a < b -> usize_sub a b = Panic.
Proof. intros H. unfold usize_sub. destruct (Nat.ltb_spec a b); [reflexivity|lia]. Qed.

Lemma obind_ok {A B} (x : outcome A) (f : A -> outcome B) b :
  obind x f = Ok b <-> exists a, x = Ok a /\ f a = Ok b.
Proof.
  destruct x; cbn [obind]; split; try discriminate.
  - intros H. eauto.
  - intros (y & H & G). injection H as <-. exact G.
  - intros (y & H & G). discriminate.
  - intros (y & H & G). discriminate.
Qed.

Lemma ok_or_ok {A} (o : option A) e a : ok_or o e = Ok a <-> o = Some a.
Proof. destruct o; cbn; split; intros H; try discriminate; injection H as ->; reflexivity. Qed.
