(** * Primes: the numbers 2^255 - 19, 2^384 - 2^128 - 2^96 + 2^32 - 1 and the order of P-384 are prime.

    Fermat's little theorem, Pocklington's criterion and the certificates. *)
From Coq Require Import ZArith Znumtheory Zpow_facts Lia List Permutation.
Import ListNotations.
Local Open Scope Z_scope.

(** ** Fermat's little theorem *)
Definition prod (l : list Z) : Z := fold_right Z.mul 1 l.

Lemma prod_perm l l' : Permutation l l' -> prod l = prod l'.
Proof.
  induction 1; cbn [prod fold_right] in *; [reflexivity| |ring|congruence].
  change (x * prod l = x * prod l'). rewrite IHPermutation. reflexivity.
Qed.
Lemma prod_map_mod p a l : p <> 0 ->
  prod (map (fun x => (a * x) mod p) l) mod p = (a ^ Z.of_nat (length l) * prod l) mod p.
Proof.
  intros Hp. induction l as [|x l IH]; [reflexivity|].
  cbn [map length]. change (prod (?y :: ?m)) with (y * prod m) at 1.
  rewrite Z.mul_mod, IH, Z.mod_mod, <- Z.mul_mod by exact Hp.
  change (prod (x :: l)) with (x * prod l). rewrite Nat2Z.inj_succ, Z.pow_succ_r by lia. f_equal. ring.
Qed.
Lemma NoDup_map_in {A B} (f : A -> B) l :
  (forall x y, In x l -> In y l -> f x = f y -> x = y) -> NoDup l -> NoDup (map f l).
Proof.
  intros Hf H. induction H as [|x l Hx H IH]; [constructor|]. cbn [map]. constructor.
  - intros Hin. apply in_map_iff in Hin as (y & E & Hy). apply Hx.
    rewrite (Hf x y); [exact Hy|left; reflexivity|right; exact Hy|symmetry; exact E].
  - apply IH. intros y z Hy Hz. apply Hf; right; assumption.
Qed.
Lemma prod_rel_prime p l : prime p -> (forall x, In x l -> ~ (p | x)) -> rel_prime p (prod l).
Proof.
  intros Hp. induction l as [|x l IH]; intros H; [apply rel_prime_sym, rel_prime_1|].
  change (prod (x :: l)) with (x * prod l). apply rel_prime_mult.
  - apply prime_rel_prime; [exact Hp|]. apply H. left. reflexivity.
  - apply IH. intros y Hy. apply H. right. exact Hy.
Qed.
Theorem fermat p a : prime p -> ~ (p | a) -> a ^ (p - 1) mod p = 1.
Proof.
  intros Hp Ha. assert (H1 : 1 < p) by apply Hp.
  set (l := map Z.of_nat (seq 1 (Z.to_nat (p - 1)))).
  assert (Hl : forall x, In x l <-> 1 <= x < p).
  { intros x. unfold l. rewrite in_map_iff. split.
    - intros (n & <- & Hn). apply in_seq in Hn. lia.
    - intros Hx. exists (Z.to_nat x). split; [lia|]. apply in_seq. lia. }
  set (f := fun x => (a * x) mod p).
  assert (Hd : forall x, 1 <= x < p -> ~ (p | x)) by (intros x Hx D; apply Z.divide_pos_le in D; lia).
  assert (HP : Permutation (map f l) l).
  { apply NoDup_Permutation_bis.
    - apply NoDup_map_in.
      + intros x y Hx Hy E. apply Hl in Hx, Hy. unfold f in E.
        assert (D : (p | a * (x - y))).
        { apply Z.mod_divide; [lia|]. rewrite Z.mul_sub_distr_l, Zminus_mod, E, Z.sub_diag. apply Z.mod_0_l. lia. }
        apply prime_mult in D as [D|D]; [contradiction| |exact Hp].
        destruct (Z.eq_dec x y) as [|N]; [assumption|]. destruct (Z.lt_ge_cases x y).
        * apply Z.divide_opp_r in D. apply Z.divide_pos_le in D; lia.
        * apply Z.divide_pos_le in D; lia.
      + unfold l. apply NoDup_map_in; [intros; lia|apply seq_NoDup].
    - rewrite map_length. lia.
    - intros y Hy. apply in_map_iff in Hy as (x & <- & Hx). apply Hl in Hx. apply Hl. unfold f.
      pose proof (Z.mod_pos_bound (a * x) p ltac:(lia)). enough ((a * x) mod p <> 0) by lia.
      intros E. apply Z.mod_divide in E; [|lia]. apply prime_mult in E as [E|E]; [contradiction| |exact Hp].
      exact (Hd x Hx E). }
  pose proof (prod_map_mod p a l ltac:(lia)) as HM. fold f in HM. rewrite (prod_perm _ _ HP) in HM.
  assert (HL : Z.of_nat (length l) = p - 1) by (unfold l; rewrite map_length, seq_length; lia).
  rewrite HL in HM.
  assert (D : (p | prod l * (a ^ (p - 1) - 1))).
  { apply Z.mod_divide; [lia|]. rewrite Z.mul_sub_distr_l, Zminus_mod, (Z.mul_comm (prod l) (a ^ (p - 1))), <- HM, Z.mul_1_r, Z.sub_diag.
    apply Z.mod_0_l. lia. }
  apply Gauss in D.
  - destruct D as [k E]. replace (a ^ (p - 1)) with (1 + k * p) by lia. rewrite Z.mod_add by lia. apply Z.mod_small. lia.
  - apply prod_rel_prime; [exact Hp|]. intros x Hx. apply Hd, Hl, Hx.
Qed.

(** ** Pocklington's criterion *)
Lemma pow_mod_1 a e n : 1 < n -> a mod n = 1 -> 0 <= e -> a ^ e mod n = 1.
Proof.
  intros Hn Ha He. rewrite Zpower_mod by lia. rewrite Ha, Z.pow_1_l by exact He. apply Z.mod_small. lia.
Qed.
Lemma mod_1_divide a r : 1 < r -> a mod r = 1 <-> (r | a - 1).
Proof.
  intros Hr. split.
  - intros H. apply Z.mod_divide; [lia|]. rewrite Zminus_mod, H. rewrite (Z.mod_small 1) by lia. apply Z.mod_0_l. lia.
  - intros [k E]. replace a with (1 + k * r) by lia. rewrite Z.mod_add by lia. apply Z.mod_small. lia.
Qed.

(** [q] divides [r - 1] for every prime factor [r] of [n] *)
Definition pock_ok (n a q : Z) : Prop :=
  (q | n - 1) /\ a ^ (n - 1) mod n = 1 /\ Z.gcd (a ^ ((n - 1) / q) - 1) n = 1.

Lemma pock_factor n a q r : 1 < n -> prime q -> pock_ok n a q -> prime r -> (r | n) -> (q | r - 1).
Proof.
  intros Hn Hq (Hd & H1 & Hg) Hr Hrn.
  destruct (Zdivide_dec q (r - 1)) as [|ND]; [assumption|]. exfalso.
  assert (Hq1 : 1 < q) by apply Hq. assert (Hr1 : 1 < r) by apply Hr.
  set (g := a ^ ((n - 1) / q)) in *.
  assert (E : (n - 1) = (n - 1) / q * q) by (rewrite Z.mul_comm; apply Z_div_exact_full_2; [lia|apply Z.mod_divide; [lia|exact Hd]]).
  assert (He : 0 <= (n - 1) / q) by (apply Z.div_pos; lia).
  assert (Hgq : g ^ q mod r = 1).
  { unfold g. rewrite <- Z.pow_mul_r by lia. rewrite <- E. apply mod_1_divide; [exact Hr1|].
    apply mod_1_divide in H1; [|exact Hn]. exact (Z.divide_trans _ _ _ Hrn H1). }
  assert (Hrg : ~ (r | g)).
  { intros D. apply mod_1_divide in Hgq; [|exact Hr1].
    assert (D' : (r | g ^ q)). { replace q with (1 + (q - 1)) by lia. rewrite Z.pow_add_r, Z.pow_1_r by lia. apply Z.divide_mul_l, D. }
    assert (D1 : (r | 1)). { replace 1 with (g ^ q - (g ^ q - 1)) by lia. apply Z.divide_sub_r; assumption. }
    apply Z.divide_pos_le in D1; lia. }
  pose proof (fermat r g Hr Hrg) as HF.
  pose proof (prime_rel_prime q Hq (r - 1) ND) as HB. apply rel_prime_bezout in HB. destruct HB as [u v HB].
  set (u' := u mod (r - 1) + (r - 1)).
  assert (Hu' : 1 <= u') by (pose proof (Z.mod_pos_bound u (r - 1) ltac:(lia)); lia).
  assert (Hw : exists w, u' * q = 1 + (r - 1) * w).
  { exists (q - v - u / (r - 1) * q). unfold u'. rewrite Z.mod_eq by lia.
    replace ((u - (r - 1) * (u / (r - 1)) + (r - 1)) * q) with (u * q + v * (r - 1) - v * (r - 1) - (r - 1) * (u / (r - 1)) * q + (r - 1) * q) by ring.
    rewrite HB. ring. }
  destruct Hw as [w Hw]. assert (0 <= w) by nia.
  assert (G1 : g ^ (u' * q) mod r = 1).
  { rewrite Z.mul_comm, Z.pow_mul_r by lia. apply pow_mod_1; [exact Hr1|exact Hgq|lia]. }
  assert (G2 : g mod r = 1).
  { rewrite Hw, Z.pow_add_r, Z.pow_1_r, Z.pow_mul_r in G1 by lia.
    rewrite Z.mul_mod, (pow_mod_1 _ w r Hr1 HF), Z.mul_1_r, Z.mod_mod in G1 by lia. exact G1. }
  apply mod_1_divide in G2; [|exact Hr1].
  assert (D1 : (r | 1)) by (rewrite <- Hg; apply Z.gcd_greatest; assumption).
  apply Z.divide_pos_le in D1; lia.
Qed.

Lemma prime_divisor n : 1 < n -> exists r, prime r /\ (r | n).
Proof.
  intros Hn. assert (H0 : 0 <= n) by lia. revert Hn. pattern n. apply Zlt_0_ind; [|exact H0]. clear n H0.
  intros n IH _ Hn. destruct (prime_dec n) as [P|NP]; [exists n; split; [exact P|apply Z.divide_refl]|].
  destruct (not_prime_divide n Hn NP) as (x & Hx & D). destruct (IH x) as (r & Hr & Dr); [lia|lia|].
  exists r. split; [exact Hr|]. exact (Z.divide_trans _ _ _ Dr D).
Qed.
Lemma small_divisor n : 1 < n -> ~ prime n -> exists r, prime r /\ (r | n) /\ r * r <= n.
Proof.
  intros Hn NP. destruct (not_prime_divide n Hn NP) as (x & Hx & y & E).
  assert (Hy : 1 < y < n) by nia.
  assert (Hm : exists m k, 1 < m /\ n = k * m /\ m * m <= n).
  { destruct (Z.le_ge_cases x y); [exists x, y|exists y, x]; repeat split; nia. }
  destruct Hm as (m & k & Hm & En & Hs). destruct (prime_divisor m Hm) as (r & Hr & Dr).
  exists r. split; [exact Hr|]. split; [exact (Z.divide_trans _ _ _ Dr (ex_intro _ k En))|].
  assert (r <= m) by (apply Z.divide_pos_le; [lia|exact Dr]). assert (1 < r) by apply Hr. nia.
Qed.

Theorem pock1 n a q : 1 < n -> prime q -> pock_ok n a q -> n <= q * q -> prime n.
Proof.
  intros Hn Hq H HQ. destruct (prime_dec n) as [|NP]; [assumption|]. exfalso.
  destruct (small_divisor n Hn NP) as (r & Hr & D & S).
  pose proof (pock_factor n a q r Hn Hq H Hr D) as D'. assert (1 < r) by apply Hr.
  apply Z.divide_pos_le in D'; [|lia]. assert (1 < q) by apply Hq. nia.
Qed.
Theorem pock2 n a q q' : 1 < n -> prime q -> prime q' -> q <> q' -> pock_ok n a q -> pock_ok n a q' ->
  n <= q * q' * (q * q') -> prime n.
Proof.
  intros Hn Hq Hq' N H H' HQ. destruct (prime_dec n) as [|NP]; [assumption|]. exfalso.
  destruct (small_divisor n Hn NP) as (r & Hr & D & S).
  pose proof (pock_factor n a q r Hn Hq H Hr D) as D1. pose proof (pock_factor n a q' r Hn Hq' H' Hr D) as D2.
  assert (1 < r) by apply Hr. assert (1 < q) by apply Hq. assert (1 < q') by apply Hq'.
  assert (D3 : (q * q' | r - 1)).
  { destruct D1 as [k Ek]. rewrite Ek in D2. rewrite Z.mul_comm in D2. apply Gauss in D2.
    - destruct D2 as [j Ej]. exists j. rewrite Ek, Ej. ring.
    - apply prime_rel_prime; [exact Hq'|]. intros Dq. apply prime_div_prime in Dq; [congruence|exact Hq'|exact Hq]. }
  apply Z.divide_pos_le in D3; [|lia]. nia.
Qed.

(** Evaluation of the conditions.  [bred] is Barrett's reduction; it keeps the residue whatever
    [mu] and [k] are. *)
Definition bred (n mu k x : Z) : Z := x - n * Z.shiftr (Z.shiftr x (k - 1) * mu) (k + 9).
Fixpoint bpow (n mu k a : Z) (e : positive) : Z :=
  match e with
  | xH => a
  | xO e' => let r := bpow n mu k a e' in bred n mu k (r * r)
  | xI e' => let r := bpow n mu k a e' in bred n mu k (a * bred n mu k (r * r))
  end.
Definition powm (a e n : Z) : Z :=
  let k := Z.log2 n + 1 in
  match e with Zpos e => bpow n (2 ^ (2 * k + 8) / n) k a e | _ => 1 end.
Lemma bred_mod n mu k x : n <> 0 -> bred n mu k x mod n = x mod n.
Proof.
  intros Hn. unfold bred. generalize (Z.shiftr (Z.shiftr x (k - 1) * mu) (k + 9)). intros q.
  replace (x - n * q) with (x + (- q) * n) by ring. apply Z.mod_add, Hn.
Qed.
Lemma bpow_mod n mu k a e : n <> 0 -> bpow n mu k a e mod n = a ^ Zpos e mod n.
Proof.
  intros Hn. induction e as [e IH|e IH|]; cbn [bpow].
  - rewrite bred_mod, Z.mul_mod, bred_mod, <- Z.mul_mod by exact Hn.
    rewrite Z.mul_mod, (Z.mul_mod (bpow n mu k a e)), IH, <- (Z.mul_mod (a ^ _)), <- Z.mul_mod by exact Hn.
    f_equal. replace (Zpos e~1) with (1 + (Zpos e + Zpos e)) by lia. rewrite !Z.pow_add_r, Z.pow_1_r by lia. reflexivity.
  - rewrite bred_mod, Z.mul_mod, IH, <- Z.mul_mod by exact Hn.
    f_equal. replace (Zpos e~0) with (Zpos e + Zpos e) by lia. rewrite Z.pow_add_r by lia. reflexivity.
  - rewrite Z.pow_1_r. reflexivity.
Qed.
Lemma powm_mod a e n : n <> 0 -> 0 <= e -> powm a e n mod n = a ^ e mod n.
Proof. intros Hn He. destruct e; [reflexivity|apply bpow_mod; exact Hn|lia]. Qed.

Definition pock_check1 (n a q : Z) : bool :=
  let e := (n - 1) / q in
  let x := powm a e n in
  (n - 1 =? e * q) && (Z.gcd (x - 1) n =? 1) && (powm x q n mod n =? 1).
Definition pock_check2 (n a q q' : Z) : bool :=
  let e := (n - 1) / (q * q') in
  let x := powm a e n in
  let y := powm x q' n in
  let z := powm x q n in
  (n - 1 =? e * (q * q')) && (Z.gcd (y - 1) n =? 1) && (Z.gcd (z - 1) n =? 1) && (powm y q n mod n =? 1).

Lemma gcd_mod_sub x n : n <> 0 -> Z.gcd (x mod n - 1) n = Z.gcd (x - 1) n.
Proof.
  intros Hn. rewrite (Z.gcd_comm (x - 1) n), (Z.gcd_comm (x mod n - 1) n), Z.mod_eq by exact Hn.
  replace (x - n * (x / n) - 1) with (x - 1 + (- (x / n)) * n) by ring. apply Z.gcd_add_mult_diag_r.
Qed.
Lemma gcd_eq x y n : n <> 0 -> x mod n = y mod n -> Z.gcd (x - 1) n = Z.gcd (y - 1) n.
Proof. intros Hn E. rewrite <- (gcd_mod_sub x), <- (gcd_mod_sub y), E by exact Hn. reflexivity. Qed.
Lemma powm_powm a e f n : 0 < n -> 0 <= e -> 0 <= f -> powm (powm a e n) f n mod n = a ^ (e * f) mod n.
Proof.
  intros Hn He Hf. rewrite powm_mod by lia. rewrite Zpower_mod by lia. rewrite powm_mod by lia.
  rewrite <- Zpower_mod, Z.pow_mul_r by lia. reflexivity.
Qed.
Lemma pock_check1_ok n a q : 1 < n -> 1 < q -> pock_check1 n a q = true -> pock_ok n a q.
Proof.
  intros Hn Hq H. unfold pock_check1 in H. rewrite !Bool.andb_true_iff, !Z.eqb_eq in H. destruct H as ((H1 & H2) & H3).
  assert (0 <= (n - 1) / q) by (apply Z.div_pos; lia).
  rewrite powm_powm in H3 by lia. rewrite (gcd_eq _ (a ^ ((n - 1) / q))) in H2 by (lia || (apply powm_mod; lia)).
  rewrite <- H1 in H3. split; [exists ((n - 1) / q); exact H1|]. split; assumption.
Qed.
Lemma pock_check2_ok n a q q' : 1 < n -> 1 < q -> 1 < q' -> pock_check2 n a q q' = true ->
  pock_ok n a q /\ pock_ok n a q'.
Proof.
  intros Hn Hq Hq' H. unfold pock_check2 in H. rewrite !Bool.andb_true_iff, !Z.eqb_eq in H.
  destruct H as (((H1 & H2) & H3) & H4).
  assert (He : 0 <= (n - 1) / (q * q')) by (apply Z.div_pos; nia). revert H1 H2 H3 H4 He.
  generalize ((n - 1) / (q * q')). intros e H1 H2 H3 H4 He.
  assert (E1 : (n - 1) / q = e * q') by (rewrite H1; replace (e * (q * q')) with (e * q' * q) by ring; apply Z.div_mul; lia).
  assert (E2 : (n - 1) / q' = e * q) by (rewrite H1; replace (e * (q * q')) with (e * q * q') by ring; apply Z.div_mul; lia).
  assert (Hp : a ^ (n - 1) mod n = 1).
  { rewrite powm_mod, Zpower_mod, powm_powm, <- Zpower_mod, <- Z.pow_mul_r in H4 by nia.
    replace (e * q' * q) with (n - 1) in H4 by lia. exact H4. }
  rewrite (gcd_eq _ (a ^ (e * q'))) in H2 by (lia || (apply powm_powm; lia)).
  rewrite (gcd_eq _ (a ^ (e * q))) in H3 by (lia || (apply powm_powm; lia)).
  unfold pock_ok. rewrite E1, E2.
  split; (split; [|split; assumption]); [exists (e * q')|exists (e * q)]; rewrite H1; ring.
Qed.
Lemma small_prime_check n :
  1 < n -> forallb (fun k => negb (n mod Z.of_nat k =? 0)) (seq 2 (Z.to_nat (Z.sqrt n) - 1)) = true -> prime n.
Proof.
  intros Hn H. destruct (prime_dec n) as [|NP]; [assumption|]. exfalso.
  destruct (small_divisor n Hn NP) as (r & Hr & D & S). assert (1 < r) by apply Hr.
  rewrite forallb_forall in H. specialize (H (Z.to_nat r)).
  assert (r <= Z.sqrt n) by (apply Z.sqrt_le_square; lia).
  rewrite Bool.negb_true_iff, Z.eqb_neq in H. apply H.
  - apply in_seq. lia.
  - rewrite Z2Nat.id by lia. apply Z.mod_divide; [lia|exact D].
Qed.

Local Open Scope bool_scope.
Lemma by_pock1 n a q : prime q -> (1 <? n) && (n <=? q * q) && pock_check1 n a q = true -> prime n.
Proof.
  intros Hq H. rewrite !Bool.andb_true_iff, Z.ltb_lt, Z.leb_le in H. destruct H as ((H1 & H2) & H3).
  apply (pock1 n a q); try assumption. apply pock_check1_ok; [assumption|apply Hq|assumption].
Qed.
Lemma by_pock2 n a q q' : prime q -> prime q' ->
  (1 <? n) && negb (q =? q') && (n <=? q * q' * (q * q')) && pock_check2 n a q q' = true -> prime n.
Proof.
  intros Hq Hq' H. rewrite !Bool.andb_true_iff, Bool.negb_true_iff, Z.eqb_neq, Z.ltb_lt, Z.leb_le in H.
  destruct H as (((H1 & H2) & H3) & H4).
  apply pock_check2_ok in H4 as [H4 H5]; [|assumption|apply Hq|apply Hq']. apply (pock2 n a q q'); assumption.
Qed.

(** For [n] dividing [2^k - c] with small [c] folding is cheaper; base 2. *)
Definition fred (k c x : Z) : Z := let h := Z.shiftr x k in x - Z.shiftl h k + c * h.
Definition fred3 (k c x : Z) : Z := fred k c (fred k c (fred k c x)).
Fixpoint fpow (k c : Z) (e : positive) : Z :=
  match e with
  | xH => 2
  | xO e' => let r := fpow k c e' in fred3 k c (r * r)
  | xI e' => let r := fpow k c e' in fred3 k c (2 * (r * r))
  end.
Definition pock_checkf (n q k c : Z) : bool :=
  (0 <=? k) && ((2 ^ k - c) mod n =? 0) &&
  match n - 1, (n - 1) / q with
  | Zpos m, Zpos e =>
      (Zpos m =? Zpos e * q) && (Z.gcd (fpow k c e - 1) n =? 1) && (fpow k c m mod n =? 1)
  | _, _ => false
  end.
Lemma fred_mod n k c x : 0 < n -> 0 <= k -> (2 ^ k - c) mod n = 0 -> fred k c x mod n = x mod n.
Proof.
  intros Hn Hk H. unfold fred. cbv zeta. generalize (Z.shiftr x k). intros h. rewrite Z.shiftl_mul_pow2 by exact Hk.
  apply Z.mod_divide in H; [|lia]. destruct H as [d H].
  replace (x - h * 2 ^ k + c * h) with (x + (- (h * d)) * n); [apply Z.mod_add; lia|].
  replace (- (h * d) * n) with (- (h * (d * n))) by ring. rewrite <- H. ring.
Qed.
Lemma fpow_mod n k c e : 0 < n -> 0 <= k -> (2 ^ k - c) mod n = 0 -> fpow k c e mod n = 2 ^ Zpos e mod n.
Proof.
  intros Hn Hk H. assert (N : n <> 0) by lia.
  induction e as [e IH|e IH|]; cbn [fpow]; unfold fred3; rewrite ?fred_mod by assumption.
  - rewrite Z.mul_mod, (Z.mul_mod (fpow k c e)), IH, <- (Z.mul_mod (2 ^ _)), <- Z.mul_mod by exact N.
    f_equal. replace (Zpos e~1) with (1 + (Zpos e + Zpos e)) by lia. rewrite !Z.pow_add_r, Z.pow_1_r by lia. reflexivity.
  - rewrite Z.mul_mod, IH, <- Z.mul_mod by exact N.
    f_equal. replace (Zpos e~0) with (Zpos e + Zpos e) by lia. rewrite Z.pow_add_r by lia. reflexivity.
  - rewrite Z.pow_1_r. reflexivity.
Qed.
Lemma pock_checkf_ok n q k c : 1 < n -> 1 < q -> pock_checkf n q k c = true -> pock_ok n 2 q.
Proof.
  intros Hn Hq H. unfold pock_checkf in H. rewrite !Bool.andb_true_iff, Z.leb_le, Z.eqb_eq in H.
  destruct H as ((Hk & Hc) & H). unfold pock_ok.
  destruct (n - 1) as [|m|m] eqn:Em; [discriminate| |discriminate].
  destruct (Zpos m / q) as [|e|e] eqn:Ee; [discriminate| |discriminate].
  rewrite !Bool.andb_true_iff, !Z.eqb_eq in H. destruct H as ((H1 & H2) & H3).
  rewrite fpow_mod in H3 by (assumption || lia).
  rewrite (gcd_eq _ (2 ^ Zpos e)) in H2 by (lia || (apply fpow_mod; assumption || lia)).
  split; [exists (Zpos e); exact H1|]. split; assumption.
Qed.
Lemma by_pockf n q k c : prime q -> (1 <? n) && (n <=? q * q) && pock_checkf n q k c = true -> prime n.
Proof.
  intros Hq H. rewrite !Bool.andb_true_iff, Z.ltb_lt, Z.leb_le in H. destruct H as ((H1 & H2) & H3).
  apply (pock1 n 2 q); try assumption. apply (pock_checkf_ok n q k c); [assumption|apply Hq|assumption].
Qed.

Theorem prime_p255 : prime (2 ^ 255 - 19).
Proof.
  assert (prime 991) by (apply small_prime_check; [reflexivity|vm_compute; reflexivity]).
  assert (prime 103) by (apply small_prime_check; [reflexivity|vm_compute; reflexivity]).
  assert (prime 127) by (apply small_prime_check; [reflexivity|vm_compute; reflexivity]).
  assert (prime 4153) by (apply small_prime_check; [reflexivity|vm_compute; reflexivity]).
  assert (prime 569003) by (apply small_prime_check; [reflexivity|vm_compute; reflexivity]).
  assert (prime 430751) by (apply small_prime_check; [reflexivity|vm_compute; reflexivity]).
  assert (prime 8574133) by (apply (by_pock2 _ 2 991 103); [assumption..|vm_compute; reflexivity]).
  assert (prime 2773320623) by (apply (by_pock1 _ 2 569003); [assumption|vm_compute; reflexivity]).
  assert (prime 72106336199) by (apply (by_pock1 _ 2 2773320623); [assumption|vm_compute; reflexivity]).
  assert (prime 1919519569386763) by (apply (by_pock2 _ 2 8574133 127); [assumption..|vm_compute; reflexivity]).
  assert (prime 31757755568855353) by (apply (by_pock2 _ 2 430751 4153); [assumption..|vm_compute; reflexivity]).
  assert (prime 75445702479781427272750846543864801) by (apply (by_pock2 _ 2 72106336199 1919519569386763); [assumption..|vm_compute; reflexivity]).
  assert (prime 74058212732561358302231226437062788676166966415465897661863160754340907)
    by (apply (by_pock2 _ 2 31757755568855353 75445702479781427272750846543864801); [assumption..|vm_compute; reflexivity]).
  apply (by_pockf _ 74058212732561358302231226437062788676166966415465897661863160754340907 255 19); [assumption|vm_compute; reflexivity].
Qed.

Theorem prime_p384 : prime (2 ^ 384 - 2 ^ 128 - 2 ^ 96 + 2 ^ 32 - 1).
Proof.
  assert (prime 363557)
    by (apply small_prime_check; [reflexivity|vm_compute; reflexivity]).
  assert (prime 532247449)
    by (apply (by_pock1 _ 2 363557); [assumption|vm_compute; reflexivity]).
  assert (prime 44925942675193)
    by (apply (by_pock1 _ 2 532247449); [assumption|vm_compute; reflexivity]).
  assert (prime 35581458644053887931343)
    by (apply (by_pock1 _ 2 44925942675193); [assumption|vm_compute; reflexivity]).
  assert (prime 23964610537191310276190549303)
    by (apply (by_pock1 _ 2 35581458644053887931343); [assumption|vm_compute; reflexivity]).
  assert (prime 862725979338887169942859774909)
    by (apply (by_pock1 _ 2 23964610537191310276190549303); [assumption|vm_compute; reflexivity]).
  assert (prime 20705423504133292078628634597817)
    by (apply (by_pock1 _ 2 862725979338887169942859774909); [assumption|vm_compute; reflexivity]).
  assert (prime 413244619895455989650825325680172591660047)
    by (apply (by_pock1 _ 2 20705423504133292078628634597817); [assumption|vm_compute; reflexivity]).
  assert (prime 12397338596863679689524759770405177749801411)
    by (apply (by_pock1 _ 2 413244619895455989650825325680172591660047); [assumption|vm_compute; reflexivity]).
  assert (prime 21407)
    by (apply small_prime_check; [reflexivity|vm_compute; reflexivity]).
  assert (prime 246608641)
    by (apply (by_pock1 _ 2 21407); [assumption|vm_compute; reflexivity]).
  assert (prime 881)
    by (apply small_prime_check; [reflexivity|vm_compute; reflexivity]).
  assert (prime 211)
    by (apply small_prime_check; [reflexivity|vm_compute; reflexivity]).
  assert (prime 105957871)
    by (apply (by_pock2 _ 2 881 211); [assumption..|vm_compute; reflexivity]).
  assert (prime 529709925838459440593)
    by (apply (by_pock2 _ 2 246608641 105957871); [assumption..|vm_compute; reflexivity]).
  assert (prime 19173790298027098165721053155794528970226934547887232785722672956982046098136719667167519737147526097)
    by (apply (by_pock2 _ 2 529709925838459440593 12397338596863679689524759770405177749801411); [assumption..|vm_compute; reflexivity]).
  apply (by_pockf _ 19173790298027098165721053155794528970226934547887232785722672956982046098136719667167519737147526097
    384 340282367000166625977638945021017194497); [assumption|vm_compute; reflexivity].
Qed.

Theorem prime_n384 : prime (39402006196394479212279040100143613805079739270465446667946905279627659399113263569398956308152294913554433653942643).
Proof.
  assert (prime 881)
    by (apply small_prime_check; [reflexivity|vm_compute; reflexivity]).
  assert (prime 233)
    by (apply small_prime_check; [reflexivity|vm_compute; reflexivity]).
  assert (prime 73)
    by (apply small_prime_check; [reflexivity|vm_compute; reflexivity]).
  assert (prime 272109983)
    by (apply (by_pock2 _ 2 233 73); [assumption..|vm_compute; reflexivity]).
  assert (prime 228572385721)
    by (apply (by_pock1 _ 2 272109983); [assumption|vm_compute; reflexivity]).
  assert (prime 23314383343543)
    by (apply (by_pock1 _ 2 228572385721); [assumption|vm_compute; reflexivity]).
  assert (prime 426632512014427833817)
    by (apply (by_pock1 _ 2 23314383343543); [assumption|vm_compute; reflexivity]).
  assert (prime 1495199339761412565498084319)
    by (apply (by_pock1 _ 2 426632512014427833817); [assumption|vm_compute; reflexivity]).
  assert (prime 17942392077136950785977011829)
    by (apply (by_pock1 _ 2 1495199339761412565498084319); [assumption|vm_compute; reflexivity]).
  assert (prime 311)
    by (apply small_prime_check; [reflexivity|vm_compute; reflexivity]).
  assert (prime 9863677)
    by (apply (by_pock2 _ 2 881 311); [assumption..|vm_compute; reflexivity]).
  assert (prime 37344768852931)
    by (apply (by_pock1 _ 2 9863677); [assumption|vm_compute; reflexivity]).
  assert (prime 55942463741690639)
    by (apply (by_pock1 _ 2 37344768852931); [assumption|vm_compute; reflexivity]).
  assert (prime 1059392654943455286185473617842338478315215895509773412096307)
    by (apply (by_pock2 _ 2 55942463741690639 17942392077136950785977011829); [assumption..|vm_compute; reflexivity]).
  assert (prime 3055465788140352002733946906144561090641249606160407884365391979704929268480326390471)
    by (apply (by_pock1 _ 2 1059392654943455286185473617842338478315215895509773412096307); [assumption|vm_compute; reflexivity]).
  apply (by_pockf _ 3055465788140352002733946906144561090641249606160407884365391979704929268480326390471
    384 1388124618062372383947042015309946732620727252194336364173); [assumption|vm_compute; reflexivity].
Qed.
