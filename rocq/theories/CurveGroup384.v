(** * CurveGroup384: the arithmetic of [CurveAsym] on P-384 computes in the group of [Weierstrass.v]. *)
From Coq Require Import ZArith Znumtheory Ring Field Setoid ZifyBool ZifyNat ZifyN Lia.
From Verif Require Import Bytes BytesLemmas Prims ToyLemmas ConcreteSym CurveAsym CurveLemmas Primes Weierstrass Field384.
Local Open Scope N_scope.
Local Notation p := p384.
Local Notation n := p384_n.

#[local] Hint Resolve g_mul_rep g_add_rep g_sub_rep g_pow_rep : reps.
Lemma rep_small x : x < p -> rep x.
Proof. unfold rep. pose proof split384. lia. Qed.
Lemma rep_0 : rep 0. Proof. reflexivity. Qed.
Lemma rep_1 : rep 1. Proof. reflexivity. Qed.
Lemma rep_3 : rep 3. Proof. reflexivity. Qed.
Lemma rep_b : rep p384_b. Proof. reflexivity. Qed.
#[local] Hint Resolve rep_0 rep_1 rep_3 rep_b : reps.

Section Group.
(** [W384] and [phi], kept abstract. *)
Variable K : wfield.
Variable ph : N -> K.
Hypothesis ph_add : forall a b, ph (a + b) = wadd K (ph a) (ph b).
Hypothesis ph_mul : forall a b, ph (a * b) = wmul K (ph a) (ph b).
Hypothesis ph_0 : ph 0 = w0 K.
Hypothesis ph_1 : ph 1 = w1 K.
Hypothesis ph_eq : forall a b, ph a = ph b <-> a mod p = b mod p.
Hypothesis ph_b : ph p384_b = wb K.
Hypothesis ph_a : wa K = wopp K (wadd K (w1 K) (wadd K (w1 K) (w1 K))).
Hypothesis ph_fermat : forall x, x <> w0 K -> N.iter (p - 1) (wmul K x) (w1 K) = w1 K.

Declare Scope g_scope.
Delimit Scope g_scope with g.
Local Notation "0" := (w0 K) : g_scope. Local Notation "1" := (w1 K) : g_scope.
Local Infix "+" := (wadd K) : g_scope. Local Infix "*" := (wmul K) : g_scope. Local Infix "-" := (wsub K) : g_scope.
Local Notation "- x" := (wopp K x) : g_scope.
Local Notation "2" := (1 + 1)%g : g_scope. Local Notation "3" := (1 + (1 + 1))%g : g_scope.
Let Kth := wth K.
Add Field Kf : Kth.

Lemma ph_p : ph p = 0%g.
Proof. rewrite <- ph_0. apply ph_eq. reflexivity. Qed.
Lemma ph_2 a : ph (2 * a) = (2 * ph a)%g.
Proof. rewrite ph_mul. change 2 with (1 + 1). rewrite ph_add, ph_1. reflexivity. Qed.
Lemma ph_3 : ph 3 = 3%g.
Proof. change 3 with (1 + (1 + 1)). rewrite !ph_add, ph_1. reflexivity. Qed.
Lemma ph_red a : ph (red384 a) = ph a.
Proof. apply ph_eq, red384_mod. Qed.
Lemma ph_4 a : ph (red384 (4 * a)) = (2 * (2 * ph a))%g.
Proof. rewrite ph_red. replace (4 * a) with (2 * (2 * a)) by lia. rewrite !ph_2. reflexivity. Qed.
Lemma ph_8 a : ph (red384 (8 * a)) = (2 * (2 * (2 * ph a)))%g.
Proof. rewrite ph_red. replace (8 * a) with (2 * (2 * (2 * a))) by lia. rewrite !ph_2. reflexivity. Qed.
Lemma ph_g_mul a b : ph (g_mul a b) = (ph a * ph b)%g.
Proof. rewrite <- ph_mul. apply ph_eq, g_mul_mod. Qed.
Lemma ph_g_add a b : ph (g_add a b) = (ph a + ph b)%g.
Proof. rewrite <- ph_add. apply ph_eq, g_add_mod. Qed.
Lemma ph_g_sub a b : rep b -> ph (g_sub a b) = (ph a - ph b)%g.
Proof.
  intros H. transitivity (ph (a + (2 * p - b))); [apply ph_eq, g_sub_mod|]. rewrite ph_add.
  assert (E : (ph (2 * p - b) + ph b)%g = 0%g).
  { rewrite <- ph_add. unfold rep in H. assert (2 ^ 384 <= 2 * p) by discriminate.
    replace (2 * p - b + b) with (2 * p) by lia. rewrite ph_2, ph_p. ring. }
  transitivity (ph a + (ph (2 * p - b) + ph b) - ph b)%g; [ring|]. rewrite E. ring.
Qed.
Lemma ph_can a : rep a -> ph (g_can a) = ph a.
Proof. intros H. rewrite g_can_mod by exact H. apply ph_eq, N.mod_mod, p_pos. Qed.
Lemma can_lt a : rep a -> g_can a < p.
Proof. intros H. rewrite g_can_mod by exact H. apply N.mod_lt, p_pos. Qed.
Lemma small_eq a b : a < p -> b < p -> ph a = ph b -> a = b.
Proof. intros Ha Hb E. apply ph_eq in E. rewrite !N.mod_small in E by assumption. exact E. Qed.
Lemma is0 a : rep a -> (g_is0 a = true <-> ph a = 0%g).
Proof.
  intros H. unfold g_is0. rewrite N.eqb_eq, <- ph_0, ph_eq, g_can_mod by exact H. rewrite N.mod_0_l by apply p_pos. reflexivity.
Qed.
Lemma is0_false a : rep a -> (g_is0 a = false <-> ph a <> 0%g).
Proof. intros H. rewrite <- is0 by exact H. symmetry. apply Bool.not_true_iff_false. Qed.
Definition pw (x : K) (e : N) : K := N.iter e (wmul K x) 1%g.
Lemma pw_succ x e : pw x (N.succ e) = (x * pw x e)%g.
Proof. unfold pw. apply N.iter_succ. Qed.
Lemma pw_add x d e : pw x (d + e) = (pw x d * pw x e)%g.
Proof.
  induction d as [|d IH] using N.peano_ind; [cbn; ring|]. rewrite N.add_succ_l, !pw_succ, IH. ring.
Qed.
Lemma ph_pow a e : ph (a ^ e) = pw (ph a) e.
Proof.
  induction e as [|e IH] using N.peano_ind; [exact ph_1|].
  rewrite N.pow_succ_r', ph_mul, IH, pw_succ. reflexivity.
Qed.
Lemma ph_g_pow a e : ph (g_pow a e) = pw (ph a) (N.pos e).
Proof. rewrite <- ph_pow. apply ph_eq, g_pow_mod. Qed.
Lemma g_inv_n0 a : ph a <> 0%g -> ph (g_inv a) = winv K (ph a).
Proof.
  intros H. unfold g_inv. rewrite ph_g_pow. change (N.pos (N.succ_pos (p - 3))) with (p - 2).
  apply (cancel_l K (ph a)); [exact H|]. rewrite <- pw_succ. change (N.succ (p - 2)) with (p - 1).
  unfold pw. rewrite (ph_fermat (ph a) H). field. exact H.
Qed.
(** The square root of a square. *)
Lemma pw_sq x e : pw (x * x)%g e = pw x (e + e).
Proof.
  induction e as [|e IH] using N.peano_ind; [reflexivity|].
  replace (N.succ e + N.succ e) with (N.succ (N.succ (e + e))) by lia. rewrite !pw_succ, IH. ring.
Qed.
Lemma root_sq_gen e f x : e + e + (e + e) = N.succ (N.succ f) -> (forall x, x <> 0%g -> pw x f = 1%g) ->
  (pw (x * x) e * pw (x * x) e = x * x)%g.
Proof.
  intros E Hf. rewrite <- pw_add, pw_sq, E, !pw_succ.
  destruct (wdec K x 0%g) as [->|Nx]; [ring|]. rewrite (Hf x Nx). ring.
Qed.
Lemma root_sq x : (pw (x * x) ((p + 1) / 4) * pw (x * x) ((p + 1) / 4) = x * x)%g.
Proof. apply (root_sq_gen _ (p - 1)); [reflexivity|exact ph_fermat]. Qed.

(** ** Points *)
Definition R (q : j_point) (P : wpt K) : Prop :=
  let '(x, y, z) := q in rep x /\ rep y /\ rep z /\ jac K P (ph x) (ph y) (ph z).

Lemma R_zero : R j_zero (WO K).
Proof.
  unfold R, j_zero. do 3 (split; [reflexivity|]). left. split; [exact ph_0|reflexivity].
Qed.
Lemma R_dbl q P : R q P -> R (j_dbl q) (padd K P P).
Proof.
  destruct q as [[x y] z]. intros (Rx & Ry & Rz & H1).
  pose proof (jac_dbl K _ _ _ _ ph_a H1) as H. unfold j_dbl.
  set (delta := g_mul z z). set (gamma := g_mul y y). set (beta := g_mul x gamma).
  set (alpha := g_mul 3 (g_mul (g_sub x delta) (g_add x delta))).
  set (x3 := g_sub (g_mul alpha alpha) (red384 (8 * beta))). set (yz := g_add y z).
  set (z3 := g_sub (g_sub (g_mul yz yz) gamma) delta).
  set (gg := g_mul gamma gamma).
  set (y3 := g_sub (g_mul alpha (g_sub (red384 (4 * beta)) x3)) (red384 (8 * gg))).
  assert (R1 : rep delta) by (unfold delta; auto with reps). assert (R2 : rep gamma) by (unfold gamma; auto with reps).
  assert (R3 : rep beta) by (unfold beta; auto with reps). assert (R4 : rep alpha) by (unfold alpha; auto with reps).
  assert (R5 : rep (red384 (8 * beta))) by (apply red8_rep; [discriminate|assumption]).
  assert (R6 : rep (red384 (4 * beta))) by (apply red8_rep; [discriminate|assumption]).
  assert (R7 : rep x3) by (unfold x3; auto with reps). assert (R8 : rep yz) by (unfold yz; auto with reps).
  assert (R9 : rep z3) by (unfold z3; auto with reps). assert (R10 : rep gg) by (unfold gg; auto with reps).
  assert (R11 : rep (red384 (8 * gg))) by (apply red8_rep; [discriminate|assumption]).
  assert (R12 : rep y3) by (unfold y3; auto with reps).
  assert (E1 : ph delta = (ph z * ph z)%g) by apply ph_g_mul. assert (E2 : ph gamma = (ph y * ph y)%g) by apply ph_g_mul.
  assert (E3 : ph beta = (ph x * ph gamma)%g) by apply ph_g_mul.
  assert (E4 : ph alpha = (3 * ((ph x - ph delta) * (ph x + ph delta)))%g)
    by (unfold alpha; rewrite !ph_g_mul, ph_g_sub, ph_g_add, ph_3 by assumption; reflexivity).
  assert (E5 : ph x3 = dbl_x K (ph x) (ph y) (ph z))
    by (unfold x3; rewrite ph_g_sub, ph_g_mul, ph_8, E4, E3, E2, E1 by assumption; reflexivity).
  assert (E6 : ph z3 = dbl_z K (ph x) (ph y) (ph z))
    by (unfold z3, yz; rewrite !ph_g_sub, ph_g_mul, ph_g_add, E2, E1 by assumption; reflexivity).
  assert (E7 : ph y3 = dbl_y K (ph x) (ph y) (ph z))
    by (unfold y3, gg; rewrite ph_g_sub, ph_g_mul, ph_g_sub, ph_8, ph_4, ph_g_mul, E5, E4, E3, E2, E1 by assumption; reflexivity).
  unfold R. do 3 (split; [assumption|]). rewrite E5, E6, E7. exact H.
Qed.
Lemma R_add q1 q2 P1 P2 : R q1 P1 -> R q2 P2 -> R (j_add q1 q2) (padd K P1 P2).
Proof.
  destruct q1 as [[x1 y1] z1], q2 as [[x2 y2] z2].
  intros (Rx1 & Ry1 & Rz1 & H1) (Rx2 & Ry2 & Rz2 & H2). unfold j_add.
  destruct (g_is0 z1) eqn:Z1.
  { apply is0 in Z1; [|assumption]. destruct H1 as [[_ ->]|[N _]]; [|contradiction].
    split; [assumption|]. split; [assumption|]. split; assumption. }
  destruct (g_is0 z2) eqn:Z2.
  { apply is0 in Z2; [|assumption]. destruct H2 as [[_ ->]|[N _]]; [|contradiction]. rewrite padd_0_r.
    split; [assumption|]. split; [assumption|]. split; assumption. }
  apply is0_false in Z1; [|assumption]. apply is0_false in Z2; [|assumption].
  destruct (jac_add K _ _ _ _ _ _ _ _ H1 H2 Z1 Z2) as (HA & HB & HC).
  set (z1z1 := g_mul z1 z1). set (z2z2 := g_mul z2 z2).
  set (u1 := g_mul x1 z2z2). set (u2 := g_mul x2 z1z1).
  set (s1 := g_mul (g_mul y1 z2) z2z2). set (s2 := g_mul (g_mul y2 z1) z1z1).
  set (h := g_sub u2 u1). set (r := g_sub s2 s1). cbv zeta.
  assert (R1 : rep z1z1) by (unfold z1z1; auto with reps). assert (R2 : rep z2z2) by (unfold z2z2; auto with reps).
  assert (R3 : rep u1) by (unfold u1; auto with reps). assert (R4 : rep u2) by (unfold u2; auto with reps).
  assert (R5 : rep s1) by (unfold s1; auto with reps). assert (R6 : rep s2) by (unfold s2; auto with reps).
  assert (R7 : rep h) by (unfold h; auto with reps). assert (R8 : rep r) by (unfold r; auto with reps).
  assert (E1 : ph u1 = (ph x1 * (ph z2 * ph z2))%g) by (unfold u1, z2z2; rewrite !ph_g_mul; reflexivity).
  assert (E2 : ph s1 = (ph y1 * ph z2 * (ph z2 * ph z2))%g) by (unfold s1, z2z2; rewrite !ph_g_mul; reflexivity).
  assert (E3 : ph h = add_h K (ph x1) (ph z1) (ph x2) (ph z2))
    by (unfold h; rewrite ph_g_sub, E1 by assumption; unfold u2, z1z1; rewrite !ph_g_mul; reflexivity).
  assert (E4 : ph r = add_r K (ph y1) (ph z1) (ph y2) (ph z2))
    by (unfold r; rewrite ph_g_sub, E2 by assumption; unfold s2, z1z1; rewrite !ph_g_mul; reflexivity).
  rewrite <- E3, <- E4 in HB, HC. rewrite <- E3 in HA.
  destruct (g_is0 h) eqn:Zh.
  { apply is0 in Zh; [|assumption]. destruct (g_is0 r) eqn:Zr.
    - apply is0 in Zr; [|assumption]. rewrite <- (HB Zh Zr). apply R_dbl.
      split; [assumption|]. split; [assumption|]. split; assumption.
    - apply is0_false in Zr; [|assumption]. rewrite (HC Zh Zr). exact R_zero. }
  apply is0_false in Zh; [|assumption]. specialize (HA Zh).
  set (hh := g_mul h h). set (hhh := g_mul h hh). set (v := g_mul u1 hh).
  set (x3 := g_sub (g_sub (g_mul r r) hhh) (red384 (2 * v))).
  set (y3 := g_sub (g_mul r (g_sub v x3)) (g_mul s1 hhh)).
  set (z3 := g_mul (g_mul z1 z2) h).
  assert (R9 : rep hh) by (unfold hh; auto with reps). assert (R10 : rep hhh) by (unfold hhh; auto with reps).
  assert (R11 : rep v) by (unfold v; auto with reps).
  assert (R12 : rep (red384 (2 * v))) by (apply red8_rep; [discriminate|assumption]).
  assert (R13 : rep x3) by (unfold x3; auto with reps). assert (R14 : rep y3) by (unfold y3; auto with reps).
  assert (R15 : rep z3) by (unfold z3; auto with reps).
  assert (E5 : ph hhh = (ph h * (ph h * ph h))%g) by (unfold hhh, hh; rewrite !ph_g_mul; reflexivity).
  assert (E6 : ph v = (ph u1 * (ph h * ph h))%g) by (unfold v, hh; rewrite !ph_g_mul; reflexivity).
  assert (E7 : ph x3 = add_x K (ph x1) (ph y1) (ph z1) (ph x2) (ph y2) (ph z2))
    by (unfold x3; rewrite !ph_g_sub, ph_g_mul, ph_red, ph_2, E6, E5, E1, E3, E4 by assumption; reflexivity).
  assert (E8 : ph y3 = add_y K (ph x1) (ph y1) (ph z1) (ph x2) (ph y2) (ph z2)).
  { unfold y3. rewrite !ph_g_sub, !ph_g_mul, ph_g_sub, E7, E6, E5, E2, E1, E3, E4 by auto with reps. reflexivity. }
  assert (E9 : ph z3 = add_z K (ph x1) (ph z1) (ph x2) (ph z2)) by (unfold z3; rewrite !ph_g_mul, E3; reflexivity).
  unfold R. do 3 (split; [assumption|]). rewrite E7, E8, E9. exact HA.
Qed.
Lemma R_smul m q P : R q P -> R (j_smul m q) (smul K m P).
Proof.
  intros H. destruct m as [|e]; [exact R_zero|]. cbn [j_smul].
  induction e as [e IH|e IH|]; cbn [j_smul_pos].
  - replace (N.pos e~1) with (1 + (N.pos e + N.pos e)) by lia. rewrite !smul_add, smul_1.
    apply R_add; [exact H|]. apply R_dbl, IH.
  - replace (N.pos e~0) with (N.pos e + N.pos e) by lia. rewrite smul_add. apply R_dbl, IH.
  - rewrite smul_1. exact H.
Qed.

(** ** Affine coordinates and encodings *)
Lemma affine_spec q P : R q P ->
  (P = WO K /\ j_affine q = None) \/
  (exists x y, x < p /\ y < p /\ is K P (ph x) (ph y) /\ j_affine q = Some (x, y)).
Proof.
  destruct q as [[x y] z]. intros (Rx & Ry & Rz & H). unfold j_affine. cbv zeta. destruct H as [[Z ->]|(Nz & px & py & HP & Ex & Ey)].
  - left. split; [reflexivity|]. rewrite (proj2 (is0 z Rz) Z). reflexivity.
  - right. rewrite (proj2 (is0_false z Rz) Nz). 
    assert (Ri : rep (g_inv z)) by (apply g_pow_rep, Rz).
    eexists _, _. split; [|split; [|split; [|reflexivity]]].
    + apply can_lt. auto with reps.
    + apply can_lt. auto with reps.
    + rewrite !ph_can by auto with reps. rewrite !ph_g_mul, g_inv_n0, Ex, Ey by exact Nz.
      replace (px * (ph z * ph z) * (winv K (ph z) * winv K (ph z)))%g with px by (field; exact Nz).
      replace (py * (ph z * (ph z * ph z)) * (winv K (ph z) * (winv K (ph z) * winv K (ph z))))%g with py by (field; exact Nz).
      exact HP.
Qed.
Lemma affine_fun q q' P : R q P -> R q' P -> j_affine q = j_affine q'.
Proof.
  intros H H'. destruct (affine_spec _ _ H) as [[-> ->]|(x & y & Lx & Ly & HP & ->)].
  - destruct (affine_spec _ _ H') as [[_ ->]|(x & y & _ & _ & [] & _)]. reflexivity.
  - destruct (affine_spec _ _ H') as [[-> _]|(x' & y' & Lx' & Ly' & HP' & ->)]; [contradiction HP|].
    destruct (is_fun K _ _ _ _ _ HP HP') as [Ex Ey].
    rewrite (small_eq x x'), (small_eq y y') by assumption. reflexivity.
Qed.
Lemma compress_fun q q' P : R q P -> R q' P -> j_compress q = j_compress q'.
Proof. intros H H'. unfold j_compress. rewrite (affine_fun _ _ _ H H'). reflexivity. Qed.
Lemma R_affine P x y : rep x -> rep y -> is K P (ph x) (ph y) -> R (x, y, 1) P.
Proof.
  intros Rx Ry H. unfold R. split; [exact Rx|]. split; [exact Ry|]. split; [exact rep_1|]. right.
  rewrite ph_1. split.
  - intros E. apply (F_1_neq_0 (wth K)). exact E.
  - exists (ph x), (ph y). split; [exact H|]. split; ring.
Qed.
Lemma rhs_ph x : rep x -> rep (g_rhs x) /\ ph (g_rhs x) = (ph x * ph x * ph x + wa K * ph x + wb K)%g.
Proof.
  intros Rx. unfold g_rhs. split; [auto 7 with reps|].
  rewrite ph_g_add, ph_g_sub, !ph_g_mul, ph_3, ph_b, ph_a by auto with reps. ring.
Qed.
Lemma on_iff x y : rep x -> rep y -> (g_is0 (g_sub (g_mul y y) (g_rhs x)) = true <-> onc K (ph x) (ph y)).
Proof.
  intros Rx Ry. destruct (rhs_ph x Rx) as [Rr Er]. rewrite is0 by auto with reps.
  rewrite ph_g_sub, ph_g_mul, Er by assumption. unfold onc. split; intros H.
  - apply sub_0. exact H.
  - rewrite H. ring.
Qed.
Lemma odd_sub x : 0 < x -> x < p -> N.odd (p - x) = negb (N.odd x).
Proof. intros H0 H. rewrite N.odd_sub by lia. change (N.odd p) with true. reflexivity. Qed.
Lemma opp_small x x' : x < p -> x' < p -> ph x' = (- ph x)%g -> x = 0 /\ x' = 0 \/ 0 < x /\ x' = p - x.
Proof.
  intros Hx Hx' E. assert (S : ph (x + x') = ph 0) by (rewrite ph_add, E, ph_0; ring).
  apply ph_eq in S. rewrite N.mod_0_l in S by apply p_pos. apply N.mod_divide in S; [|apply p_pos].
  destruct S as [c S]. destruct (N.eq_dec c 0) as [->|]; [left; lia|]. right.
  assert (c = 1) by (destruct (N.le_gt_cases 2 c); [|lia]; assert (2 * p <= c * p) by (apply N.mul_le_mono_r; assumption); lia).
  subst c. lia.
Qed.

(** What [j_lift] returns lies on the curve; the encoding of a point is lifted to that point. *)
Lemma lift_sound o xb q : j_lift o xb = Some q -> exists P, P <> WO K /\ R q P.
Proof.
  unfold j_lift. cbv zeta. destruct ((length xb =? 48)%nat && (be_val xb <? p)) eqn:C; [|discriminate].
  apply andb_prop in C as [_ C]. apply N.ltb_lt in C. set (x := be_val xb) in *. apply rep_small in C.
  destruct (rhs_ph x C) as [Rr _].
  set (y0 := g_pow (g_rhs x) _). assert (R0 : rep y0) by (apply g_pow_rep, Rr).
  set (y := g_can y0). assert (Ry : rep y) by (apply rep_small, can_lt, R0).
  destruct (g_is0 (g_sub (g_mul y y) (g_rhs x))) eqn:E; [|discriminate]. intros H. apply some_inj in H. subst q.
  apply (on_iff x y C Ry) in E.
  set (y' := if Bool.eqb (N.odd y) o then y else _).
  assert (Ry' : rep y') by (unfold y'; destruct (Bool.eqb _ _); [exact Ry|apply rep_small, can_lt; auto with reps]).
  assert (E' : onc K (ph x) (ph y')).
  { unfold y'. destruct (Bool.eqb _ _); [exact E|]. rewrite ph_can, ph_g_sub, ph_0 by auto with reps.
    replace (0 - ph y)%g with (- ph y)%g by ring. apply neg_on, E. }
  destruct (is_mk K _ _ E') as [P HP]. exists P. split; [intros ->; exact HP|]. exact (R_affine _ _ _ C Ry' HP).
Qed.
Lemma lift_ok P x y : x < p -> y < p -> is K P (ph x) (ph y) ->
  exists q, j_lift (N.odd y) (be_bytes 48 x) = Some q /\ R q P.
Proof.
  intros Lx Ly HP. unfold j_lift. cbv zeta. rewrite be_bytes_length, be_val_be_bytes by (eapply N.lt_trans; [exact Lx|reflexivity]).
  replace (x <? p) with true by lia. change (48 =? 48)%nat with true. cbn [andb].
  pose proof (rep_small _ Lx) as Rx. destruct (rhs_ph x Rx) as [Rr Er].
  pose proof (is_on K _ _ _ HP) as On. unfold onc in On. rewrite <- Er in On.
  set (y0 := g_pow (g_rhs x) _). assert (R0 : rep y0) by (apply g_pow_rep, Rr).
  set (yc := g_can y0). assert (Lyc : yc < p) by (apply can_lt, R0). assert (Ryc : rep yc) by (apply rep_small, Lyc).
  assert (Sq : (ph yc * ph yc = ph y * ph y)%g).
  { unfold yc, y0. rewrite ph_can by exact R0. rewrite ph_g_pow, <- On. apply root_sq. }
  assert (On' : onc K (ph x) (ph yc)) by (unfold onc; rewrite Sq, On; exact Er).
  rewrite (proj2 (on_iff x yc Rx Ryc) On'). eexists. split; [reflexivity|].
  assert (Ey : (if Bool.eqb (N.odd yc) (N.odd y) then yc else g_can (g_sub 0 yc)) = y).
  { destruct (square_eq K _ _ Sq) as [E|E].
    - rewrite (small_eq _ _ Lyc Ly E), Bool.eqb_reflx. reflexivity.
    - destruct (opp_small _ _ Ly Lyc E) as [[-> ->]|[Hy Ec]]; [reflexivity|].
      rewrite Ec at 1. rewrite odd_sub by assumption.
      replace (Bool.eqb (negb (N.odd y)) (N.odd y)) with false by (destruct (N.odd y); reflexivity).
      apply small_eq; [apply can_lt; auto with reps|exact Ly|].
      rewrite ph_can, ph_g_sub, E, ph_0 by auto with reps. ring. }
  rewrite Ey. apply R_affine; [exact Rx|exact (rep_small _ Ly)|exact HP].
Qed.
Lemma decode_sound b q : j_decode b = Some q -> exists P, P <> WO K /\ R q P.
Proof.
  destruct b as [|t r]; [discriminate|]. destruct t; try discriminate; cbn [j_decode]; try apply lift_sound.
  cbv zeta. set (x := be_val (firstn 48 r)). set (y := be_val (skipn 48 r)).
  destruct ((length r =? 96)%nat && (x <? p) && (y <? p)) eqn:C; [|discriminate].
  apply andb_prop in C as [C C2]. apply andb_prop in C as [_ C1]. apply N.ltb_lt in C1, C2.
  apply rep_small in C1. apply rep_small in C2. cbn [andb].
  destruct (g_is0 _) eqn:E; [|discriminate]. intros H. apply some_inj in H. subst q.
  apply (on_iff x y C1 C2) in E. destruct (is_mk K _ _ E) as [P HP].
  exists P. split; [intros ->; exact HP|]. exact (R_affine _ _ _ C1 C2 HP).
Qed.
Lemma decode_ok q P : P <> WO K -> R q P -> exists q', j_decode (j_compress q) = Some q' /\ R q' P.
Proof.
  intros N H. unfold j_compress. destruct (affine_spec _ _ H) as [[-> _]|(x & y & Lx & Ly & HP & ->)]; [contradiction|].
  destruct (lift_ok P x y Lx Ly HP) as (q' & E & HR). exists q'. split; [|exact HR].
  destruct (N.odd y); exact E.
Qed.
Lemma compress_len q P : P <> WO K -> R q P -> length (j_compress q) = 49%nat.
Proof.
  intros N H. unfold j_compress. destruct (affine_spec _ _ H) as [[-> _]|(x & y & Lx & Ly & HP & ->)]; [contradiction|].
  cbn [length]. rewrite be_bytes_length. reflexivity.
Qed.

(** ** The base point and its order *)
Definition gx : N := 26247035095799689268623156744566981891852923491109213387815615900925518854738050089022388053975719786650872476732087.
Definition gy : N := 8325710961489029985546751289520108179287853048861315594709205902480503199884419224438643760392947333078086511627871.
Lemma base_on : onc K (ph gx) (ph gy).
Proof. apply on_iff; [reflexivity|reflexivity|]. vm_compute. reflexivity. Qed.
Definition G : wpt K := WA K (ph gx) (ph gy) (proj2 (onb_onc K _ _) base_on).
Lemma R_base : R j_base G.
Proof. apply R_affine; [reflexivity|reflexivity|]. split; reflexivity. Qed.
Lemma order_eval : let '(x, y, z) := j_smul n j_base in g_is0 z = true.
Proof. vm_compute. reflexivity. Qed.
Lemma order : smul K n G = WO K.
Proof.
  pose proof (R_smul n _ _ R_base) as H. pose proof order_eval as E.
  destruct (j_smul n j_base) as [[x y] z]. destruct H as (_ & _ & Rz & H).
  apply is0 in E; [|exact Rz]. destruct H as [[_ H]|[N _]]; [exact H|contradiction].
Qed.
Lemma G_mod m : smul K (m mod n) G = smul K m G.
Proof. apply smul_mod; [discriminate|exact order]. Qed.
Lemma R_G m : R (j_smul m j_base) (smul K m G).
Proof. apply R_smul, R_base. Qed.

(** ** Modulo the order *)
Lemma n_pos : n <> 0. Proof. discriminate. Qed.
Lemma n_pow_mod a e : n_pow a e mod n = (a ^ N.pos e) mod n.
Proof.
  induction e as [e IH|e IH|]; cbn [n_pow]; unfold n_mul.
  - rewrite N.mod_mod, N.mul_mod_idemp_r by apply n_pos.
    rewrite N.mul_mod, (N.mul_mod (n_pow a e)), IH, <- (N.mul_mod (a ^ _)), <- N.mul_mod by apply n_pos.
    f_equal. replace (N.pos e~1) with (1 + (N.pos e + N.pos e)) by lia. rewrite !N.pow_add_r, N.pow_1_r. reflexivity.
  - rewrite N.mod_mod, N.mul_mod, IH, <- N.mul_mod by apply n_pos.
    f_equal. replace (N.pos e~0) with (N.pos e + N.pos e) by lia. rewrite !N.pow_add_r. reflexivity.
  - rewrite N.pow_1_r. reflexivity.
Qed.
Lemma prime_n : prime (Z.of_N n). Proof. exact prime_n384. Qed.
Lemma n_inv_mul a : a mod n <> 0 -> (a * n_inv a) mod n = 1.
Proof.
  intros H. unfold n_inv. rewrite N.mul_mod, n_pow_mod, <- N.mul_mod by apply n_pos.
  change (N.pos (N.succ_pos (n - 3))) with (n - 2). rewrite <- N.pow_succ_r'. change (N.succ (n - 2)) with (n - 1).
  apply N2Z.inj. rewrite N2Z.inj_mod, N2Z.inj_pow, N2Z.inj_sub by discriminate.
  apply (Primes.fermat (Z.of_N n)); [exact prime_n|].
  intros D. apply H. apply N2Z.inj. rewrite N2Z.inj_mod. apply Z.mod_divide; [discriminate|exact D].
Qed.
Lemma G_n0 s : s mod n <> 0 -> smul K s G <> WO K.
Proof.
  intros H E. pose proof (n_inv_mul s H) as I.
  assert (E1 : smul K (n_inv s * s) G = WO K) by (rewrite smul_mul, E, smul_WO; reflexivity).
  rewrite <- G_mod, N.mul_comm, I, smul_1 in E1. discriminate E1.
Qed.
Lemma scalar_n0 s : p_scalar_ok s = true -> be_val s mod n <> 0.
Proof. intros H. apply p_scalar_ok_iff in H as (_ & H0 & H1). rewrite N.mod_small by exact H1. lia. Qed.

(** ** The laws *)
Lemma parse_canon b k : curve_p_parse b = Some k -> length k = 49%nat /\ curve_p_parse k = Some k.
Proof.
  unfold curve_p_parse. destruct (j_decode b) as [q|] eqn:E; [|discriminate]. intros H. apply some_inj in H. subst k.
  destruct (decode_sound _ _ E) as (P & N & H). split; [exact (compress_len _ _ N H)|].
  destruct (decode_ok _ _ N H) as (q' & -> & H'). rewrite (compress_fun _ _ _ H' H). reflexivity.
Qed.
Lemma pub_decode s : p_scalar_ok s = true -> exists q, j_decode (curve_p_pub s) = Some q /\ R q (smul K (be_val s) G).
Proof. intros H. apply decode_ok; [apply G_n0, scalar_n0, H|apply R_G]. Qed.
Lemma dh_spec s t : p_scalar_ok s = true -> p_scalar_ok t = true -> curve_p_dh s (curve_p_pub t) =
  match j_affine (j_smul (be_val s * be_val t) j_base) with Some (x, _) => be_bytes 48 x | None => repeat x00 48 end.
Proof.
  intros Hs Ht. unfold curve_p_dh. destruct (pub_decode t Ht) as (q & -> & H).
  apply (R_smul (be_val s)) in H. rewrite <- smul_mul in H. rewrite (affine_fun _ _ _ H (R_G _)). reflexivity.
Qed.
Lemma rfc_ok x h k : rfc6979 x h = Some k -> 0 < k < n.
Proof.
  unfold rfc6979. cbv zeta. generalize 16%nat. intros fuel. 
  match goal with |- rfc6979_loop _ ?a ?b = _ -> _ => generalize a, b end.
  induction fuel as [|f IH]; intros kk v; cbn [rfc6979_loop]; [discriminate|].
  destruct (p_scalar_ok (c_hmac kk v)) eqn:E; [|apply IH]. intros H. apply some_inj in H. subst k.
  apply p_scalar_ok_iff in E. apply E.
Qed.
Lemma correct s d sg : p_scalar_ok s = true -> curve_p_sign s d = Some sg -> curve_p_verify (curve_p_pub s) d sg = true.
Proof.
  intros Hs. unfold curve_p_sign, curve_p_verify. cbv zeta. set (z := be_val d mod n).
  destruct (rfc6979 s (be_bytes 48 z)) as [k|] eqn:Ek; [|discriminate]. apply rfc_ok in Ek.
  destruct (j_affine (j_smul k j_base)) as [[x y]|] eqn:Ea; [|discriminate].
  set (r := x mod n). set (sv := n_mul _ _).
  destruct (r =? 0) eqn:Er; [discriminate|]. destruct (sv =? 0) eqn:Es; [discriminate|]. cbn [orb].
  intros H. apply some_inj in H. subst sg.
  rewrite firstn_app_exact, skipn_app_exact by apply be_bytes_length.
  assert (Lr : r < n) by (apply N.mod_lt, n_pos). assert (Ls : sv < n) by (apply N.mod_lt, n_pos).
  rewrite !be_val_48 by assumption. destruct (pub_decode s Hs) as (q & -> & HQ).
  set (w := n_inv sv). apply N.eqb_neq in Es.
  assert (Iw : (sv * w) mod n = 1) by (apply n_inv_mul; rewrite N.mod_small by exact Ls; exact Es).
  assert (Ik : (k * n_inv k) mod n = 1) by (apply n_inv_mul; rewrite N.mod_small by apply Ek; lia).
  assert (E1 : (sv * k) mod n = (z + r * be_val s) mod n).
  { unfold sv, n_mul. rewrite N.mul_mod_idemp_l, N.add_mod_idemp_r by apply n_pos.
    rewrite <- (N.mul_mod_idemp_l (_ * _) k), N.mul_mod_idemp_r, N.mul_mod_idemp_l by apply n_pos.
    set (m := z + r * be_val s). replace (n_inv k * m * k) with (k * n_inv k * m) by lia.
    rewrite <- N.mul_mod_idemp_l, Ik, N.mul_1_l by apply n_pos. reflexivity. }
  assert (E2 : (w * (z + r * be_val s)) mod n = k).
  { rewrite <- N.mul_mod_idemp_r, <- E1, N.mul_mod_idemp_r by apply n_pos.
    replace (w * (sv * k)) with (sv * w * k) by lia. rewrite <- N.mul_mod_idemp_l, Iw, N.mul_1_l by apply n_pos.
    apply N.mod_small, Ek. }
  assert (HR : R (j_add (j_smul (n_mul z w) j_base) (j_smul (n_mul r w) q)) (smul K k G)).
  { replace (smul K k G) with (padd K (smul K (n_mul z w) G) (smul K (n_mul r w) (smul K (be_val s) G))).
    - apply R_add; [apply R_G|apply R_smul, HQ].
    - rewrite <- smul_mul, <- smul_add, <- G_mod. f_equal. rewrite <- E2. unfold n_mul.
      rewrite N.add_mod_idemp_l by apply n_pos. rewrite <- N.add_mod_idemp_r, N.mul_mod_idemp_l, N.add_mod_idemp_r by apply n_pos.
      f_equal. lia. }
  rewrite (affine_fun _ _ _ HR (R_G k)), Ea. fold r. apply N.eqb_refl.
Qed.

Lemma p384_laws_gen : P384Laws CurveAsym.
Proof.
  constructor; cbn [p_pk_pem p_pub p_parse p_sign p_verify p_dh CurveAsym].
  - intros b k. unfold curve_p_pk_pem. destruct (pem_decode _ b) as [d|]; [|discriminate]. apply parse_canon.
  - intros s H. exact (compress_len _ _ (G_n0 _ (scalar_n0 _ H)) (R_G (be_val s))).
  - intros s H. unfold curve_p_parse. destruct (pub_decode s H) as (q & -> & HQ).
    rewrite (compress_fun _ _ _ HQ (R_G _)). reflexivity.
  - exact parse_canon.
  - exact correct.
  - intros s t Hs Ht. rewrite !dh_spec, N.mul_comm by assumption. reflexivity.
Qed.
End Group.

Theorem curve_p384_laws : P384Laws CurveAsym.
Proof.
  apply (p384_laws_gen W384 phi phi_add phi_mul eq_refl eq_refl phi_eq).
  - reflexivity.
  - exact a384_eq.
  - exact fermat_F.
Qed.
Print Assumptions curve_p384_laws.
