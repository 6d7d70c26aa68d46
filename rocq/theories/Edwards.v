(** * Edwards: the group of a complete twisted Edwards curve over any field.

    The curve is [y^2 - x^2 = 1 + d x^2 y^2] with [-1] a square and [d] not a square; the
    affine addition law, extended coordinates, and the x-coordinate arithmetic of the
    corresponding Montgomery curve.  Used for [CurveAsym] in [CurveGroup.v]. *)
From Coq Require Import NArith Ring Field Setoid NsatzTactic Eqdep_dec Bool Lia.

(** Fields with the constants of the curve: [kd] is not a square, [ki] a square root of [-1],
    [8 kk + 5] the number of elements, [ka24] the constant of the Montgomery form. *)
Record edfield := {
  car :> Type;
  k0 : car; k1 : car;
  kadd : car -> car -> car; kmul : car -> car -> car; ksub : car -> car -> car; kopp : car -> car;
  kdiv : car -> car -> car; kinv : car -> car;
  kth : field_theory k0 k1 kadd kmul ksub kopp kdiv kinv eq;
  kdec : forall x y : car, {x = y} + {x <> y};
  kd : car; ki : car;
  ktwo : kadd k1 k1 <> k0;
  ki_sq : kmul ki ki = kopp k1;
  kd_nsq : forall x, kmul x x <> kd;
  kk : N;
  kfermat : forall x, x <> k0 -> N.iter (8 * kk + 4) (kmul x) k1 = k1;
  ka24 : car;
  ka24_eq : kmul kd (kadd ka24 k1) = kopp ka24;
}.

Section Edwards.
Variable K : edfield.
Local Notation F := (car K).
Let Fth := kth K.
Let Fdec := kdec K.
Local Notation f0 := (k0 K). Local Notation f1 := (k1 K).
Local Notation add := (kadd K). Local Notation mul := (kmul K). Local Notation sub := (ksub K).
Local Notation opp := (kopp K). Local Notation div := (kdiv K). Local Notation inv := (kinv K).
Local Notation d := (kd K). Local Notation i := (ki K). Local Notation k := (kk K). Local Notation a24 := (ka24 K).
Let two := ktwo K.
Let Hi := ki_sq K.
Let Hd := kd_nsq K.
Let Ha24 := ka24_eq K.

Declare Scope f_scope.
Local Open Scope f_scope.
Local Notation "0" := f0 : f_scope. Local Notation "1" := f1 : f_scope.
Local Infix "+" := add : f_scope. Local Infix "*" := mul : f_scope. Local Infix "-" := sub : f_scope.
Local Notation "- x" := (opp x) : f_scope. Local Infix "/" := div : f_scope.
Add Field Ff : Fth.

Lemma mul_0 x y : x * y = 0 -> x = 0 \/ y = 0.
Proof.
  intros H. destruct (Fdec x 0) as [|N]; [left; assumption|right].
  replace y with (x * y / x) by (field; exact N). rewrite H. field. exact N.
Qed.
Lemma mul_n0 x y : x <> 0 -> y <> 0 -> x * y <> 0.
Proof. intros Hx Hy H. destruct (mul_0 _ _ H); contradiction. Qed.
Lemma mul_n0_l x y : x * y <> 0 -> x <> 0.
Proof. intros H ->. apply H. ring. Qed.
Lemma mul_n0_r x y : x * y <> 0 -> y <> 0.
Proof. intros H ->. apply H. ring. Qed.
Lemma sub_0 x y : x - y = 0 -> x = y.
Proof. intros H. replace x with (x - y + y) by ring. rewrite H. ring. Qed.
Lemma cancel_l z x y : z <> 0 -> z * x = z * y -> x = y.
Proof.
  intros Hz H. apply sub_0. destruct (mul_0 z (x - y)) as [|]; [|contradiction|assumption].
  replace (z * (x - y)) with (z * x - z * y) by ring. rewrite H. ring.
Qed.
Lemma square_eq x y : x * x = y * y -> x = y \/ x = - y.
Proof.
  intros H. destruct (mul_0 (x - y) (x + y)) as [E|E].
  - replace ((x - y) * (x + y)) with (x * x - y * y) by ring. rewrite H. ring.
  - left. apply sub_0, E.
  - right. apply sub_0. rewrite <- E. ring.
Qed.
Lemma div_eq a b c e : b <> 0 -> e <> 0 -> a * e = c * b -> a / b = c / e.
Proof.
  intros Hb He H. apply (cancel_l (b * e)); [apply mul_n0; assumption|].
  replace (b * e * (a / b)) with (a * e) by (field; assumption).
  replace (b * e * (c / e)) with (c * b) by (field; assumption). exact H.
Qed.

#[local] Instance Fops : @Ring_ops F 0 1 add mul sub opp eq := {}.
#[local] Instance Fri : @Ring F 0 1 add mul sub opp eq Fops.
Proof.
  split; unfold equality, eq_notation, addition, add_notation, multiplication, mul_notation, subtraction,
    sub_notation, opposite, opp_notation, zero, zero_notation, one, one_notation; try (intros; ring); try exact _.
  all: try (repeat (intros ? ? ?); subst; reflexivity).
Qed.
#[local] Instance Fcri : @Cring F 0 1 add mul sub opp eq Fops Fri.
Proof. intros x y. unfold equality, eq_notation, multiplication, mul_notation. ring. Qed.
#[local] Instance Fid : @Integral_domain F 0 1 add mul sub opp eq Fops Fri Fcri.
Proof. split; [intros x y H; apply mul_0; exact H| intros H; exact (F_1_neq_0 Fth H)]. Qed.

(** ** Powers *)
Definition pw (x : F) (n : N) : F := N.iter n (mul x) 1.
Lemma pw_0 x : pw x 0%N = 1. Proof. reflexivity. Qed.
Lemma pw_succ x n : pw x (N.succ n) = x * pw x n.
Proof. apply N.iter_succ. Qed.
Lemma pw_1 x : pw x 1%N = x.
Proof. change 1%N with (N.succ 0). rewrite pw_succ, pw_0. ring. Qed.
Lemma pw_add x m n : pw x (m + n)%N = pw x m * pw x n.
Proof.
  induction m as [|m IH] using N.peano_ind; [rewrite N.add_0_l, pw_0; ring|].
  rewrite N.add_succ_l, !pw_succ, IH. ring.
Qed.
Lemma pw_1_l n : pw 1 n = 1.
Proof. induction n as [|n IH] using N.peano_ind; [reflexivity|]. rewrite pw_succ, IH. ring. Qed.
Lemma pw_mul_l x y n : pw (x * y) n = pw x n * pw y n.
Proof. induction n as [|n IH] using N.peano_ind; [rewrite !pw_0; ring|]. rewrite !pw_succ, IH. ring. Qed.
Lemma pw_mul x m n : pw x (m * n)%N = pw (pw x m) n.
Proof.
  induction n as [|n IH] using N.peano_ind; [rewrite N.mul_0_r; reflexivity|].
  rewrite N.mul_succ_r, pw_add, pw_succ, IH. ring.
Qed.
Lemma pw_2 x : pw x 2%N = x * x.
Proof. change 2%N with (N.succ 1). rewrite pw_succ, pw_1. reflexivity. Qed.

(** ** The curve *)
Lemma d_n0 : d <> 0.
Proof. intros E. apply (Hd 0). rewrite E. ring. Qed.

Definition onc (x y : F) : Prop := y * y - x * x = 1 + d * (x * x) * (y * y).
Definition onb (x y : F) : bool := if Fdec (y * y - x * x) (1 + d * (x * x) * (y * y)) then true else false.
Lemma onb_onc x y : onb x y = true <-> onc x y.
Proof. unfold onb, onc. destruct (Fdec _ _); split; congruence. Qed.

(** Completeness. *)
Lemma complete x1 y1 x2 y2 e : onc x1 y1 -> onc x2 y2 -> e * e = 1 -> d * x1 * x2 * y1 * y2 <> e.
Proof.
  unfold onc. intros H1 H2 He E.
  assert (Ne : e <> 0) by (intros ->; apply (F_1_neq_0 Fth); rewrite <- He; ring).
  assert (N : d * x1 * x2 * y1 * y2 <> 0) by (rewrite E; exact Ne).
  assert (Ny2 : y2 <> 0) by (apply mul_n0_r in N; exact N).
  assert (Nx1 : x1 <> 0) by (apply mul_n0_l, mul_n0_l, mul_n0_l, mul_n0_r in N; exact N).
  assert (Ny1 : y1 <> 0) by (apply mul_n0_l, mul_n0_r in N; exact N).
  assert (P : (i * x1 + e * y1) * (i * x1 + e * y1) = d * (x1 * x1) * (y1 * y1) * ((i * x2 + y2) * (i * x2 + y2)))
    by (clear - H1 H2 He E Hi Fth Fdec; nsatz).
  assert (M : (i * x1 - e * y1) * (i * x1 - e * y1) = d * (x1 * x1) * (y1 * y1) * ((i * x2 - y2) * (i * x2 - y2)))
    by (clear - H1 H2 He E Hi Fth Fdec; nsatz).
  assert (KK : forall a b, a * a = d * (x1 * x1) * (y1 * y1) * (b * b) -> b = 0).
  { intros a b Hab. destruct (Fdec b 0) as [|Nb]; [assumption|]. exfalso. apply (Hd (a / (x1 * y1 * b))).
    apply (cancel_l ((x1 * y1 * b) * (x1 * y1 * b))); [repeat apply mul_n0; assumption|].
    transitivity (a * a); [field; repeat split; assumption|]. rewrite Hab. ring. }
  apply KK in P. apply KK in M. apply Ny2. apply (cancel_l (1 + 1)); [exact two|].
  transitivity ((i * x2 + y2) - (i * x2 - y2)); [ring|]. rewrite P, M. ring.
Qed.
Lemma den_p x1 y1 x2 y2 : onc x1 y1 -> onc x2 y2 -> 1 + d * x1 * x2 * y1 * y2 <> 0.
Proof.
  intros H1 H2 E. apply (complete x1 y1 x2 y2 (- (1)) H1 H2); [ring|].
  apply sub_0. rewrite <- E. ring.
Qed.
Lemma den_m x1 y1 x2 y2 : onc x1 y1 -> onc x2 y2 -> 1 - d * x1 * x2 * y1 * y2 <> 0.
Proof.
  intros H1 H2 E. apply (complete x1 y1 x2 y2 1 H1 H2); [ring|]. symmetry. apply sub_0. exact E.
Qed.

(** ** Addition *)
Record pt := mkpt { px : F; py : F; pon : onb px py = true }.
Lemma pt_on P : onc (px P) (py P).
Proof. apply onb_onc, pon. Qed.
Lemma pt_ext P Q : px P = px Q -> py P = py Q -> P = Q.
Proof.
  destruct P as [x y H], Q as [x' y' H']. cbn. intros <- <-. f_equal. apply UIP_dec, bool_dec.
Qed.

Definition xa x1 y1 x2 y2 := (x1 * y2 + y1 * x2) / (1 + d * x1 * x2 * y1 * y2).
Definition ya x1 y1 x2 y2 := (y1 * y2 + x1 * x2) / (1 - d * x1 * x2 * y1 * y2).
Lemma add_on x1 y1 x2 y2 : onc x1 y1 -> onc x2 y2 -> onc (xa x1 y1 x2 y2) (ya x1 y1 x2 y2).
Proof.
  intros H1 H2. pose proof (den_p _ _ _ _ H1 H2) as Np. pose proof (den_m _ _ _ _ H1 H2) as Nm.
  unfold onc, xa, ya in *. revert Np Nm. set (t := d * x1 * x2 * y1 * y2). intros Np Nm.
  apply (cancel_l ((1 + t) * (1 + t) * ((1 - t) * (1 - t)))); [repeat apply mul_n0; assumption|].
  transitivity ((y1 * y2 + x1 * x2) * (y1 * y2 + x1 * x2) * ((1 + t) * (1 + t))
    - (x1 * y2 + y1 * x2) * (x1 * y2 + y1 * x2) * ((1 - t) * (1 - t))); [field; split; assumption|].
  transitivity ((1 + t) * (1 + t) * ((1 - t) * (1 - t)) +
    d * ((x1 * y2 + y1 * x2) * (x1 * y2 + y1 * x2)) * ((y1 * y2 + x1 * x2) * (y1 * y2 + x1 * x2)));
    [|field; split; assumption].
  clear - H1 H2 Fth Fdec. unfold t. nsatz.
Qed.
Definition padd (P Q : pt) : pt :=
  mkpt (xa (px P) (py P) (px Q) (py Q)) (ya (px P) (py P) (px Q) (py Q))
    (proj2 (onb_onc _ _) (add_on _ _ _ _ (pt_on P) (pt_on Q))).
Lemma zero_on : onc 0 1. Proof. unfold onc. ring. Qed.
Definition pzero : pt := mkpt 0 1 (proj2 (onb_onc _ _) zero_on).
Lemma neg_on x y : onc x y -> onc (- x) y.
Proof. unfold onc. intros H. replace (- x * - x) with (x * x) by ring. exact H. Qed.
Definition pneg (P : pt) : pt := mkpt (- px P) (py P) (proj2 (onb_onc _ _) (neg_on _ _ (pt_on P))).

Lemma padd_comm P Q : padd P Q = padd Q P.
Proof.
  pose proof (den_p _ _ _ _ (pt_on P) (pt_on Q)). pose proof (den_m _ _ _ _ (pt_on P) (pt_on Q)).
  pose proof (den_p _ _ _ _ (pt_on Q) (pt_on P)). pose proof (den_m _ _ _ _ (pt_on Q) (pt_on P)).
  apply pt_ext; cbn; unfold xa, ya; apply div_eq; try assumption; ring.
Qed.
Lemma padd_0_l P : padd pzero P = P.
Proof.
  apply pt_ext; cbn; unfold xa, ya.
  - replace (1 + d * 0 * px P * 1 * py P) with 1 by ring. field. apply (F_1_neq_0 Fth).
  - replace (1 - d * 0 * px P * 1 * py P) with 1 by ring. field. apply (F_1_neq_0 Fth).
Qed.
Lemma padd_0_r P : padd P pzero = P.
Proof. rewrite padd_comm. apply padd_0_l. Qed.
Lemma padd_neg P : padd P (pneg P) = pzero.
Proof.
  pose proof (pt_on P) as H. pose proof (den_p _ _ _ _ (pt_on P) (pt_on (pneg P))) as Np.
  pose proof (den_m _ _ _ _ (pt_on P) (pt_on (pneg P))) as Nm. cbn in Np, Nm.
  apply pt_ext; cbn; unfold xa, ya.
  - apply (cancel_l _ _ _ Np). field. exact Np.
  - apply (cancel_l _ _ _ Nm). transitivity (py P * py P + px P * - px P); [field; exact Nm|].
    unfold onc in H. transitivity (py P * py P - px P * px P); [ring|]. rewrite H. ring.
Qed.

Lemma assoc_x x1 y1 x2 y2 x3 y3 : onc x1 y1 -> onc x2 y2 -> onc x3 y3 ->
  let t12 := d * x1 * x2 * y1 * y2 in let A12 := x1 * y2 + y1 * x2 in let B12 := y1 * y2 + x1 * x2 in
  let t23 := d * x2 * x3 * y2 * y3 in let A23 := x2 * y3 + y2 * x3 in let B23 := y2 * y3 + x2 * x3 in
  (A12 * (1 - t12) * y3 + B12 * (1 + t12) * x3) * ((1 - t23 * t23) + d * x1 * y1 * A23 * B23)
  = (x1 * B23 * (1 + t23) + y1 * A23 * (1 - t23)) * ((1 - t12 * t12) + d * A12 * B12 * x3 * y3).
Proof. cbv zeta. unfold onc. intros H1 H2 H3. clear - H1 H2 H3 Fth Fdec. nsatz. Qed.
Lemma assoc_y x1 y1 x2 y2 x3 y3 : onc x1 y1 -> onc x2 y2 -> onc x3 y3 ->
  let t12 := d * x1 * x2 * y1 * y2 in let A12 := x1 * y2 + y1 * x2 in let B12 := y1 * y2 + x1 * x2 in
  let t23 := d * x2 * x3 * y2 * y3 in let A23 := x2 * y3 + y2 * x3 in let B23 := y2 * y3 + x2 * x3 in
  (B12 * (1 + t12) * y3 + A12 * (1 - t12) * x3) * ((1 - t23 * t23) - d * x1 * y1 * A23 * B23)
  = (y1 * B23 * (1 + t23) + x1 * A23 * (1 - t23)) * ((1 - t12 * t12) - d * A12 * B12 * x3 * y3).
Proof. cbv zeta. unfold onc. intros H1 H2 H3. clear - H1 H2 H3 Fth Fdec. nsatz. Qed.

Lemma padd_assoc P Q R : padd (padd P Q) R = padd P (padd Q R).
Proof.
  pose proof (pt_on P) as H1. pose proof (pt_on Q) as H2. pose proof (pt_on R) as H3.
  pose proof (den_p _ _ _ _ H1 H2) as N1. pose proof (den_m _ _ _ _ H1 H2) as N2.
  pose proof (den_p _ _ _ _ H2 H3) as N3. pose proof (den_m _ _ _ _ H2 H3) as N4.
  pose proof (den_p _ _ _ _ (pt_on (padd P Q)) H3) as N5. pose proof (den_m _ _ _ _ (pt_on (padd P Q)) H3) as N6.
  pose proof (den_p _ _ _ _ H1 (pt_on (padd Q R))) as N7. pose proof (den_m _ _ _ _ H1 (pt_on (padd Q R))) as N8.
  pose proof (assoc_x _ _ _ _ _ _ H1 H2 H3) as Ex. pose proof (assoc_y _ _ _ _ _ _ H1 H2 H3) as Ey.
  cbv zeta in Ex, Ey. cbn [px py padd] in N5, N6, N7, N8.
  apply pt_ext; cbn [px py padd]; unfold xa, ya in *;
  revert Ex Ey N1 N2 N3 N4 N5 N6 N7 N8; clear H1 H2 H3;
  generalize (px P) (py P) (px Q) (py Q) (px R) (py R); intros x1 y1 x2 y2 x3 y3;
  set (t12 := d * x1 * x2 * y1 * y2); set (A12 := x1 * y2 + y1 * x2); set (B12 := y1 * y2 + x1 * x2);
  set (t23 := d * x2 * x3 * y2 * y3); set (A23 := x2 * y3 + y2 * x3); set (B23 := y2 * y3 + x2 * x3);
  clearbody t12 A12 B12 t23 A23 B23; intros Ex Ey N1 N2 N3 N4 N5 N6 N7 N8.
  - assert (M5 : (1 - t12 * t12) + d * A12 * B12 * x3 * y3 <> 0).
    { intros E. apply N5. transitivity (((1 - t12 * t12) + d * A12 * B12 * x3 * y3) / ((1 + t12) * (1 - t12)));
        [field; split; assumption|]. rewrite E. field; split; assumption. }
    assert (M7 : (1 - t23 * t23) + d * x1 * y1 * A23 * B23 <> 0).
    { intros E. apply N7. transitivity (((1 - t23 * t23) + d * x1 * y1 * A23 * B23) / ((1 + t23) * (1 - t23)));
        [field; split; assumption|]. rewrite E. field; split; assumption. }
    transitivity ((A12 * (1 - t12) * y3 + B12 * (1 + t12) * x3) / ((1 - t12 * t12) + d * A12 * B12 * x3 * y3)).
    + field; repeat split; try assumption; intros E; apply M5;
        (transitivity ((1 + t12) * (1 - t12) + d * A12 * x3 * B12 * y3); [ring|exact E]).
    + transitivity ((x1 * B23 * (1 + t23) + y1 * A23 * (1 - t23)) / ((1 - t23 * t23) + d * x1 * y1 * A23 * B23));
        [apply div_eq; assumption|].
      field; repeat split; try assumption; intros E; apply M7;
        (transitivity ((1 + t23) * (1 - t23) + d * x1 * A23 * y1 * B23); [ring|exact E]).
  - assert (M6 : (1 - t12 * t12) - d * A12 * B12 * x3 * y3 <> 0).
    { intros E. apply N6. transitivity (((1 - t12 * t12) - d * A12 * B12 * x3 * y3) / ((1 + t12) * (1 - t12)));
        [field; split; assumption|]. rewrite E. field; split; assumption. }
    assert (M8 : (1 - t23 * t23) - d * x1 * y1 * A23 * B23 <> 0).
    { intros E. apply N8. transitivity (((1 - t23 * t23) - d * x1 * y1 * A23 * B23) / ((1 + t23) * (1 - t23)));
        [field; split; assumption|]. rewrite E. field; split; assumption. }
    transitivity ((B12 * (1 + t12) * y3 + A12 * (1 - t12) * x3) / ((1 - t12 * t12) - d * A12 * B12 * x3 * y3)).
    + field; repeat split; try assumption; intros E; apply M6;
        (transitivity ((1 + t12) * (1 - t12) - d * A12 * x3 * B12 * y3); [ring|exact E]).
    + transitivity ((y1 * B23 * (1 + t23) + x1 * A23 * (1 - t23)) / ((1 - t23 * t23) - d * x1 * y1 * A23 * B23));
        [apply div_eq; assumption|].
      field; repeat split; try assumption; intros E; apply M8;
        (transitivity ((1 + t23) * (1 - t23) - d * x1 * A23 * y1 * B23); [ring|exact E]).
Qed.

(** ** Multiples *)
Lemma padd_cancel P Q R : padd P Q = padd P R -> Q = R.
Proof.
  intros H. rewrite <- (padd_0_l Q), <- (padd_0_l R), <- (padd_neg P), (padd_comm P (pneg P)), !padd_assoc, H. reflexivity.
Qed.
Lemma pneg_add P Q : pneg (padd P Q) = padd (pneg P) (pneg Q).
Proof.
  apply (padd_cancel (padd P Q)). rewrite padd_neg, padd_assoc, (padd_comm (pneg P)), <- (padd_assoc Q).
  rewrite padd_neg, padd_0_l, padd_neg. reflexivity.
Qed.
Lemma pneg_0 : pneg pzero = pzero.
Proof. apply (padd_cancel pzero). rewrite padd_neg, padd_0_l. reflexivity. Qed.

Definition smul (n : N) (P : pt) : pt := N.iter n (padd P) pzero.
Lemma smul_0 P : smul 0 P = pzero. Proof. reflexivity. Qed.
Lemma smul_succ n P : smul (N.succ n) P = padd P (smul n P).
Proof. apply N.iter_succ. Qed.
Lemma smul_1 P : smul 1 P = P.
Proof. change 1%N with (N.succ 0). rewrite smul_succ, smul_0. apply padd_0_r. Qed.
Lemma smul_add m n P : smul (m + n) P = padd (smul m P) (smul n P).
Proof.
  induction m as [|m IH] using N.peano_ind; [rewrite smul_0, padd_0_l; reflexivity|].
  rewrite N.add_succ_l, !smul_succ, IH, padd_assoc. reflexivity.
Qed.
Lemma smul_mul m n P : smul (m * n) P = smul m (smul n P).
Proof.
  induction m as [|m IH] using N.peano_ind; [reflexivity|].
  rewrite N.mul_succ_l, N.add_comm, smul_add, smul_succ, IH. reflexivity.
Qed.
Lemma smul_pzero n : smul n pzero = pzero.
Proof. induction n as [|n IH] using N.peano_ind; [reflexivity|]. rewrite smul_succ, IH. apply padd_0_l. Qed.
Lemma smul_neg n P : smul n (pneg P) = pneg (smul n P).
Proof.
  induction n as [|n IH] using N.peano_ind; [rewrite !smul_0, pneg_0; reflexivity|].
  rewrite !smul_succ, IH, pneg_add. reflexivity.
Qed.
Lemma smul_mod l n P : l <> 0%N -> smul l P = pzero -> smul (n mod l) P = smul n P.
Proof.
  intros Hl H. rewrite (N.div_mod n l Hl) at 2. rewrite smul_add, N.mul_comm, smul_mul, H, smul_pzero, padd_0_l. reflexivity.
Qed.

(** ** Extended coordinates *)
Definition ext (P : pt) (x y z t : F) : Prop :=
  z <> 0 /\ x = px P * z /\ y = py P * z /\ t = px P * py P * z.
Lemma ext_zero : ext pzero 0 1 1 0.
Proof. repeat split; cbn; try ring. exact (F_1_neq_0 Fth). Qed.
Lemma ext_neg P x y z t : ext P x y z t -> ext (pneg P) (0 - x) y z (0 - t).
Proof. intros (Hz & -> & -> & ->). repeat split; cbn; try ring. exact Hz. Qed.
Lemma ext_add P Q x1 y1 z1 t1 x2 y2 z2 t2 : ext P x1 y1 z1 t1 -> ext Q x2 y2 z2 t2 ->
  let a := (y1 - x1) * (y2 - x2) in let b := (y1 + x1) * (y2 + x2) in
  let c := t1 * ((1 + 1) * d) * t2 in let e := z1 * ((1 + 1) * z2) in
  ext (padd P Q) ((b - a) * (e - c)) ((e + c) * (b + a)) ((e - c) * (e + c)) ((b - a) * (b + a)).
Proof.
  intros (Hz1 & -> & -> & ->) (Hz2 & -> & -> & ->). cbv zeta.
  pose proof (den_p _ _ _ _ (pt_on P) (pt_on Q)) as Np. pose proof (den_m _ _ _ _ (pt_on P) (pt_on Q)) as Nm.
  unfold ext. cbn [px py padd]. unfold xa, ya. revert Np Nm.
  generalize (px P) (py P) (px Q) (py Q). intros x1 y1 x2 y2 Np Nm.
  assert (Nz : (1 + 1) * z1 * z2 <> 0) by (repeat apply mul_n0; assumption).
  split.
  - replace ((z1 * ((1 + 1) * z2) - x1 * y1 * z1 * ((1 + 1) * d) * (x2 * y2 * z2)) *
      (z1 * ((1 + 1) * z2) + x1 * y1 * z1 * ((1 + 1) * d) * (x2 * y2 * z2)))
      with ((1 + 1) * z1 * z2 * ((1 + 1) * z1 * z2) * ((1 - d * x1 * x2 * y1 * y2) * (1 + d * x1 * x2 * y1 * y2))) by ring.
    repeat apply mul_n0; assumption.
  - repeat split; field; try split; assumption.
Qed.
Lemma ext_dbl P x y z t : ext P x y z t ->
  let a := x * x in let b := y * y in let c := z * ((1 + 1) * z) in let h := a + b in
  let e := h - (x + y) * (x + y) in let g := a - b in let f := c + g in
  ext (padd P P) (e * f) (g * h) (f * g) (e * h).
Proof.
  intros (Hz & -> & -> & ->). cbv zeta.
  pose proof (den_p _ _ _ _ (pt_on P) (pt_on P)) as Np. pose proof (den_m _ _ _ _ (pt_on P) (pt_on P)) as Nm.
  pose proof (pt_on P) as H. unfold ext. cbn [px py padd]. unfold xa, ya. revert Np Nm H. unfold onc.
  generalize (px P) (py P). intros x y Np Nm H.
  assert (Eg : x * z * (x * z) - y * z * (y * z) = - (z * z * (1 + d * x * x * y * y))).
  { transitivity (- (z * z * (y * y - x * x))); [ring|]. rewrite H. ring. }
  assert (Ef : z * ((1 + 1) * z) + (x * z * (x * z) - y * z * (y * z)) = z * z * (1 - d * x * x * y * y)).
  { rewrite Eg. ring. }
  rewrite Ef, Eg. split.
  - replace (z * z * (1 - d * x * x * y * y) * - (z * z * (1 + d * x * x * y * y)))
      with (- (1) * (z * z * (1 - d * x * x * y * y) * (z * z * (1 + d * x * x * y * y)))) by ring.
    repeat apply mul_n0; try assumption. intros E. apply (F_1_neq_0 Fth). transitivity (- - (1)); [ring|]. rewrite E. ring.
  - repeat split; field; try split; assumption.
Qed.
Lemma ext_x P x y z t : ext P x y z t -> x * inv z = px P.
Proof. intros (Hz & -> & -> & ->). field. exact Hz. Qed.
Lemma ext_y P x y z t : ext P x y z t -> y * inv z = py P.
Proof. intros (Hz & -> & -> & ->). field. exact Hz. Qed.
Lemma ext_affine P : ext P (px P) (py P) 1 (px P * py P).
Proof. repeat split; try ring. exact (F_1_neq_0 Fth). Qed.
Lemma ext_fun P Q x y z t : ext P x y z t -> ext Q x y z t -> P = Q.
Proof.
  intros H1 H2. apply pt_ext; [rewrite <- (ext_x _ _ _ _ _ H1)|rewrite <- (ext_y _ _ _ _ _ H1)];
    [exact (ext_x _ _ _ _ _ H2)|exact (ext_y _ _ _ _ _ H2)].
Qed.

(** ** Recovering x from y *)
Lemma v_n0 y : d * (y * y) + 1 <> 0.
Proof.
  intros E. assert (Ny : y <> 0).
  { intros ->. apply (F_1_neq_0 Fth). rewrite <- E. ring. }
  apply (Hd (i / y)). apply (cancel_l (y * y)); [apply mul_n0; assumption|].
  transitivity (i * i); [field; exact Ny|]. rewrite Hi. apply sub_0.
  transitivity (- (d * (y * y) + 1)); [ring|]. rewrite E. ring.
Qed.
Lemma onc_u x y : onc x y -> y * y - 1 = (d * (y * y) + 1) * (x * x).
Proof. unfold onc. intros H. clear - H Fth Fdec. nsatz. Qed.
Lemma onc_xx x x' y : onc x y -> x' * x' = x * x -> onc x' y.
Proof. unfold onc. intros H ->. exact H. Qed.

Lemma fermat x : x <> 0 -> pw x (8 * k + 4) = 1.
Proof. apply kfermat. Qed.
Lemma euler x : x <> 0 -> pw x (4 * k + 2) = 1 \/ pw x (4 * k + 2) = - (1).
Proof.
  intros H. apply square_eq. rewrite <- pw_add. transitivity (pw x (8 * k + 4)); [f_equal; lia|].
  rewrite fermat by exact H. ring.
Qed.
Lemma root u v x : v <> 0 -> u = v * (x * x) ->
  let v3 := v * (v * v) in let v7 := v * (v3 * v3) in
  let r := u * v3 * pw (u * v7) k in
  r * r = x * x \/ r * r = - (x * x).
Proof.
  intros Hv ->. cbv zeta.
  replace (v * (x * x) * (v * (v * (v * v) * (v * (v * v))))) with (pw v 8 * pw x 2).
  2:{ change 8%N with (4 + 4)%N. rewrite pw_add. change 4%N with (2 + 2)%N. rewrite pw_add, !pw_2. ring. }
  rewrite pw_mul_l, <- !pw_mul.
  replace (v * (x * x) * (v * (v * v)) * (pw v (8 * k) * pw x (2 * k))) with (pw x (2 * k + 2)).
  2:{ rewrite <- (Fth.(F_R).(Rmul_1_l) (pw x (2 * k + 2))), <- (fermat v Hv), !pw_add, pw_2.
      change 4%N with (2 + 2)%N. rewrite pw_add, !pw_2. ring. }
  rewrite <- pw_add. replace (2 * k + 2 + (2 * k + 2))%N with (4 * k + 2 + 2)%N by lia.
  rewrite pw_add, pw_2. destruct (Fdec x 0) as [->|Hx]; [left; ring|].
  destruct (euler x Hx) as [E|E]; rewrite E; [left|right]; ring.
Qed.

(** ** The Montgomery x-coordinate *)
Lemma a24_n0 : a24 + 1 <> 0.
Proof.
  intros E. apply (F_1_neq_0 Fth). assert (A : a24 = 0).
  { transitivity (- - a24); [ring|]. rewrite <- Ha24, E. ring. }
  rewrite <- E, A. ring.
Qed.

Definition mont (P : pt) (X Z : F) : Prop := exists l, l <> 0 /\ X = l * (1 + py P) /\ Z = l * (1 - py P).
Lemma mont_intro P X Z : X * (1 - py P) = Z * (1 + py P) -> (X <> 0 \/ Z <> 0) -> mont P X Z.
Proof.
  unfold mont. generalize (py P). intros y Hy N.
  assert (S : X + Z <> 0).
  { intros E. assert (EX : X = - Z) by (apply sub_0; rewrite <- E; ring).
    assert (Z0 : Z = 0). { apply (cancel_l (1 + 1)); [exact two|]. subst X.
      transitivity (Z * (1 + y) - - Z * (1 - y)); [ring|]. rewrite Hy. ring. }
    subst Z. destruct N as [N|N]; apply N; [rewrite EX; ring|reflexivity]. }
  exists ((X + Z) / (1 + 1)). split; [|split].
  - intros E. apply S. transitivity ((1 + 1) * ((X + Z) / (1 + 1))); [field; exact two|]. rewrite E. ring.
  - apply (cancel_l (1 + 1)); [exact two|]. transitivity (X * (1 + y) + Z * (1 + y)); [|field; exact two].
    rewrite <- Hy. ring.
  - apply (cancel_l (1 + 1)); [exact two|]. transitivity (X * (1 - y) + Z * (1 - y)); [|field; exact two].
    rewrite Hy. ring.
Qed.
Lemma mont_u P X Z : mont P X Z -> X * inv Z = (1 + py P) * inv (1 - py P) \/ (Z = 0 /\ 1 - py P = 0).
Proof.
  intros (l & Hl & -> & ->). destruct (Fdec (1 - py P) 0) as [E|N].
  - right. rewrite E. split; [ring|reflexivity].
  - left. field. split; assumption.
Qed.
Lemma mont_dbl P X Z : mont P X Z ->
  let aa := (X + Z) * (X + Z) in let bb := (X - Z) * (X - Z) in let e := aa - bb in
  mont (padd P P) (aa * bb) (e * (aa + a24 * e)).
Proof.
  intros (l & Hl & -> & ->). cbv zeta.
  pose proof (den_m _ _ _ _ (pt_on P) (pt_on P)) as Nm. pose proof (pt_on P) as H. pose proof a24_n0 as Na.
  pose proof d_n0 as Nd.
  apply mont_intro.
  - cbn [py padd]. unfold ya. revert Nm H. generalize (px P) (py P). intros x y Nm H. unfold onc in H.
    apply (cancel_l (1 - d * x * x * y * y)); [exact Nm|]. 
    match goal with |- ?D * (?A * (1 - ?N / ?D)) = ?D * (?B * (1 + ?N / ?D)) =>
      transitivity (A * (D - N)); [field; exact Nm|]; transitivity (B * (D + N)); [|field; exact Nm] end.
    clear - H Ha24 Fth Fdec two Nd Na. 
    assert (KK : y * y = (1 + a24 * (1 - y * y)) * (1 + x * x)).
    { apply (cancel_l d); [exact Nd|]. clear - H Ha24 Fth Fdec. nsatz. }
    assert (E1 : 1 - d * x * x * y * y - (y * y + x * x) = (1 + 1) * (1 - y * y)) by (clear - H Fth Fdec; nsatz).
    assert (E2 : 1 - d * x * x * y * y + (y * y + x * x) = (1 + 1) * (1 + x * x)) by (clear - H Fth Fdec; nsatz).
    rewrite E1, E2. clear - KK Fth Fdec. nsatz.
  - revert H. generalize (px P) (py P). intros x y H. destruct (Fdec y 0) as [->|Ny]; [right|left].
    + match goal with |- ?B <> 0 => replace B with (l * l * (l * l) * ((1 + 1) * (1 + 1) * ((1 + 1) * (1 + 1))) * (a24 + 1)) by ring end.
      repeat apply mul_n0; assumption.
    + match goal with |- ?B <> 0 => replace B with (l * l * (l * l) * ((1 + 1) * (1 + 1) * ((1 + 1) * (1 + 1))) * (y * y)) by ring end.
      repeat apply mul_n0; assumption.
Qed.
Lemma mont_dadd Q2 Q3 X2 Z2 X3 Z3 x1 : mont Q2 X2 Z2 -> mont Q3 X3 Z3 ->
  x1 * (1 - py (padd Q3 (pneg Q2))) = 1 + py (padd Q3 (pneg Q2)) -> x1 <> 0 ->
  let da := (X3 - Z3) * (X2 + Z2) in let cb := (X3 + Z3) * (X2 - Z2) in
  mont (padd Q2 Q3) ((da + cb) * (da + cb)) (x1 * ((da - cb) * (da - cb))).
Proof.
  intros (l & Hl & -> & ->) (m & Hm & -> & ->) Hx Nx. cbv zeta.
  pose proof (den_m _ _ _ _ (pt_on Q2) (pt_on Q3)) as Nm. pose proof (den_m _ _ _ _ (pt_on Q3) (pt_on (pneg Q2))) as Np.
  pose proof (pt_on Q2) as H2. pose proof (pt_on Q3) as H3.
  assert (Ny : 1 - py (padd Q3 (pneg Q2)) <> 0).
  { intros E. rewrite E in Hx. apply two. transitivity (1 + py (padd Q3 (pneg Q2)) + (1 - py (padd Q3 (pneg Q2)))); [ring|].
    rewrite <- Hx, E. ring. }
  apply mont_intro.
  - apply (cancel_l _ _ _ Ny).
    match goal with |- ?D * (?A * (1 - ?s)) = ?D * (x1 * ?B * (1 + ?s)) =>
      transitivity (D * (1 - s) * A); [ring|]; transitivity (x1 * D * (1 + s) * B); [|ring] end.
    rewrite Hx. clear Hx Nx Ny. revert Nm Np H2 H3. cbn [px py padd pneg]. unfold ya, onc.
    generalize (px Q2) (py Q2) (px Q3) (py Q3). intros x2 y2 x3 y3 Nm Np H2 H3.
    apply (cancel_l ((1 - d * x2 * x3 * y2 * y3) * (1 - d * x3 * - x2 * y3 * y2))); [apply mul_n0; assumption|].
    match goal with |- ?D1 * ?D2 * ((1 - ?N2 / ?D2) * (1 - ?N1 / ?D1) * ?A) = ?D1 * ?D2 * ((1 + ?N2 / ?D2) * (1 + ?N1 / ?D1) * ?B) =>
      transitivity ((D2 - N2) * (D1 - N1) * A); [field; split; assumption|];
      transitivity ((D2 + N2) * (D1 + N1) * B); [|field; split; assumption] end.
    transitivity (l * l * (m * m) * ((1 + 1) * (1 + 1) * ((1 + 1) * (1 + 1))) *
      ((1 - d * x3 * - x2 * y3 * y2 - (y3 * y2 + x3 * - x2)) * (1 - d * x2 * x3 * y2 * y3 - (y2 * y3 + x2 * x3)) *
       ((y2 + y3) * (y2 + y3)))); [ring|].
    transitivity (l * l * (m * m) * ((1 + 1) * (1 + 1) * ((1 + 1) * (1 + 1))) *
      ((1 - d * x3 * - x2 * y3 * y2 + (y3 * y2 + x3 * - x2)) * (1 - d * x2 * x3 * y2 * y3 + (y2 * y3 + x2 * x3)) *
       ((y3 - y2) * (y3 - y2)))); [|ring].
    f_equal. clear - H2 H3 Fth Fdec. nsatz.
  - destruct (Fdec (py Q2 + py Q3) 0) as [E|N]; [right|left].
    + destruct (Fdec (py Q2) 0) as [E2|N2].
      * exfalso. assert (E3 : py Q3 = 0) by (rewrite <- E, E2; ring). clear E Nm Np Ny.
        revert Hx Nx H2 H3. cbn [px py padd pneg]. unfold ya, onc. rewrite E2, E3.
        generalize (px Q2) (px Q3). intros x2 x3 Hx Nx H2 H3.
        assert (S : x3 * x3 = x2 * x2).
        { transitivity (- (0 * 0 - x3 * x3)); [ring|]. rewrite H3. transitivity (- (0 * 0 - x2 * x2)); [rewrite H2|]; ring. }
        replace (1 - d * x3 * - x2 * 0 * 0) with 1 in Hx by ring.
        assert (M : x2 * x2 = - (1)) by (transitivity (- (0 * 0 - x2 * x2)); [ring|]; rewrite H2; ring).
        destruct (square_eq _ _ S) as [-> | ->].
        -- replace ((0 * 0 + x2 * - x2) / 1) with 1 in Hx.
           2:{ transitivity (- (x2 * x2)); [rewrite M; ring|]. field. exact (F_1_neq_0 Fth). }
           apply two. rewrite <- Hx. ring.
        -- replace ((0 * 0 + - x2 * - x2) / 1) with (- (1)) in Hx.
           2:{ rewrite <- M. field. exact (F_1_neq_0 Fth). }
           destruct (mul_0 x1 (1 + 1)) as [|]; [|contradiction|contradiction].
           transitivity (x1 * (1 - - (1))); [ring|]. rewrite Hx. ring.
      * assert (E3 : py Q3 = - py Q2) by (apply sub_0; rewrite <- E; ring). rewrite E3.
        match goal with |- ?B <> 0 => replace B with (x1 * (l * l * (m * m) * ((1 + 1) * (1 + 1) * ((1 + 1) * (1 + 1)) * ((1 + 1) * (1 + 1))) * (py Q2 * py Q2))) by ring end.
        repeat apply mul_n0; assumption.
    + match goal with |- ?B <> 0 => replace B with (l * l * (m * m) * ((1 + 1) * (1 + 1) * ((1 + 1) * (1 + 1))) * ((py Q2 + py Q3) * (py Q2 + py Q3))) by ring end.
      repeat apply mul_n0; assumption.
Qed.
Lemma mont_ext P x y z t : ext P x y z t -> mont P (z + y) (z - y).
Proof. intros (Hz & _ & -> & _). exists z. split; [exact Hz|]. split; ring. Qed.
Lemma mont_affine P : 1 - py P <> 0 -> mont P ((1 + py P) * inv (1 - py P)) 1.
Proof.
  intros N. exists (inv (1 - py P)). split; [|split; field; exact N].
  intros E. apply (F_1_neq_0 Fth). transitivity ((1 - py P) * inv (1 - py P)); [field; exact N|]. rewrite E. ring.
Qed.
Lemma mont_zero : mont pzero 1 0.
Proof.
  exists (inv (1 + 1)). cbn. split; [|split; [field; exact two|ring]].
  intros E. apply (F_1_neq_0 Fth). transitivity ((1 + 1) * inv (1 + 1)); [field; exact two|]. rewrite E. ring.
Qed.
End Edwards.
