(** * CurveGroup: the arithmetic of [CurveAsym] on edwards25519 computes in the group of [Edwards.v]. *)
From Coq Require Import Ring Field Setoid ZifyBool ZifyNat ZifyN Lia.
From Verif Require Import Bytes BytesLemmas Prims ConcreteSym CurveAsym CurveWeak Primes Edwards Field255.
Local Open Scope N_scope.
Local Notation p := p255.

#[local] Hint Resolve f_mul_rep f_add_rep f_sub_rep rep4 rep_2 : reps.

Section Group.
(** [K255] and [phi], kept abstract. *)
Variable K : edfield.
Variable ph : N -> K.
Hypothesis ph_add : forall a b, ph (a + b) = kadd K (ph a) (ph b).
Hypothesis ph_mul : forall a b, ph (a * b) = kmul K (ph a) (ph b).
Hypothesis ph_0 : ph 0 = k0 K.
Hypothesis ph_1 : ph 1 = k1 K.
Hypothesis ph_eq : forall a b, ph a = ph b <-> a mod p = b mod p.
Hypothesis ph_d : ph ed_d = kd K.
Hypothesis ph_i : ph sqrt_m1 = ki K.
Hypothesis ph_a24 : ph 121665 = ka24 K.
Hypothesis ph_k : kk K = k255.

Declare Scope g_scope.
Delimit Scope g_scope with g.
Local Notation "0" := (k0 K) : g_scope. Local Notation "1" := (k1 K) : g_scope.
Local Infix "+" := (kadd K) : g_scope. Local Infix "*" := (kmul K) : g_scope. Local Infix "-" := (ksub K) : g_scope.
Local Notation "- x" := (kopp K x) : g_scope.
Let Kth := kth K.
Add Field Kf : Kth.

Lemma ph_p : ph p = 0%g.
Proof. rewrite <- ph_0. apply ph_eq. reflexivity. Qed.
Lemma ph_2 a : ph (2 * a) = ((1 + 1) * ph a)%g.
Proof. rewrite ph_mul. change 2 with (1 + 1). rewrite ph_add, ph_1. reflexivity. Qed.
Lemma ph_f_mul a b : ph (f_mul a b) = (ph a * ph b)%g.
Proof. rewrite <- ph_mul. apply ph_eq, f_mul_mod. Qed.
Lemma ph_f_add a b : ph (f_add a b) = (ph a + ph b)%g.
Proof. rewrite <- ph_add. apply ph_eq, f_add_mod. Qed.
Lemma ph_f_sub a b : rep b -> ph (f_sub a b) = (ph a - ph b)%g.
Proof.
  intros H. transitivity (ph (a + (2 * p - b))); [apply ph_eq, f_sub_mod|]. rewrite ph_add.
  assert (E : (ph (2 * p - b) + ph b)%g = 0%g).
  { rewrite <- ph_add. unfold rep in H. replace (2 * p - b + b) with (2 * p) by lia. rewrite ph_2, ph_p. ring. }
  transitivity (ph a + (ph (2 * p - b) + ph b) - ph b)%g; [ring|]. rewrite E. ring.
Qed.
Lemma ph_can a : ph (f_can a) = ph a.
Proof. apply ph_eq. unfold f_can. apply N.mod_mod, p_pos. Qed.
Lemma can_eq a b : ph a = ph b -> f_can a = f_can b.
Proof. intros H. apply ph_eq in H. exact H. Qed.
Lemma can_lt a : f_can a < p.
Proof. apply N.mod_lt, p_pos. Qed.
Lemma can_rep a : rep (f_can a).
Proof. pose proof (can_lt a). unfold rep. lia. Qed.
Lemma can_can a b : a < p -> ph a = ph (f_can b) -> a = f_can b.
Proof. intros H E. rewrite ph_can in E. apply can_eq in E. rewrite <- E. symmetry. apply N.mod_small, H. Qed.
Lemma f_eq_ph a b : f_eq a b = true <-> ph a = ph b.
Proof. unfold f_eq. rewrite N.eqb_eq. symmetry. apply ph_eq. Qed.
Lemma ph_pow a n : ph (a ^ n) = pw K (ph a) n.
Proof.
  induction n as [|n IH] using N.peano_ind; [rewrite pw_0; exact ph_1|].
  rewrite N.pow_succ_r', ph_mul, IH, pw_succ. reflexivity.
Qed.
Lemma ph_f_pow a e : ph (f_pow a e) = pw K (ph a) (N.pos e).
Proof. rewrite <- ph_pow. apply ph_eq, f_pow_mod. Qed.
Lemma f_inv_0 a : ph a = 0%g -> ph (f_inv a) = 0%g.
Proof.
  intros H. unfold f_inv. rewrite ph_f_pow, N.succ_pos_spec, pw_succ, H. ring.
Qed.
Lemma f_inv_n0 a : ph a <> 0%g -> ph (f_inv a) = kinv K (ph a).
Proof.
  intros H. unfold f_inv. rewrite ph_f_pow. change (N.pos (N.succ_pos (p - 3))) with (p - 2).
  apply (cancel_l K (ph a)); [exact H|]. rewrite <- pw_succ. change (N.succ (p - 2)) with (8 * k255 + 4).
  rewrite <- ph_k. rewrite (fermat K (ph a) H). field. exact H.
Qed.
Lemma rep_f_pow a e : a <= 4 * p -> e <> xH -> rep (f_pow a e).
Proof.
  intros Ha He. assert (G : forall e, f_pow a e <= 4 * p).
  { clear e He. induction e as [e IH|e IH|]; cbn [f_pow]; auto with reps. }
  destruct e; cbn [f_pow]; auto with reps. contradiction.
Qed.

(** ** Points *)
Definition R (q : ed_point) (P : pt K) : Prop :=
  let '(x, y, z, t) := q in
  rep x /\ rep y /\ rep z /\ rep t /\ ext K P (ph x) (ph y) (ph z) (ph t).

Lemma R_zero : R ed_zero (pzero K).
Proof.
  unfold R, ed_zero. do 4 (split; [discriminate|]). rewrite ph_0, ph_1. apply ext_zero.
Qed.
Lemma R_neg q P : R q P -> R (ed_neg q) (pneg K P).
Proof.
  destruct q as [[[x y] z] t]. intros (Rx & Ry & Rz & Rt & H). unfold R, ed_neg.
  assert (Z : 0 <= 4 * p) by discriminate.
  do 4 (split; [solve [auto with reps]|]). rewrite !ph_f_sub, ph_0 by assumption. apply ext_neg, H.
Qed.
Lemma R_add q1 q2 P1 P2 : R q1 P1 -> R q2 P2 -> R (ed_add q1 q2) (padd K P1 P2).
Proof.
  destruct q1 as [[[x1 y1] z1] t1], q2 as [[[x2 y2] z2] t2].
  intros (Rx1 & Ry1 & Rz1 & Rt1 & H1) (Rx2 & Ry2 & Rz2 & Rt2 & H2).
  pose proof (ext_add K _ _ _ _ _ _ _ _ _ _ H1 H2) as H. cbv zeta in H. unfold ed_add.
  set (a := f_mul (f_sub y1 x1) (f_sub y2 x2)). set (b := f_mul (f_add y1 x1) (f_add y2 x2)).
  set (c := f_mul (f_mul t1 (2 * ed_d)) t2). set (d := f_mul z1 (2 * z2)).
  set (e := f_sub b a). set (f := f_sub d c). set (g := f_add d c). set (h := f_add b a).
  assert (Ra : rep a) by (unfold a; auto with reps). assert (Rb : rep b) by (unfold b; auto with reps).
  assert (Rc : rep c).
  { unfold c. apply f_mul_rep; [|auto with reps]. apply rep4, f_mul_rep; [auto with reps|discriminate]. }
  assert (Rd : rep d) by (unfold d; auto with reps).
  assert (Re : rep e) by (unfold e; auto with reps). assert (Rf : rep f) by (unfold f; auto with reps).
  assert (Rg : rep g) by (unfold g; auto with reps). assert (Rh : rep h) by (unfold h; auto with reps).
  unfold R. do 4 (split; [solve [auto with reps]|]).
  assert (Ea : ph a = ((ph y1 - ph x1) * (ph y2 - ph x2))%g) by (unfold a; rewrite ph_f_mul, !ph_f_sub by assumption; reflexivity).
  assert (Eb : ph b = ((ph y1 + ph x1) * (ph y2 + ph x2))%g) by (unfold b; rewrite ph_f_mul, !ph_f_add; reflexivity).
  assert (Ec : ph c = (ph t1 * ((1 + 1) * kd K) * ph t2)%g) by (unfold c; rewrite !ph_f_mul, ph_2, ph_d; reflexivity).
  assert (Ed : ph d = (ph z1 * ((1 + 1) * ph z2))%g) by (unfold d; rewrite ph_f_mul, ph_2; reflexivity).
  assert (Ee : ph e = (ph b - ph a)%g) by (apply ph_f_sub; assumption).
  assert (Ef : ph f = (ph d - ph c)%g) by (apply ph_f_sub; assumption).
  assert (Eg : ph g = (ph d + ph c)%g) by (apply ph_f_add; assumption).
  assert (Eh : ph h = (ph b + ph a)%g) by (apply ph_f_add; assumption).
  rewrite !ph_f_mul, Ee, Ef, Eg, Eh, Ea, Eb, Ec, Ed. exact H.
Qed.
Lemma R_dbl q P : R q P -> R (ed_dbl q) (padd K P P).
Proof.
  destruct q as [[[x y] z] t]. intros (Rx & Ry & Rz & Rt & H1).
  pose proof (ext_dbl K _ _ _ _ _ H1) as H. cbv zeta in H. unfold ed_dbl.
  set (a := f_mul x x). set (b := f_mul y y). set (c := f_mul z (2 * z)).
  set (h := f_add a b). set (xy := f_add x y). set (e := f_sub h (f_mul xy xy)).
  set (g := f_sub a b). set (f := f_add c g).
  assert (Ra : rep a) by (unfold a; auto with reps). assert (Rb : rep b) by (unfold b; auto with reps).
  assert (Rc : rep c) by (unfold c; auto with reps). assert (Rh : rep h) by (unfold h; auto with reps).
  assert (Rxy : rep xy) by (unfold xy; auto with reps). assert (Re : rep e) by (unfold e; auto with reps).
  assert (Rg : rep g) by (unfold g; auto with reps). assert (Rf : rep f) by (unfold f; auto with reps).
  unfold R. do 4 (split; [solve [auto with reps]|]).
  assert (Ea : ph a = (ph x * ph x)%g) by apply ph_f_mul. assert (Eb : ph b = (ph y * ph y)%g) by apply ph_f_mul.
  assert (Ec : ph c = (ph z * ((1 + 1) * ph z))%g) by (unfold c; rewrite ph_f_mul, ph_2; reflexivity).
  assert (Eh : ph h = (ph a + ph b)%g) by apply ph_f_add. assert (Exy : ph xy = (ph x + ph y)%g) by apply ph_f_add.
  assert (Ee : ph e = (ph h - ph xy * ph xy)%g) by (unfold e; rewrite ph_f_sub, ph_f_mul by auto with reps; reflexivity).
  assert (Eg : ph g = (ph a - ph b)%g) by (apply ph_f_sub; assumption).
  assert (Ef : ph f = (ph c + ph g)%g) by apply ph_f_add.
  rewrite !ph_f_mul, Ee, Ef, Eg, Eh, Exy, Ea, Eb, Ec. exact H.
Qed.
Lemma R_smul n q P : R q P -> R (ed_smul n q) (smul K n P).
Proof.
  intros H. destruct n as [|e]; [exact R_zero|]. cbn [ed_smul].
  induction e as [e IH|e IH|]; cbn [ed_smul_pos].
  - replace (N.pos e~1) with (1 + (N.pos e + N.pos e)) by lia. rewrite !smul_add, smul_1.
    apply R_add; [exact H|]. apply R_dbl, IH.
  - replace (N.pos e~0) with (N.pos e + N.pos e) by lia. rewrite smul_add. apply R_dbl, IH.
  - rewrite smul_1. exact H.
Qed.

(** ** Encodings *)
Lemma R_z q P : R q P -> let '(x, y, z, t) := q in ph z <> 0%g.
Proof. destruct q as [[[x y] z] t]. intros (_ & _ & _ & _ & H). apply H. Qed.
Lemma compress_spec q P : R q P -> exists x y, x < p /\ y < p /\ ph x = px K P /\ ph y = py K P /\
  ed_compress q = le_bytes 32 (y + (if N.odd x then 2 ^ 255 else 0)).
Proof.
  destruct q as [[[x y] z] t]. intros (_ & _ & _ & _ & H). unfold ed_compress.
  exists (f_can (f_mul x (f_inv z))), (f_can (f_mul y (f_inv z))).
  split; [apply can_lt|]. split; [apply can_lt|]. rewrite !ph_can, !ph_f_mul, f_inv_n0 by apply H.
  split; [exact (ext_x K _ _ _ _ _ H)|]. split; [exact (ext_y K _ _ _ _ _ H)|reflexivity].
Qed.
Lemma small_eq a b : a < p -> b < p -> ph a = ph b -> a = b.
Proof. intros Ha Hb E. apply ph_eq in E. rewrite !N.mod_small in E by assumption. exact E. Qed.
Lemma compress_fun q q' P : R q P -> R q' P -> ed_compress q = ed_compress q'.
Proof.
  intros H H'. apply compress_spec in H as (x & y & Lx & Ly & Ex & Ey & ->).
  apply compress_spec in H' as (x' & y' & Lx' & Ly' & Ex' & Ey' & ->).
  rewrite (small_eq x x'), (small_eq y y') by (assumption || congruence). reflexivity.
Qed.

Lemma odd_sub x : 0 < x -> x < p -> N.odd (p - x) = negb (N.odd x).
Proof.
  intros H0 H. rewrite N.odd_sub by lia. change (N.odd p) with true. reflexivity.
Qed.
Lemma opp_small x x' : x < p -> x' < p -> ph x' = (- ph x)%g -> x = 0 /\ x' = 0 \/ 0 < x /\ x' = p - x.
Proof.
  intros Hx Hx' E. assert (S : ph (x + x') = ph 0) by (rewrite ph_add, E, ph_0; ring).
  apply ph_eq in S. rewrite N.mod_0_l in S by apply p_pos. apply N.mod_divide in S; [|apply p_pos].
  destruct S as [c S]. destruct (N.eq_dec c 0) as [->|]; [left; lia|]. right.
  assert (c = 1) by (destruct (N.le_gt_cases 2 c); [|lia]; assert (2 * p <= c * p) by (apply N.mul_le_mono_r; assumption); lia).
  subst c. lia.
Qed.

Lemma decompress_ok q P : R q P -> exists q', ed_decompress (ed_compress q) = Some q' /\ R q' P.
Proof.
  intros H. apply compress_spec in H as (x0 & y & Lx & Ly & Ex & Ey & ->). unfold ed_decompress.
  assert (En : le_val (le_bytes 32 (y + (if N.odd x0 then 2 ^ 255 else 0))) = y + N.b2n (N.odd x0) * 2 ^ 255).
  { rewrite le_val_le_bytes. change (256 ^ N.of_nat 32) with (2 ^ 255 + 2 ^ 255). pose proof split255.
    destruct (N.odd x0); cbn [N.b2n]; apply N.mod_small; lia. }
  rewrite En. clear En.
  assert (E1 : N.land (y + N.b2n (N.odd x0) * 2 ^ 255) mask255 = y).
  { change mask255 with (N.ones 255). rewrite N.land_ones, N.mod_add by discriminate. apply N.mod_small.
    pose proof split255. lia. }
  assert (E2 : N.testbit (y + N.b2n (N.odd x0) * 2 ^ 255) 255 = N.odd x0).
  { rewrite N.testbit_eqb, N.div_add, N.div_small by (discriminate || (pose proof split255; lia)).
    destruct (N.odd x0); reflexivity. }
  rewrite E1, E2. clear E1 E2. cbv zeta.
  assert (Ry : rep y) by (unfold rep; lia).
  set (yy := f_mul y y). set (u := f_sub yy 1). set (v := f_add (f_mul ed_d yy) 1).
  set (v3 := f_mul v (f_mul v v)). set (v7 := f_mul v (f_mul v3 v3)).
  set (pw_ := f_pow (f_mul u v7) _). set (r := f_mul (f_mul u v3) pw_).
  assert (Ryy : rep yy) by (unfold yy; auto with reps).
  assert (R1 : rep 1) by discriminate.
  assert (Ru : rep u) by (unfold u; auto with reps).
  assert (Rv : rep v) by (unfold v; apply f_add_rep; [apply rep4, f_mul_rep; [discriminate|auto with reps]|discriminate]).
  assert (Rv3 : rep v3) by (unfold v3; auto with reps). assert (Rv7 : rep v7) by (unfold v7; auto with reps).
  assert (Rpw : rep pw_) by (unfold pw_; apply rep_f_pow; [auto with reps|discriminate]).
  assert (Rr : rep r) by (unfold r; auto with reps).
  pose proof (pt_on K P) as On. rewrite <- Ex, <- Ey in On.
  assert (Pv : ph v = (kd K * (ph y * ph y) + 1)%g) by (unfold v, yy; rewrite ph_f_add, !ph_f_mul, ph_d, ph_1; reflexivity).
  assert (Pu : ph u = (ph v * (ph x0 * ph x0))%g).
  { unfold u, yy. rewrite ph_f_sub, ph_f_mul, ph_1 by discriminate. rewrite Pv. apply onc_u. exact On. }
  assert (Nv : ph v <> 0%g) by (rewrite Pv; apply v_n0).
  assert (Pr : (ph r * ph r = ph x0 * ph x0)%g \/ (ph r * ph r = - (ph x0 * ph x0))%g).
  { pose proof (root K _ _ _ Nv Pu) as Q. cbv zeta in Q. unfold r, pw_.
    rewrite !ph_f_mul, ph_f_pow. unfold v7. rewrite !ph_f_mul. unfold v3. rewrite !ph_f_mul.
    change (N.pos (N.succ_pos ((p - 5) / 8 - 1))) with k255. rewrite <- ph_k. exact Q. }
  set (vxx := f_mul v (f_mul r r)).
  assert (Pvxx : ph vxx = (ph v * (ph r * ph r))%g) by (unfold vxx; rewrite !ph_f_mul; reflexivity).
  (* the chosen root *)
  assert (C : exists s, (if f_eq vxx u then Some r else if f_eq vxx (f_sub 0 u) then Some (f_mul r sqrt_m1) else None) = Some s /\
    (ph s * ph s = ph x0 * ph x0)%g).
  { destruct (f_eq vxx u) eqn:T1.
    - exists r. split; [reflexivity|]. apply f_eq_ph in T1. rewrite Pvxx, Pu in T1. exact (cancel_l K _ _ _ Nv T1).
    - destruct Pr as [Pr|Pr].
      { exfalso. rewrite <- Bool.not_true_iff_false in T1. apply T1, f_eq_ph. rewrite Pvxx, Pu, Pr. reflexivity. }
      assert (T2 : f_eq vxx (f_sub 0 u) = true).
      { apply f_eq_ph. rewrite ph_f_sub by assumption. rewrite Pvxx, Pr, Pu, ph_0. ring. }
      rewrite T2. exists (f_mul r sqrt_m1). split; [reflexivity|]. rewrite !ph_f_mul, ph_i.
      transitivity (ph r * ph r * (ki K * ki K))%g; [ring|]. rewrite Pr, (ki_sq K). ring. }
  destruct C as (s & -> & Ps). apply square_eq in Ps.
  set (xc := f_can s). assert (Lxc : xc < p) by apply can_lt.
  assert (Pxc : ph xc = ph x0 \/ ph xc = (- ph x0)%g) by (unfold xc; rewrite ph_can; exact Ps).
  assert (Rxc : rep xc) by apply can_rep.
  set (xf := if Bool.eqb (N.odd xc) (N.odd x0) then xc else f_sub 0 xc).
  assert (Pxf : ph xf = px K P).
  { rewrite <- Ex. unfold xf. destruct Pxc as [E|E].
    - rewrite (small_eq _ _ Lxc Lx E), Bool.eqb_reflx. reflexivity.
    - destruct (opp_small _ _ Lx Lxc E) as [[-> ->]|[Hx0 Exc]]; [reflexivity|].
      rewrite Exc at 1. rewrite odd_sub by assumption.
      replace (Bool.eqb (negb (N.odd x0)) (N.odd x0)) with false by (destruct (N.odd x0); reflexivity).
      rewrite ph_f_sub, E, ph_0 by assumption. ring. }
  assert (Rxf : rep xf).
  { unfold xf. destruct (Bool.eqb _ _); [exact Rxc|]. apply f_sub_rep. discriminate. }
  exists (xf, y, 1, f_mul xf y). split; [reflexivity|]. unfold R.
  do 4 (split; [solve [auto with reps]|]). rewrite ph_f_mul, Pxf, Ey, ph_1. apply ext_affine.
Qed.

(** ** The Montgomery coordinate *)
Lemma mont_inv P x z : mont K P (ph x) (ph z) ->
  ph (f_mul x (f_inv z)) = (if kdec K (1 - py K P)%g 0%g then 0 else (1 + py K P) * kinv K (1 - py K P))%g.
Proof.
  intros (l & Hl & Hx & Hz). rewrite ph_f_mul. destruct (kdec K _ _) as [E|E].
  - rewrite f_inv_0; [ring|]. rewrite Hz, E. ring.
  - rewrite f_inv_n0, Hx, Hz; [field; split; assumption|]. rewrite Hz. apply mul_n0; assumption.
Qed.
Lemma mont_fun P x z x' z' : mont K P (ph x) (ph z) -> mont K P (ph x') (ph z') ->
  f_can (f_mul x (f_inv z)) = f_can (f_mul x' (f_inv z')).
Proof. intros H H'. apply can_eq. rewrite (mont_inv P), (mont_inv P) by assumption. reflexivity. Qed.
Lemma R_mont q P : R q P -> exists x z, mont K P (ph x) (ph z) /\ ed_point_to_mont q = le_bytes 32 (f_can (f_mul x (f_inv z))).
Proof.
  destruct q as [[[x y] z] t]. intros (Rx & Ry & Rz & Rt & H). exists (f_add z y), (f_sub z y). split; [|reflexivity].
  rewrite ph_f_add, ph_f_sub by assumption. exact (mont_ext K _ _ _ _ _ H).
Qed.

(** ** The ladder *)
Lemma neg_py P Q : py K (padd K P (pneg K Q)) = py K (padd K Q (pneg K P)).
Proof.
  assert (E : padd K P (pneg K Q) = pneg K (padd K Q (pneg K P))).
  { rewrite pneg_add, padd_comm. f_equal. apply pt_ext; cbn [px py pneg]; [ring|reflexivity]. }
  rewrite E. reflexivity.
Qed.
Lemma step_ok Q2 Q3 x1 x2 z2 x3 z3 : rep x1 -> rep x2 -> rep z2 -> rep x3 -> rep z3 ->
  mont K Q2 (ph x2) (ph z2) -> mont K Q3 (ph x3) (ph z3) ->
  (ph x1 * (1 - py K (padd K Q3 (pneg K Q2))) = 1 + py K (padd K Q3 (pneg K Q2)))%g -> ph x1 <> 0%g ->
  let a := f_add x2 z2 in let aa := f_mul a a in
  let b := f_sub x2 z2 in let bb := f_mul b b in
  let e := f_sub aa bb in
  let c := f_add x3 z3 in let d := f_sub x3 z3 in
  let da := f_mul d a in let cb := f_mul c b in
  let s := f_add da cb in let t := f_sub da cb in
  rep (f_mul aa bb) /\ rep (f_mul e (f_add aa (f_mul 121665 e))) /\
  rep (f_mul s s) /\ rep (f_mul x1 (f_mul t t)) /\
  mont K (padd K Q2 Q2) (ph (f_mul aa bb)) (ph (f_mul e (f_add aa (f_mul 121665 e)))) /\
  mont K (padd K Q2 Q3) (ph (f_mul s s)) (ph (f_mul x1 (f_mul t t))).
Proof.
  intros R1 R2 R2' R3 R3' M2 M3 E1 N1 a aa b bb e c d da cb s t.
  assert (Ra : rep a) by (unfold a; auto with reps). assert (Rb : rep b) by (unfold b; auto with reps).
  assert (Raa : rep aa) by (unfold aa; auto with reps). assert (Rbb : rep bb) by (unfold bb; auto with reps).
  assert (Re : rep e) by (unfold e; auto with reps). assert (Rc : rep c) by (unfold c; auto with reps).
  assert (Rd : rep d) by (unfold d; auto with reps). assert (Rda : rep da) by (unfold da; auto with reps).
  assert (Rcb : rep cb) by (unfold cb; auto with reps). assert (Rs : rep s) by (unfold s; auto with reps).
  assert (Rt : rep t) by (unfold t; auto with reps).
  split; [auto with reps|]. split.
  { apply f_mul_rep; [auto with reps|]. apply rep4, f_add_rep; [auto with reps|].
    apply rep4, f_mul_rep; [discriminate|auto with reps]. }
  split; [auto with reps|]. split; [auto with reps|].
  assert (Pa : ph a = (ph x2 + ph z2)%g) by apply ph_f_add. assert (Pb : ph b = (ph x2 - ph z2)%g) by (apply ph_f_sub; assumption).
  assert (Paa : ph aa = (ph a * ph a)%g) by apply ph_f_mul. assert (Pbb : ph bb = (ph b * ph b)%g) by apply ph_f_mul.
  assert (Pe : ph e = (ph aa - ph bb)%g) by (apply ph_f_sub; assumption).
  assert (Pc : ph c = (ph x3 + ph z3)%g) by apply ph_f_add. assert (Pd : ph d = (ph x3 - ph z3)%g) by (apply ph_f_sub; assumption).
  assert (Pda : ph da = (ph d * ph a)%g) by apply ph_f_mul. assert (Pcb : ph cb = (ph c * ph b)%g) by apply ph_f_mul.
  assert (Ps : ph s = (ph da + ph cb)%g) by apply ph_f_add. assert (Pt : ph t = (ph da - ph cb)%g) by (apply ph_f_sub; assumption).
  split.
  - pose proof (mont_dbl K _ _ _ M2) as D. cbv zeta in D.
    rewrite !ph_f_mul, ph_f_add, ph_f_mul, ph_a24, Pe, Paa, Pbb, Pa, Pb. exact D.
  - pose proof (mont_dadd K _ _ _ _ _ _ _ M2 M3 E1 N1) as D. cbv zeta in D.
    rewrite !ph_f_mul, Ps, Pt, Pda, Pcb, Pa, Pb, Pc, Pd. exact D.
Qed.

Lemma shiftr_succ k i : N.shiftr k i = 2 * N.shiftr k (N.succ i) + N.b2n (N.testbit k i).
Proof.
  rewrite !N.shiftr_div_pow2, N.pow_succ_r', (N.mul_comm 2 (2 ^ i)), <- N.div_div by (discriminate || (apply N.pow_nonzero; discriminate)).
  rewrite N.testbit_spec'. apply N.div_mod. discriminate.
Qed.
Lemma ladder_ok P k x1 : rep x1 -> (ph x1 * (1 - py K P) = 1 + py K P)%g -> ph x1 <> 0%g ->
  forall i x2 z2 x3 z3, rep x2 -> rep z2 -> rep x3 -> rep z3 ->
  let n := N.shiftr k (N.of_nat i) in
  mont K (smul K n P) (ph x2) (ph z2) -> mont K (smul K (N.succ n) P) (ph x3) (ph z3) ->
  let '(x, z) := ladder i k x1 x2 z2 x3 z3 in mont K (smul K k P) (ph x) (ph z).
Proof.
  intros R1 E1 N1. induction i as [|i IH]; intros x2 z2 x3 z3 R2 R2' R3 R3' n M2 M3; cbn [ladder].
  - unfold n in M2. cbn [N.of_nat] in M2. rewrite N.shiftr_0_r in M2. exact M2.
  - assert (D : padd K (smul K (N.succ n) P) (pneg K (smul K n P)) = P)
      by (rewrite smul_succ, padd_assoc, padd_neg, padd_0_r; reflexivity).
    pose proof (shiftr_succ k (N.of_nat i)) as S. replace (N.succ (N.of_nat i)) with (N.of_nat (Datatypes.S i)) in S by lia.
    fold n in S. destruct (N.testbit k (N.of_nat i)); cbn [N.b2n] in S.
    + destruct (step_ok (smul K (N.succ n) P) (smul K n P) x1 x3 z3 x2 z2) as (A1 & A2 & A3 & A4 & D1 & D2); try assumption.
      { rewrite neg_py, D. exact E1. }
      apply IH; try assumption.
      * rewrite S. replace (2 * n + 1) with (N.succ n + n) by lia. rewrite smul_add. exact D2.
      * rewrite S. replace (N.succ (2 * n + 1)) with (N.succ n + N.succ n) by lia. rewrite smul_add. exact D1.
    + destruct (step_ok (smul K n P) (smul K (N.succ n) P) x1 x2 z2 x3 z3) as (A1 & A2 & A3 & A4 & D1 & D2); try assumption.
      { rewrite D. exact E1. }
      apply IH; try assumption.
      * rewrite S. replace (2 * n + 0) with (n + n) by lia. rewrite smul_add. exact D1.
      * rewrite S. replace (N.succ (2 * n + 0)) with (n + N.succ n) by lia. rewrite smul_add. exact D2.
Qed.

(** Points with [y = 1] or [y = -1] and their multiples. *)
Definition low (P : pt K) : Prop := px K P = 0%g /\ (py K P = 1%g \/ py K P = (- (1))%g).
Lemma low_y P : py K P = 1%g \/ py K P = (- (1))%g -> low P.
Proof.
  intros H. split; [|exact H]. pose proof (onc_u K _ _ (pt_on K P)) as U.
  assert (E : (py K P * py K P = 1)%g) by (destruct H as [-> | ->]; ring). rewrite E in U.
  assert (Z : ((kd K * 1 + 1) * (px K P * px K P) = 0)%g) by (rewrite <- U; ring).
  apply mul_0 in Z as [Z|Z].
  - exfalso. apply (v_n0 K 1%g). rewrite <- Z. ring.
  - apply mul_0 in Z as [Z|Z]; exact Z.
Qed.
Lemma low_add P Q : low P -> low Q -> low (padd K P Q).
Proof.
  intros [Px Py] [Qx Qy]. unfold low. cbn [px py padd]. unfold xa, ya. rewrite Px, Qx.
  assert (N : 1%g <> 0%g) by exact (F_1_neq_0 Kth). split.
  - replace (1 + kd K * 0 * 0 * py K P * py K Q)%g with 1%g by ring. field. exact N.
  - replace (1 - kd K * 0 * 0 * py K P * py K Q)%g with 1%g by ring.
    destruct Py as [-> | ->], Qy as [-> | ->]; [left|right|right|left]; field; exact N.
Qed.
Lemma low_smul n P : low P -> low (smul K n P).
Proof.
  intros H. induction n as [|n IH] using N.peano_ind; [split; [reflexivity|left; reflexivity]|].
  rewrite smul_succ. apply low_add; assumption.
Qed.
Lemma low_mont P x z : low P -> mont K P (ph x) (ph z) -> f_can (f_mul x (f_inv z)) = 0.
Proof.
  intros [_ Hy] M. change 0 with (f_can 0). apply can_eq. rewrite (mont_inv P x z M), ph_0.
  destruct (kdec K _ _) as [E|E]; [reflexivity|]. destruct Hy as [Hy|Hy]; rewrite Hy in *.
  - exfalso. apply E. ring.
  - replace (1 + - (1))%g with 0%g by ring. ring.
Qed.
Lemma low_iff P x z : mont K P (ph x) (ph z) -> f_can (f_mul x (f_inv z)) = 0 -> low P.
Proof.
  intros M E. apply low_y. assert (Z : ph (f_can (f_mul x (f_inv z))) = 0%g) by (rewrite E; exact ph_0).
  rewrite ph_can, (mont_inv P x z M) in Z. destruct (kdec K _ _) as [E1|E1].
  - left. symmetry. apply (sub_0 K). exact E1.
  - right. apply (sub_0 K). apply mul_0 in Z as [Z|Z]; [rewrite <- Z; ring|].
    exfalso. apply (F_1_neq_0 Kth). transitivity ((1 - py K P) * kinv K (1 - py K P))%g; [field; exact E1|].
    rewrite Z. ring.
Qed.

Lemma x_mul_ok q P s : R q P -> le_val s < 2 ^ 255 ->
  curve_x_mul s (ed_point_to_mont q) = ed_point_to_mont (ed_smul (le_val s) q).
Proof.
  intros H Hs. destruct (R_mont _ _ (R_smul (le_val s) _ _ H)) as (x' & z' & M' & ->).
  destruct (R_mont _ _ H) as (x & z & M & ->).
  destruct (N.eq_dec (f_can (f_mul x (f_inv z))) 0) as [E|N].
  - rewrite E. change (le_bytes 32 0) with (repeat x00 32). rewrite weak_x_mul.
    rewrite (low_mont _ _ _ (low_smul (le_val s) P (low_iff P x z M E)) M'). reflexivity.
  - unfold curve_x_mul. rewrite le_val_le_bytes.
    assert (L : f_can (f_mul x (f_inv z)) < p) by apply can_lt. pose proof split255 as S255.
    change (256 ^ N.of_nat 32) with (2 ^ 255 + 2 ^ 255). rewrite N.mod_small by lia.
    change mask255 with (N.ones 255). rewrite N.land_ones, N.mod_small by lia.
    set (u := f_can (f_mul x (f_inv z))) in *.
    assert (Pu : ph u = (if kdec K (1 - py K P)%g 0%g then 0 else (1 + py K P) * kinv K (1 - py K P))%g).
    { unfold u. rewrite ph_can. apply mont_inv. exact M. }
    assert (Nu : ph u <> 0%g).
    { rewrite <- ph_0. intros E. apply N. apply small_eq; [exact L|reflexivity|exact E]. }
    assert (Ru : rep u) by apply can_rep.
    destruct (kdec K _ _) as [Z|Z]; [contradiction|].
    pose proof (ladder_ok P (le_val s) u Ru) as Lad.
    assert (E1 : (ph u * (1 - py K P) = 1 + py K P)%g) by (rewrite Pu; field; exact Z).
    specialize (Lad E1 Nu 255%nat 1 0 u 1). cbv zeta in Lad.
    replace (N.shiftr (le_val s) (N.of_nat 255)) with 0 in Lad.
    2:{ rewrite N.shiftr_div_pow2. symmetry. apply N.div_small. exact Hs. }
    assert (G : let '(x, z) := ladder 255 (le_val s) u 1 0 u 1 in mont K (smul K (le_val s) P) (ph x) (ph z)).
    { apply Lad; try discriminate; [exact Ru| |].
      - rewrite ph_0, ph_1, smul_0. apply mont_zero.
      - change (N.succ 0) with 1. rewrite smul_1, ph_1, Pu. apply mont_affine. exact Z. }
    destruct (ladder 255 (le_val s) u 1 0 u 1) as [xl zl].
    rewrite (mont_fun _ _ _ _ _ G M'). reflexivity.
Qed.

(** ** The base point *)
Definition bx : N := 15112221349535400772501151409588531511454012693041857206046113283949847762202.
Definition by_ : N := 46316835694926478169428394003475163141307993866256225615783033603165251855960.
Lemma base_on : onc K (ph bx) (ph by_).
Proof.
  unfold onc. assert (E : (ph by_ * ph by_ = 1 + kd K * (ph bx * ph bx) * (ph by_ * ph by_) + ph bx * ph bx)%g).
  { rewrite <- ph_1, <- ph_d, <- !ph_mul, <- !ph_add. apply ph_eq. vm_compute. reflexivity. }
  rewrite E at 1. ring.
Qed.
Definition B : pt K := mkpt K (ph bx) (ph by_) (proj2 (onb_onc K _ _) base_on).
Lemma R_base : R ed_base B.
Proof.
  unfold ed_base, R. fold bx. fold by_. assert (Rx : rep bx) by discriminate. assert (Ry : rep by_) by discriminate.
  split; [exact Rx|]. split; [exact Ry|]. split; [discriminate|]. split; [auto with reps|].
  rewrite ph_f_mul, ph_1. exact (ext_affine K B).
Qed.
Lemma order_eval : let '(x, y, z, t) := ed_smul ed_l ed_base in x mod p =? 0 = true /\ (y mod p =? z mod p = true).
Proof. vm_compute. split; reflexivity. Qed.
Lemma order : smul K ed_l B = pzero K.
Proof.
  pose proof (R_smul ed_l _ _ R_base) as H. pose proof order_eval as E.
  destruct (ed_smul ed_l ed_base) as [[[x y] z] t]. destruct H as (_ & _ & _ & _ & Nz & Hx & Hy & _).
  destruct E as [E1 E2]. apply N.eqb_eq in E1. apply N.eqb_eq in E2. apply ph_eq in E2.
  assert (E1' : ph x = ph 0) by (apply ph_eq; rewrite E1; reflexivity). rewrite ph_0 in E1'.
  revert Hx Hy. generalize (smul K ed_l B). intros Q Hx Hy. apply pt_ext; cbn [px py pzero].
  - rewrite E1' in Hx. symmetry in Hx. apply mul_0 in Hx as [Hx|Hx]; [exact Hx|contradiction].
  - rewrite E2 in Hy. apply (cancel_l K (ph z)); [exact Nz|]. transitivity (py K Q * ph z)%g; [ring|].
    rewrite <- Hy. ring.
Qed.
Lemma B_mod n : smul K (n mod ed_l) B = smul K n B.
Proof. apply smul_mod; [discriminate|exact order]. Qed.

(** ** The laws *)
Lemma R_B n : R (ed_smul n ed_base) (smul K n B).
Proof. apply R_smul, R_base. Qed.

Lemma pub_decompress seed : exists q, ed_decompress (curve_ed_pub seed) = Some q /\
  R q (smul K (le_val (curve_ed_scalar seed)) B).
Proof. apply decompress_ok, R_B. Qed.

Lemma ed_pub_ok_pf seed : curve_ed_pk_ok (curve_ed_pub seed) = true.
Proof.
  unfold curve_ed_pk_ok. destruct (pub_decompress seed) as (q & -> & _).
  destruct (compress_spec _ _ (R_B (le_val (curve_ed_scalar seed)))) as (x & y & _ & _ & _ & _ & E).
  unfold curve_ed_pub. rewrite E, le_bytes_length. reflexivity.
Qed.
Lemma compress_length q : length (ed_compress q) = 32%nat.
Proof. destruct q as [[[x y] z] t]. apply le_bytes_length. Qed.
Lemma l_small n : le_val (le_bytes 32 (n mod ed_l)) = n mod ed_l.
Proof.
  rewrite le_val_le_bytes. apply N.mod_small. eapply N.lt_trans; [apply N.mod_lt; discriminate|]. reflexivity.
Qed.

Lemma ed_correct_pf seed m : curve_ed_verify (curve_ed_pub seed) m (curve_ed_sign seed m) = true.
Proof.
  unfold curve_ed_verify, curve_ed_sign. cbv zeta. destruct (pub_decompress seed) as (q & E & H).
  set (s := le_val (curve_ed_scalar seed)) in *. set (r := le_val (c_sha512 (skipn 32 (c_sha512 seed) ++ m)) mod ed_l).
  set (rb := ed_compress (ed_smul r ed_base)). set (pk := curve_ed_pub seed) in *.
  set (k := le_val (c_sha512 (rb ++ pk ++ m)) mod ed_l).
  assert (L : length rb = 32%nat) by apply compress_length.
  rewrite firstn_app, skipn_app, L, Nat.sub_diag, firstn_O, skipn_O, app_nil_r.
  rewrite (firstn_all2 rb) by (rewrite L; apply le_n). rewrite (skipn_all2 rb) by (rewrite L; apply le_n).
  cbn [app]. rewrite E, l_small. fold k.
  replace ((r + k * s) mod ed_l <? ed_l) with true by (symmetry; apply N.ltb_lt, N.mod_lt; discriminate).
  cbn [andb]. rewrite <- (bseqb_refl rb). f_equal.
  assert (G : R (ed_add (ed_smul ((r + k * s) mod ed_l) ed_base) (ed_smul k (ed_neg q))) (smul K r B)).
  { replace (smul K r B) with (padd K (smul K ((r + k * s) mod ed_l) B) (smul K k (pneg K (smul K s B)))).
    - apply R_add; [apply R_B|]. apply R_smul, R_neg, H.
    - rewrite B_mod, smul_add, smul_mul, smul_neg, padd_assoc, padd_neg, padd_0_r. reflexivity. }
  symmetry. apply (compress_fun _ _ _ (R_B r) G).
Qed.

Lemma x_dh_pf seed e : length seed = 32%nat -> length e = 32%nat ->
  curve_x_mul (curve_x_scalar e) (curve_ed_to_mont (curve_ed_pub seed)) =
  curve_x_mul (curve_ed_scalar seed) (curve_x_base (curve_x_scalar e)).
Proof.
  intros _ _. unfold curve_ed_to_mont. destruct (pub_decompress seed) as (q & -> & H). unfold curve_x_base.
  assert (B1 : le_val (curve_x_scalar e) < 2 ^ 255).
  { unfold curve_x_scalar. rewrite l_small. eapply N.lt_trans; [apply N.mod_lt; discriminate|]. reflexivity. }
  assert (B2 : le_val (curve_ed_scalar seed) < 2 ^ 255).
  { unfold curve_ed_scalar. rewrite l_small. eapply N.lt_trans; [apply N.mod_lt; discriminate|]. reflexivity. }
  set (a := le_val (curve_x_scalar e)) in *. set (s := le_val (curve_ed_scalar seed)) in *.
  rewrite (x_mul_ok _ _ _ H B1), (x_mul_ok _ _ _ (R_B a) B2). fold a. fold s.
  destruct (R_mont _ _ (R_smul a _ _ H)) as (x & z & M & ->).
  destruct (R_mont _ _ (R_smul s _ _ (R_B a))) as (x' & z' & M' & ->).
  rewrite <- smul_mul, N.mul_comm, smul_mul in M. rewrite (mont_fun _ _ _ _ _ M M'). reflexivity.
Qed.
End Group.

Theorem curve_ed_laws : EdLaws CurveAsym.
Proof.
  split.
  - intros s _. exact (ed_pub_ok_pf K255 phi phi_add phi_mul eq_refl eq_refl phi_eq eq_refl eq_refl eq_refl s).
  - intros s m _. exact (ed_correct_pf K255 phi phi_add phi_mul eq_refl eq_refl phi_eq eq_refl eq_refl eq_refl s m).
  - exact (x_dh_pf K255 phi phi_add phi_mul eq_refl eq_refl phi_eq eq_refl eq_refl eq_refl eq_refl).
Qed.
Print Assumptions curve_ed_laws.
