(** * CurveWeak: the neutral point of edwards25519 as a v4 public key, in [CurveAsym].

    Arithmetic modulo 2^255 - 19 as far as needed to compute with the neutral point; the only
    instance of Fermat's theorem used is the one for 2, which is computed. *)
From Coq Require Import Setoid Morphisms ZifyBool ZifyNat ZifyN.
From Verif Require Import Bytes BytesLemmas Prims ConcreteSym CurveAsym.
Local Open Scope N_scope.

Local Notation p := p255.
(** Representatives in use. *)
Definition rep (a : N) : Prop := a <= 2 * p.

Lemma p_pos : p <> 0. Proof. discriminate. Qed.
Lemma split255 : 2 ^ 255 = p + 19. Proof. reflexivity. Qed.
Lemma fold255_eq x : fold255 x = x mod 2 ^ 255 + 19 * (x / 2 ^ 255).
Proof.
  unfold fold255. change mask255 with (N.ones 255). rewrite N.land_ones, N.shiftr_div_pow2. reflexivity.
Qed.
Lemma fold255_mod x : fold255 x mod p = x mod p.
Proof.
  rewrite fold255_eq. rewrite (N.div_mod x (2 ^ 255)) at 3 by discriminate.
  set (q := x / 2 ^ 255). set (r := x mod 2 ^ 255). rewrite split255.
  replace ((p + 19) * q + r) with (r + 19 * q + q * p) by lia.
  symmetry. apply N.mod_add, p_pos.
Qed.
Lemma red255_mod x : red255 x mod p = x mod p.
Proof. unfold red255. rewrite !fold255_mod. reflexivity. Qed.
Lemma red255_rep x : x < 2 ^ 516 -> rep (red255 x).
Proof.
  intros H. unfold red255, rep. rewrite (fold255_eq (fold255 x)).
  assert (B : fold255 x < 2 ^ 267).
  { rewrite fold255_eq. pose proof (N.mod_lt x (2 ^ 255) ltac:(discriminate)) as H1.
    assert (H2 : x / 2 ^ 255 < 2 ^ 261) by (apply N.div_lt_upper_bound; [discriminate|exact H]).
    change (2 ^ 255) with (2 ^ 255) in H1. revert H1 H2.
    generalize (x mod 2 ^ 255), (x / 2 ^ 255). intros r q H1 H2.
    eapply N.lt_le_trans; [apply N.add_lt_mono; [exact H1|apply N.mul_lt_mono_pos_l; [reflexivity|exact H2]]|].
    discriminate. }
  pose proof (N.mod_lt (fold255 x) (2 ^ 255) ltac:(discriminate)) as H1.
  assert (H2 : fold255 x / 2 ^ 255 < 2 ^ 12) by (apply N.div_lt_upper_bound; [discriminate|exact B]).
  revert H1 H2. generalize (fold255 x mod 2 ^ 255), (fold255 x / 2 ^ 255). intros r q H1 H2.
  apply N.lt_le_incl.
  eapply N.lt_le_trans; [apply N.add_lt_mono; [exact H1|apply N.mul_lt_mono_pos_l; [reflexivity|exact H2]]|].
  discriminate.
Qed.

Lemma f_mul_mod a b : f_mul a b mod p = (a * b) mod p.
Proof. apply red255_mod. Qed.
Lemma f_add_mod a b : f_add a b mod p = (a + b) mod p.
Proof. apply red255_mod. Qed.
Lemma f_sub_mod a b : f_sub a b mod p = (a + (2 * p - b)) mod p.
Proof. apply red255_mod. Qed.
Lemma f_mul_rep a b : a <= 4 * p -> b <= 4 * p -> rep (f_mul a b).
Proof.
  intros Ha Hb. apply red255_rep. eapply N.le_lt_trans; [apply N.mul_le_mono; [exact Ha|exact Hb]|]. reflexivity.
Qed.
Lemma f_add_rep a b : a <= 4 * p -> b <= 4 * p -> rep (f_add a b).
Proof.
  intros Ha Hb. apply red255_rep. eapply N.le_lt_trans; [apply N.add_le_mono; [exact Ha|exact Hb]|]. reflexivity.
Qed.
Lemma f_sub_rep a b : a <= 4 * p -> rep (f_sub a b).
Proof.
  intros Ha. apply red255_rep. eapply N.le_lt_trans; [apply N.add_le_mono; [exact Ha|apply N.le_sub_l]|]. reflexivity.
Qed.

(** Zero and equality modulo [p]. *)
Definition zero (a : N) : Prop := a mod p = 0.
Lemma zero_mul_l a b : zero a -> zero (f_mul a b).
Proof. unfold zero. intros H. rewrite f_mul_mod, N.mul_mod, H by apply p_pos. reflexivity. Qed.
Lemma zero_mul_r a b : zero b -> zero (f_mul a b).
Proof. unfold zero. intros H. rewrite f_mul_mod, N.mul_comm, N.mul_mod, H by apply p_pos. reflexivity. Qed.
Lemma f_sub_eq a b : rep b -> a mod p = b mod p -> zero (f_sub a b).
Proof.
  unfold zero, rep. intros Hb H. rewrite f_sub_mod, N.add_mod, H, <- N.add_mod by apply p_pos.
  replace (b + (2 * p - b)) with (2 * p) by lia. apply N.mod_mul, p_pos.
Qed.
Lemma f_add_0_r a b : zero b -> f_add a b mod p = a mod p.
Proof. unfold zero. intros H. rewrite f_add_mod, N.add_mod, H, N.add_0_r, N.mod_mod by apply p_pos. reflexivity. Qed.
Lemma f_add_0_l a b : zero a -> f_add a b mod p = b mod p.
Proof. intros H. unfold f_add. rewrite N.add_comm. exact (f_add_0_r b a H). Qed.
Lemma f_sub_0_r a b : rep b -> zero b -> f_sub a b mod p = a mod p.
Proof.
  unfold zero, rep. intros Hr H. rewrite f_sub_mod.
  assert (E : b = p * (b / p)) by (rewrite (N.div_mod b p p_pos) at 1; rewrite H; apply N.add_0_r).
  revert Hr. rewrite E. generalize (b / p). intros q Hr.
  replace (a + (2 * p - p * q)) with (a + (2 - q) * p).
  - apply N.mod_add, p_pos.
  - rewrite N.mul_sub_distr_r, (N.mul_comm q). reflexivity.
Qed.

(** Powers. *)
Lemma f_pow_mod a e : f_pow a e mod p = (a ^ N.pos e) mod p.
Proof.
  induction e as [e IH|e IH|]; cbn [f_pow].
  - rewrite f_mul_mod, N.mul_mod, f_mul_mod, <- N.mul_mod by apply p_pos.
    rewrite N.mul_mod, (N.mul_mod (f_pow a e)), IH, <- (N.mul_mod (a ^ _)), <- N.mul_mod by apply p_pos.
    f_equal. replace (N.pos e~1) with (1 + (N.pos e + N.pos e)) by lia. rewrite !N.pow_add_r, N.pow_1_r. reflexivity.
  - rewrite f_mul_mod, N.mul_mod, IH, <- N.mul_mod by apply p_pos.
    f_equal. replace (N.pos e~0) with (N.pos e + N.pos e) by lia. rewrite N.pow_add_r. reflexivity.
  - rewrite N.pow_1_r. reflexivity.
Qed.
Lemma pow_mod a e : (a mod p) ^ e mod p = a ^ e mod p.
Proof.
  induction e as [|e IH] using N.peano_ind; [reflexivity|].
  rewrite !N.pow_succ_r', N.mul_mod, IH, N.mod_mod, <- N.mul_mod by apply p_pos. reflexivity.
Qed.

(** [invertible z]: [f_inv] inverts [z]. *)
Definition invertible (z : N) : Prop := (z * f_inv z) mod p = 1.
Definition ie : positive := N.succ_pos (p - 3).
Lemma inv_pow z : invertible z <-> (z * z ^ N.pos ie) mod p = 1.
Proof.
  unfold invertible, f_inv. fold ie. rewrite N.mul_mod, f_pow_mod, <- N.mul_mod by apply p_pos. reflexivity.
Qed.
Lemma inv_ext a b : a mod p = b mod p -> invertible a -> invertible b.
Proof.
  intros H. rewrite !inv_pow. rewrite N.mul_mod, <- pow_mod, H, pow_mod, <- N.mul_mod by apply p_pos. auto.
Qed.
Lemma inv_mul a b : invertible a -> invertible b -> invertible (a * b).
Proof.
  rewrite !inv_pow. generalize (N.pos ie). intros e Ha Hb. rewrite N.pow_mul_l.
  replace (a * b * (a ^ e * b ^ e)) with (a * a ^ e * (b * b ^ e)) by lia.
  rewrite N.mul_mod, Ha, Hb by apply p_pos. reflexivity.
Qed.
Lemma inv_1 : invertible 1.
Proof. apply inv_pow. rewrite N.pow_1_l. reflexivity. Qed.
Lemma inv_2 : invertible 2.
Proof. unfold invertible. lazy. reflexivity. Qed.
Lemma inv_m1 : invertible (p - 1).
Proof.
  apply inv_pow. assert (E : exists k, N.pos ie = 2 * k + 1) by (exists ((p - 3) / 2); reflexivity).
  revert E. generalize (N.pos ie). intros e [k ->].
  rewrite N.pow_add_r, N.pow_mul_r, N.pow_1_r.
  rewrite (N.mul_comm (_ ^ k)), N.mul_assoc. replace ((p - 1) * (p - 1)) with ((p - 1) ^ 2) by reflexivity.
  rewrite <- N.pow_succ_r', <- pow_mod. replace ((p - 1) ^ 2 mod p) with 1 by reflexivity.
  rewrite N.pow_1_l. reflexivity.
Qed.

(** ** Congruence *)
Definition cg (a b : N) : Prop := a mod p = b mod p.
Local Infix "==" := cg (at level 70).
#[local] Instance cg_equiv : Equivalence cg.
Proof. split; [intros a; reflexivity|intros a b H; symmetry; exact H|intros a b c H1 H2; exact (eq_trans H1 H2)]. Qed.
#[local] Instance cg_add : Proper (cg ==> cg ==> cg) N.add.
Proof. intros a a' H b b' H'. unfold cg in *. rewrite N.add_mod, H, H', <- N.add_mod by apply p_pos. reflexivity. Qed.
#[local] Instance cg_mul : Proper (cg ==> cg ==> cg) N.mul.
Proof. intros a a' H b b' H'. unfold cg in *. rewrite N.mul_mod, H, H', <- N.mul_mod by apply p_pos. reflexivity. Qed.
Lemma cg_mul_eq a b : f_mul a b == a * b. Proof. apply f_mul_mod. Qed.
Lemma cg_add_eq a b : f_add a b == a + b. Proof. apply f_add_mod. Qed.
Lemma cg_zero a : zero a <-> a == 0.
Proof. unfold zero, cg. rewrite N.mod_0_l by apply p_pos. reflexivity. Qed.
Lemma cg_neg a b : rep b -> a == 0 -> f_sub a b == (p - 1) * b.
Proof.
  intros Hb Ha. unfold cg at 1. rewrite f_sub_mod. change (a + (2 * p - b) == (p - 1) * b). rewrite Ha.
  unfold cg, rep in *. rewrite <- (N.mod_add _ b p p_pos).
  rewrite <- (N.mod_add ((p - 1) * b) 2 p p_pos). f_equal.
  rewrite N.add_0_l, N.mul_sub_distr_r, (N.mul_comm b p), N.mul_1_l.
  assert (b <= p * b) by (rewrite <- (N.mul_1_l b) at 1; apply N.mul_le_mono_r; discriminate).
  revert H Hb. generalize (p * b). unfold p255. intros; lia.
Qed.

Definition neutral (q : ed_point) : Prop :=
  let '(x, y, z, t) := q in
  rep x /\ rep y /\ rep z /\ rep t /\ x == 0 /\ t == 0 /\ y == z /\ invertible z.

Lemma rep4 a : rep a -> a <= 4 * p. Proof. unfold rep, p255. lia. Qed.
Lemma rep_2 a : rep a -> 2 * a <= 4 * p. Proof. unfold rep, p255. lia. Qed.
#[local] Hint Resolve f_mul_rep f_add_rep f_sub_rep rep4 rep_2 : reps.

Lemma neutral_dbl q : neutral q -> neutral (ed_dbl q).
Proof.
  destruct q as [[[x y] z] t]. intros (Rx & Ry & Rz & Rt & Hx & Ht & Hy & U). unfold ed_dbl.
  set (a := f_mul x x). set (b := f_mul y y). set (c := f_mul z (2 * z)).
  set (h := f_add a b). set (xy := f_add x y). set (e := f_sub h (f_mul xy xy)).
  set (g := f_sub a b). set (f := f_add c g).
  assert (Ra : rep a) by (unfold a; auto with reps). assert (Rb : rep b) by (unfold b; auto with reps).
  assert (Rc : rep c) by (unfold c; auto with reps). assert (Rh : rep h) by (unfold h; auto with reps).
  assert (Rxy : rep xy) by (unfold xy; auto with reps). assert (Re : rep e) by (unfold e; auto with reps).
  assert (Rg : rep g) by (unfold g; auto with reps). assert (Rf : rep f) by (unfold f; auto with reps).
  assert (Ha : a == 0) by (unfold a; rewrite cg_mul_eq, Hx; reflexivity).
  assert (Hb : b == z * z) by (unfold b; rewrite cg_mul_eq, Hy; reflexivity).
  assert (Hh : h == z * z) by (unfold h; rewrite cg_add_eq, Ha, Hb; reflexivity).
  assert (Hxy : xy == z) by (unfold xy; rewrite cg_add_eq, Hx, Hy; reflexivity).
  assert (He : e == 0).
  { apply cg_zero. apply f_sub_eq; [auto with reps|]. change (h == f_mul xy xy).
    rewrite cg_mul_eq, Hh, Hxy. reflexivity. }
  assert (Hg : g == (p - 1) * (z * z)) by (unfold g; rewrite cg_neg, Hb by assumption; reflexivity).
  assert (Hf : f == z * z).
  { unfold f, c. rewrite cg_add_eq, cg_mul_eq, Hg.
    replace (z * (2 * z) + (p - 1) * (z * z)) with (z * z + z * z * p).
    - apply N.mod_add, p_pos.
    - replace (z * (2 * z)) with (2 * (z * z)) by lia. generalize (z * z). intros w.
      rewrite N.mul_sub_distr_r, (N.mul_comm w p), N.mul_1_l.
      assert (w <= p * w) by (rewrite <- (N.mul_1_l w) at 1; apply N.mul_le_mono_r; discriminate).
      revert H. generalize (p * w). intros; lia. }
  unfold neutral. repeat (split; [solve [auto with reps]|]). split; [rewrite cg_mul_eq, He; reflexivity|].
  split; [rewrite cg_mul_eq, He; reflexivity|]. split.
  - rewrite !cg_mul_eq, Hf, Hh. rewrite N.mul_comm. reflexivity.
  - apply (inv_ext (z * z * ((p - 1) * (z * z)))).
    + symmetry. change (f_mul f g == z * z * ((p - 1) * (z * z))). rewrite cg_mul_eq, Hf, Hg. reflexivity.
    + apply inv_mul; [apply inv_mul; exact U|]. apply inv_mul; [exact inv_m1|]. apply inv_mul; exact U.
Qed.

Lemma neutral_add q1 q2 : neutral q1 -> neutral q2 -> neutral (ed_add q1 q2).
Proof.
  destruct q1 as [[[x1 y1] z1] t1], q2 as [[[x2 y2] z2] t2].
  intros (Rx1 & Ry1 & Rz1 & Rt1 & Hx1 & Ht1 & Hy1 & U1) (Rx2 & Ry2 & Rz2 & Rt2 & Hx2 & Ht2 & Hy2 & U2).
  unfold ed_add.
  set (a := f_mul (f_sub y1 x1) (f_sub y2 x2)). set (b := f_mul (f_add y1 x1) (f_add y2 x2)).
  set (c := f_mul (f_mul t1 (2 * ed_d)) t2). set (d := f_mul z1 (2 * z2)).
  set (e := f_sub b a). set (f := f_sub d c). set (g := f_add d c). set (h := f_add b a).
  assert (Ra : rep a) by (unfold a; auto with reps). assert (Rb : rep b) by (unfold b; auto with reps).
  assert (Rc : rep c).
  { unfold c. apply f_mul_rep; [|auto with reps]. apply rep4, f_mul_rep; [auto with reps|discriminate]. }
  assert (Rd : rep d) by (unfold d; auto with reps).
  assert (Re : rep e) by (unfold e; auto with reps). assert (Rf : rep f) by (unfold f; auto with reps).
  assert (Rg : rep g) by (unfold g; auto with reps). assert (Rh : rep h) by (unfold h; auto with reps).
  assert (S1 : f_sub y1 x1 == z1) by (unfold cg; rewrite f_sub_0_r; [exact Hy1|exact Rx1|apply cg_zero, Hx1]).
  assert (S2 : f_sub y2 x2 == z2) by (unfold cg; rewrite f_sub_0_r; [exact Hy2|exact Rx2|apply cg_zero, Hx2]).
  assert (Ha : a == z1 * z2) by (unfold a; rewrite cg_mul_eq, S1, S2; reflexivity).
  assert (Hb : b == z1 * z2)
    by (unfold b; rewrite cg_mul_eq, !cg_add_eq, Hx1, Hx2, !N.add_0_r, Hy1, Hy2; reflexivity).
  assert (Hc : c == 0) by (unfold c; rewrite cg_mul_eq, Ht2, N.mul_0_r; reflexivity).
  assert (Hd : d == 2 * (z1 * z2)) by (unfold d; rewrite cg_mul_eq; replace (z1 * (2 * z2)) with (2 * (z1 * z2)) by lia; reflexivity).
  assert (He : e == 0) by (apply cg_zero, f_sub_eq; [exact Ra|change (b == a); rewrite Ha, Hb; reflexivity]).
  assert (Hf : f == 2 * (z1 * z2)).
  { transitivity d; [|exact Hd]. apply f_sub_0_r; [exact Rc|apply cg_zero, Hc]. }
  assert (Hg : g == 2 * (z1 * z2)) by (unfold g; rewrite cg_add_eq, Hc, N.add_0_r; exact Hd).
  assert (Hh : h == 2 * (z1 * z2))
    by (unfold h; rewrite cg_add_eq, Ha, Hb; replace (2 * (z1 * z2)) with (z1 * z2 + z1 * z2) by lia; reflexivity).
  unfold neutral. repeat (split; [solve [auto with reps]|]). split; [rewrite cg_mul_eq, He; reflexivity|].
  split; [rewrite cg_mul_eq, He; reflexivity|]. split.
  - rewrite !cg_mul_eq, Hf, Hh, Hg. reflexivity.
  - apply (inv_ext (2 * (z1 * z2) * (2 * (z1 * z2)))).
    + symmetry. change (f_mul f g == 2 * (z1 * z2) * (2 * (z1 * z2))). rewrite cg_mul_eq, Hf, Hg. reflexivity.
    + apply inv_mul; (apply inv_mul; [exact inv_2|]); apply inv_mul; assumption.
Qed.

Lemma neutral_zero : neutral ed_zero.
Proof.
  unfold neutral, ed_zero. do 4 (split; [discriminate|]). do 3 (split; [reflexivity|]). exact inv_1.
Qed.
Lemma neutral_neg q : neutral q -> neutral (ed_neg q).
Proof.
  destruct q as [[[x y] z] t]. intros (Rx & Ry & Rz & Rt & Hx & Ht & Hy & U). unfold ed_neg, neutral.
  assert (Z : 0 <= 4 * p) by discriminate.
  repeat (split; [solve [auto with reps]|]).
  split; [apply cg_zero, f_sub_eq; [exact Rx|symmetry; exact Hx]|].
  split; [apply cg_zero, f_sub_eq; [exact Rt|symmetry; exact Ht]|]. auto.
Qed.
Lemma neutral_smul n q : neutral q -> neutral (ed_smul n q).
Proof.
  intros H. destruct n as [|e]; [exact neutral_zero|]. cbn [ed_smul].
  induction e as [e IH|e IH|]; cbn [ed_smul_pos]; auto using neutral_dbl, neutral_add.
Qed.

(** The encoding of the neutral point. *)
Definition weak_key : bytes := x01 :: repeat x00 31.

Lemma neutral_compress q : neutral q -> ed_compress q = weak_key.
Proof.
  destruct q as [[[x y] z] t]. intros (Rx & Ry & Rz & Rt & Hx & Ht & Hy & U). unfold ed_compress, f_can.
  replace (f_mul x (f_inv z) mod p) with 0.
  - replace (f_mul y (f_inv z) mod p) with 1; [vm_compute; reflexivity|].
    symmetry. change (f_mul y (f_inv z) mod p = 1 mod p). change (f_mul y (f_inv z) == 1).
    rewrite cg_mul_eq, Hy. exact U.
  - symmetry. apply cg_zero. rewrite cg_mul_eq, Hx. reflexivity.
Qed.
Lemma weak_decompress : ed_decompress weak_key = Some ed_zero.
Proof.
  unfold ed_decompress. replace (le_val weak_key) with 1 by (vm_compute; reflexivity).
  change (N.land 1 mask255) with 1. change (N.testbit 1 255) with false. cbv zeta.
  set (u := f_sub (f_mul 1 1) 1). assert (Hu : zero u) by (apply f_sub_eq; [discriminate|reflexivity]).
  assert (Ru : rep u) by (apply f_sub_rep; vm_compute; discriminate).
  set (v := f_add _ 1). set (v3 := f_mul v (f_mul v v)). set (v7 := f_mul v (f_mul v3 v3)).
  set (x := f_mul (f_mul u v3) _). assert (Hx : zero x) by (apply zero_mul_l, zero_mul_l, Hu).
  assert (E : f_eq (f_mul v (f_mul x x)) u = true).
  { unfold f_eq, f_can. rewrite Hu. rewrite (zero_mul_r v _ (zero_mul_l x x Hx)). reflexivity. }
  rewrite E. unfold f_can. rewrite Hx. reflexivity.
Qed.

(** The neutral point, as a key, accepts one fixed signature on every message... *)
Definition weak_sig : bytes := weak_key ++ repeat x00 32.
Lemma weak_verify m : curve_ed_verify weak_key m weak_sig = true.
Proof.
  unfold curve_ed_verify. replace (firstn 32 weak_sig) with weak_key by reflexivity.
  replace (le_val (skipn 32 weak_sig)) with 0 by (vm_compute; reflexivity). rewrite weak_decompress.
  rewrite neutral_compress; [rewrite bseqb_refl; reflexivity|].
  apply neutral_add; [exact neutral_zero|]. apply neutral_smul, neutral_neg, neutral_zero.
Qed.
Lemma weak_pk_ok : curve_ed_pk_ok weak_key = true.
Proof. unfold curve_ed_pk_ok. rewrite weak_decompress. reflexivity. Qed.

(** ...and its Diffie-Hellman secrets are all zero. *)
Lemma zero_pow a e : zero a -> zero (f_pow a e).
Proof. intros H. induction e; cbn [f_pow]; [apply zero_mul_l; exact H|apply zero_mul_l; assumption|exact H]. Qed.
Lemma weak_mont : curve_ed_to_mont weak_key = repeat x00 32.
Proof.
  unfold curve_ed_to_mont. rewrite weak_decompress. unfold ed_zero, ed_point_to_mont, f_can.
  rewrite (zero_mul_r (f_add 1 1) (f_inv (f_sub 1 1))); [vm_compute; reflexivity|].
  apply zero_pow, f_sub_eq; [discriminate|reflexivity].
Qed.

(** The ladder on the point of order two stays in that point and the neutral one. *)
Lemma f_neg_cg a b : rep b -> a == 0 -> f_sub a b * f_sub a b == b * b.
Proof.
  intros Hb Ha. rewrite (cg_neg a b Hb Ha).
  replace ((p - 1) * b * ((p - 1) * b)) with ((p - 1) * (p - 1) * (b * b)) by lia.
  assert (E : (p - 1) * (p - 1) == 1) by reflexivity. rewrite E, N.mul_1_l. reflexivity.
Qed.
Lemma neg_add w : w + (p - 1) * w == 0.
Proof.
  replace (w + (p - 1) * w) with (0 + w * p).
  - apply N.mod_add, p_pos.
  - rewrite N.mul_sub_distr_r, (N.mul_comm w p), N.mul_1_l.
    assert (w <= p * w) by (rewrite <- (N.mul_1_l w) at 1; apply N.mul_le_mono_r; discriminate).
    revert H. generalize (p * w). intros; lia.
Qed.
Lemma ladder_zero i k x2 z2 x3 z3 :
  rep x2 -> rep z2 -> rep x3 -> rep z3 ->
  (z2 == 0 /\ x3 == 0) \/ (x2 == 0 /\ z3 == 0) ->
  let '(x, z) := ladder i k 0 x2 z2 x3 z3 in x == 0 \/ z == 0.
Proof.
  revert x2 z2 x3 z3. induction i as [|i IH]; intros x2 z2 x3 z3 R1 R2 R3 R4 H; cbn [ladder].
  - tauto.
  - set (kt := N.testbit k (N.of_nat i)).
    assert (Step : forall x2 z2 x3 z3, rep x2 -> rep z2 -> rep x3 -> rep z3 ->
      (z2 == 0 /\ x3 == 0) \/ (x2 == 0 /\ z3 == 0) ->
      let a := f_add x2 z2 in let aa := f_mul a a in
      let b := f_sub x2 z2 in let bb := f_mul b b in
      let e := f_sub aa bb in
      let c := f_add x3 z3 in let d := f_sub x3 z3 in
      let da := f_mul d a in let cb := f_mul c b in
      let s := f_add da cb in let t := f_sub da cb in
      (rep (f_mul aa bb) /\ rep (f_mul e (f_add aa (f_mul 121665 e))) /\
       rep (f_mul s s) /\ rep (f_mul 0 (f_mul t t))) /\
      f_mul e (f_add aa (f_mul 121665 e)) == 0 /\ f_mul s s == 0).
    { clear. intros x2 z2 x3 z3 R1 R2 R3 R4 H a aa b bb e c d da cb s t.
      assert (Ra : rep a) by (unfold a; auto with reps). assert (Rb : rep b) by (unfold b; auto with reps).
      assert (Raa : rep aa) by (unfold aa; auto with reps). assert (Rbb : rep bb) by (unfold bb; auto with reps).
      assert (Re : rep e) by (unfold e; auto with reps). assert (Rc : rep c) by (unfold c; auto with reps).
      assert (Rd : rep d) by (unfold d; auto with reps). assert (Rda : rep da) by (unfold da; auto with reps).
      assert (Rcb : rep cb) by (unfold cb; auto with reps). assert (Rs : rep s) by (unfold s; auto with reps).
      assert (Rt : rep t) by (unfold t; auto with reps).
      split.
      { split; [auto with reps|]. split.
        - apply f_mul_rep; [auto with reps|]. apply rep4, f_add_rep; [auto with reps|].
          apply rep4, f_mul_rep; [discriminate|auto with reps].
        - split; [auto with reps|]. apply f_mul_rep; [discriminate|auto with reps]. }
      assert (Hab : aa == bb /\ da + cb == 0).
      { destruct H as [[Hz Hx]|[Hx Hz]].
        - assert (Ha : a == x2) by (unfold a; rewrite cg_add_eq, Hz, N.add_0_r; reflexivity).
          assert (Hb : b == x2) by (apply f_sub_0_r; [exact R2|apply cg_zero, Hz]).
          assert (Hc : c == z3) by (unfold c; rewrite cg_add_eq, Hx; reflexivity).
          assert (Hd : d == (p - 1) * z3) by (apply cg_neg; assumption).
          split; [unfold aa, bb; rewrite !cg_mul_eq, Ha, Hb; reflexivity|].
          unfold da, cb. rewrite !cg_mul_eq, Ha, Hb, Hc, Hd.
          replace ((p - 1) * z3 * x2 + z3 * x2) with (z3 * x2 + (p - 1) * (z3 * x2)) by lia. apply neg_add.
        - assert (Ha : a == z2) by (unfold a; rewrite cg_add_eq, Hx; reflexivity).
          assert (Hb : b == (p - 1) * z2) by (apply cg_neg; assumption).
          assert (Hc : c == x3) by (unfold c; rewrite cg_add_eq, Hz, N.add_0_r; reflexivity).
          assert (Hd : d == x3) by (apply f_sub_0_r; [exact R4|apply cg_zero, Hz]).
          split; [unfold aa, bb; rewrite !cg_mul_eq, Ha; symmetry; apply f_neg_cg; assumption|].
          unfold da, cb. rewrite !cg_mul_eq, Ha, Hb, Hc, Hd.
          replace (x3 * z2 + x3 * ((p - 1) * z2)) with (x3 * z2 + (p - 1) * (x3 * z2)) by lia. apply neg_add. }
      destruct Hab as [Hab Hs].
      assert (He : e == 0) by (apply cg_zero, f_sub_eq; [exact Rbb|exact Hab]).
      assert (Hs' : s == 0) by (unfold s; rewrite cg_add_eq; exact Hs).
      split; apply cg_zero, zero_mul_l, cg_zero; assumption. }
    destruct kt.
    + destruct (Step x3 z3 x2 z2 R3 R4 R1 R2 ltac:(tauto)) as ((A1 & A2 & A3 & A4) & Z1 & Z2).
      apply IH; auto.
    + destruct (Step x2 z2 x3 z3 R1 R2 R3 R4 H) as ((A1 & A2 & A3 & A4) & Z1 & Z2).
      apply IH; auto.
Qed.
Lemma weak_x_mul s : curve_x_mul s (repeat x00 32) = repeat x00 32.
Proof.
  unfold curve_x_mul. replace (N.land (le_val (repeat x00 32)) mask255) with 0 by (vm_compute; reflexivity).
  pose proof (ladder_zero 255 (le_val s) 1 0 0 1) as H.
  destruct (ladder 255 (le_val s) 0 1 0 0 1) as [x z]. unfold f_can.
  replace (f_mul x (f_inv z) mod p) with 0; [vm_compute; reflexivity|]. symmetry.
  destruct H as [H|H]; try discriminate; [left; split; reflexivity|apply zero_mul_l|apply zero_mul_r, zero_pow];
    apply cg_zero, H.
Qed.
