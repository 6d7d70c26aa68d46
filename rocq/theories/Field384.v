(** * Field384: the reduction of [CurveAsym] modulo the P-384 prime, and the field with the
    constants of the curve. *)
From Coq Require Import ZArith Znumtheory Ring Field Setoid Eqdep_dec Bool ZifyBool ZifyN Lia.
From Verif Require Import Bytes Prims ConcreteSym CurveAsym Primes Weierstrass.
Local Open Scope N_scope.
Local Notation p := p384.

(** ** Reduction *)
Definition c384 : N := 2 ^ 128 + 2 ^ 96 - 2 ^ 32 + 1.
Lemma p_pos : p <> 0. Proof. discriminate. Qed.
Lemma split384 : 2 ^ 384 = p + c384. Proof. reflexivity. Qed.
Lemma fold384_eq x : fold384 x = x mod 2 ^ 384 + c384 * (x / 2 ^ 384).
Proof.
  unfold fold384. cbv zeta. change mask384 with (N.ones 384). rewrite N.land_ones, N.shiftr_div_pow2, !N.shiftl_mul_pow2.
  f_equal. generalize (x / 2 ^ 384). intros h. unfold c384.
  change (2 ^ 128 + 2 ^ 96 - 2 ^ 32 + 1) with (340282367000166625977638945021017194497).
  change (2 ^ 128) with 340282366920938463463374607431768211456. change (2 ^ 96) with 79228162514264337593543950336.
  change (2 ^ 32) with 4294967296. lia.
Qed.
Lemma fold384_mod x : fold384 x mod p = x mod p.
Proof.
  rewrite fold384_eq. rewrite (N.div_mod x (2 ^ 384)) at 3 by discriminate.
  generalize (x mod 2 ^ 384), (x / 2 ^ 384). intros r q. rewrite split384.
  replace ((p + c384) * q + r) with (r + c384 * q + q * p) by lia. rewrite N.mod_add by apply p_pos. reflexivity.
Qed.
Lemma red384_mod x : red384 x mod p = x mod p.
Proof. unfold red384. rewrite !fold384_mod. reflexivity. Qed.
(** Representatives: below 2^384. *)
Definition rep (x : N) : Prop := x < 2 ^ 384.
Lemma fold384_bound x n : x < 2 ^ 384 * 2 ^ n -> fold384 x < 2 ^ 384 + c384 * 2 ^ n.
Proof.
  intros H. rewrite fold384_eq. pose proof (N.mod_lt x (2 ^ 384) ltac:(discriminate)) as H1.
  assert (H2 : x / 2 ^ 384 < 2 ^ n) by (apply N.div_lt_upper_bound; [discriminate|exact H]).
  apply N.add_lt_mono; [exact H1|]. apply N.mul_lt_mono_pos_l; [reflexivity|exact H2].
Qed.
Lemma red384_rep x : x < 2 ^ 770 -> rep (red384 x).
Proof.
  intros H. unfold red384.
  assert (B1 : fold384 x < 2 ^ 516).
  { eapply N.lt_trans; [apply (fold384_bound x 386); eapply N.lt_le_trans; [exact H|]|]; reflexivity || discriminate. }
  assert (B2 : fold384 (fold384 x) < 2 ^ 384 + c384 * 2 ^ 132).
  { apply (fold384_bound _ 132). exact B1. }
  revert B2. generalize (fold384 (fold384 x)). clear. intros y B. unfold rep. rewrite fold384_eq.
  destruct (N.lt_ge_cases y (2 ^ 384)) as [L|G].
  - rewrite N.mod_small, N.div_small by exact L. rewrite N.mul_0_r, N.add_0_r. exact L.
  - assert (E : y = 2 ^ 384 * 1 + (y - 2 ^ 384)) by lia.
    assert (B' : y - 2 ^ 384 < c384 * 2 ^ 132) by lia.
    assert (B'' : y - 2 ^ 384 < 2 ^ 384) by (eapply N.lt_trans; [exact B'|reflexivity]).
    rewrite <- (N.div_unique y (2 ^ 384) 1 (y - 2 ^ 384) B'' E), <- (N.mod_unique y (2 ^ 384) 1 (y - 2 ^ 384) B'' E).
    eapply N.lt_trans; [apply N.add_lt_mono_r, B'|]. reflexivity.
Qed.
Lemma g_mul_mod a b : g_mul a b mod p = (a * b) mod p.
Proof. apply red384_mod. Qed.
Lemma g_add_mod a b : g_add a b mod p = (a + b) mod p.
Proof. apply red384_mod. Qed.
Lemma g_sub_mod a b : g_sub a b mod p = (a + (2 * p - b)) mod p.
Proof. apply red384_mod. Qed.
Lemma g_mul_rep a b : rep a -> rep b -> rep (g_mul a b).
Proof.
  intros Ha Hb. apply red384_rep. eapply N.le_lt_trans; [apply N.mul_le_mono; apply N.lt_le_incl; [exact Ha|exact Hb]|]. reflexivity.
Qed.
Lemma g_add_rep a b : rep a -> rep b -> rep (g_add a b).
Proof.
  intros Ha Hb. apply red384_rep. eapply N.le_lt_trans; [apply N.add_le_mono; apply N.lt_le_incl; [exact Ha|exact Hb]|]. reflexivity.
Qed.
Lemma g_sub_rep a b : rep a -> rep (g_sub a b).
Proof.
  intros Ha. apply red384_rep. eapply N.le_lt_trans; [apply N.add_le_mono; [apply N.lt_le_incl, Ha|apply N.le_sub_l]|]. reflexivity.
Qed.
Lemma red8_rep k a : k <= 8 -> rep a -> rep (red384 (k * a)).
Proof.
  intros Hk Ha. apply red384_rep. eapply N.le_lt_trans; [apply N.mul_le_mono; [exact Hk|apply N.lt_le_incl, Ha]|]. reflexivity.
Qed.
Lemma g_can_mod a : rep a -> g_can a = a mod p.
Proof.
  intros H. unfold g_can. destruct (a <? p) eqn:E.
  - symmetry. apply N.mod_small. lia.
  - apply (N.mod_unique a p 1); unfold rep in H; pose proof split384; assert (c384 < p) by reflexivity; lia.
Qed.
Lemma g_pow_mod a e : g_pow a e mod p = (a ^ N.pos e) mod p.
Proof.
  induction e as [e IH|e IH|]; cbn [g_pow].
  - rewrite g_mul_mod, N.mul_mod, g_mul_mod, <- N.mul_mod by apply p_pos.
    rewrite N.mul_mod, (N.mul_mod (g_pow a e)), IH, <- (N.mul_mod (a ^ _)), <- N.mul_mod by apply p_pos.
    f_equal. replace (N.pos e~1) with (1 + (N.pos e + N.pos e)) by lia. rewrite !N.pow_add_r, N.pow_1_r. reflexivity.
  - rewrite g_mul_mod, N.mul_mod, IH, <- N.mul_mod by apply p_pos.
    f_equal. replace (N.pos e~0) with (N.pos e + N.pos e) by lia. rewrite !N.pow_add_r. reflexivity.
  - rewrite N.pow_1_r. reflexivity.
Qed.
Lemma g_pow_rep a e : rep a -> rep (g_pow a e).
Proof. intros H. induction e as [e IH|e IH|]; cbn [g_pow]; repeat apply g_mul_rep; assumption. Qed.
Lemma pow_mod a e : (a mod p) ^ e mod p = a ^ e mod p.
Proof.
  induction e as [|e IH] using N.peano_ind; [reflexivity|].
  rewrite !N.pow_succ_r', N.mul_mod, IH, N.mod_mod, <- N.mul_mod by apply p_pos. reflexivity.
Qed.

(** ** The field *)
Lemma p_Z : Z.of_N p = (2 ^ 384 - 2 ^ 128 - 2 ^ 96 + 2 ^ 32 - 1)%Z. Proof. reflexivity. Qed.
Lemma prime_p : prime (Z.of_N p). Proof. rewrite p_Z. exact prime_p384. Qed.
Lemma fermat_N a : a mod p <> 0 -> a ^ (p - 1) mod p = 1.
Proof.
  intros H. apply N2Z.inj. rewrite N2Z.inj_mod, N2Z.inj_pow, N2Z.inj_sub by discriminate.
  apply (Primes.fermat (Z.of_N p)); [exact prime_p|].
  intros D. apply H. apply N2Z.inj. rewrite N2Z.inj_mod. apply Z.mod_divide; [discriminate|exact D].
Qed.

Definition F : Type := { n : N | n <? p = true }.
Definition fv (x : F) : N := proj1_sig x.
Lemma mod_ltb n : n mod p <? p = true.
Proof. apply N.ltb_lt, N.mod_lt, p_pos. Qed.
Definition phi (n : N) : F := exist _ (n mod p) (mod_ltb n).

Lemma F_ext x y : fv x = fv y -> x = y.
Proof. destruct x as [x Hx], y as [y Hy]. cbn. intros <-. f_equal. apply UIP_dec, bool_dec. Qed.
Lemma fv_lt x : fv x < p.
Proof. destruct x as [x Hx]. apply N.ltb_lt. exact Hx. Qed.
Lemma phi_fv x : phi (fv x) = x.
Proof. apply F_ext. cbn. apply N.mod_small, fv_lt. Qed.
Lemma phi_eq a b : phi a = phi b <-> a mod p = b mod p.
Proof.
  split; intros H; [exact (f_equal fv H)|apply F_ext; exact H].
Qed.
Lemma phi_ex x : exists a, x = phi a.
Proof. exists (fv x). symmetry. apply phi_fv. Qed.

Definition fadd (x y : F) : F := phi (fv x + fv y).
Definition fmul (x y : F) : F := phi (fv x * fv y).
Definition fopp (x : F) : F := phi (p - fv x).
Definition fsub (x y : F) : F := fadd x (fopp y).
Definition finv (x : F) : F := phi (fv x ^ (p - 2)).
Definition fdiv (x y : F) : F := fmul x (finv y).

Lemma phi_add a b : phi (a + b) = fadd (phi a) (phi b).
Proof. apply phi_eq. cbn. apply N.add_mod, p_pos. Qed.
Lemma phi_mul a b : phi (a * b) = fmul (phi a) (phi b).
Proof. apply phi_eq. cbn. apply N.mul_mod, p_pos. Qed.
Lemma phi_p : phi p = phi 0.
Proof. apply phi_eq. reflexivity. Qed.
Lemma fadd_opp x : fadd x (fopp x) = phi 0.
Proof.
  rewrite <- (phi_fv x) at 1. unfold fopp. rewrite <- phi_add.
  replace (fv x + (p - fv x)) with p by (pose proof (fv_lt x); lia). exact phi_p.
Qed.
Lemma F_ring : ring_theory (phi 0) (phi 1) fadd fmul fsub fopp eq.
Proof.
  split; try (intros x y; destruct (phi_ex x) as [a ->], (phi_ex y) as [b ->]; try (intros z; destruct (phi_ex z) as [c ->]);
    rewrite <- ?phi_add, <- ?phi_mul, <- ?phi_add, <- ?phi_mul; f_equal; lia).
  - intros x. destruct (phi_ex x) as [a ->]. rewrite <- phi_add. reflexivity.
  - intros x. destruct (phi_ex x) as [a ->]. rewrite <- phi_mul. f_equal. lia.
  - reflexivity.
  - exact fadd_opp.
Qed.
Lemma phi_n0 a : phi a <> phi 0 <-> a mod p <> 0.
Proof. rewrite phi_eq. reflexivity. Qed.
Lemma F_field : field_theory (phi 0) (phi 1) fadd fmul fsub fopp fdiv finv eq.
Proof.
  split; [exact F_ring| |reflexivity|].
  - intros E. apply phi_eq in E. discriminate E.
  - intros x H. destruct (phi_ex x) as [a ->]. apply phi_n0, fermat_N in H.
    assert (E : finv (phi a) = phi (a ^ (p - 2))) by (apply phi_eq, pow_mod).
    rewrite E, <- phi_mul. apply phi_eq. rewrite N.mul_comm, <- N.pow_succ_r'. exact H.
Qed.

Lemma fopp_phi a : a <= p -> fopp (phi a) = phi (p - a).
Proof.
  intros H. pose proof (fadd_opp (phi a)) as E.
  assert (E' : fadd (phi a) (phi (p - a)) = phi 0) by (rewrite <- phi_add; replace (a + (p - a)) with p by lia; exact phi_p).
  rewrite <- E' in E. apply (f_equal (fadd (fopp (phi a)))) in E.
  rewrite !(Radd_assoc F_ring), (Radd_comm F_ring (fopp _) (phi a)), (Ropp_def F_ring), !(Radd_0_l F_ring) in E. exact E.
Qed.
Lemma F_dec (x y : F) : {x = y} + {x <> y}.
Proof.
  destruct (N.eq_dec (fv x) (fv y)) as [E|N]; [left; apply F_ext, E|right; intros E; apply N, (f_equal fv E)].
Defined.
Lemma phi_pow a n : phi (a ^ n) = N.iter n (fmul (phi a)) (phi 1).
Proof.
  induction n as [|n IH] using N.peano_ind; [reflexivity|].
  rewrite N.iter_succ, <- IH, <- phi_mul, N.pow_succ_r'. reflexivity.
Qed.

(** ** The constants *)
Definition a384 : N := p - 3.
Lemma disc384 :
  let two := fadd (phi 1) (phi 1) in let three := fadd (phi 1) two in let a := phi a384 in let b := phi p384_b in
  fadd (fmul (fmul two two) (fmul (fmul a a) a)) (fmul (fmul (fmul three three) three) (fmul b b)) <> phi 0.
Proof.
  cbv zeta. rewrite <- !phi_add, <- !phi_mul, <- !phi_add. intros E. apply phi_eq in E. revert E.
  apply N.eqb_neq. vm_compute. reflexivity.
Qed.
Lemma two384 : fadd (phi 1) (phi 1) <> phi 0.
Proof. rewrite <- phi_add. intros E. apply phi_eq in E. discriminate E. Qed.
Definition W384 : wfield := {|
  wcar := F; w0 := phi 0; w1 := phi 1; wadd := fadd; wmul := fmul; wsub := fsub; wopp := fopp; wdiv := fdiv; winv := finv;
  wth := F_field; wdec := F_dec; wa := phi a384; wb := phi p384_b; wtwo := two384; wdisc := disc384;
|}.
Lemma a384_eq : phi a384 = fopp (fadd (phi 1) (fadd (phi 1) (phi 1))).
Proof. rewrite <- !phi_add, fopp_phi by discriminate. reflexivity. Qed.
Lemma fermat_F x : x <> phi 0 -> N.iter (p - 1) (fmul x) (phi 1) = phi 1.
Proof.
  destruct (phi_ex x) as [a ->]. intros H. rewrite <- phi_pow. apply phi_eq.
  apply phi_n0, fermat_N in H. exact H.
Qed.
