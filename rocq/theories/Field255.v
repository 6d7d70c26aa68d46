(** * Field255: the integers modulo 2^255 - 19 as a field with the constants of edwards25519. *)
From Coq Require Import ZArith Znumtheory Ring Field Setoid Eqdep_dec Bool ZifyBool ZifyN Lia.
From Verif Require Import Bytes Prims ConcreteSym CurveAsym CurveWeak Primes Edwards.
Local Open Scope N_scope.
Local Notation p := p255.

(** ** Facts about [p255] *)
Lemma p_Z : Z.of_N p = (2 ^ 255 - 19)%Z. Proof. reflexivity. Qed.
Lemma prime_p : prime (Z.of_N p). Proof. rewrite p_Z. exact prime_p255. Qed.
Lemma fermat_N a : a mod p <> 0 -> a ^ (p - 1) mod p = 1.
Proof.
  intros H. apply N2Z.inj. rewrite N2Z.inj_mod, N2Z.inj_pow, N2Z.inj_sub by discriminate.
  apply (Primes.fermat (Z.of_N p)); [exact prime_p|].
  intros D. apply H. apply N2Z.inj. rewrite N2Z.inj_mod. apply Z.mod_divide; [discriminate|exact D].
Qed.

Definition F : Type := { n : N | n <? p = true }.
Definition fv (x : F) : N := proj1_sig x.
Lemma mod_ltb n : n mod p <? p = true.
Proof. apply N.ltb_lt, N.mod_lt, p_pos. Qed.
Definition phi (n : N) : F := exist _ (n mod p) (mod_ltb n).

Lemma F_ext x y : fv x = fv y -> x = y.
Proof. destruct x as [x Hx], y as [y Hy]. cbn. intros <-. f_equal. apply UIP_dec, bool_dec. Qed.
Lemma fv_lt x : fv x < p.
Proof. destruct x as [x Hx]. apply N.ltb_lt. exact Hx. Qed.
Lemma phi_fv x : phi (fv x) = x.
Proof. apply F_ext. cbn. apply N.mod_small, fv_lt. Qed.
Lemma phi_eq a b : phi a = phi b <-> a mod p = b mod p.
Proof.
  split; intros H; [exact (f_equal fv H)|apply F_ext; exact H].
Qed.
Lemma phi_ex x : exists a, x = phi a.
Proof. exists (fv x). symmetry. apply phi_fv. Qed.

Definition fadd (x y : F) : F := phi (fv x + fv y).
Definition fmul (x y : F) : F := phi (fv x * fv y).
Definition fopp (x : F) : F := phi (p - fv x).
Definition fsub (x y : F) : F := fadd x (fopp y).
Definition finv (x : F) : F := phi (fv x ^ (p - 2)).
Definition fdiv (x y : F) : F := fmul x (finv y).

Lemma phi_add a b : phi (a + b) = fadd (phi a) (phi b).
Proof. apply phi_eq. cbn. apply N.add_mod, p_pos. Qed.
Lemma phi_mul a b : phi (a * b) = fmul (phi a) (phi b).
Proof. apply phi_eq. cbn. apply N.mul_mod, p_pos. Qed.
Lemma phi_p : phi p = phi 0.
Proof. apply phi_eq. reflexivity. Qed.
Lemma fadd_opp x : fadd x (fopp x) = phi 0.
Proof.
  rewrite <- (phi_fv x) at 1. unfold fopp. rewrite <- phi_add.
  replace (fv x + (p - fv x)) with p by (pose proof (fv_lt x); lia). exact phi_p.
Qed.
Lemma F_ring : ring_theory (phi 0) (phi 1) fadd fmul fsub fopp eq.
Proof.
  split; try (intros x y; destruct (phi_ex x) as [a ->], (phi_ex y) as [b ->]; try (intros z; destruct (phi_ex z) as [c ->]);
    rewrite <- ?phi_add, <- ?phi_mul, <- ?phi_add, <- ?phi_mul; f_equal; lia).
  - intros x. destruct (phi_ex x) as [a ->]. rewrite <- phi_add. reflexivity.
  - intros x. destruct (phi_ex x) as [a ->]. rewrite <- phi_mul. f_equal. lia.
  - reflexivity.
  - exact fadd_opp.
Qed.
Lemma phi_n0 a : phi a <> phi 0 <-> a mod p <> 0.
Proof. rewrite phi_eq. reflexivity. Qed.
Lemma F_field : field_theory (phi 0) (phi 1) fadd fmul fsub fopp fdiv finv eq.
Proof.
  split; [exact F_ring| |reflexivity|].
  - intros E. apply phi_eq in E. discriminate E.
  - intros x H. destruct (phi_ex x) as [a ->]. apply phi_n0, fermat_N in H.
    assert (E : finv (phi a) = phi (a ^ (p - 2))) by (apply phi_eq, pow_mod).
    rewrite E, <- phi_mul. apply phi_eq. rewrite N.mul_comm, <- N.pow_succ_r'. exact H.
Qed.

Lemma fopp_phi a : a <= p -> fopp (phi a) = phi (p - a).
Proof.
  intros H. pose proof (fadd_opp (phi a)) as E.
  assert (E' : fadd (phi a) (phi (p - a)) = phi 0) by (rewrite <- phi_add; replace (a + (p - a)) with p by lia; exact phi_p).
  rewrite <- E' in E. apply (f_equal (fadd (fopp (phi a)))) in E.
  rewrite !(Radd_assoc F_ring), (Radd_comm F_ring (fopp _) (phi a)), (Ropp_def F_ring), !(Radd_0_l F_ring) in E. exact E.
Qed.
Lemma F_dec (x y : F) : {x = y} + {x <> y}.
Proof.
  destruct (N.eq_dec (fv x) (fv y)) as [E|N]; [left; apply F_ext, E|right; intros E; apply N, (f_equal fv E)].
Defined.
Lemma phi_pow a n : phi (a ^ n) = N.iter n (fmul (phi a)) (phi 1).
Proof.
  induction n as [|n IH] using N.peano_ind; [reflexivity|].
  rewrite N.iter_succ, <- IH, <- phi_mul, N.pow_succ_r'. reflexivity.
Qed.

(** ** The constants *)
Definition k255 : N := (p - 5) / 8.
Lemma k255_p : 8 * k255 + 4 = p - 1. Proof. reflexivity. Qed.
Lemma fermat_F x : x <> phi 0 -> N.iter (8 * k255 + 4) (fmul x) (phi 1) = phi 1.
Proof.
  destruct (phi_ex x) as [a ->]. intros H. rewrite <- phi_pow. apply phi_eq. rewrite k255_p.
  apply phi_n0, fermat_N in H. exact H.
Qed.
(** Euler's criterion for [ed_d]. *)
Lemma d_pow : f_pow ed_d (N.succ_pos ((p - 1) / 2 - 1)) mod p = p - 1.
Proof. vm_compute. reflexivity. Qed.
Lemma d_nsq x : fmul x x <> phi ed_d.
Proof.
  destruct (phi_ex x) as [a ->]. rewrite <- phi_mul, phi_eq. intros E.
  pose proof d_pow as H. rewrite f_pow_mod in H. change (N.pos (N.succ_pos ((p - 1) / 2 - 1))) with ((p - 1) / 2) in H.
  rewrite <- pow_mod, <- E, pow_mod, <- N.pow_2_r, <- N.pow_mul_r in H.
  replace (2 * ((p - 1) / 2)) with (p - 1) in H by reflexivity.
  destruct (N.eq_dec (a mod p) 0) as [Z|N].
  - rewrite <- pow_mod, Z, N.pow_0_l in H by discriminate. discriminate H.
  - rewrite fermat_N in H by exact N. discriminate H.
Qed.

Definition K255 : edfield := {|
  car := F; k0 := phi 0; k1 := phi 1; kadd := fadd; kmul := fmul; ksub := fsub; kopp := fopp; kdiv := fdiv; kinv := finv;
  kth := F_field; kdec := F_dec; kd := phi ed_d; ki := phi sqrt_m1;
  ktwo := ltac:(rewrite <- phi_add; intros E; apply phi_eq in E; discriminate E);
  ki_sq := ltac:(rewrite <- phi_mul, fopp_phi by discriminate; apply phi_eq; vm_compute; reflexivity);
  kd_nsq := d_nsq; kk := k255; kfermat := fermat_F;
  ka24 := phi 121665;
  ka24_eq := ltac:(rewrite <- phi_add, <- phi_mul, fopp_phi by discriminate; apply phi_eq; vm_compute; reflexivity);
|}.
