(** * CurveLemmas: sizes and formats hold of the executable curves, so every theorem that
    assumes only [Sizes] holds of the real primitives. *)
From Coq Require Import ZArith ZifyBool ZifyNat ZifyN.
From Verif Require Import Bytes BytesLemmas Prims ToyLemmas ConcreteSym ConcreteLemmas CurveAsym.

Lemma some_inj {A} (x y : A) : Some x = Some y -> x = y.
Proof. intros H. injection H as H. exact H. Qed.

Lemma curve_ed_sizes : EdSizes CurveAsym.
Proof.
  constructor; cbn [ed_pub ed_sign ed_to_mont x_base x_mul CurveAsym].
  - intros s _. unfold curve_ed_pub, ed_compress. destruct (ed_smul _ _) as [[[x y] z] t]. apply le_bytes_length.
  - intros s m _. unfold curve_ed_sign. rewrite app_length, le_bytes_length. unfold ed_compress.
    destruct (ed_smul _ _) as [[[x y] z] t]. rewrite le_bytes_length. reflexivity.
  - intros pk. unfold curve_ed_to_mont, ed_point_to_mont. destruct (ed_decompress pk) as [[[[x y] z] t]|].
    + apply le_bytes_length.
    + apply repeat_length.
  - intros s. unfold curve_x_base, ed_point_to_mont. destruct (ed_smul _ _) as [[[x y] z] t]. apply le_bytes_length.
  - intros s p. unfold curve_x_mul. destruct (ladder _ _ _ _ _ _ _) as [x z]. apply le_bytes_length.
Qed.

Lemma j_compress_max p : length (j_compress p) <= 49.
Proof.
  unfold j_compress. destruct (j_affine p) as [[x y]|]; cbn [length]; [rewrite be_bytes_length|]; lia.
Qed.
Lemma j_compress_affine x y : length (j_compress (x, y, 1%N)) = 49.
Proof.
  unfold j_compress, j_affine. change (g_is0 1) with false. cbv iota beta zeta.
  cbn [length]. rewrite be_bytes_length. reflexivity.
Qed.
Lemma j_lift_affine o xb p : j_lift o xb = Some p -> exists x y, p = (x, y, 1%N).
Proof.
  unfold j_lift. cbv zeta. destruct (_ && _); [|discriminate]. destruct (g_is0 _); [|discriminate].
  intros H. apply some_inj in H; subst. eauto.
Qed.
Lemma j_decode_affine b p : j_decode b = Some p -> exists x y, p = (x, y, 1%N).
Proof.
  destruct b as [|t r]; [discriminate|]. destruct t; try discriminate; cbn [j_decode]; try apply j_lift_affine.
  cbv zeta. destruct (_ && _ && _ && _); [|discriminate]. intros H. apply some_inj in H; subst. eauto.
Qed.

Lemma scalar_be x : (x mod p384_n =? 0)%N = false -> p_scalar_ok (be_bytes 48 (x mod p384_n)) = true.
Proof.
  intros H. apply N.eqb_neq in H. apply p_scalar_ok_iff. rewrite be_bytes_length.
  pose proof (mod_n_lt x) as Hx. rewrite be_val_48 by exact Hx. split; [reflexivity|].
  split; [|exact Hx]. apply N.neq_0_lt_0, H.
Qed.

Lemma curve_p_sk_slice_ok b k : curve_p_sk_slice b = Some k -> p_scalar_ok k = true.
Proof.
  unfold curve_p_sk_slice. cbv zeta. destruct (24 <=? length b); [|discriminate]. rewrite andb_true_l.
  destruct (p_scalar_ok (repeat x00 (48 - length b) ++ b)) eqn:E; [|discriminate].
  intros H. apply some_inj in H; subst. exact E.
Qed.

Lemma curve_p384_sizes : P384Sizes CurveAsym.
Proof.
  constructor; cbn [p_sk_slice p_sk_pem p_pub p_parse p_sign p_dh CurveAsym].
  - intros b H. unfold curve_p_sk_slice. rewrite H. reflexivity.
  - apply curve_p_sk_slice_ok.
  - intros b k. unfold curve_p_sk_pem. destruct (pem_decode _ b) as [d|]; [|discriminate].
    do 2 (destruct d as [|[] d]; try discriminate). destruct d as [|? d]; [discriminate|].
    do 5 (destruct d as [|[] d]; try discriminate).
    destruct (p_scalar_ok (firstn 48 d)) eqn:E; [|discriminate]; intros H; apply some_inj in H; subst; exact E.
  - intros s _. apply j_compress_max.
  - intros b k. unfold curve_p_parse. destruct (j_decode b) as [p|] eqn:E; [|discriminate].
    intros H. apply some_inj in H; subst. apply j_decode_affine in E as (x & y & ->). apply j_compress_affine.
  - intros t r k. unfold curve_p_parse. destruct t; try discriminate; auto.
  - intros s d sg _. unfold curve_p_sign. cbv zeta. destruct (rfc6979 _ _) as [k|]; [|discriminate].
    destruct (j_affine _) as [[x y]|]; [|discriminate].
    unfold n_mul at 1 3. destruct (x mod p384_n =? 0)%N eqn:Er; [discriminate|]. cbn [orb].
    match goal with |- context [(?a mod p384_n =? 0)%N] => destruct (a mod p384_n =? 0)%N eqn:Es end; [discriminate|].
    intros H.
    apply some_inj in H. subst sg.
    split; [rewrite app_length, !be_bytes_length; reflexivity|].
    unfold p_sig_ok. rewrite firstn_app_exact, skipn_app_exact by apply be_bytes_length.
    rewrite scalar_be by exact Er. exact (scalar_be _ Es).
  - intros s k. unfold curve_p_dh. destruct (j_decode k) as [q|]; [|apply repeat_length].
    destruct (j_affine _) as [[x y]|]; [apply be_bytes_length|apply repeat_length].
Qed.

Theorem real_sizes : Sizes Real.
Proof. constructor; [exact concrete_sym_laws|exact curve_ed_sizes|exact curve_p384_sizes]. Qed.
