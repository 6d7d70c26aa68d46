(** Keystreams, counters, random draws: lemmas shared by tokens and PASERKs. *)
From Coq Require Import ZArith ZifyBool ZifyNat ZifyN.
From Verif Require Import Bytes BytesLemmas Outcome Prims Version Local SpecPaseto SpecPaserk Observe.
Ltac Zify.zify_post_hook ::= Z.div_mod_to_equations.

Lemma flat_map_const_length {A} (f : A -> bytes) k l :
  (forall x, length (f x) = k) -> length (flat_map f l) = length l * k.
Proof.
  intros H. induction l as [|x l IH]; [reflexivity|].
  cbn [flat_map length]. rewrite app_length, H, IH. lia.
Qed.

Lemma aes256ctr_ks_length (S : Sym) key iv n :
  SymLaws S -> length (aes256ctr_ks S key iv n) = n.
Proof.
  intros L. unfold aes256ctr_ks. rewrite firstn_length.
  rewrite (flat_map_const_length _ 16) by (intros; apply (aes_len _ L)).
  rewrite seq_length. lia.
Qed.

Lemma bsxor_firstn d ks : bsxor d (firstn (length d) ks) = bsxor d ks.
Proof.
  revert ks; induction d as [|x d IH]; intros [|y ks]; cbn [length firstn bsxor]; try reflexivity.
  rewrite IH. reflexivity.
Qed.

Lemma apply_keystream_invol (P : Prims) v key iv d c :
  SymLaws P -> apply_keystream P v key iv d = Ok c ->
  length c = length d /\ apply_keystream P v key iv c = Ok d.
Proof.
  intros L. destruct v; cbn [apply_keystream].
  - intros H. injection H as <-.
    assert (E : length (bsxor d (aes256ctr_ks P key iv (length d))) = length d).
    { rewrite bsxor_length, aes256ctr_ks_length by exact L. lia. }
    split; [exact E|]. rewrite E. f_equal. apply bsxor_involutive.
    rewrite aes256ctr_ks_length by exact L. lia.
  - destruct (xchacha20_limit <? nlen d)%N eqn:LIM; [discriminate|]. intros H. injection H as <-.
    assert (E : length (bsxor d (xchacha20_ks P key iv (length d))) = length d).
    { rewrite bsxor_length, (xchacha_len _ L). lia. }
    split; [exact E|]. unfold nlen in *. rewrite E, LIM. f_equal. apply bsxor_involutive.
    rewrite (xchacha_len _ L). lia.
Qed.

Lemma apply_keystream_ok (P : Prims) v key iv d :
  within_limit v (nlen d) -> exists c, apply_keystream P v key iv d = Ok c.
Proof.
  destruct v; cbn [apply_keystream within_limit].
  - eauto.
  - intros H. destruct (N.ltb_spec xchacha20_limit (nlen d)); [lia|]. eauto.
Qed.

Lemma apply_keystream_panic (P : Prims) v key iv d :
  apply_keystream P v key iv d = Panic <-> ~ within_limit v (nlen d).
Proof.
  destruct v; cbn [apply_keystream within_limit].
  - split; [discriminate|tauto].
  - destruct (N.ltb_spec xchacha20_limit (nlen d)); split; try tauto; try discriminate; try lia.
Qed.

Lemma apply_keystream_not_err (P : Prims) v key iv d e : apply_keystream P v key iv d <> Err e.
Proof.
  destruct v; cbn [apply_keystream]; [discriminate|].
  destruct (xchacha20_limit <? nlen d)%N; discriminate.
Qed.

(** ** The 64-bit and the 128-bit counter *)
Lemma be_val_app a b : be_val (a ++ b) = (be_val a * 256 ^ N.of_nat (length b) + be_val b)%N.
Proof.
  unfold be_val. rewrite rev_app_distr.
  assert (G : forall x y, le_val (x ++ y) = (le_val x + 256 ^ N.of_nat (length x) * le_val y)%N).
  { induction x as [|c x IH]; intros y; [cbn [app le_val length]; rewrite N.pow_0_r; lia|].
    cbn [app le_val length]. rewrite IH. replace (N.of_nat (S (length x))) with (N.succ (N.of_nat (length x))) by lia.
    rewrite N.pow_succ_r'. lia. }
  rewrite G, rev_length. lia.
Qed.

Lemma le_bytes_app k n m : le_bytes (k + n) m = le_bytes k m ++ le_bytes n (m / 256 ^ N.of_nat k).
Proof.
  revert m; induction k as [|k IH]; intros m.
  - cbn [plus le_bytes app]. rewrite N.pow_0_r, N.div_1_r. reflexivity.
  - cbn [plus le_bytes app]. rewrite IH. f_equal. f_equal. f_equal.
    replace (N.of_nat (S k)) with (N.succ (N.of_nat k)) by lia.
    rewrite N.pow_succ_r', N.div_div by (try discriminate; apply N.pow_nonzero; discriminate). reflexivity.
Qed.

Lemma le_bytes_mod k m : le_bytes k (m mod 256 ^ N.of_nat k) = le_bytes k m.
Proof.
  assert (G : le_val (le_bytes k (m mod 256 ^ N.of_nat k)) = le_val (le_bytes k m)).
  { rewrite !le_val_le_bytes. apply N.mod_mod, N.pow_nonzero. discriminate. }
  pose proof (le_bytes_le_val (le_bytes k (m mod 256 ^ N.of_nat k))) as A.
  pose proof (le_bytes_le_val (le_bytes k m)) as B. rewrite le_bytes_length in A, B.
  rewrite <- A, G. exact B.
Qed.

Lemma be_bytes_16 m :
  (m < two128)%N -> be_bytes 16 m = be_bytes 8 (m / two64) ++ be_bytes 8 (m mod two64).
Proof.
  intros H. unfold be_bytes. rewrite <- rev_app_distr. f_equal.
  change 16 with (8 + 8) at 1. rewrite le_bytes_app. change (256 ^ N.of_nat 8)%N with two64.
  f_equal. change two64 with (256 ^ N.of_nat 8)%N. symmetry. apply le_bytes_mod.
Qed.

Lemma two64_sq : (two64 * two64 = two128)%N.
Proof. reflexivity. Qed.

Lemma iv_val iv : length iv = 16 ->
  be_val iv = (be_val (firstn 8 iv) * two64 + be_val (skipn 8 iv))%N
  /\ (be_val (firstn 8 iv) < two64)%N /\ (be_val (skipn 8 iv) < two64)%N.
Proof.
  intros L. assert (L1 : length (firstn 8 iv) = 8) by (rewrite firstn_length; lia).
  assert (L2 : length (skipn 8 iv) = 8) by (rewrite skipn_length; lia).
  split; [|split].
  - rewrite <- (firstn_skipn 8 iv) at 1. rewrite be_val_app, L2. reflexivity.
  - pose proof (be_val_bound (firstn 8 iv)) as B. rewrite L1 in B. exact B.
  - pose proof (be_val_bound (skipn 8 iv)) as B. rewrite L2 in B. exact B.
Qed.

Lemma ctr_blocks_agree iv i :
  length iv = 16 -> (N.of_nat i <= two64)%N ->
  (ctr64_block iv i = ctr128_block iv i <-> (be_val (skipn 8 iv) + N.of_nat i < two64)%N).
Proof.
  intros L Hi. destruct (iv_val iv L) as (V & B1 & B2).
  unfold ctr64_block, ctr128_block.
  set (lo := be_val (skipn 8 iv)) in *. set (hi := be_val (firstn 8 iv)) in *.
  assert (E1 : firstn 8 iv = be_bytes 8 hi).
  { unfold hi. rewrite <- (be_bytes_be_val (firstn 8 iv)) at 1. rewrite firstn_length, L. reflexivity. }
  rewrite V. rewrite be_bytes_16 by (apply N.mod_lt; discriminate). rewrite E1.
  split.
  - intros H. apply app_inj_len in H as [H _]; [|rewrite !be_bytes_length; reflexivity].
    destruct (N.lt_ge_cases (lo + N.of_nat i) two64) as [G|G]; [exact G|exfalso].
    set (x := ((hi * two64 + lo + N.of_nat i) mod two128)%N) in *.
    assert (Q : (x / two64 = (hi + 1) mod two64)%N).
    { unfold x. rewrite <- two64_sq. unfold two64 in *.
      destruct (N.eq_dec hi (18446744073709551616 - 1)) as [->|Ne].
      - replace ((18446744073709551616 - 1 + 1) mod 18446744073709551616)%N with 0%N by reflexivity.
        lia.
      - rewrite (N.mod_small (hi + 1)) by lia. rewrite N.mod_small by lia. lia. }
    rewrite Q in H. apply be_bytes_inj in H; change (256 ^ N.of_nat 8)%N with two64.
    + destruct (N.eq_dec (hi + 1) two64) as [E|E].
      * rewrite E, N.mod_same in H by discriminate. unfold two64 in *. lia.
      * rewrite N.mod_small in H by lia. lia.
    + exact B1.
    + apply N.mod_lt. discriminate.
  - intros G. assert (M : ((hi * two64 + lo + N.of_nat i) mod two128 = hi * two64 + (lo + N.of_nat i))%N).
    { rewrite N.mod_small; [lia|]. rewrite <- two64_sq. unfold two64 in *. lia. }
    rewrite M. rewrite (N.mod_small (lo + N.of_nat i) two64) by exact G.
    rewrite (N.add_comm (hi * two64)), N.div_add, N.mod_add by discriminate.
    rewrite (N.div_small _ _ G), (N.mod_small _ _ G), N.add_0_l. reflexivity.
Qed.

Lemma flat_map_ext_in {A B} (f g : A -> list B) l :
  (forall x, In x l -> f x = g x) -> flat_map f l = flat_map g l.
Proof.
  induction l as [|x l IH]; intros H; [reflexivity|]. cbn [flat_map].
  rewrite (H x) by (left; reflexivity). rewrite IH; [reflexivity|]. intros y Hy. apply H. right. exact Hy.
Qed.

Lemma ctr_keystream_agrees (S : Sym) key iv d :
  length iv = 16 -> ctr_safe iv (length d) ->
  bsxor d (aes256ctr_ks S key iv (length d)) = aes256_ctr S key iv d.
Proof.
  intros L C. unfold aes256ctr_ks, aes256_ctr. rewrite bsxor_firstn. f_equal.
  apply flat_map_ext_in. intros i Hi. apply in_seq in Hi. unfold ctr_safe, blocks in C.
  f_equal. apply ctr_blocks_agree; [exact L| |]; pose proof (proj2 (proj2 (iv_val iv L))); lia.
Qed.

Lemma apply_keystream_spec (P : Prims) v key iv d :
  cipher_ok v iv (length d) ->
  apply_keystream P v key iv d = Ok (cipher P v key iv d).
Proof.
  destruct v; cbn [cipher_ok apply_keystream cipher].
  - intros [L C]. rewrite ctr_keystream_agrees by assumption. reflexivity.
  - intros H. unfold nlen. destruct (N.ltb_spec xchacha20_limit (N.of_nat (length d))); [lia|]. reflexivity.
Qed.

(** ** Random draws *)
Lemma fill_eq n r : fill n r = (draw r 0 n, advance r n).
Proof. unfold fill, draw, advance. rewrite Nat.add_0_r. reflexivity. Qed.
Lemma draw_length r off n : length (draw r off n) = n.
Proof. unfold draw. rewrite map_length, seq_length. reflexivity. Qed.
Lemma draw_advance r a off n : draw (advance r a) off n = draw r (a + off) n.
Proof. unfold draw, advance. cbn [tape pos]. rewrite Nat.add_assoc. reflexivity. Qed.
Lemma advance_advance r a b : advance (advance r a) b = advance r (a + b).
Proof. unfold advance. cbn [tape pos]. rewrite Nat.add_assoc. reflexivity. Qed.

(** ** Scalars of P-384 *)
Lemma scalar384_iff b : p_scalar_ok b = true <-> scalar384 b.
Proof.
  unfold p_scalar_ok, scalar384. rewrite !andb_true_iff, negb_true_iff, Nat.eqb_eq, N.eqb_neq, N.ltb_lt.
  change 0xffffffffffffffffffffffffffffffffffffffffffffffffc7634d81f4372ddf581a0db248b0a77aecec196accc52973%N with p384_n.
  generalize p384_n. intros n. lia.
Qed.
Lemma sig_ok_false_iff s :
  p_sig_ok s = false <-> ~ (scalar384 (firstn 48 s) /\ scalar384 (skipn 48 s)).
Proof.
  unfold p_sig_ok. rewrite <- !scalar384_iff, <- andb_true_iff.
  destruct (p_scalar_ok (firstn 48 s) && p_scalar_ok (skipn 48 s)); split; congruence.
Qed.
