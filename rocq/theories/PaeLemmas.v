(** Proofs about [Pae] against [SpecPaseto.PAE]. *)
From Coq Require Import ZArith ZifyBool ZifyNat ZifyN.
From Verif Require Import Bytes BytesLemmas Pae Prims Version SpecBase64 SpecPaseto.
Ltac Zify.zify_post_hook ::= Z.div_mod_to_equations.

Lemma fold_sum_len piece acc :
  fold_left (fun a x => u64 (a + nlen x)) piece (u64 acc) = u64 (acc + nlen (concat piece)).
Proof.
  revert acc; induction piece as [|x r IH]; intros acc; cbn [fold_left concat].
  - f_equal. unfold nlen. cbn [length]. lia.
  - replace (u64 (u64 acc + nlen x)) with (u64 (acc + nlen x)).
    + rewrite IH. f_equal. rewrite nlen_app. lia.
    + unfold u64. rewrite N.add_mod_idemp_l by discriminate. reflexivity.
Qed.

Lemma fold_concat (piece : list bytes) acc :
  fold_left (fun out x => out ++ x) piece acc = acc ++ concat piece.
Proof.
  revert acc; induction piece as [|x r IH]; intros acc; cbn [fold_left concat].
  - rewrite app_nil_r. reflexivity.
  - rewrite IH, app_assoc. reflexivity.
Qed.

Lemma write_piece_eq piece :
  write_piece piece = le_bytes 8 (u64 (nlen (concat piece))) ++ concat piece.
Proof.
  unfold write_piece. cbv zeta. rewrite fold_concat. cbn [app]. f_equal.
  change 0%N with (u64 0) at 1. rewrite fold_sum_len. reflexivity.
Qed.

(** The encoding of already concatenated pieces. *)
Definition enc_piece (p : bytes) : bytes := le_bytes 8 (u64 (nlen p)) ++ p.
Definition flat_pae (ps : list bytes) : bytes :=
  le_bytes 8 (u64 (N.of_nat (length ps))) ++ flat_map enc_piece ps.

Lemma fold_pieces pieces acc :
  fold_left (fun out piece => out ++ write_piece piece) pieces acc
  = acc ++ flat_map enc_piece (map (@concat byte) pieces).
Proof.
  revert acc; induction pieces as [|p r IH]; intros acc; cbn [map flat_map fold_left].
  - symmetry. apply app_nil_r.
  - rewrite IH, write_piece_eq. unfold enc_piece. rewrite !app_assoc. reflexivity.
Qed.

Lemma pae_flat pieces : pae pieces = flat_pae (map (@concat byte) pieces).
Proof. unfold pae, flat_pae. rewrite fold_pieces, map_length. reflexivity. Qed.

Lemma two64_pow : two64 = (256 ^ N.of_nat 8)%N.
Proof. reflexivity. Qed.

Lemma le8_inj m n : (m < two64)%N -> (n < two64)%N -> le_bytes 8 (u64 m) = le_bytes 8 (u64 n) -> m = n.
Proof.
  intros Hm Hn H. unfold u64 in H. rewrite !N.mod_small in H by assumption.
  apply (le_bytes_inj 8); rewrite <- ?two64_pow; assumption.
Qed.

Lemma enc_pieces_inj ps qs x y :
  length ps = length qs ->
  Forall (fun p => (nlen p < two64)%N) ps -> Forall (fun p => (nlen p < two64)%N) qs ->
  flat_map enc_piece ps ++ x = flat_map enc_piece qs ++ y -> ps = qs /\ x = y.
Proof.
  revert qs; induction ps as [|p ps IH]; intros [|q qs] L Hp Hq H; try discriminate L.
  - auto.
  - cbn [flat_map] in H. unfold enc_piece in H. rewrite <- !app_assoc in H.
    apply Forall_cons_iff in Hp as [Hp Hps]. apply Forall_cons_iff in Hq as [Hq Hqs].
    apply app_inj_len in H as [E1 E2]; [|rewrite !le_bytes_length; reflexivity].
    apply le8_inj in E1; try assumption.
    apply app_inj_len in E2 as [-> E2]; [|unfold nlen in E1; lia].
    injection L as L. apply IH in E2 as [-> ->]; auto.
Qed.

Lemma flat_pae_prefix_free ps qs x y :
  fits ps -> fits qs -> flat_pae ps ++ x = flat_pae qs ++ y -> ps = qs /\ x = y.
Proof.
  intros [Lp Fp] [Lq Fq] H. unfold flat_pae in H. rewrite <- !app_assoc in H.
  apply app_inj_len in H as [H1 H2]; [|rewrite !le_bytes_length; reflexivity].
  apply le8_inj in H1; try assumption.
  apply enc_pieces_inj in H2; auto. lia.
Qed.

Lemma flat_pae_inj ps qs : fits ps -> fits qs -> flat_pae ps = flat_pae qs -> ps = qs.
Proof.
  intros Hp Hq H. apply (flat_pae_prefix_free ps qs [] []); auto. rewrite H. reflexivity.
Qed.

(** LE64 *)
Lemma land_63 n : N.land n 9223372036854775807 = (n mod two63)%N.
Proof. change 9223372036854775807%N with (N.ones 63). rewrite N.land_ones. reflexivity. Qed.

Lemma LE64_le_bytes n : (n < two63)%N -> LE64 n = le_bytes 8 (u64 n).
Proof.
  intros H. unfold LE64. rewrite land_63, N.mod_small by exact H.
  unfold u64. rewrite N.mod_small by (unfold two64, two63 in *; lia).
  cbn [map le_bytes]. rewrite !N.shiftr_div_pow2, !N.div_div by discriminate.
  cbn [N.of_nat Pos.of_succ_nat Pos.succ N.mul Pos.mul Pos.add].
  rewrite N.pow_0_r, N.div_1_r. reflexivity.
Qed.

Lemma pae_spec pieces :
  (N.of_nat (length pieces) < two63)%N ->
  Forall rust_slice (map (@concat byte) pieces) ->
  pae pieces = PAE (map (@concat byte) pieces).
Proof.
  intros L F. rewrite pae_flat. unfold flat_pae, PAE. rewrite LE64_le_bytes by (rewrite map_length; exact L).
  f_equal. clear L. induction F as [|p ps Hp F IH]; [reflexivity|].
  cbn [flat_map]. rewrite IH. unfold enc_piece at 1. rewrite LE64_le_bytes by exact Hp. reflexivity.
Qed.

Lemma rust_slice_fits b : rust_slice b -> (nlen b < two64)%N.
Proof. unfold rust_slice, two63, two64. lia. Qed.

Lemma PAE_flat ps : (N.of_nat (length ps) < two63)%N -> Forall rust_slice ps -> PAE ps = flat_pae ps.
Proof.
  intros L F. unfold flat_pae, PAE. rewrite LE64_le_bytes by exact L.
  f_equal. clear L. induction F as [|p ps Hp F IH]; [reflexivity|].
  cbn [flat_map]. rewrite IH. unfold enc_piece at 1. rewrite LE64_le_bytes by exact Hp. reflexivity.
Qed.
