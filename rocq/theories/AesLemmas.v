(** * AesLemmas: AES-256 of [ConcreteSym.v] is injective on blocks, for every key. *)
From Coq Require Import ZifyBool ZifyNat ZifyN.
From Verif Require Import Bytes BytesLemmas Prims ConcreteSym ConcreteLemmas.

Lemma b2n_bxor a b : b2n (bxor a b) = N.lxor (b2n a) (b2n b).
Proof.
  unfold bxor. rewrite b2n_n2b. apply N.mod_small.
  destruct (N.eq_dec (N.lxor (b2n a) (b2n b)) 0) as [->|Hz]; [reflexivity|].
  apply N.log2_lt_pow2 with (b := 8%N); [lia|].
  eapply N.le_lt_trans; [apply N.log2_lxor|].
  apply N.max_lub_lt; [destruct a|destruct b]; reflexivity.
Qed.
Lemma bxor_assoc a b c : bxor (bxor a b) c = bxor a (bxor b c).
Proof. apply b2n_inj. rewrite !b2n_bxor. apply N.lxor_assoc. Qed.
Lemma bxor_nilpotent a : bxor a a = x00.
Proof. apply b2n_inj. rewrite b2n_bxor. apply N.lxor_nilpotent. Qed.
Lemma bxor_0_r a : bxor a x00 = a.
Proof. apply b2n_inj. rewrite b2n_bxor. apply N.lxor_0_r. Qed.
Lemma bxor_0_l a : bxor x00 a = a.
Proof. rewrite bxor_comm. apply bxor_0_r. Qed.
Lemma bxor_eq a b : bxor a b = x00 <-> a = b.
Proof.
  split; intros H; [|rewrite H; apply bxor_nilpotent].
  rewrite <- (bxor_involutive a b), H. apply bxor_0_l.
Qed.
Lemma bxor_cancel_r a b c : bxor a c = bxor b c -> a = b.
Proof. intros H. rewrite <- (bxor_involutive a c), H. apply bxor_involutive. Qed.

Lemma xtime_bits b :
  b2n (xtime b) = N.lxor (N.shiftl (b2n b) 1) (if N.testbit (b2n b) 7 then 283%N else 0%N).
Proof. destruct b; reflexivity. Qed.
Lemma xtime_linear a b : xtime (bxor a b) = bxor (xtime a) (xtime b).
Proof.
  apply b2n_inj. rewrite b2n_bxor, !xtime_bits, b2n_bxor, N.shiftl_lxor, N.lxor_spec.
  set (x := N.shiftl (b2n a) 1). set (y := N.shiftl (b2n b) 1).
  apply N.bits_inj. intros n. rewrite !N.lxor_spec.
  destruct (N.testbit (b2n a) 7), (N.testbit (b2n b) 7); cbn [xorb];
    rewrite ?N.bits_0; destruct (N.testbit x n), (N.testbit y n), (N.testbit 283 n); reflexivity.
Qed.
Lemma xtime_0 : xtime x00 = x00.
Proof. reflexivity. Qed.

Definition sbox_inv (b : byte) : byte :=
  match b with
  | x00 => x52 | x01 => x09 | x02 => x6a | x03 => xd5 | x04 => x30 | x05 => x36 | x06 => xa5 | x07 => x38
  | x08 => xbf | x09 => x40 | x0a => xa3 | x0b => x9e | x0c => x81 | x0d => xf3 | x0e => xd7 | x0f => xfb
  | x10 => x7c | x11 => xe3 | x12 => x39 | x13 => x82 | x14 => x9b | x15 => x2f | x16 => xff | x17 => x87
  | x18 => x34 | x19 => x8e | x1a => x43 | x1b => x44 | x1c => xc4 | x1d => xde | x1e => xe9 | x1f => xcb
  | x20 => x54 | x21 => x7b | x22 => x94 | x23 => x32 | x24 => xa6 | x25 => xc2 | x26 => x23 | x27 => x3d
  | x28 => xee | x29 => x4c | x2a => x95 | x2b => x0b | x2c => x42 | x2d => xfa | x2e => xc3 | x2f => x4e
  | x30 => x08 | x31 => x2e | x32 => xa1 | x33 => x66 | x34 => x28 | x35 => xd9 | x36 => x24 | x37 => xb2
  | x38 => x76 | x39 => x5b | x3a => xa2 | x3b => x49 | x3c => x6d | x3d => x8b | x3e => xd1 | x3f => x25
  | x40 => x72 | x41 => xf8 | x42 => xf6 | x43 => x64 | x44 => x86 | x45 => x68 | x46 => x98 | x47 => x16
  | x48 => xd4 | x49 => xa4 | x4a => x5c | x4b => xcc | x4c => x5d | x4d => x65 | x4e => xb6 | x4f => x92
  | x50 => x6c | x51 => x70 | x52 => x48 | x53 => x50 | x54 => xfd | x55 => xed | x56 => xb9 | x57 => xda
  | x58 => x5e | x59 => x15 | x5a => x46 | x5b => x57 | x5c => xa7 | x5d => x8d | x5e => x9d | x5f => x84
  | x60 => x90 | x61 => xd8 | x62 => xab | x63 => x00 | x64 => x8c | x65 => xbc | x66 => xd3 | x67 => x0a
  | x68 => xf7 | x69 => xe4 | x6a => x58 | x6b => x05 | x6c => xb8 | x6d => xb3 | x6e => x45 | x6f => x06
  | x70 => xd0 | x71 => x2c | x72 => x1e | x73 => x8f | x74 => xca | x75 => x3f | x76 => x0f | x77 => x02
  | x78 => xc1 | x79 => xaf | x7a => xbd | x7b => x03 | x7c => x01 | x7d => x13 | x7e => x8a | x7f => x6b
  | x80 => x3a | x81 => x91 | x82 => x11 | x83 => x41 | x84 => x4f | x85 => x67 | x86 => xdc | x87 => xea
  | x88 => x97 | x89 => xf2 | x8a => xcf | x8b => xce | x8c => xf0 | x8d => xb4 | x8e => xe6 | x8f => x73
  | x90 => x96 | x91 => xac | x92 => x74 | x93 => x22 | x94 => xe7 | x95 => xad | x96 => x35 | x97 => x85
  | x98 => xe2 | x99 => xf9 | x9a => x37 | x9b => xe8 | x9c => x1c | x9d => x75 | x9e => xdf | x9f => x6e
  | xa0 => x47 | xa1 => xf1 | xa2 => x1a | xa3 => x71 | xa4 => x1d | xa5 => x29 | xa6 => xc5 | xa7 => x89
  | xa8 => x6f | xa9 => xb7 | xaa => x62 | xab => x0e | xac => xaa | xad => x18 | xae => xbe | xaf => x1b
  | xb0 => xfc | xb1 => x56 | xb2 => x3e | xb3 => x4b | xb4 => xc6 | xb5 => xd2 | xb6 => x79 | xb7 => x20
  | xb8 => x9a | xb9 => xdb | xba => xc0 | xbb => xfe | xbc => x78 | xbd => xcd | xbe => x5a | xbf => xf4
  | xc0 => x1f | xc1 => xdd | xc2 => xa8 | xc3 => x33 | xc4 => x88 | xc5 => x07 | xc6 => xc7 | xc7 => x31
  | xc8 => xb1 | xc9 => x12 | xca => x10 | xcb => x59 | xcc => x27 | xcd => x80 | xce => xec | xcf => x5f
  | xd0 => x60 | xd1 => x51 | xd2 => x7f | xd3 => xa9 | xd4 => x19 | xd5 => xb5 | xd6 => x4a | xd7 => x0d
  | xd8 => x2d | xd9 => xe5 | xda => x7a | xdb => x9f | xdc => x93 | xdd => xc9 | xde => x9c | xdf => xef
  | xe0 => xa0 | xe1 => xe0 | xe2 => x3b | xe3 => x4d | xe4 => xae | xe5 => x2a | xe6 => xf5 | xe7 => xb0
  | xe8 => xc8 | xe9 => xeb | xea => xbb | xeb => x3c | xec => x83 | xed => x53 | xee => x99 | xef => x61
  | xf0 => x17 | xf1 => x2b | xf2 => x04 | xf3 => x7e | xf4 => xba | xf5 => x77 | xf6 => xd6 | xf7 => x26
  | xf8 => xe1 | xf9 => x69 | xfa => x14 | xfb => x63 | xfc => x55 | xfd => x21 | xfe => x0c | xff => x7d
  end.
Lemma sbox_inv_ok b : sbox_inv (sbox b) = b.
Proof. destruct b; reflexivity. Qed.
Lemma sbox_inj a b : sbox a = sbox b -> a = b.
Proof. intros E. rewrite <- (sbox_inv_ok a), <- (sbox_inv_ok b), E. reflexivity. Qed.

(** One column of MixColumns: it is linear with trivial kernel. *)
Definition column (a b c d : byte) : byte := bxor (bxor (bxor (bxor (xtime a) (xtime b)) b) c) d.
Ltac by_bits := apply b2n_inj; rewrite ?b2n_bxor; apply N.bits_inj; intros n; rewrite ?N.lxor_spec;
  repeat match goal with |- context [N.testbit (b2n ?a) n] => destruct (N.testbit (b2n a) n) end; reflexivity.
Lemma column_linear a b c d a' b' c' d' :
  column (bxor a a') (bxor b b') (bxor c c') (bxor d d') = bxor (column a b c d) (column a' b' c' d').
Proof. unfold column. rewrite !xtime_linear. by_bits. Qed.
Lemma column_kernel x0 x1 x2 x3 :
  column x0 x1 x2 x3 = x00 -> column x1 x2 x3 x0 = x00 -> column x2 x3 x0 x1 = x00 -> column x3 x0 x1 x2 = x00 ->
  x0 = x00 /\ x1 = x00 /\ x2 = x00 /\ x3 = x00.
Proof.
  intros H0 H1 H2 H3.
  assert (T : bxor (bxor x0 x1) (bxor x2 x3) = x00).
  { transitivity (bxor (bxor (column x0 x1 x2 x3) (column x1 x2 x3 x0))
                       (bxor (column x2 x3 x0 x1) (column x3 x0 x1 x2))).
    - unfold column. by_bits.
    - rewrite H0, H1, H2, H3. reflexivity. }
  assert (E : forall a b c d, column a b c d = x00 -> bxor (bxor a b) (bxor c d) = x00 -> a = xtime (bxor a b)).
  { intros a b c d Hc Ht. apply bxor_eq.
    transitivity (bxor (column a b c d) (bxor (bxor a b) (bxor c d))).
    - rewrite xtime_linear. unfold column. by_bits.
    - rewrite Hc, Ht. reflexivity. }
  assert (T' : bxor (bxor x1 x2) (bxor x3 x0) = x00) by (rewrite <- T; by_bits).
  pose proof (E x0 x1 x2 x3 H0 T) as E0.
  pose proof (E x1 x2 x3 x0 H1 T') as E1.
  assert (E2 : x2 = xtime (bxor x2 x3)) by (apply (E x2 x3 x0 x1 H2); rewrite <- T; by_bits).
  assert (E3 : x3 = xtime (bxor x3 x0)) by (apply (E x3 x0 x1 x2 H3); rewrite <- T; by_bits).
  assert (D : x0 = x2).
  { apply bxor_eq. transitivity (bxor (xtime (bxor x0 x1)) (xtime (bxor x2 x3))); [rewrite <- E0, <- E2; reflexivity|].
    rewrite <- xtime_linear, T. reflexivity. }
  subst x2.
  assert (D : x0 = x1).
  { transitivity (xtime (bxor x0 x1)); [exact E0|]. rewrite bxor_comm. symmetry. exact E1. }
  subst x1. rewrite bxor_nilpotent, xtime_0 in E0. subst x0.
  rewrite !bxor_0_l in T. auto.
Qed.

Lemma tab16_nb f i : i < 16 -> nb (tab16 f) i = f i.
Proof.
  intros Hi. unfold nb, tab16. rewrite (nth_indep _ x00 (f 0)) by (rewrite map_length, seq_length; exact Hi).
  rewrite (map_nth f), seq_nth by exact Hi. reflexivity.
Qed.
Lemma block_ext a b : length a = 16 -> length b = 16 -> (forall i, i < 16 -> nb a i = nb b i) -> a = b.
Proof.
  intros Ha Hb H. apply (nth_ext a b x00 x00); [congruence|]. intros i Hi. apply H. lia.
Qed.

Lemma add_round_key_inj k a b : length a = 16 -> length b = 16 ->
  add_round_key k a = add_round_key k b -> a = b.
Proof.
  intros Ha Hb H. apply block_ext; [exact Ha|exact Hb|]. intros i Hi.
  apply (f_equal (fun l => nb l i)) in H. unfold add_round_key in H. rewrite !tab16_nb in H by exact Hi.
  exact (bxor_cancel_r _ _ _ H).
Qed.
Lemma sub_shift_inj a b : length a = 16 -> length b = 16 -> sub_shift a = sub_shift b -> a = b.
Proof.
  intros Ha Hb H. apply block_ext; [exact Ha|exact Hb|].
  assert (G : forall i, i < 16 -> nb a ((i + 4 * (i mod 4)) mod 16) = nb b ((i + 4 * (i mod 4)) mod 16)).
  { intros i Hi. apply (f_equal (fun l => nb l i)) in H. unfold sub_shift in H.
    rewrite !tab16_nb in H by exact Hi. exact (sbox_inj _ _ H). }
  intros i Hi. specialize (G ((i + 12 * (i mod 4)) mod 16)).
  do 16 (destruct i as [|i]; [apply G; apply Nat.ltb_lt; reflexivity|]). lia.
Qed.
Lemma mix_columns_inj a b : length a = 16 -> length b = 16 -> mix_columns a = mix_columns b -> a = b.
Proof.
  intros Ha Hb H. apply block_ext; [exact Ha|exact Hb|].
  assert (G : forall i, i < 16 ->
    let c := i / 4 * 4 in
    column (nb a (c + i mod 4)) (nb a (c + (i + 1) mod 4)) (nb a (c + (i + 2) mod 4)) (nb a (c + (i + 3) mod 4)) =
    column (nb b (c + i mod 4)) (nb b (c + (i + 1) mod 4)) (nb b (c + (i + 2) mod 4)) (nb b (c + (i + 3) mod 4))).
  { intros i Hi. apply (f_equal (fun l => nb l i)) in H. unfold mix_columns in H.
    rewrite !tab16_nb in H by exact Hi. exact H. }
  assert (C : forall c, c < 4 -> nb a (4 * c) = nb b (4 * c) /\ nb a (4 * c + 1) = nb b (4 * c + 1) /\
                        nb a (4 * c + 2) = nb b (4 * c + 2) /\ nb a (4 * c + 3) = nb b (4 * c + 3)).
  { intros c Hc.
    enough (K : bxor (nb a (4 * c)) (nb b (4 * c)) = x00 /\ bxor (nb a (4 * c + 1)) (nb b (4 * c + 1)) = x00 /\
                bxor (nb a (4 * c + 2)) (nb b (4 * c + 2)) = x00 /\ bxor (nb a (4 * c + 3)) (nb b (4 * c + 3)) = x00).
    { destruct K as (K0 & K1 & K2 & K3). repeat split; apply bxor_eq; assumption. }
    pose proof (G (4 * c) ltac:(lia)) as G0. pose proof (G (4 * c + 1) ltac:(lia)) as G1.
    pose proof (G (4 * c + 2) ltac:(lia)) as G2. pose proof (G (4 * c + 3) ltac:(lia)) as G3.
    clear G H Ha Hb.
    destruct c as [|[|[|[|c]]]]; [| | | |lia];
      (apply column_kernel; rewrite column_linear; apply bxor_eq; [exact G0|exact G1|exact G2|exact G3]). }
  intros i Hi.
  do 16 (destruct i as [|i];
    [first [apply (C 0)|apply (C 1)|apply (C 2)|apply (C 3)]; apply Nat.ltb_lt; reflexivity|]). lia.
Qed.

Lemma aes_rounds_inj ks a b : length a = 16 -> length b = 16 -> aes_rounds ks a = aes_rounds ks b -> a = b.
Proof.
  revert a b. induction ks as [|k ks IH]; intros a b Ha Hb H; [exact H|].
  destruct ks as [|k' ks].
  - apply sub_shift_inj; [exact Ha|exact Hb|]. revert H. apply add_round_key_inj; apply tab16_length.
  - apply sub_shift_inj; [exact Ha|exact Hb|]. apply mix_columns_inj; [apply tab16_length..|].
    apply (add_round_key_inj k); [apply tab16_length..|]. apply IH; [apply tab16_length..|exact H].
Qed.

(** Different blocks are encrypted differently under every key. *)
Lemma c_aes256_inj key a b : length a = 16 -> length b = 16 -> c_aes256 key a = c_aes256 key b -> a = b.
Proof.
  intros Ha Hb. unfold c_aes256. destruct (aes_keys key) as [|k ks]; intros H.
  - apply block_ext; [exact Ha|exact Hb|]. intros i Hi. apply (f_equal (fun l => nb l i)) in H.
    rewrite !tab16_nb in H by exact Hi. exact H.
  - apply (add_round_key_inj k); [exact Ha|exact Hb|]. revert H. apply aes_rounds_inj; apply tab16_length.
Qed.
