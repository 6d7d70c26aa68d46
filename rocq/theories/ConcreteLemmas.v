(** * ConcreteLemmas: the laws hold for the concrete instance. *)
From Coq Require Import ZifyBool ZifyNat ZifyN.
From Verif Require Import Bytes BytesLemmas Prims ConcreteSym ToyAsym ToyLemmas.

Lemma flat_map_const_length {A B} (f : A -> list B) k l :
  (forall x, length (f x) = k) -> length (flat_map f l) = length l * k.
Proof.
  intros Hf. induction l as [|x l IH]; cbn [flat_map length]; [reflexivity|].
  rewrite app_length, Hf, IH. lia.
Qed.

Lemma div_up n k : 0 < k -> n <= (n + (k - 1)) / k * k.
Proof.
  intros Hk. pose proof (Nat.div_mod (n + (k - 1)) k ltac:(lia)) as H.
  pose proof (Nat.mod_upper_bound (n + (k - 1)) k ltac:(lia)). lia.
Qed.

Lemma sha_out_length s : length (sha_out s) = 64.
Proof.
  destruct s as [[[[[[[a b] c] d] e] f] g] h]. unfold sha_out.
  rewrite ?app_length, ?be_bytes_length. reflexivity.
Qed.
Lemma c_sha384_length m : length (c_sha384 m) = 48.
Proof. unfold c_sha384, sha2. rewrite firstn_length, sha_out_length. reflexivity. Qed.
Lemma c_hmac_length k m : length (c_hmac k m) = 48.
Proof. apply c_sha384_length. Qed.
Lemma hkdf_expand_length b prk info prev i : length (hkdf_expand b prk info prev i) = b * 48.
Proof.
  revert prev i. induction b as [|b IH]; intros; cbn [hkdf_expand]; [reflexivity|].
  cbv zeta. rewrite app_length, c_hmac_length, IH. lia.
Qed.
Lemma c_hkdf_length k i n : length (c_hkdf k i n) = n.
Proof.
  unfold c_hkdf. rewrite firstn_length, hkdf_expand_length.
  pose proof (div_up n 48 ltac:(lia)) as H. change (48 - 1) with 47 in H. lia.
Qed.
Lemma c_pbkdf2_length pw s n : length (c_pbkdf2 pw s n) = 32.
Proof.
  unfold c_pbkdf2. cbv zeta. rewrite firstn_length.
  match goal with |- context [snd ?x] => enough (length (fst x) = 48 /\ length (snd x) = 48) by lia end.
  apply N.iter_invariant with (Inv := fun x => length (fst x) = 48 /\ length (snd x) = 48).
  - intros [u t] [Hu Ht]. cbn [fst snd] in *. rewrite bsxor_length, c_hmac_length, Ht. auto.
  - cbn [fst snd]. rewrite c_hmac_length. auto.
Qed.
Lemma tab16_length f : length (tab16 f) = 16.
Proof. unfold tab16. rewrite map_length. apply seq_length. Qed.
Lemma aes_rounds_length ks s : length s = 16 -> length (aes_rounds ks s) = 16.
Proof.
  revert s. induction ks as [|k ks IH]; intros s Hs; [exact Hs|].
  destruct ks as [|k' ks]; [apply tab16_length|]. apply IH, tab16_length.
Qed.
Lemma c_aes256_length k b : length (c_aes256 k b) = 16.
Proof.
  unfold c_aes256. destruct (aes_keys k); [apply tab16_length|].
  apply aes_rounds_length, tab16_length.
Qed.
Lemma blake_words_length h : length (blake_words h) = 64.
Proof.
  unfold blake_words. rewrite (flat_map_const_length _ 8) by (intros; apply le_bytes_length).
  rewrite seq_length. reflexivity.
Qed.
Lemma c_blake2b_mac_length o k m : o <= 64 -> length (c_blake2b_mac o k m) = o.
Proof. intros Ho. unfold c_blake2b_mac. cbv zeta. rewrite firstn_length, blake_words_length. lia. Qed.
Lemma chacha_block_length k n i : length (chacha_block k n i) = 64.
Proof.
  unfold chacha_block. cbv zeta.
  rewrite (flat_map_const_length _ 4) by (intros; apply le_bytes_length).
  rewrite seq_length. reflexivity.
Qed.
Lemma c_xchacha20_length k iv n : length (c_xchacha20 k iv n) = n.
Proof.
  unfold c_xchacha20. cbv zeta.
  rewrite firstn_length, (flat_map_const_length _ 64) by (intros; apply chacha_block_length).
  rewrite seq_length.
  pose proof (div_up n 64 ltac:(lia)) as H. change (64 - 1) with 63 in H. lia.
Qed.
Lemma c_argon2id_length m t p pw s : length (c_argon2id m t p pw s) = 32.
Proof. unfold c_argon2id, argon2id, argon_h32. cbv zeta. apply c_blake2b_mac_length. lia. Qed.

Lemma concrete_sym_laws : SymLaws ConcreteSym.
Proof.
  constructor; cbn [sha384 hmac_sha384 hkdf_sha384 aes256 pbkdf2_sha384_32 blake2b blake2b_mac
                    xchacha20_ks argon2id_32 ConcreteSym]; intros.
  - apply c_sha384_length.
  - apply c_hmac_length.
  - apply c_hkdf_length.
  - apply c_aes256_length.
  - apply c_pbkdf2_length.
  - apply c_blake2b_mac_length; assumption.
  - apply c_blake2b_mac_length; assumption.
  - apply c_xchacha20_length.
  - apply c_argon2id_length.
Qed.

(** Real hashes and ciphers with the toy groups. *)
Theorem concrete_toy_laws : Laws (with_toy ConcreteSym).
Proof. exact (toy_laws ConcreteSym concrete_sym_laws). Qed.
Print Assumptions concrete_toy_laws.
