(** Proofs for keys, plaintext PASERKs and key identifiers. *)
From Coq Require Import ZArith ZifyBool ZifyNat ZifyN.
From Verif Require Import Bytes Outcome Base64 Prims Version Key Plaintext KeyId
  SpecBase64 SpecPaseto SpecPaserk SpecText SpecKey Observe.
From Verif Require Import BytesLemmas Base64Lemmas TextLemmas TokenLemmas CipherLemmas ProofsText ProofsPublic.
Ltac Zify.zify_post_hook ::= Z.div_mod_to_equations.

Lemma key_len_eq v k : key_len v k = key_size v k.
Proof. destruct v, k; reflexivity. Qed.

Lemma scalar_len b : p_scalar_ok b = true -> length b = 48.
Proof. unfold p_scalar_ok. intros H. apply andb_prop in H as [H _]. apply andb_prop in H as [H _]. apply Nat.eqb_eq, H. Qed.

Lemma key_to_bytes_length (P : Prims) v k key : EdSizes P -> valid_key P v k key = true ->
  length (key_to_bytes P v k key) = key_size v k.
Proof.
  intros L H. destruct v, k; cbn [valid_key key_to_bytes key_size] in *.
  - apply Nat.eqb_eq, H.
  - apply andb_prop in H as [H _]. apply Nat.eqb_eq, H.
  - apply scalar_len, H.
  - apply Nat.eqb_eq, H.
  - apply andb_prop in H as [H _]. apply Nat.eqb_eq, H.
  - apply Nat.eqb_eq in H. rewrite app_length, (ed_pub_len _ L) by exact H. lia.
Qed.

Lemma key_from_bytes_iff (P : Prims) v k b key : P384Sizes P -> length b = key_size v k ->
  (key_from_bytes P v k b = Ok key <-> encodes P v k b key).
Proof.
  intros L Lb. destruct v, k; cbn [key_from_bytes encodes key_size] in *.
  - split; [intros H; injection H as <-; auto|intros [_ ->]; reflexivity].
  - rewrite ok_or_ok. tauto.
  - rewrite <- scalar384_iff, ok_or_ok, (p_sk_slice_48 _ L) by exact Lb. destruct (p_scalar_ok b) eqn:S.
    + split; [intros H; injection H as <-; auto|intros [_ ->]; reflexivity].
    + split; [discriminate|intros [H ->]; congruence].
  - split; [intros H; injection H as <-; auto|intros [_ ->]; reflexivity].
  - destruct (ed_pk_ok P b) eqn:S.
    + split; [intros H; injection H as <-; auto|intros (_ & _ & ->); reflexivity].
    + split; [discriminate|intros (_ & H & ->); congruence].
  - rewrite ok_or_ok. unfold ed_from_keypair. split.
    + destruct (ed_pk_ok P (skipn 32 b)) eqn:O; [|discriminate].
      destruct (bseqb (ed_pub P (firstn 32 b)) (skipn 32 b)) eqn:S; [|discriminate].
      cbn [andb]. intros H. assert (Hk : key = firstn 32 b) by congruence. subst key. apply bseqb_eq in S.
      split; [rewrite firstn_length; lia|]. rewrite S, firstn_skipn. auto.
    + intros (Lk & O & ->). rewrite firstn_app_exact, skipn_app_exact by exact Lk.
      rewrite O, bseqb_refl. reflexivity.
Qed.

Lemma encodes_valid (P : Prims) v k b key : (k = Public -> Laws P) -> encodes P v k b key -> valid_key P v k key = true.
Proof.
  intros L H. destruct v, k; cbn [encodes valid_key] in *.
  - destruct H as [H _]. rewrite H. reflexivity.
  - destruct H as [_ H]. destruct (p_parse_canon _ (L eq_refl) _ _ H) as [H1 H2]. rewrite H1, H2, bseqb_refl. reflexivity.
  - apply scalar384_iff, H.
  - destruct H as [H _]. rewrite H. reflexivity.
  - destruct H as (H & H' & _). rewrite H, H'. reflexivity.
  - destruct H as [H _]. rewrite H. reflexivity.
Qed.

Lemma valid_encodes (P : Prims) v k key : (v = V4 -> k = Secret -> EdLaws P) -> valid_key P v k key = true ->
  encodes P v k (key_to_bytes P v k key) key.
Proof.
  intros L H. destruct v, k; cbn [encodes valid_key key_to_bytes] in *.
  - apply Nat.eqb_eq in H. auto.
  - apply andb_prop in H as [H1 H2]. apply Nat.eqb_eq in H1. split; [exact H1|].
    destruct (p_parse P key) as [k'|]; [|discriminate]. apply bseqb_eq in H2. congruence.
  - apply scalar384_iff in H. auto.
  - apply Nat.eqb_eq in H. auto.
  - apply andb_prop in H as [H1 H2]. apply Nat.eqb_eq in H1. auto.
  - apply Nat.eqb_eq in H. pose proof (ed_pub_ok _ (L eq_refl eq_refl) key H). auto.
Qed.

Lemma key_roundtrip (P : Prims) v k key : Sizes P -> (v = V4 -> k = Secret -> EdLaws P) -> valid_key P v k key = true ->
  key_from_bytes P v k (key_to_bytes P v k key) = Ok key.
Proof.
  intros L LE H. apply key_from_bytes_iff; [exact L|apply key_to_bytes_length; [exact L|exact H]|].
  apply valid_encodes; assumption.
Qed.

Lemma key_back (P : Prims) v k key key' : P384Sizes P -> valid_key P v k key' = true ->
  key_from_bytes P v k (key_to_bytes P v k key') = Ok key -> key = key'.
Proof.
  intros L Hv H. destruct v, k; cbn [key_from_bytes key_to_bytes valid_key] in *.
  - congruence.
  - apply valid_v3_pk in Hv as [_ Hv]. rewrite Hv in H. cbn [ok_or] in H. congruence.
  - rewrite (p_sk_slice_48 _ L) in H by apply scalar_len, Hv. rewrite Hv in H. cbn [ok_or] in H. congruence.
  - congruence.
  - destruct (ed_pk_ok P key'); [congruence|discriminate].
  - apply Nat.eqb_eq in Hv. apply ok_or_ok in H. unfold ed_from_keypair in H.
    destruct (_ && _); [|discriminate]. rewrite firstn_app_exact in H by exact Hv. congruence.
Qed.

(** C29: every key serialises to the fixed length and is read back. *)
Lemma c29_key_bytes_roundtrip :
  forall (P : Prims) (v : version) (k : ktype) (key : bytes),
  Sizes P -> (v = V4 -> k = Secret -> EdLaws P) -> valid_key P v k key = true ->
  length (to_bytes P v k key) = key_size v k /\
  key_from_bytes P v k (to_bytes P v k key) = Ok key.
Proof.
  intros P v k key L LE H. split; [apply key_to_bytes_length; [exact L|exact H]|apply key_roundtrip; assumption].
Qed.

(** C29: the deserialiser accepts exactly the standard's encodings, yields valid keys and
    otherwise returns [InvalidKey]. *)
Lemma c29_key_bytes_exact :
  forall (P : Prims) (v : version) (k : ktype) (b : bytes),
  Sizes P -> length b = key_size v k ->
  (forall key, key_from_bytes P v k b = Ok key <-> encodes P v k b key) /\
  ((k = Public -> Laws P) -> forall key, key_from_bytes P v k b = Ok key -> valid_key P v k key = true) /\
  ((forall key, ~ encodes P v k b key) -> key_from_bytes P v k b = Err InvalidKey) /\
  key_from_bytes P v k b <> Panic.
Proof.
  intros P v k b L Lb. split; [|split; [|split]].
  - intros key. apply key_from_bytes_iff; [exact L|exact Lb].
  - intros LP key H. apply (encodes_valid P v k b); [exact LP|]. apply key_from_bytes_iff; [exact L|exact Lb|exact H].
  - intros H. destruct (key_from_bytes P v k b) as [key|e|] eqn:K.
    + apply key_from_bytes_iff in K; [|exact L|exact Lb]. destruct (H _ K).
    + apply key_from_bytes_err in K. congruence.
    + destruct (key_from_bytes_no_panic _ _ _ _ K).
  - apply key_from_bytes_no_panic.
Qed.

(** C29: the slice, keypair and PEM constructors return a valid key or [InvalidKey]; the
    array constructors and the generators always give valid keys. *)
Lemma c29_constructors :
  forall (P : Prims) (s : bytes),
  Sizes P ->
  let good v k (x : outcome bytes) :=
    (exists key, x = Ok key /\ valid_key P v k key = true) \/ x = Err InvalidKey in
  good V3 Secret (v3_secret_from_pem P s) /\
  good V3 Secret (v3_secret_from_bytes P s) /\
  (P384Laws P -> good V3 Public (v3_public_from_pem P s) /\ good V3 Public (v3_public_from_sec1 P s)) /\
  good V4 Secret (v4_secret_from_keypair P s) /\
  good V4 Public (v4_public_from_bytes P s) /\
  (length s = 32 -> valid_key P V4 Secret (v4_secret_from_seed s) = true) /\
  (length s = 32 -> forall v, valid_key P v Local (local_from_bytes s) = true) /\
  (forall r v, valid_key P v Local (fst (local_new_random r)) = true) /\
  (forall r, valid_key P V4 Secret (fst (v4_secret_new_random r)) = true) /\
  (forall fuel r key r', v3_secret_new_random fuel r = Some (key, r') -> valid_key P V3 Secret key = true) /\
  (Laws P -> forall v sk, valid_key P v Secret sk = true -> valid_key P v Public (public_key P v sk) = true).
Proof.
  intros P s L good. unfold good. clear good.
  assert (HO : forall (f : bytes -> option bytes) v k, (forall b, f s = Some b -> valid_key P v k b = true) ->
            (exists key, ok_or (f s) InvalidKey = Ok key /\ valid_key P v k key = true) \/ ok_or (f s) InvalidKey = Err InvalidKey).
  { intros f v k H. destruct (f s) as [b|] eqn:F; [left; exists b; auto|right; reflexivity]. }
  assert (HP : forall b k, p_parse P b = Some k -> length k = 49 -> p_parse P k = Some k -> valid_key P V3 Public k = true).
  { intros b k _ H1 H2. cbn [valid_key]. rewrite H1, H2, bseqb_refl. reflexivity. }
  refine (conj _ (conj _ (conj _ (conj _ (conj _ (conj _ (conj _ (conj _ (conj _ (conj _ _)))))))))).
  - apply HO. intros b H. exact (p_sk_pem_ok _ L _ _ H).
  - apply HO. intros b H. exact (p_sk_slice_ok _ L _ _ H).
  - intros LP. split; apply HO; intros b H;
      [destruct (p_pk_pem_ok _ LP _ _ H) as [H1 H2]|destruct (p_parse_canon _ LP _ _ H) as [H1 H2]];
      exact (HP b b H2 H1 H2).
  - unfold v4_secret_from_keypair. destruct (length s =? 64) eqn:E; [|auto]. apply Nat.eqb_eq in E.
    destruct (key_from_bytes P V4 Secret s) as [key|e|] eqn:K; cbn [key_from_bytes] in K.
    + left. exists key. split; [exact K|]. apply (encodes_valid P V4 Secret s); [discriminate|].
      apply key_from_bytes_iff; [exact L|exact E|exact K].
    + right. rewrite K. f_equal. exact (key_from_bytes_err P V4 Secret s e K).
    + destruct (key_from_bytes_no_panic P V4 Secret s K).
  - unfold v4_public_from_bytes. destruct (length s =? 32) eqn:E; [|auto].
    destruct (ed_pk_ok P s) eqn:K; [|auto]. left. exists s. split; [reflexivity|]. cbn [valid_key]. rewrite E, K. reflexivity.
  - intros H. unfold v4_secret_from_seed. cbn [valid_key]. rewrite H. reflexivity.
  - intros H v. unfold local_from_bytes. destruct v; cbn [valid_key]; rewrite H; reflexivity.
  - intros r v. unfold local_new_random. rewrite fill_eq. cbn [fst].
    destruct v; cbn [valid_key]; rewrite draw_length; reflexivity.
  - intros r. unfold v4_secret_new_random. rewrite fill_eq. cbn [fst valid_key]. rewrite draw_length. reflexivity.
  - intros fuel. unfold v3_secret_new_random. induction fuel as [|f IH]; intros r key r' H; [discriminate|].
    cbn [p384_random] in H. rewrite fill_eq in H. destruct (p_scalar_ok (draw r 0 48)) eqn:S.
    + assert (Hd : key = draw r 0 48) by congruence. rewrite Hd. exact S.
    + exact (IH _ _ _ H).
  - intros LL v sk H. apply public_key_valid; assumption.
Qed.

(** C29: the length-checked constructors accept only their documented lengths, and what they
    accept is what the key serialises to. *)
Lemma c29_constructors_lengths :
  forall (P : Prims) (s key : bytes),
  Sizes P ->
  (v4_secret_from_keypair P s = Ok key <-> length s = 64 /\ length key = 32 /\ s = key ++ ed_pub P key /\ ed_pk_ok P (ed_pub P key) = true) /\
  (v4_public_from_bytes P s = Ok key <-> length s = 32 /\ ed_pk_ok P s = true /\ s = key) /\
  (length s = 48 -> (v3_secret_from_bytes P s = Ok key <-> p_scalar_ok s = true /\ s = key)).
Proof.
  intros P s key L. split; [|split].
  - unfold v4_secret_from_keypair. destruct (length s =? 64) eqn:E.
    + apply Nat.eqb_eq in E. pose proof (key_from_bytes_iff P V4 Secret s key L E) as H.
      cbn [key_from_bytes encodes] in H. rewrite H. tauto.
    + apply Nat.eqb_neq in E. split; [discriminate|]. intros (H & _). contradiction.
  - unfold v4_public_from_bytes. destruct (length s =? 32) eqn:E.
    + apply Nat.eqb_eq in E. destruct (ed_pk_ok P s).
      * split; [intros H; injection H as <-; auto|intros (_ & _ & ->); reflexivity].
      * split; [discriminate|intros (_ & H & _); discriminate].
    + apply Nat.eqb_neq in E. split; [discriminate|]. intros (H & _). contradiction.
  - intros E. unfold v3_secret_from_bytes. rewrite ok_or_ok, (p_sk_slice_48 _ L) by exact E.
    destruct (p_scalar_ok s).
    + split; [intros H; injection H as <-; auto|intros (_ & ->); reflexivity].
    + split; [discriminate|intros (H & _); discriminate].
Qed.

Lemma key_to_bytes_inj (P : Prims) v k a b :
  valid_key P v k a = true -> valid_key P v k b = true ->
  key_to_bytes P v k a = key_to_bytes P v k b -> a = b.
Proof.
  intros Ha Hb H. destruct v, k; cbn [key_to_bytes valid_key] in *; try exact H.
  apply Nat.eqb_eq in Ha, Hb. apply app_inj_len in H as [H _]; [exact H|congruence].
Qed.

(** C30: key equality is an equivalence... *)
Lemma c30_key_equality_equivalence :
  forall (P : Prims) (v : version) (k : ktype) (a b c : bytes),
  key_eqb P v k a a = true /\
  key_eqb P v k a b = key_eqb P v k b a /\
  (key_eqb P v k a b = true -> key_eqb P v k b c = true -> key_eqb P v k a c = true).
Proof.
  intros P v k a b c. unfold key_eqb. split; [apply bseqb_refl|]. split.
  - destruct (bseqb (key_to_bytes P v k a) (key_to_bytes P v k b)) eqn:E.
    + apply bseqb_eq in E. symmetry. apply bseqb_eq. auto.
    + apply bseqb_neq in E. symmetry. apply bseqb_neq. auto.
  - rewrite !bseqb_eq. congruence.
Qed.

(** C30: ...and equality of serialised bytes, of printed texts and, on keys satisfying
    the type invariant, of everything any operation can compute from the keys. *)
Lemma c30_key_equality_is_identity :
  forall (P : Prims) (v : version) (k : ktype) (a b : bytes),
  valid_key P v k a = true -> valid_key P v k b = true ->
  (key_eqb P v k a b = true <-> to_bytes P v k a = to_bytes P v k b) /\
  (key_eqb P v k a b = true <-> plaintext_display P v k a = plaintext_display P v k b) /\
  (key_eqb P v k a b = true <-> a = b) /\
  (key_eqb P v k a b = true -> forall (A : Type) (operation : bytes -> A), operation a = operation b).
Proof.
  intros P v k a b Ha Hb. unfold key_eqb. rewrite !bseqb_eq. split; [reflexivity|]. split; [|split].
  - rewrite !plaintext_display_eq. split; [congruence|]. intros H.
    assert (HH : plain_h v k ++ base64url (key_to_bytes P v k a) = plain_h v k ++ base64url (key_to_bytes P v k b))
      by congruence. apply app_inv_head in HH. apply base64url_inj in HH. exact HH.
  - split; [apply key_to_bytes_inj; assumption|congruence].
  - intros H A op. f_equal. apply (key_to_bytes_inj P v k); assumption.
Qed.

(** C31: the Debug text is one constant for all keys. *)
Lemma c31_debug_constant :
  forall (key1 key2 : bytes), key_debug key1 = key_debug key2 /\ key_debug key1 = str "Key { .. }".
Proof. intros. split; reflexivity. Qed.

(** C32: print then parse gives the key back. *)
Lemma c32_plaintext_roundtrip :
  forall (P : Prims) (v : version) (k : ktype) (key : bytes),
  Sizes P -> (v = V4 -> k = Secret -> EdLaws P) -> valid_key P v k key = true ->
  exists s, plaintext_display P v k key = Ok s /\
            s = plaintext_paserk v k (to_bytes P v k key) /\
            plaintext_parse P v k s = Ok key.
Proof.
  intros P v k key L LE H. exists (plain_h v k ++ base64url (key_to_bytes P v k key)).
  split; [apply plaintext_display_eq|]. split; [reflexivity|].
  rewrite plaintext_parse_eq, paserk_read_hit; [apply key_roundtrip; assumption|].
  rewrite key_len_eq. apply key_to_bytes_length; [exact L|exact H].
Qed.

(** C32: the exact language of plaintext PASERKs. *)
Lemma c32_plaintext_language :
  forall (P : Prims) (v : version) (k : ktype) (s key : bytes),
  Sizes P ->
  (plaintext_parse P v k s = Ok key <->
   exists b, s = plaintext_paserk v k b /\ length b = key_size v k /\ encodes P v k b key).
Proof.
  intros P v k s key L. rewrite plaintext_parse_eq, paserk_read_ok_iff, key_len_eq. split.
  - intros (b & -> & Lb & K). exists b. split; [reflexivity|]. split; [exact Lb|].
    apply key_from_bytes_iff; [exact L|exact Lb|exact K].
  - intros (b & -> & Lb & K). exists b. split; [reflexivity|]. split; [exact Lb|].
    apply key_from_bytes_iff; [exact L|exact Lb|exact K].
Qed.

(** C32: parse then print is the identity, except for k3.public, where it is exactly when
    the text already carries the compressed form of the point. *)
Lemma c32_plaintext_canonical :
  forall (P : Prims) (v : version) (k : ktype) (s key : bytes),
  Sizes P -> plaintext_parse P v k s = Ok key ->
  (~ (v = V3 /\ k = Public) -> plaintext_display P v k key = Ok s) /\
  (plaintext_display P v k key = Ok s <-> s = plaintext_paserk v k (to_bytes P v k key)).
Proof.
  intros P v k s key L H. split.
  - intros N. apply c32_plaintext_language in H as (b & -> & Lb & K); [|exact L].
    rewrite plaintext_display_eq. unfold plaintext_paserk. do 3 f_equal.
    destruct v, k; cbn [encodes key_to_bytes] in *; intuition congruence.
  - rewrite plaintext_display_eq. unfold plaintext_paserk, to_bytes. split; [congruence|intros ->; reflexivity].
Qed.

(** C33: identifiers round-trip as text, and the exact language. *)
Lemma c33_id_text :
  forall (v : version) (k : ktype) (id : bytes),
  length id = 33 ->
  exists s, id_display v k id = Ok s /\ s = id_h v k ++ base64url id /\ id_parse v k s = Ok id.
Proof.
  intros v k id L. exists (id_h v k ++ base64url id). split; [apply id_display_eq|]. split; [reflexivity|].
  rewrite id_parse_eq, paserk_read_hit by exact L. reflexivity.
Qed.

Lemma c33_id_language :
  forall (v : version) (k : ktype) (s id : bytes),
  id_parse v k s = Ok id <-> s = id_h v k ++ base64url id /\ length id = 33.
Proof.
  intros v k s id. rewrite id_parse_eq, paserk_read_ok_iff. split.
  - intros (b & -> & Lb & H). injection H as <-. auto.
  - intros [-> Lb]. eauto.
Qed.

Lemma encode_buf_fits n b : (length (base64url b) <= n) -> encode_buf n b = Some (base64url b).
Proof.
  intros H. unfold encode_buf. rewrite <- encode_string_length, encode_string_spec.
  destruct (n <? length (base64url b)) eqn:E; [apply Nat.ltb_lt in E; lia|reflexivity].
Qed.

Lemma id_hash_message_eq v k kb : id_hash_message v k (base64url kb) = id_input v k kb.
Proof. destruct v, k; reflexivity. Qed.

Lemma to_id_eq (P : Prims) v k key : Sizes P -> valid_key P v k key = true ->
  to_id P v k key = Ok (id_hash P v (id_input v k (key_to_bytes P v k key))).
Proof.
  intros L H. pose proof (key_to_bytes_length P v k key L H) as Lk. unfold to_id.
  rewrite encode_buf_fits.
  - cbn [unwrap obind]. destruct v; rewrite id_hash_message_eq; [|reflexivity].
    rewrite (sha384_len _ L). reflexivity.
  - rewrite base64url_length, Lk. destruct v, k; vm_compute; lia.
Qed.

(** C34: the identifier is the standard's and its derivation never panics. *)
Lemma c34_id_is_spec :
  forall (P : Prims) (v : version) (k : ktype) (key : bytes),
  Sizes P -> valid_key P v k key = true ->
  to_id P v k key = Ok (id_digest P v k (to_bytes P v k key)) /\
  length (id_digest P v k (to_bytes P v k key)) = 33.
Proof.
  intros P v k key L H. rewrite to_id_eq by assumption.
  split; [destruct v; reflexivity|]. unfold id_digest. destruct v.
  - rewrite firstn_length, (sha384_len _ L). reflexivity.
  - apply (blake2b_len _ L). lia.
Qed.

Lemma id_input_inj v1 k1 b1 v2 k2 b2 : id_input v1 k1 b1 = id_input v2 k2 b2 -> v1 = v2 /\ k1 = k2 /\ b1 = b2.
Proof.
  unfold id_input, plaintext_paserk. intros H.
  destruct v1, k1, v2, k2; try (exfalso; vm_compute in H; discriminate);
    (do 2 apply app_inv_head in H; apply base64url_inj in H; auto).
Qed.

(** C35: the hashed strings identify version, type and key, across all of them. *)
Lemma c35_hashed_string_identifies_key :
  forall (P : Prims) (v1 v2 : version) (k1 k2 : ktype) (a b : bytes),
  valid_key P v1 k1 a = true -> valid_key P v2 k2 b = true ->
  id_input v1 k1 (to_bytes P v1 k1 a) = id_input v2 k2 (to_bytes P v2 k2 b) ->
  v1 = v2 /\ k1 = k2 /\ a = b.
Proof.
  intros P v1 v2 k1 k2 a b Ha Hb H. apply id_input_inj in H as (-> & -> & H).
  repeat split. apply (key_to_bytes_inj P v2 k2); assumption.
Qed.

(** C35: equal identifiers of two keys of one version (of any types) mean equal keys, or a
    collision of the (truncated) hash on two explicit strings. *)
Lemma c35_equal_ids :
  forall (P : Prims) (v : version) (k1 k2 : ktype) (a b d1 d2 : bytes),
  Sizes P -> valid_key P v k1 a = true -> valid_key P v k2 b = true ->
  to_id P v k1 a = Ok d1 -> to_id P v k2 b = Ok d2 -> id_eqb d1 d2 = true ->
  (k1 = k2 /\ a = b) \/
  (let s1 := id_input v k1 (to_bytes P v k1 a) in
   let s2 := id_input v k2 (to_bytes P v k2 b) in
   s1 <> s2 /\ id_hash P v s1 = id_hash P v s2).
Proof.
  intros P v k1 k2 a b d1 d2 L Ha Hb H1 H2 H. rewrite to_id_eq in H1, H2 by assumption.
  apply bseqb_eq in H. cbv zeta. unfold to_bytes.
  destruct (bytes_eq_dec (id_input v k1 (key_to_bytes P v k1 a)) (id_input v k2 (key_to_bytes P v k2 b))) as [E|N].
  - left. apply (c35_hashed_string_identifies_key P v v k1 k2 a b Ha Hb) in E. tauto.
  - right. split; [exact N|]. congruence.
Qed.

(** comparison *)
Lemma bytes_cmp_refl a : bytes_cmp a a = Eq.
Proof. induction a as [|x a IH]; [reflexivity|]. cbn [bytes_cmp]. rewrite N.compare_refl. exact IH. Qed.
Lemma bytes_cmp_eq a b : bytes_cmp a b = Eq <-> a = b.
Proof.
  split; [|intros ->; apply bytes_cmp_refl]. revert b. induction a as [|x a IH]; intros [|y b]; cbn [bytes_cmp];
    try discriminate; [reflexivity|].
  destruct (N.compare_spec (b2n x) (b2n y)) as [E|E|E]; try discriminate.
  intros H. apply b2n_inj in E. f_equal; [exact E|]. apply IH, H.
Qed.
Lemma bytes_cmp_antisym a b : bytes_cmp b a = CompOpp (bytes_cmp a b).
Proof.
  revert b. induction a as [|x a IH]; intros [|y b]; try reflexivity. cbn [bytes_cmp].
  rewrite (N.compare_antisym (b2n x) (b2n y)). destruct (N.compare (b2n x) (b2n y)); cbn [CompOpp]; auto.
Qed.
Lemma bytes_cmp_trans a b c : bytes_cmp a b = Lt -> bytes_cmp b c = Lt -> bytes_cmp a c = Lt.
Proof.
  revert b c. induction a as [|x a IH]; intros [|y b] [|z c]; cbn [bytes_cmp]; try discriminate; [reflexivity|].
  destruct (N.compare_spec (b2n x) (b2n y)) as [E|E|E]; try discriminate;
    destruct (N.compare_spec (b2n y) (b2n z)) as [E'|E'|E']; try discriminate;
    destruct (N.compare_spec (b2n x) (b2n z)) as [E''|E''|E'']; try reflexivity; try (exfalso; lia); eauto.
Qed.

(** C36: equality of identifiers is equality of bytes and of printed texts; the order is
    total and consistent with it; hasher input agrees exactly with equality. *)
Lemma c36_id_equality :
  forall (v : version) (k : ktype) (a b : bytes),
  length a = 33 -> length b = 33 ->
  (id_eqb a b = true <-> a = b) /\
  (id_eqb a b = true <-> id_display v k a = id_display v k b) /\
  (id_eqb a b = true <-> id_cmp a b = Eq) /\
  (id_eqb a b = true <-> id_hash_input a = id_hash_input b) /\
  id_hash_input a = x21 :: repeat x00 7 ++ a.
Proof.
  intros v k a b La Lb. unfold id_eqb, id_cmp. rewrite bseqb_eq. split; [reflexivity|]. split; [|split; [|split]].
  - rewrite !id_display_eq. split; [congruence|]. intros H.
    assert (HH : id_h v k ++ base64url a = id_h v k ++ base64url b) by congruence.
    apply app_inv_head in HH. apply base64url_inj in HH. exact HH.
  - symmetry. apply bytes_cmp_eq.
  - unfold id_hash_input. split; [congruence|]. intros H. apply app_inj_len_r in H; [tauto|]. lia.
  - unfold id_hash_input, nlen. rewrite La. reflexivity.
Qed.

Lemma c36_id_total_order :
  forall (a b c : bytes),
  id_cmp a a = Eq /\
  id_cmp b a = CompOpp (id_cmp a b) /\
  (id_cmp a b = Eq <-> a = b) /\
  (id_cmp a b = Lt -> id_cmp b c = Lt -> id_cmp a c = Lt).
Proof.
  intros a b c. unfold id_cmp. split; [apply bytes_cmp_refl|]. split; [apply bytes_cmp_antisym|].
  split; [apply bytes_cmp_eq|apply bytes_cmp_trans].
Qed.

(** C36: it is the lexicographic order of the bytes. *)
Lemma c36_id_order_lexicographic :
  forall (a b : bytes), length a = length b ->
  (id_cmp a b = Lt <->
   exists (p ra rb : bytes) (x y : byte),
     a = p ++ x :: ra /\ b = p ++ y :: rb /\ (b2n x < b2n y)%N).
Proof.
  unfold id_cmp. intros a. induction a as [|x a IH]; intros [|y b] L; try discriminate.
  - split; [discriminate|]. intros (p & ra & rb & x & y & H & _). destruct p; discriminate.
  - injection L as L. cbn [bytes_cmp]. destruct (N.compare_spec (b2n x) (b2n y)) as [E|E|E].
    + rewrite (IH _ L). apply b2n_inj in E as ->. split.
      * intros (p & ra & rb & x' & y' & -> & -> & Hlt). exists (y :: p), ra, rb, x', y'. auto.
      * intros (p & ra & rb & x' & y' & H1 & H2 & Hlt). destruct p as [|z p]; cbn [app] in *.
        -- injection H1 as -> _. injection H2 as -> _. lia.
        -- injection H1 as -> ->. injection H2 as ->. exists p, ra, rb, x', y'. auto.
    + split; [|reflexivity]. intros _. exists [], a, b, x, y. auto.
    + split; [discriminate|]. intros (p & ra & rb & x' & y' & H1 & H2 & Hlt). destruct p as [|z p]; cbn [app] in *.
      * injection H1 as -> _. injection H2 as -> _. lia.
      * injection H1 as -> _. injection H2 as -> _. lia.
Qed.
