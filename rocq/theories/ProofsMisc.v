(** Proofs for serde, builders, errors, key rotation and randomness. *)
From Coq Require Import ZArith ZifyBool ZifyNat ZifyN.
From Verif Require Import Bytes Outcome Base64 Prims Version Key Token Local Public Plaintext KeyId
  Wrap Pbkw Pke Serde SpecBase64 SpecPaseto SpecPaserk SpecText SpecKey Observe.
From Verif Require Import BytesLemmas Base64Lemmas TextLemmas TokenLemmas CipherLemmas
  ProofsText ProofsLocal ProofsPublic ProofsKey ProofsWrap.
Ltac Zify.zify_post_hook ::= Z.div_mod_to_equations.

(** ** Serde *)
Lemma deserialize_iff {A} exp (parse : bytes -> outcome A) x a :
  deserialize exp parse x = DOk a <-> exists s, x = SStr s /\ parse s = Ok a.
Proof.
  destruct x as [s|u]; cbn [deserialize].
  - destruct (parse s) as [b|e|] eqn:E.
    + split; [intros H; injection H as <-; eauto|]. intros (s' & H1 & H2). injection H1 as <-. congruence.
    + split; [discriminate|]. intros (s' & H1 & H2). injection H1 as <-. congruence.
    + split; [discriminate|]. intros (s' & H1 & H2). injection H1 as <-. congruence.
  - split; [discriminate|]. intros (s' & H1 & _). discriminate.
Qed.

(** C50: serialising gives exactly the printed text, as a serde string. *)
Lemma c50_serialize_is_display :
  forall (P : Prims) (v : version) (k : ktype) (w : wtype) (s : bytes),
  (forall F E p sfx (t : SecuredToken F E), token_serialize v p sfx t = Ok (SStr (token_display v p sfx t))) /\
  (forall id, id_serialize v k id = Ok (SStr s) <-> id_display v k id = Ok s) /\
  (forall key, plaintext_serialize P v k key = Ok (SStr s) <-> plaintext_display P v k key = Ok s) /\
  (forall x, pie_serialize v w x = Ok (SStr s) <-> pie_display v w x = Ok s) /\
  (forall x, pw_serialize v w x = Ok (SStr s) <-> pw_display v w x = Ok s) /\
  (forall x, seal_serialize v x = Ok (SStr s) <-> seal_display v x = Ok s).
Proof.
  intros P v k w s.
  assert (H : forall o : outcome bytes, serialize o = Ok (SStr s) <-> o = Ok s).
  { intros o. unfold serialize. split.
    - intros H. apply omap_ok in H as (a & -> & H). injection H as ->. reflexivity.
    - intros ->. reflexivity. }
  refine (conj _ (conj _ (conj _ (conj _ (conj _ _))))); intros; try apply H. reflexivity.
Qed.

(** C50: deserialising succeeds exactly on serde strings that parse, with the parsed value;
    the message of a failure is the parse error's, and other serde types are refused. *)
Lemma c50_deserialize_is_parse :
  forall (P : Prims) (F E : Type) (e0 : E) (FC : FooterCodec F)
         (v : version) (p : purpose) (sfx : bytes) (k : ktype) (w : wtype) (x : serde_value),
  (forall t, token_deserialize v p sfx e0 FC x = DOk t <-> exists s, x = SStr s /\ token_parse v p sfx e0 FC s = Ok t) /\
  (forall id, id_deserialize v k x = DOk id <-> exists s, x = SStr s /\ id_parse v k s = Ok id) /\
  (forall key, plaintext_deserialize P v k x = DOk key <-> exists s, x = SStr s /\ plaintext_parse P v k s = Ok key) /\
  (forall y, pie_deserialize v w x = DOk y <-> exists s, x = SStr s /\ pie_parse v w s = Ok y) /\
  (forall y, pw_deserialize v w x = DOk y <-> exists s, x = SStr s /\ pw_parse v w s = Ok y) /\
  (forall y, seal_deserialize v x = DOk y <-> exists s, x = SStr s /\ seal_parse v s = Ok y).
Proof.
  intros P F E e0 FC v p sfx k w x.
  refine (conj _ (conj _ (conj _ (conj _ (conj _ _))))); intros; apply deserialize_iff.
Qed.

(** C50: the error text of a failing deserialisation, and absence of panics. *)
Lemma c50_deserialize_errors :
  forall (P : Prims) (F E : Type) (e0 : E) (FC : FooterCodec F)
         (v : version) (p : purpose) (sfx : bytes) (k : ktype) (w : wtype) (s : bytes),
  (forall e, token_parse v p sfx e0 FC s = Err e -> token_deserialize v p sfx e0 FC (SStr s) = DErr (error_display e)) /\
  (forall e, id_parse v k s = Err e -> id_deserialize v k (SStr s) = DErr (error_display e)) /\
  (forall e, plaintext_parse P v k s = Err e -> plaintext_deserialize P v k (SStr s) = DErr (error_display e)) /\
  (forall e, pie_parse v w s = Err e -> pie_deserialize v w (SStr s) = DErr (error_display e)) /\
  (forall e, pw_parse v w s = Err e -> pw_deserialize v w (SStr s) = DErr (error_display e)) /\
  (forall e, seal_parse v s = Err e -> seal_deserialize v (SStr s) = DErr (error_display e)) /\
  (forall x, token_deserialize v p sfx e0 FC x <> DPanic /\ id_deserialize v k x <> DPanic /\
             plaintext_deserialize P v k x <> DPanic /\ pie_deserialize v w x <> DPanic /\
             pw_deserialize v w x <> DPanic /\ seal_deserialize v x <> DPanic).
Proof.
  intros P F E e0 FC v p sfx k w s.
  assert (H : forall A exp (parse : bytes -> outcome A) e, parse s = Err e ->
            deserialize exp parse (SStr s) = DErr (error_display e)).
  { intros A exp parse e He. cbn [deserialize]. rewrite He. reflexivity. }
  assert (N : forall A exp (parse : bytes -> outcome A) x, (forall s, parse s <> Panic) -> deserialize exp parse x <> DPanic).
  { intros A exp parse [s'|u] Hp; cbn [deserialize]; [|discriminate].
    specialize (Hp s'). destruct (parse s'); [discriminate|discriminate|contradiction]. }
  refine (conj _ (conj _ (conj _ (conj _ (conj _ (conj _ _)))))); intros; try (apply H; assumption).
  destruct c11_parse_no_panic as (N1 & N2 & N3 & N4 & N5 & N6).
  refine (conj _ (conj _ (conj _ (conj _ (conj _ _))))); apply N; intros s'; auto.
Qed.

(** C50: anything that is not a string is refused, naming the type found and the header
    expected. *)
Lemma c50_deserialize_type_errors :
  forall (P : Prims) (F E : Type) (e0 : E) (FC : FooterCodec F)
         (v : version) (p : purpose) (sfx : bytes) (k : ktype) (w : wtype) (u : bytes),
  let wrong h what := str "invalid type: " ++ u ++ str ", expected a """ ++ h ++ str """ " ++ what in
  token_deserialize v p sfx e0 FC (SOther u) = DErr (wrong (match p with PLocal => local_header v [] | PPublic => public_header v [] end) (str "paseto")) /\
  id_deserialize v k (SOther u) = DErr (wrong (id_h v k) (str "serialized key")) /\
  plaintext_deserialize P v k (SOther u) = DErr (wrong (plain_h v k) (str "serialized key")) /\
  pie_deserialize v w (SOther u) = DErr (wrong (pie_h v w) (str "serialized key")) /\
  pw_deserialize v w (SOther u) = DErr (wrong (pw_h v w) (str "serialized key")) /\
  seal_deserialize v (SOther u) = DErr (wrong (seal_h v) (str "serialized key")).
Proof.
  intros P F E e0 FC v p sfx k w u. cbv zeta.
  refine (conj _ (conj _ (conj _ (conj _ (conj _ _)))));
    cbn [token_deserialize id_deserialize plaintext_deserialize pie_deserialize pw_deserialize seal_deserialize deserialize];
    f_equal; f_equal; f_equal; destruct v, p, k, w; reflexivity.
Qed.

(** C50: serialise then deserialise is the identity. *)
Lemma c50_serde_roundtrip :
  forall (P : Prims) (F E : Type) (e0 : E) (FC : FooterCodec F)
         (v : version) (p : purpose) (sfx : bytes) (k : ktype) (w : wtype) (x : serde_value),
  Sizes P -> (v = V4 -> k = Secret -> EdLaws P) ->
  (forall t : SecuredToken F E, st_encoding t = e0 -> f_decode FC (st_encoded_footer t) = COk (st_footer t) ->
     token_serialize v p sfx t = Ok x -> token_deserialize v p sfx e0 FC x = DOk t) /\
  (forall id, length id = 33 -> id_serialize v k id = Ok x -> id_deserialize v k x = DOk id) /\
  (forall key, valid_key P v k key = true -> plaintext_serialize P v k key = Ok x -> plaintext_deserialize P v k x = DOk key) /\
  (forall y, pie_wf v w y -> pie_serialize v w y = Ok x -> pie_deserialize v w x = DOk y) /\
  (forall y, pw_wf v w y -> pw_serialize v w y = Ok x -> pw_deserialize v w x = DOk y) /\
  (forall y, seal_wf v y -> seal_serialize v y = Ok x -> seal_deserialize v x = DOk y).
Proof.
  intros P F E e0 FC v p sfx k w x L LE. refine (conj _ (conj _ (conj _ (conj _ (conj _ _))))).
  - intros t He Hf H. apply ok_inj in H. subst x. apply deserialize_iff. eexists. split; [reflexivity|].
    subst e0. apply c07_token_text_identity. exact Hf.
  - intros id Hl H. apply omap_ok in H as (s & H & ->). apply deserialize_iff. eexists. split; [reflexivity|].
    destruct (c33_id_text v k id Hl) as (s' & H1 & _ & H2). rewrite H1 in H. apply ok_inj in H. rewrite <- H. exact H2.
  - intros key Hk H. apply omap_ok in H as (s & H & ->). apply deserialize_iff. eexists. split; [reflexivity|].
    destruct (c32_plaintext_roundtrip P v k key L LE Hk) as (s' & H1 & _ & H2). rewrite H1 in H. apply ok_inj in H. rewrite <- H. exact H2.
  - intros y Hw H. apply omap_ok in H as (s & H & ->). apply deserialize_iff. eexists. split; [reflexivity|].
    apply c37_pie_text. auto.
  - intros y Hw H. apply omap_ok in H as (s & H & ->). apply deserialize_iff. eexists. split; [reflexivity|].
    apply (c44_pw_text v w s y); assumption.
  - intros y Hw H. apply omap_ok in H as (s & H & ->). apply deserialize_iff. eexists. split; [reflexivity|].
    rewrite seal_display_eq in H. apply ok_inj in H. apply seal_parse_ok_iff. auto.
Qed.

(** ** Builders *)

(** C51: builder methods change exactly what they name, and commute. *)
Lemma c51_builders :
  forall (M F E : Type) (m : M) (f : F) (e : E),
  let t0 := token_new m in
  vt_message t0 = m /\ vt_footer t0 = tt /\ vt_encoding t0 = tt /\
  with_encoding (with_footer t0 f) e = with_footer (with_encoding t0 e) f /\
  (forall (t : ValidatedToken M unit E), vt_message (with_footer t f) = vt_message t /\
     vt_encoding (with_footer t f) = vt_encoding t /\ vt_footer (with_footer t f) = f) /\
  (forall (t : ValidatedToken M F unit), vt_message (with_encoding t e) = vt_message t /\
     vt_footer (with_encoding t e) = vt_footer t /\ vt_encoding (with_encoding t e) = e).
Proof. intros. repeat split. Qed.

(** C51: end to end, a token built with [new(m).with_footer(f).with_encoding(e)] is
    encrypted as the encoding of [m] by [e] under footer bytes of [f], and signed
    likewise. *)
Lemma c51_builder_end_to_end :
  forall (P : Prims) (M F E : Type) (v : version) (EN : Encoding E M) (FC : FooterCodec F)
         (m : M) (f : F) (e : E) (mb fb key sk implicit : bytes) (r : rng),
  SymLaws P -> e_encode EN e m = COk mb -> f_encode FC f = Some fb ->
  local_sizes v (suffix EN) mb fb implicit -> public_sizes v (suffix EN) mb fb implicit ->
  let t := with_encoding (with_footer (token_new m) f) e in
  let n := draw r 0 32 in
  local_safe P v key n (length mb) ->
  omap st_payload (fst (encrypt_with_rng P v EN FC t key implicit r)) =
    Ok (local_encrypt P v (suffix EN) key n mb fb implicit) /\
  (forall tok, sign_with_assertions P v EN FC t sk implicit = Ok tok ->
     exists sg, st_payload tok = mb ++ sg).
Proof.
  intros P M F E v EN FC m f e mb fb key sk implicit r L He Hf Hl Hp t n Hs.
  split.
  - pose proof (c15_encrypt_is_spec P M F E v EN FC t key implicit mb fb r L He Hf Hl Hs) as H.
    rewrite H. reflexivity.
  - intros tok H. unfold sign_with_assertions in H. cbn [vt_encoding vt_message vt_footer t with_encoding with_footer token_new] in H.
    rewrite He, Hf in H. cbn [payload_err unwrap obind] in H. apply obind_ok in H as (sg & _ & H).
    exists sg. apply ok_inj in H. subst tok. reflexivity.
Qed.

(** ** Errors *)

(** C56: texts and sources of errors: distinct fixed texts, only [PayloadError] has a source,
    and its text ends with it. *)
Lemma c56_errors :
  forall (e e' : paseto_error),
  (error_source e = None <-> In e [Base64DecodeError; InvalidKey; InvalidToken; CryptoError]) /\
  (forall x, error_source e = Some x <-> e = PayloadError x) /\
  (forall x, error_source e = Some x -> exists prefix, error_display e = prefix ++ x) /\
  (error_display e = error_display e' <-> e = e').
Proof.
  intros e e'. refine (conj _ (conj _ (conj _ _))).
  - destruct e; cbn; split; intros H; try tauto; try discriminate.
    destruct H as [H|[H|[H|[H|[]]]]]; discriminate.
  - intros x. destruct e; cbn; split; intros H; try discriminate; congruence.
  - intros x H. destruct e; try discriminate. injection H as ->. eexists. reflexivity.
  - split; [|congruence]. intros H. destruct e, e'; try reflexivity; try (vm_compute in H; discriminate).
    cbn [error_display] in H. apply app_inv_head in H. congruence.
Qed.

(** ** Key rotation *)

Lemma lookup_in P v k l key id : key_map P v k l -> In (id, key) l ->
  exists key', lookup id l = Some key' /\ In (id, key') l.
Proof.
  intros HM. induction l as [|[i k0] l IH]; [contradiction|]. cbn [lookup]. intros Hin. unfold id_eqb.
  destruct (bseqb i id) eqn:E.
  - apply bseqb_eq in E. subst i. exists k0. split; [reflexivity|left; reflexivity].
  - destruct Hin as [H|H].
    + injection H as -> ->. rewrite bseqb_refl in E. discriminate.
    + destruct IH as (key' & H1 & H2); [intros i' k' H'; apply HM; right; exact H'|exact H|].
      exists key'. split; [exact H1|right; exact H2].
Qed.

Lemma same_id (P : Prims) v k a b id : Sizes P ->
  valid_key P v k a = true -> valid_key P v k b = true ->
  to_id P v k a = Ok id -> to_id P v k b = Ok id -> a = b \/ id_collision P v k a b.
Proof.
  intros L Ha Hb Ia Ib. destruct (bytes_eq_dec a b) as [E|E]; [left; exact E|right]. split; [exact E|].
  destruct (c35_equal_ids P v k k a b id id L Ha Hb Ia Ib) as [[_ H]|H]; [apply bseqb_refl|contradiction|].
  cbv zeta in *. unfold id_input in H. destruct v; exact H.
Qed.

Lemma lookup_right_key (P : Prims) v k l key id : Sizes P -> key_map P v k l -> In (id, key) l ->
  exists key', lookup id l = Some key' /\ (key' = key \/ id_collision P v k key key').
Proof.
  intros L HM Hin. destruct (lookup_in P v k l key id HM Hin) as (key' & H1 & H2). exists key'. split; [exact H1|].
  destruct (HM _ _ Hin) as [Hv Hi]. destruct (HM _ _ H2) as [Hv' Hi'].
  destruct (same_id P v k key key' id L Hv Hv' Hi Hi') as [E|C]; [left; congruence|right; exact C].
Qed.

(** C52, local: encrypt with a key of the key set and put its id in the footer ([kid] reads it
    off the footer); the receiver parses, looks the id up and decrypts to the message, unless
    the id hash collides on the keys. *)
Lemma c52_rotation_local :
  forall (P : Prims) (M F E : Type) (v : version) (EN : Encoding E M) (FC : FooterCodec F)
         (kid : F -> bytes) (keys : list (bytes * bytes))
         (t : ValidatedToken M F E) (key implicit m f : bytes) (r : rng),
  Sizes P -> key_map P v Local keys -> In (kid (vt_footer t), key) keys ->
  e_encode EN (vt_encoding t) (vt_message t) = COk m ->
  e_decode EN (e_default EN) m = COk (vt_message t) ->
  f_encode FC (vt_footer t) = Some f -> f_decode FC f = COk (vt_footer t) ->
  within_limit v (nlen m) ->
  exists tok tok' key',
    encrypt_with_rng P v EN FC t key implicit r = (Ok tok, advance r 32) /\
    token_parse v PLocal (suffix EN) (e_default EN) FC (token_display v PLocal (suffix EN) tok) = Ok tok' /\
    lookup (kid (unverified_footer tok')) keys = Some key' /\
    (decrypt_with_assertions P v EN tok' key' implicit =
       Ok {| vt_encoding := e_default EN; vt_message := vt_message t; vt_footer := vt_footer t |}
     \/ id_collision P v Local key key').
Proof.
  intros P M F E v EN FC kid keys t key implicit m f r L HM Hin H1 H2 H3 H4 H5.
  destruct (c14_local_roundtrip P M F E v EN FC t key implicit m f r L H1 H2 H3 H4 H5) as (tok & tok' & A & B & C & D).
  destruct (lookup_right_key P v Local keys key _ L HM Hin) as (key' & K1 & K2).
  exists tok, tok', key'. split; [exact A|]. split; [exact B|]. rewrite C. split; [exact K1|].
  destruct K2 as [->|K2]; [left; exact D|right; exact K2].
Qed.

(** C52, public (README.md:33-69): sign, put the public key's id in the footer, look it up,
    verify. *)
Lemma c52_rotation_public :
  forall (P : Prims) (M F E : Type) (v : version) (EN : Encoding E M) (FC : FooterCodec F)
         (kid : F -> bytes) (keys : list (bytes * bytes))
         (t : ValidatedToken M F E) (sk implicit : bytes) (tok : SecuredToken F E),
  Laws P -> valid_key P v Secret sk = true -> key_map P v Public keys ->
  In (kid (vt_footer t), public_key P v sk) keys ->
  (forall m, e_encode EN (vt_encoding t) (vt_message t) = COk m ->
             e_decode EN (e_default EN) m = COk (vt_message t)) ->
  (forall f, f_encode FC (vt_footer t) = Some f -> f_decode FC f = COk (vt_footer t)) ->
  sign_with_assertions P v EN FC t sk implicit = Ok tok ->
  exists tok' pk',
    token_parse v PPublic (suffix EN) (e_default EN) FC (token_display v PPublic (suffix EN) tok) = Ok tok' /\
    lookup (kid (unverified_footer tok')) keys = Some pk' /\
    (verify_with_assertions P v EN tok' pk' implicit =
       Ok {| vt_encoding := e_default EN; vt_message := vt_message t; vt_footer := vt_footer t |}
     \/ id_collision P v Public (public_key P v sk) pk').
Proof.
  intros P M F E v EN FC kid keys t sk implicit tok L Hs HM Hin H1 H2 H3.
  destruct (c22_public_roundtrip P M F E v EN FC t sk implicit tok L Hs H1 H2 H3) as (tok' & B & C & D).
  destruct (lookup_right_key P v Public keys _ _ L HM Hin) as (key' & K1 & K2).
  exists tok', key'. split; [exact B|]. rewrite C. split; [exact K1|].
  destruct K2 as [->|K2]; [left; exact D|right; exact K2].
Qed.

(** ** Randomness *)
Lemma draw_same r1 r2 off n k : same_window r1 r2 k -> off + n <= k -> draw r1 off n = draw r2 off n.
Proof.
  intros [Hp Ht] Hk. unfold draw. rewrite <- Hp. apply map_ext_in. intros i Hi. apply in_seq in Hi. apply Ht; lia.
Qed.

Lemma same_advance r1 r2 n k : same_window r1 r2 (n + k) -> same_window (advance r1 n) (advance r2 n) k.
Proof.
  intros [Hp Ht]. split; cbn [advance pos tape]; [lia|]. intros i Hi1 Hi2. apply Ht; lia.
Qed.

Lemma same_le r1 r2 n k : k <= n -> same_window r1 r2 n -> same_window r1 r2 k.
Proof. intros H [Hp Ht]. split; [exact Hp|]. intros i H1 H2. apply Ht; lia. Qed.

Lemma p384_random_local fuel : forall r1 e r1', p384_random fuel r1 = Some (e, r1') ->
  exists n, r1' = advance r1 n /\
  forall r2, same_window r1 r2 n -> p384_random fuel r2 = Some (e, advance r2 n).
Proof.
  induction fuel as [|f IH]; intros r1 e r1' H; [discriminate|]. cbn [p384_random] in H. rewrite fill_eq in H.
  destruct (p_scalar_ok (draw r1 0 48)) eqn:K.
  - exists 48. assert (E1 : e = draw r1 0 48) by congruence. split; [congruence|]. intros r2 S.
    cbn [p384_random]. rewrite fill_eq, <- (draw_same r1 r2 0 48 48 S) by lia. rewrite K. rewrite E1. reflexivity.
  - destruct (IH _ _ _ H) as (n & E & HL). exists (48 + n). rewrite advance_advance in E. split; [exact E|].
    intros r2 S. cbn [p384_random]. rewrite fill_eq, <- (draw_same r1 r2 0 48 (48 + n) S) by lia. rewrite K.
    rewrite (HL (advance r2 48)) by (apply same_advance; exact S). rewrite advance_advance. reflexivity.
Qed.

Lemma seal_local (P : Prims) v fuel pdk pk r1 x r1' : seal P v fuel pdk pk r1 = Some (x, r1') ->
  exists n, r1' = advance r1 n /\
  forall r2, same_window r1 r2 n -> seal P v fuel pdk pk r2 = Some (x, advance r2 n).
Proof.
  destruct v; cbn [seal].
  - destruct (p384_random fuel r1) as [[e r']|] eqn:E; [|discriminate]. intros H.
    destruct (p384_random_local _ _ _ _ E) as (n & H1 & H2). exists n. split; [congruence|]. intros r2 S.
    rewrite (H2 r2 S). congruence.
  - rewrite fill_eq. intros H. exists 32. split; [congruence|]. intros r2 S.
    rewrite fill_eq, <- (draw_same r1 r2 0 32 32 S) by lia. congruence.
Qed.

Lemma run_op_window (P : Prims) fuel op r1 x r1' : SymLaws P ->
  run_op P fuel op r1 = Some (x, r1') ->
  exists n, r1' = advance r1 n /\
  forall r2, same_window r1 r2 n -> run_op P fuel op r2 = Some (x, advance r2 n).
Proof.
  intros L. destruct op as [q|v w key wk|v w key pw st|v pdk pk| |v]; cbn [run_op].
  - unfold encrypt_with_rng. unfold NONCE_LEN. rewrite fill_eq. intros H. exists 32. split; [congruence|]. intros r2 S.
    rewrite fill_eq, <- (draw_same r1 r2 0 32 32 S) by lia. congruence.
  - unfold wrap_pie. rewrite fill_eq. intros H. exists 32. split; [congruence|]. intros r2 S.
    rewrite fill_eq, <- (draw_same r1 r2 0 32 32 S) by lia. congruence.
  - destruct (kdf_accepts_dec v pw st) as [A|A].
    + rewrite pw_wrap_eq by exact A. cbv zeta. intros H. exists (pw_salt_size v + pw_nonce_size v).
      split; [congruence|]. intros r2 S. rewrite pw_wrap_eq by exact A. cbv zeta.
      rewrite <- !(draw_same r1 r2 _ _ _ S) by lia. congruence.
    + rewrite pw_wrap_panics by exact A. intros H. exists (pw_salt_size v). split; [congruence|]. intros r2 S.
      rewrite pw_wrap_panics by exact A. congruence.
  - destruct (seal P v fuel pdk pk r1) as [[y r']|] eqn:E; [|discriminate]. intros H.
    destruct (seal_local _ _ _ _ _ _ _ _ E) as (n & H1 & H2). exists n. split; [congruence|]. intros r2 S.
    rewrite (H2 r2 S). congruence.
  - unfold local_new_random. rewrite fill_eq. intros H. exists 32. split; [congruence|]. intros r2 S.
    rewrite fill_eq, <- (draw_same r1 r2 0 32 32 S) by lia. congruence.
  - destruct v.
    + unfold v3_secret_new_random. destruct (p384_random fuel r1) as [[e r']|] eqn:E; [|discriminate]. intros H.
      destruct (p384_random_local _ _ _ _ E) as (n & H1 & H2). exists n. split; [congruence|]. intros r2 S.
      rewrite (H2 r2 S). congruence.
    + unfold v4_secret_new_random. rewrite fill_eq. intros H. exists 32. split; [congruence|]. intros r2 S.
      rewrite fill_eq, <- (draw_same r1 r2 0 32 32 S) by lia. congruence.
Qed.

(** C54: the operations that draw a fixed amount: how much, and that the fresh values in
    their results are these bytes, in this order. *)
Lemma c54_fixed_draws :
  forall (P : Prims) (fuel : nat) (op : rand_op) (r : rng) (n : nat),
  SymLaws P -> op_bytes op = Some n -> op_runs op ->
  exists x, run_op P fuel op r = Some (x, advance r n) /\
  forall b, visible_random x = Some b -> b = draw r 0 n.
Proof.
  intros P fuel op r n L Hn Hr. destruct op as [q|v w key wk|v w key pw st|v pdk pk| |v]; cbn [run_op op_bytes op_runs] in *.
  - assert (n = 32) as -> by congruence.
    destruct (encrypt_with_rng P (rq_version q) (rq_encoding q) (rq_footer q) (rq_token q) (rq_key q) (rq_implicit q) r) as [res r'] eqn:Ee.
    assert (Er : r' = advance r 32).
    { destruct (c20_encrypt_outcome P _ _ _ (rq_version q) (rq_encoding q) (rq_footer q) (rq_token q) (rq_key q) (rq_implicit q) r) as [H _].
      rewrite Ee in H. exact H. }
    rewrite Er. eexists. split; [reflexivity|]. intros b Hb. cbn [visible_random] in Hb.
    destruct (omap st_payload res) as [body| |] eqn:Eo; try discriminate.
    assert (Hb' : b = firstn 32 body) by congruence. rewrite Hb'.
    destruct (c21_nonces_are_fresh_blocks P [q] r) as [_ H]. specialize (H 0 body).
    cbn [run_encryptions] in H. rewrite Ee in H. cbn [fst nth_error] in H. rewrite Eo in H. exact (H eq_refl).
  - assert (n = 32) as -> by congruence. rewrite wrap_pie_eq by exact L. cbv zeta. eexists. split; [reflexivity|].
    intros b. cbn [visible_random]. destruct (apply_keystream P v _ _ _); cbn [obind]; [|discriminate..].
    cbn [pie_nonce]. intros H. congruence.
  - assert (n = pw_salt_size v + pw_nonce_size v) as -> by congruence. rewrite pw_wrap_eq by exact Hr. cbv zeta.
    eexists. split; [reflexivity|]. intros b. cbn [visible_random].
    destruct (apply_keystream P v _ _ _); cbn [obind]; [|discriminate..]. cbn [pw_salt pw_nonce].
    intros H. assert (Hb : b = draw r 0 (pw_salt_size v) ++ draw r (pw_salt_size v) (pw_nonce_size v)) by congruence.
    rewrite Hb. unfold draw. rewrite Nat.add_0_r, seq_app, map_app. reflexivity.
  - destruct v; [discriminate|]. assert (n = 32) as -> by congruence. cbn [seal]. rewrite fill_eq.
    eexists. split; [reflexivity|]. intros b H. discriminate H.
  - assert (n = 32) as -> by congruence. unfold local_new_random. rewrite fill_eq. eexists. split; [reflexivity|].
    intros b H. cbn [visible_random] in H. congruence.
  - destruct v; [discriminate|]. assert (n = 32) as -> by congruence. unfold v4_secret_new_random. rewrite fill_eq.
    eexists. split; [reflexivity|]. intros b H. cbn [visible_random] in H. congruence.
Qed.

(** C54: the rejection-sampled operations (k3 sealing, v3 key generation) take the first
    valid 48-byte block and no byte after it. *)
Lemma c54_rejection_sampling :
  forall (fuel : nat) (r r' : rng) (e : bytes),
  ephemeral V3 fuel r = Some (e, r') ->
  exists k, k < fuel /\ r' = advance r (48 * k + 48) /\ e = draw r (48 * k) 48 /\ p_scalar_ok e = true /\
    forall j, j < k -> p_scalar_ok (draw r (48 * j) 48) = false.
Proof.
  cbn [ephemeral]. induction fuel as [|f IH]; intros r r' e H; [discriminate|].
  cbn [p384_random] in H. rewrite fill_eq in H. destruct (p_scalar_ok (draw r 0 48)) eqn:K.
  - exists 0. assert (E1 : e = draw r 0 48) by congruence. split; [lia|]. split; [|split; [exact E1|]].
    + change (48 * 0 + 48) with 48. congruence.
    + split; [rewrite E1; exact K|]. intros j Hj. lia.
  - destruct (IH _ _ _ H) as (k & Hk & H1 & H2 & H3 & H4). exists (S k). rewrite advance_advance in H1.
    rewrite draw_advance in H2. split; [lia|]. split; [rewrite H1; f_equal; lia|].
    split; [rewrite H2; f_equal; lia|]. split; [exact H3|]. intros j Hj. destruct j as [|j]; [exact K|].
    specialize (H4 j). rewrite draw_advance in H4. replace (48 * S j) with (48 + 48 * j) by lia. apply H4. lia.
Qed.

(** C54: locality: an operation's result depends on the bytes it consumes and on no others: a
    generator agreeing on that window gives the same result and ends at the same place. *)
Lemma c54_locality :
  forall (P : Prims) (fuel : nat) (op : rand_op) (r1 r2 r1' : rng) (x : rand_result),
  SymLaws P -> run_op P fuel op r1 = Some (x, r1') ->
  same_window r1 r2 (pos r1' - pos r1) ->
  exists r2', run_op P fuel op r2 = Some (x, r2') /\ pos r2' = pos r1' /\
              tape r1' = tape r1 /\ tape r2' = tape r2 /\ pos r1 <= pos r1'.
Proof.
  intros P fuel op r1 r2 r1' x L H S. destruct (run_op_window P fuel op r1 x r1' L H) as (n & -> & HL).
  cbn [advance pos] in S. replace (pos r1 + n - pos r1) with n in S by lia.
  exists (advance r2 n). split; [exact (HL r2 S)|]. destruct S as [Sp _]. cbn [advance pos tape]. repeat split; lia.
Qed.

(** C54: over any history of operations on one generator, the k-th operation starts exactly
    where the previous one stopped, so the byte ranges used are consecutive and disjoint; and
    each result is that of the operation run alone on its own range. *)
Lemma c54_history_disjoint :
  forall (P : Prims) (fuel : nat) (ops : list rand_op) (r rend : rng) (l : list (rng * rand_result)),
  SymLaws P -> run_ops P fuel ops r = Some (l, rend) ->
  length l = length ops /\
  forall k op rk xk, nth_error ops k = Some op -> nth_error l k = Some (rk, xk) ->
  let next := match nth_error l (S k) with Some (rn, _) => rn | None => rend end in
  run_op P fuel op rk = Some (xk, next) /\
  tape rk = tape r /\ pos r <= pos rk /\ pos rk <= pos next /\ pos next <= pos rend /\
  (k = 0 -> rk = r) /\
  (forall j rj xj, j < k -> nth_error l j = Some (rj, xj) ->
     let nextj := match nth_error l (S j) with Some (rn, _) => rn | None => rend end in
     pos nextj <= pos rk).
Proof.
  intros P fuel ops. induction ops as [|op0 ops IH]; intros r rend l L H.
  - cbn [run_ops] in H. injection H as <- <-. split; [reflexivity|]. intros [|k] op rk xk H; discriminate H.
  - cbn [run_ops] in H. destruct (run_op P fuel op0 r) as [[x0 r1]|] eqn:E0; [|discriminate].
    destruct (run_ops P fuel ops r1) as [[l' r2]|] eqn:E1; [|discriminate]. injection H as <- <-.
    destruct (IH _ _ _ L E1) as [Hlen IHk]. destruct (run_op_window P fuel op0 r x0 r1 L E0) as (n & En & _).
    assert (Hpos : pos r <= pos r1 /\ tape r1 = tape r) by (rewrite En; cbn [advance pos tape]; split; [lia|reflexivity]).
    assert (Hnext0 : match nth_error l' 0 with Some (rn, _) => rn | None => r2 end = r1).
    { destruct l' as [|[rn xn] l']; cbn [nth_error].
      - destruct ops as [|o ops]; [cbn in E1; congruence|cbn [length] in Hlen; discriminate].
      - destruct ops as [|o ops]; [cbn [length] in Hlen; discriminate|].
        destruct (IHk 0 o rn xn eq_refl eq_refl) as (_ & _ & _ & _ & _ & H0 & _). auto. }
    assert (Hend : pos r1 <= pos r2).
    { destruct ops as [|o ops]; [cbn in E1; assert (r1 = r2) by congruence; subst; lia|].
      destruct l' as [|[rn xn] l']; [cbn [length] in Hlen; discriminate|].
      destruct (IHk 0 o rn xn eq_refl eq_refl) as (_ & _ & H1 & H2 & H3 & _). lia. }
    split; [cbn [length]; congruence|]. intros [|k] op rk xk Ho Hl.
    + cbn [nth_error] in Ho, Hl. assert (op0 = op) as <- by congruence. assert (r = rk) as <- by congruence. assert (x0 = xk) as <- by congruence.
      cbv zeta. change (nth_error ((r, x0) :: l') 1) with (nth_error l' 0). rewrite Hnext0. split; [exact E0|]. split; [reflexivity|].
      split; [lia|]. split; [lia|]. split; [exact Hend|]. split; [reflexivity|]. intros j rj xj Hj. lia.
    + cbn [nth_error] in Ho, Hl. destruct (IHk k op rk xk Ho Hl) as (H1 & H2 & H3 & H4 & H5 & H6 & H7).
      cbv zeta in *. change (nth_error ((r, x0) :: l') (S (S k))) with (nth_error l' (S k)).
      split; [exact H1|]. split; [rewrite H2; apply Hpos|]. split; [lia|]. split; [exact H4|]. split; [exact H5|].
      split; [discriminate|]. intros j rj xj Hj Hlj. destruct j as [|j].
      * change (nth_error ((r, x0) :: l') 1) with (nth_error l' 0). rewrite Hnext0. lia.
      * change (nth_error ((r, x0) :: l') (S (S j))) with (nth_error l' (S j)).
        apply (H7 j rj xj); [lia|exact Hlj].
Qed.
