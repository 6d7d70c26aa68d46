(** Proofs about details visible to users: header of JSON tokens, text of the unit footer error. *)
From Verif Require Import Bytes Outcome Base64 Prims Version Key Token Local Public Wrap Pbkw Pke Serde
  SpecBase64 SpecPaseto SpecPaserk SpecText SpecKey SpecDetail Observe.
From Verif Require Import BytesLemmas Base64Lemmas TextLemmas TokenLemmas CipherLemmas ProofsText
  ProofsLocal ProofsPublic ProofsKey ProofsWrap.

Lemma dec_byte_spec b : dec_byte b = decimal (b2n b).
Proof. destruct b; reflexivity. Qed.
Lemma debug_list_spec l : debug_list l = join (str ", ") (map (fun b => decimal (b2n b)) l).
Proof.
  induction l as [|a [|b l] IH]; [reflexivity|cbn [debug_list map join]; apply dec_byte_spec|].
  cbn [debug_list] in *. rewrite IH, dec_byte_spec. reflexivity.
Qed.

(** C71: the unit footer refuses every non-empty footer with a message that lists its bytes in
    decimal, as [{:?}] prints a slice. *)
Lemma c71_unit_footer_error :
  forall b : bytes, b <> [] ->
  f_decode unit_footer b =
  CErr (str "unexpected footer [" ++ join (str ", ") (map (fun c => decimal (b2n c)) b) ++ str "]").
Proof.
  intros b H. destruct b as [|c b]; [congruence|]. cbn [f_decode unit_footer]. unfold debug_slice.
  rewrite debug_list_spec. reflexivity.
Qed.

(** C56: the exact text of every error, as a user sees it. *)
Lemma c56_error_texts :
  forall e : paseto_error,
  exists text, error_display e = text /\
  (e = Base64DecodeError -> text = str "The token could not be base64 decoded") /\
  (e = InvalidKey -> text = str "Could not parse the key") /\
  (e = InvalidToken -> text = str "Could not parse the token") /\
  (e = CryptoError -> text = str "Token signature could not be validated") /\
  (forall x, e = PayloadError x -> text = str "there was an error with the payload encoding: " ++ x).
Proof.
  intros e. exists (error_display e). split; [reflexivity|].
  refine (conj _ (conj _ (conj _ (conj _ _)))); intros; subst e; reflexivity.
Qed.

(** C56: what a user reads when a serde string is no key id, wrapped or sealed key: one text
    if the header is missing, another if the body is not the encoding of that many bytes. *)
Lemma c56_deserialize_texts :
  forall (P : Prims) (v : version) (k : ktype) (w : wtype) (s msg : bytes),
  let fails h n := (exists x, s = h ++ x) /\ ~ (exists b, length b = n /\ s = h ++ base64url b) in
  let no_header h := ~ exists x, s = h ++ x in
  let explains h n :=
    (msg = str "Could not parse the token" /\ no_header h) \/
    (msg = str "The token could not be base64 decoded" /\ fails h n) in
  (id_deserialize v k (SStr s) = DErr msg <-> explains (kind_header (KId v k)) (body_size (KId v k))) /\
  (pie_deserialize v w (SStr s) = DErr msg <-> explains (kind_header (KPie v w)) (body_size (KPie v w))) /\
  (pw_deserialize v w (SStr s) = DErr msg <-> explains (kind_header (KPw v w)) (body_size (KPw v w))) /\
  (seal_deserialize v (SStr s) = DErr msg <-> explains (kind_header (KSeal v)) (body_size (KSeal v))).
Proof.
  intros P v k w s msg fails no_header explains.
  assert (G : forall (A : Type) (t : text_kind) (exp : bytes) (parse : bytes -> outcome A),
    is_paserk t = true -> (forall v' k', t <> KPlain v' k') ->
    paserk_result P t s = omap (fun _ => tt) (parse s) ->
    (deserialize exp parse (SStr s) = DErr msg <-> explains (kind_header t) (body_size t))).
  { intros A t exp parse IP NP E. destruct (c12_paserk_errors P t s IP) as (I1 & I2 & I3 & I4 & I5 & I6 & I7 & I8).
    unfold explains, no_header, fails. cbn [deserialize].
    destruct (parse s) as [a|e|] eqn:Q; cbn [omap obind] in E.
    - split; [discriminate|]. intros [[_ H]|[_ H]].
      + apply (proj2 I1) in H. congruence.
      + apply (proj2 I2) in H. congruence.
    - destruct e as [| | | |e].
      + split.
        * intros H. right. split; [|apply (proj1 I2); exact E]. injection H as <-. reflexivity.
        * intros [[_ H]|[-> _]]; [|reflexivity]. apply (proj2 I1) in H. congruence.
      + destruct (proj1 I3 E) as (v' & k' & b & H & _). destruct (NP _ _ H).
      + split.
        * intros H. left. split; [|apply (proj1 I1); exact E]. injection H as <-. reflexivity.
        * intros [[-> _]|[_ H]]; [reflexivity|]. apply (proj2 I2) in H. congruence.
      + destruct (I6 E).
      + destruct (I7 _ E).
    - destruct (I8 E). }
  refine (conj _ (conj _ (conj _ _))); apply G; reflexivity || discriminate || (intros; discriminate).
Qed.

(** C71: a token with the unit footer and a footer part is refused with that message, one with
    an empty JSON footer with "missing footer"; these are the messages a caller of [parse]
    sees. *)
Lemma c71_parse_reports_footer :
  forall (E T : Type) (v : version) (p : purpose) (sfx : bytes) (e0 : E) (J : JsonCodec T) (payload f : bytes),
  (f <> [] ->
   token_parse v p sfx e0 unit_footer
     (token_header v p sfx ++ base64url payload ++ str "." ++ base64url f) =
   Err (PayloadError (str "unexpected footer [" ++ join (str ", ") (map (fun c => decimal (b2n c)) f) ++ str "]"))) /\
  token_parse v p sfx e0 (json_footer J) (token_header v p sfx ++ base64url payload) =
  Err (PayloadError (str "missing footer")).
Proof.
  intros E T v p sfx e0 J payload f. split.
  - intros Hf. rewrite token_parse_eq, strip_prefix_self. cbn [ok_or obind]. rewrite token_rest_long, c71_unit_footer_error by exact Hf. reflexivity.
  - rewrite token_parse_eq, strip_prefix_self. cbn [ok_or obind]. rewrite token_rest_short. reflexivity.
Qed.

(** C71: JSON tokens have no suffix: what is printed starts with exactly the registered header,
    and what is authenticated starts with it too. *)
Lemma c71_json_header :
  forall (M F E : Type) (J : JsonCodec M) (v : version) (p : purpose) (t : SecuredToken F E),
  token_display v p (suffix (json_encoding J)) t =
  (match v, p with
   | V3, PLocal => str "v3.local."
   | V3, PPublic => str "v3.public."
   | V4, PLocal => str "v4.local."
   | V4, PPublic => str "v4.public."
   end ++ base64url (st_payload t) ++
   match st_encoded_footer t with [] => [] | f => str "." ++ base64url f end) /\
  (forall m, e_encode (json_encoding J) tt m = json_to_vec J m) /\
  (forall b, e_decode (json_encoding J) tt b = json_from_slice J b).
Proof.
  intros M F E J v p t. split; [|split; reflexivity].
  rewrite token_display_spec. unfold token_text. destruct (st_encoded_footer t); rewrite ?app_nil_r; destruct v, p; reflexivity.
Qed.

(** ** C72: the authentication verdict does not involve the cipher *)
Lemma obind_err {A B} (x : outcome A) (f : A -> outcome B) e : obind x f = Err e ->
  x = Err e \/ exists a, x = Ok a /\ f a = Err e.
Proof. destruct x; cbn [obind]; intros H; [right; eauto|left; congruence|discriminate]. Qed.
Lemma payload_no_crypto {A} (x : codec_result A) : payload_err x <> Err CryptoError.
Proof. destruct x; discriminate. Qed.

(** C72: whether a local token, wrapped key or sealed key is refused as unauthentic does not
    depend on the cipher at all: with any other cipher in its place exactly the same inputs
    are refused.  So nothing is deciphered before the tag has been checked. *)
Lemma c72_verdict_without_cipher :
  forall (P : Prims) aes xchacha, let Q := recipher P aes xchacha in
  SymLaws P -> SymLaws Q ->
  (forall (M F E : Type) v (EN : Encoding E M) (t : SecuredToken F E) key i,
     decrypt_with_assertions P v EN t key i = Err CryptoError <->
     decrypt_with_assertions Q v EN t key i = Err CryptoError) /\
  (forall v w x wk, unwrap_pie P v w x wk = Err CryptoError <-> unwrap_pie Q v w x wk = Err CryptoError) /\
  (forall v w (x : PwWrapped v) pw, pw_unwrap P v w x pw = Err CryptoError <-> pw_unwrap Q v w x pw = Err CryptoError) /\
  (forall v x sk, valid_key P v Secret sk = true ->
     (unseal P v x sk = Err CryptoError <-> unseal Q v x sk = Err CryptoError)).
Proof.
  intros P aes xc Q LP LQ. split; [|split; [|split]].
  - intros M F E v EN t key i.
    destruct (Nat.lt_ge_cases (length (st_payload t)) (32 + tag_len v)) as [Lb|Lb].
    { rewrite !decrypt_short by exact Lb. tauto. }
    rewrite !decrypt_body by exact Lb. cbv zeta.
    assert (T : mtag Q v = mtag P v) by (destruct v; reflexivity). rewrite T.
    destruct (bseqb _ _); [|tauto].
    split; intros H; exfalso; apply obind_err in H as [H|(m & _ & H)].
    all: try (apply apply_keystream_not_err in H; exact H).
    all: apply obind_err in H as [H|(m' & _ & H)]; [exact (payload_no_crypto _ H)|discriminate].
  - intros v w x wk. rewrite !unwrap_pie_eq by assumption.
    assert (T : pie_spec_tag Q v = pie_spec_tag P v) by (destruct v; reflexivity). rewrite T.
    destruct (bseqb _ _); [|tauto].
    split; intros H; exfalso; apply obind_err in H as [H|(m & _ & H)].
    all: try (apply apply_keystream_not_err in H; exact H).
    all: apply key_from_bytes_err in H; discriminate.
  - intros v w x pw. destruct (kdf_accepts_dec v pw (pw_state x)) as [Ha|Ha].
    2:{ rewrite !pw_unwrap_panics by exact Ha. tauto. }
    rewrite !pw_unwrap_eq by exact Ha.
    assert (T : pw_spec_tag Q v = pw_spec_tag P v) by (destruct v; reflexivity).
    assert (K : prekey Q v = prekey P v) by (destruct v; reflexivity). rewrite T, K.
    destruct (bseqb _ _); [|tauto].
    split; intros H; exfalso; apply obind_err in H as [H|(m & _ & H)].
    all: try (apply apply_keystream_not_err in H; exact H).
    all: apply key_from_bytes_err in H; discriminate.
  - intros v x sk Hk. rewrite !unseal_eq by (destruct v; exact Hk).
    assert (K : recv_xk Q v = recv_xk P v) by (destruct v; reflexivity).
    assert (T : seal_spec_tag Q v = seal_spec_tag P v) by (destruct v; reflexivity).
    assert (R : hashed_pk Q v (public_key Q v sk) = hashed_pk P v (public_key P v sk)) by (destruct v; reflexivity).
    rewrite K, T, R. destruct (recv_xk P v sk (sl_epk x)); [|tauto].
    destruct (bseqb _ _); [|tauto].
    split; intros H; exfalso; apply apply_keystream_not_err in H; exact H.
Qed.
