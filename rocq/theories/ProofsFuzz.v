(** Proofs for the JSON codec, the documented key rotation and the fuzz targets. *)
From Coq Require Import ZArith ZifyBool ZifyNat ZifyN.
From Verif Require Import Bytes Outcome Base64 Prims Version Key Token Local Public Plaintext KeyId
  Wrap Pbkw Pke Json Fuzz SpecBase64 SpecPaseto SpecPaserk SpecText SpecKey SpecJson Observe.
From Verif Require Import BytesLemmas Base64Lemmas TextLemmas TokenLemmas CipherLemmas JsonLemmas
  ProofsText ProofsLocal ProofsPublic ProofsKey ProofsWrap ProofsMisc.

(** ** JSON *)

(** C66: the JSON string reader accepts exactly the RFC 8259 strings whose value is UTF-8,
    with the value the RFC gives them. *)
Lemma c66_json_string_reader :
  forall s v r : bytes,
  parse_str_value s = Some (v, r) <->
  exists blank t, Forall (fun b => In b (str " " ++ [x0a; x09; x0d])) blank /\
    s = blank ++ t ++ r /\ jstring t v /\ utf8_text v.
Proof.
  assert (W : forall s : bytes, exists blank, s = blank ++ ws s /\
             Forall (fun b => In b (str " " ++ [x0a; x09; x0d])) blank).
  { induction s as [|b s (bl & E & F)]; [exists []; split; [reflexivity|constructor]|].
    cbn [ws]. destruct (is_ws b) eqn:B; [|exists []; split; [reflexivity|constructor]].
    exists (b :: bl). split; [cbn; congruence|]. constructor; [|exact F].
    unfold is_ws in B. rewrite !orb_true_iff, !beqb_eq in B.
    change (In b [x20; x0a; x09; x0d]). cbn. intuition. }
  assert (W2 : forall blank s : bytes, Forall (fun b => In b (str " " ++ [x0a; x09; x0d])) blank ->
             ws (blank ++ x22 :: s) = x22 :: s).
  { intros bl s F. induction F as [|b bl H _ IH]; [reflexivity|]. cbn [app ws].
    replace (is_ws b) with true; [exact IH|]. symmetry. unfold is_ws. rewrite !orb_true_iff, !beqb_eq.
    change (In b [x20; x0a; x09; x0d]) in H. cbn in H. intuition. }
  intros s v r. unfold parse_str_value. split.
  - destruct (W s) as (bl & Es & F). destruct (ws s) as [|b s'] eqn:E; [discriminate|].
    destruct (beqb b x22) eqn:B; [|discriminate]. apply beqb_eq in B. subst b. intros H.
    apply parse_str_iff in H as (t & -> & J & U).
    exists bl, (str """" ++ t ++ str """"). split; [exact F|]. split.
    + rewrite Es. rewrite <- !app_assoc. reflexivity.
    + split; [|exact U]. exists t. split; [reflexivity|exact J].
  - intros (bl & t & F & -> & (cs & -> & J) & U).
    change (bl ++ (str """" ++ cs ++ str """") ++ r) with (bl ++ (x22 :: (cs ++ str """")) ++ r).
    replace (bl ++ (x22 :: (cs ++ str """")) ++ r) with (bl ++ x22 :: (cs ++ x22 :: r))
      by (cbn [app]; rewrite <- app_assoc; reflexivity).
    rewrite (W2 _ _ F). change (beqb x22 x22) with true. cbn iota.
    apply parse_str_iff. exists cs. auto.
Qed.

Lemma parse_str_utf8 s v r : parse_str s = Some (v, r) -> utf8_text v.
Proof. intros H. apply parse_str_iff in H as (t & _ & _ & U). exact U. Qed.
Lemma parse_str_value_utf8 s v r : parse_str_value s = Some (v, r) -> utf8_text v.
Proof.
  unfold parse_str_value. destruct (ws s) as [|b t]; [discriminate|].
  destruct (beqb b x22); [|discriminate]. apply parse_str_utf8.
Qed.
Lemma members_utf8 n field : forall first seen s v r,
  (forall x, seen = Some x -> utf8_text x) ->
  members n field first seen s = Some (v, r) -> utf8_text v.
Proof.
  induction n as [|n IH]; intros first seen s v r Hs; [discriminate|]. cbn [members].
  destruct (ws s) as [|b t]; [discriminate|].
  destruct (beqb b x7d).
  { destruct seen as [x|]; [|discriminate]. intros H. assert (x = v) by congruence. subst x. auto. }
  destruct (if negb first && beqb b x2c then _ else _) as [[|q t']|]; [discriminate| |discriminate].
  destruct (beqb q x22); [|discriminate].
  destruct (parse_str t') as [(key & t2)|]; [|discriminate].
  destruct (ws t2) as [|c t3]; [discriminate|]. destruct (beqb c x3a); [|discriminate].
  destruct (bseqb key field).
  - destruct seen; [discriminate|]. destruct (parse_str_value t3) as [(x & t4)|] eqn:Q; [|discriminate].
    apply IH. intros y Hy. assert (y = x) by congruence. subst y. exact (parse_str_value_utf8 _ _ _ Q).
  - destruct (ignore_value t3); [|discriminate]. apply IH. exact Hs.
Qed.
Lemma seq1_utf8 s v r : seq1 s = Some (v, r) -> utf8_text v.
Proof.
  unfold seq1. intros H.
  repeat match type of H with
  | context [match parse_str_value ?x with _ => _ end] => 
      let Q := fresh "Q" in destruct (parse_str_value x) as [(?,?)|] eqn:Q
  | context [match ?x with _ => _ end] => destruct x; try discriminate H
  end; try discriminate H.
  all: match goal with Q : parse_str_value _ = Some (?x, _) |- _ =>
    assert (v = x) by congruence; subst; exact (parse_str_value_utf8 _ _ _ Q) end.
Qed.
Lemma parse_object1_utf8 field s v : parse_object1 field s = Some v -> utf8_text v.
Proof.
  unfold parse_object1. destruct (ws s) as [|b t]; [discriminate|].
  destruct (if beqb b x7b then _ else _) as [(x & t2)|] eqn:Q; [|discriminate].
  destruct (ws t2); [|discriminate]. intros H. assert (x = v) by congruence. subst x.
  destruct (beqb b x7b).
  - apply members_utf8 in Q; [exact Q|discriminate].
  - destruct (beqb b x5b); [exact (seq1_utf8 _ _ _ Q)|discriminate].
Qed.

Lemma escape_len s : length (flat_map escape_byte s) <= 6 * length s.
Proof.
  induction s as [|b s IH]; [cbn; lia|]. cbn [flat_map length]. rewrite app_length.
  assert (H : length (escape_byte b) <= 6) by (destruct b; cbn; lia). lia.
Qed.
Lemma json_object1_len field value :
  length (json_object1 field value) <= length (flat_map escape_byte field) + 6 * length value + 7.
Proof.
  rewrite json_object1_shape. cbn [length]. rewrite !app_length. cbn [length]. rewrite app_length. cbn [length].
  pose proof (escape_len value). lia.
Qed.

Lemma to_id_length (P : Prims) v k key id : SymLaws P -> to_id P v k key = Ok id -> length id = 33.
Proof.
  intros L H. unfold to_id in H. destruct (encode_buf _ _); [|discriminate]. cbn [unwrap obind] in H. destruct v.
  - cbv zeta in H. destruct (length _ <? 33) eqn:Q; [discriminate|]. apply ok_inj in H. subst id.
    rewrite firstn_length. apply Nat.ltb_ge in Q. lia.
  - apply ok_inj in H. subst id. apply (blake2b_len _ L). lia.
Qed.

Lemma sign_encoded_footer {M F E} (P : Prims) v (EN : Encoding E M) (FC : FooterCodec F) t sk i tok f :
  sign_with_assertions P v EN FC t sk i = Ok tok -> f_encode FC (vt_footer t) = Some f ->
  st_encoded_footer tok = f.
Proof.
  unfold sign_with_assertions. intros H Hf. rewrite Hf in H.
  destruct (payload_err _); try discriminate. cbn [unwrap obind] in H.
  destruct (sign_raw _ _ _ _ _ _ _); try discriminate. cbn [obind] in H. apply ok_inj in H. subst tok. reflexivity.
Qed.
Lemma encrypt_encoded_footer {M F E} (P : Prims) v (EN : Encoding E M) (FC : FooterCodec F) t key i r tok r' f :
  encrypt_with_rng P v EN FC t key i r = (Ok tok, r') -> f_encode FC (vt_footer t) = Some f ->
  st_encoded_footer tok = f.
Proof.
  unfold encrypt_with_rng. destruct (fill _ r) as (n & r1). rewrite encrypt_inner_eq. intros H Hf. rewrite Hf in H.
  destruct (payload_err _); try discriminate. cbn [unwrap obind] in H.
  destruct (apply_keystream _ _ _ _ _); try discriminate. cbn [obind] in H.
  assert (H' : Ok tok = Ok tok) by reflexivity.
  match type of H with (Ok ?x, _) = _ => assert (tok = x) by congruence end. subst tok. reflexivity.
Qed.

Lemma firstn_repeat_le {A} (x : A) n m : n <= m -> firstn n (repeat x m) = repeat x n.
Proof. revert m. induction n as [|n IH]; intros m H; [reflexivity|]. destruct m; [lia|]. cbn. rewrite IH by lia. reflexivity. Qed.

Lemma data_json_roundtrip s : valid_utf8 s = true ->
  json_to_vec data_json s = COk (json_object1 (str "data") s) /\
  json_from_slice data_json (json_object1 (str "data") s) = COk s.
Proof.
  intros V. unfold data_json, json_struct1. cbn [json_to_vec json_from_slice]. split; [reflexivity|].
  rewrite (parse_object1_written (str "data") s eq_refl V). reflexivity.
Qed.


(** C66: what the one-field JSON objects of the crate's footers and messages look like, and
    that reading them back gives the same value, whatever the text. *)
Lemma c66_json_roundtrip :
  forall text : bytes, utf8_text text ->
  (exists lit, json_to_vec data_json text = COk (str "{""data"":" ++ lit ++ str "}") /\
     jstring lit text) /\
  (forall b, json_to_vec data_json text = COk b -> json_from_slice data_json b = COk text) /\
  (forall b, json_to_vec kid_string_json text = COk b -> json_from_slice kid_string_json b = COk text).
Proof.
  intros s U. assert (V : valid_utf8 s = true) by (apply valid_utf8_iff; exact U).
  refine (conj _ (conj _ _)).
  - exists (json_string s). split.
    + reflexivity.
    + unfold json_string. exists (flat_map escape_byte s). split; [reflexivity|]. apply escape_jchars.
  - intros b H. destruct (data_json_roundtrip s V) as (A & B). rewrite A in H.
    assert (b = json_object1 (str "data") s) by congruence. subst b. exact B.
  - intros b H. unfold kid_string_json, json_struct1 in *. cbn [json_to_vec json_from_slice] in *.
    assert (b = json_object1 (str "kid") s) by congruence. subst b.
    rewrite (parse_object1_written (str "kid") s eq_refl V). reflexivity.
Qed.

(** C66: texts that are not UTF-8 never come out of the reader. *)
Lemma c66_json_only_utf8 :
  forall b text : bytes, json_from_slice data_json b = COk text -> utf8_text text.
Proof.
  intros b s. unfold data_json, json_struct1. cbn [json_from_slice].
  destruct (parse_object1 (str "data") b) as [x|] eqn:Q; [|discriminate].
  intros H. assert (x = s) by congruence. subst x. exact (parse_object1_utf8 _ _ _ Q).
Qed.

(** ** Key rotation with [{"kid": …}] footers *)

Lemma ascii_utf8 s : Forall (fun b => (b2n b <? 128)%N = true) s -> valid_utf8 s = true.
Proof. intros F. induction F as [|b s H _ IH]; [reflexivity|]. cbn [valid_utf8]. rewrite H. exact IH. Qed.

Lemma alphabet_ascii b : In b alphabet -> (b2n b <? 128)%N = true.
Proof.
  intros H. assert (F : forallb (fun b => (b2n b <? 128)%N) alphabet = true) by reflexivity.
  rewrite forallb_forall in F. exact (F _ H).
Qed.
Lemma base64url_ascii l : Forall (fun b => (b2n b <? 128)%N = true) (base64url l).
Proof.
  destruct (c03_base64_roundtrip l) as (_ & D & _).
  apply c04_base64_strict in D as (F & _). eapply Forall_impl; [|exact F]. intros b. apply alphabet_ascii.
Qed.
Lemma id_text_utf8 v k id : valid_utf8 (id_h v k ++ base64url id) = true.
Proof.
  apply ascii_utf8, Forall_app. split; [|apply base64url_ascii].
  destruct v, k; repeat constructor.
Qed.

Lemma escape_alphabet l : Forall (fun c => In c alphabet) l -> flat_map escape_byte l = l.
Proof.
  intros F. induction F as [|b l Hb _ IH]; [reflexivity|]. cbn [flat_map]. rewrite IH.
  assert (Fb : forallb (fun b => bseqb (escape_byte b) [b]) alphabet = true) by reflexivity.
  rewrite forallb_forall in Fb. specialize (Fb _ Hb). apply bseqb_eq in Fb. rewrite Fb. reflexivity.
Qed.

Lemma kid_json_roundtrip v k id : length id = 33 ->
  json_to_vec (kid_json v k) id =
    COk (str "{""kid"":""" ++ id_h v k ++ base64url id ++ str """}") /\
  json_from_slice (kid_json v k) (str "{""kid"":""" ++ id_h v k ++ base64url id ++ str """}") = COk id.
Proof.
  intros L. destruct (c33_id_text v k id L) as (s & D & -> & R).
  assert (O : json_object1 (str "kid") (id_h v k ++ base64url id)
              = str "{""kid"":""" ++ id_h v k ++ base64url id ++ str """}").
  { rewrite json_object1_shape. unfold json_string. rewrite flat_map_app.
    assert (A : flat_map escape_byte (id_h v k) = id_h v k) by (destruct v, k; reflexivity).
    assert (B : flat_map escape_byte (base64url id) = base64url id).
    { destruct (c03_base64_roundtrip id) as (_ & DD & _). apply c04_base64_strict in DD as (F & _). exact (escape_alphabet _ F). }
    rewrite A, B. change (str "kid") with [x6b; x69; x64]. cbn [flat_map].
    change (escape_byte x6b) with [x6b]. change (escape_byte x69) with [x69]. change (escape_byte x64) with [x64].
    cbn [app]. rewrite <- !app_assoc. reflexivity. }
  unfold kid_json, json_struct1. cbn [json_to_vec json_from_slice]. rewrite D. split.
  - rewrite O. reflexivity.
  - rewrite <- O, (parse_object1_written (str "kid") _ eq_refl (id_text_utf8 v k id)), R. reflexivity.
Qed.

Lemma kid_footer v k id : length id = 33 ->
  exists f, f = str "{""kid"":""" ++ id_h v k ++ base64url id ++ str """}" /\
    f_encode (json_footer (kid_json v k)) id = Some f /\
    f_decode (json_footer (kid_json v k)) f = COk id.
Proof.
  intros L. destruct (kid_json_roundtrip v k id L) as (A & B).
  eexists. split; [reflexivity|]. cbn [json_footer f_encode f_decode]. rewrite A. split; [reflexivity|].
  exact B.
Qed.

(** C67: the documented key rotation (lib.rs:34-101) with its actual footer: the signed token
    carries [{"kid":"k4.pid.…"}]; whoever parses it reads back the identifier, finds the signing
    key's public key in the map and verification returns what was signed. *)
Lemma c67_documented_rotation_public :
  forall (P : Prims) (M E : Type) (v : version) (EN : Encoding E M) (keys : list (bytes * bytes))
         (t : ValidatedToken M bytes E) (sk implicit : bytes) (tok : SecuredToken bytes E),
  let FC := json_footer (kid_json v Public) in
  Laws P -> valid_key P v Secret sk = true -> key_map P v Public keys ->
  to_id P v Public (public_key P v sk) = Ok (vt_footer t) ->
  In (vt_footer t, public_key P v sk) keys ->
  (forall m, e_encode EN (vt_encoding t) (vt_message t) = COk m ->
             e_decode EN (e_default EN) m = COk (vt_message t)) ->
  sign_with_assertions P v EN FC t sk implicit = Ok tok ->
  st_encoded_footer tok = str "{""kid"":""" ++ id_h v Public ++ base64url (vt_footer t) ++ str """}" /\
  exists tok' pk',
    token_parse v PPublic (suffix EN) (e_default EN) FC (token_display v PPublic (suffix EN) tok) = Ok tok' /\
    unverified_footer tok' = vt_footer t /\
    lookup (unverified_footer tok') keys = Some pk' /\
    (verify_with_assertions P v EN tok' pk' implicit =
       Ok {| vt_encoding := e_default EN; vt_message := vt_message t; vt_footer := vt_footer t |}
     \/ id_collision P v Public (public_key P v sk) pk').
Proof.
  intros P M E v EN keys t sk implicit tok FC L Vk HM Hid Hin Hm Hs.
  assert (Li : length (vt_footer t) = 33) by (exact (to_id_length P v Public _ _ L Hid)).
  destruct (kid_footer v Public _ Li) as (f & Ef & Fe & Fd).
  assert (Hf : forall f, f_encode FC (vt_footer t) = Some f -> f_decode FC f = COk (vt_footer t)).
  { intros f' H. unfold FC in *. rewrite Fe in H. assert (f' = f) by congruence. subst f'. exact Fd. }
  split.
  - rewrite <- Ef. exact (sign_encoded_footer _ _ _ _ _ _ _ _ _ Hs Fe).
  - destruct (c52_rotation_public P M bytes E v EN FC (fun x => x) keys t sk implicit tok L Vk HM Hin Hm Hf Hs)
      as (tok' & pk' & A & B & C).
    exists tok', pk'. refine (conj A (conj _ (conj B C))).
    destruct (c22_public_roundtrip P M bytes E v EN FC t sk implicit tok L Vk Hm Hf Hs) as (tok2 & A2 & B2 & _).
    assert (tok2 = tok') by congruence. subst. exact B2.
Qed.

(** C67: the same for local tokens. *)
Lemma c67_documented_rotation_local :
  forall (P : Prims) (M E : Type) (v : version) (EN : Encoding E M) (keys : list (bytes * bytes))
         (t : ValidatedToken M bytes E) (key implicit m : bytes) (r : rng),
  let FC := json_footer (kid_json v Local) in
  Sizes P -> key_map P v Local keys ->
  to_id P v Local key = Ok (vt_footer t) -> In (vt_footer t, key) keys ->
  e_encode EN (vt_encoding t) (vt_message t) = COk m ->
  e_decode EN (e_default EN) m = COk (vt_message t) ->
  within_limit v (nlen m) ->
  exists tok tok' key',
    encrypt_with_rng P v EN FC t key implicit r = (Ok tok, advance r 32) /\
    st_encoded_footer tok = str "{""kid"":""" ++ id_h v Local ++ base64url (vt_footer t) ++ str """}" /\
    token_parse v PLocal (suffix EN) (e_default EN) FC (token_display v PLocal (suffix EN) tok) = Ok tok' /\
    unverified_footer tok' = vt_footer t /\
    lookup (unverified_footer tok') keys = Some key' /\
    (decrypt_with_assertions P v EN tok' key' implicit =
       Ok {| vt_encoding := e_default EN; vt_message := vt_message t; vt_footer := vt_footer t |}
     \/ id_collision P v Local key key').
Proof.
  intros P M E v EN keys t key implicit m r FC L HM Hid Hin Hm Hd W.
  assert (Li : length (vt_footer t) = 33) by (exact (to_id_length P v Local _ _ L Hid)).
  destruct (kid_footer v Local _ Li) as (f & Ef & Fe & Fd).
  destruct (c52_rotation_local P M bytes E v EN FC (fun x => x) keys t key implicit m f r L HM Hin Hm Hd Fe Fd W)
      as (tok & tok' & key' & Z & A & B & C).
  exists tok, tok', key'. refine (conj Z (conj _ (conj A (conj _ (conj B C))))).
  - rewrite <- Ef. eapply encrypt_encoded_footer; [exact Z|exact Fe].
  - destruct (c14_local_roundtrip P M bytes E v EN FC t key implicit m f r L Hm Hd Fe Fd W) as (tok1 & tok2 & A1 & A2 & B2 & _).
    assert (tok1 = tok) by congruence. subst. assert (tok2 = tok') by congruence. subst. exact B2.
Qed.

(** ** The fuzz targets *)

Lemma fill_length n r : length (fst (fill n r)) = n.
Proof. unfold fill. cbn. rewrite map_length, seq_length. reflexivity. Qed.

Lemma run_fake_ok {A} (b : bytes) (f : rng -> outcome A * rng) (x : A) n :
  f (fake b) = (Ok x, advance (fake b) n) -> n <= length b -> run_fake b f = Ok x.
Proof.
  intros H Hn. unfold run_fake. rewrite H. cbn [pos advance fake].
  replace (0 + n <=? length b) with true; [reflexivity|]. symmetry. apply Nat.leb_le. lia.
Qed.

(** C64: the local fuzz target succeeds on every input: any UTF-8 texts as message and footer,
    any assertion, any key, any 32 bytes of randomness. *)
Lemma c64_fuzz_local_never_fails :
  forall (P : Prims) (v : version) (x : FuzzInput),
  SymLaws P -> 32 <= length (fz_eph x) ->
  utf8_text (fz_data1 x) -> utf8_text (fz_data2 x) ->
  within_limit v (nlen (fz_data1 x) * 6 + 11) ->
  fuzz_local P v x = Ok tt.
Proof.
  intros P v x L Lr U1 U2 W. unfold fuzz_local.
  assert (V1 : valid_utf8 (fz_data1 x) = true) by (apply valid_utf8_iff; exact U1).
  assert (V2 : valid_utf8 (fz_data2 x) = true) by (apply valid_utf8_iff; exact U2).
  destruct (data_json_roundtrip _ V1) as (A1 & B1). destruct (data_json_roundtrip _ V2) as (A2 & B2).
  set (t := with_footer (token_new (fz_data1 x)) (fz_data2 x)).
  destruct (c14_local_roundtrip P bytes bytes unit v data_enc data_footer t (fz_key x) (fz_data3 x)
              (json_object1 (str "data") (fz_data1 x)) (json_object1 (str "data") (fz_data2 x))
              (fake (fz_eph x)) L A1 B1) as (tok & tok' & Z & T & Uf & D).
  - cbn [data_footer json_footer f_encode t vt_footer with_footer]. rewrite A2. reflexivity.
  - exact B2.
  - destruct v; [exact I|]. pose proof (json_object1_len (str "data") (fz_data1 x)) as Hl.
    unfold within_limit, nlen in *. change (length (flat_map escape_byte (str "data"))) with 4 in Hl. lia.
  - rewrite (run_fake_ok _ _ tok 32 Z Lr). cbn [runwrap obind]. rewrite T. cbn [runwrap obind].
    rewrite Uf. cbn [t vt_footer with_footer]. rewrite bseqb_refl. cbn [rassert obind].
    rewrite D. cbn [runwrap obind vt_message t with_footer token_new]. rewrite bseqb_refl. reflexivity.
Qed.

(** C64: the public fuzz target succeeds on every input for which ECDSA finds a signature
    (always, for v4). *)
Lemma c64_fuzz_public_never_fails :
  forall (P : Prims) (v : version) (x : FuzzInput),
  Laws P -> valid_key P v Secret (fz_key x) = true ->
  (v = V3 -> forall digest, p_sign P (fz_key x) digest <> None) ->
  utf8_text (fz_data1 x) -> utf8_text (fz_data2 x) ->
  fuzz_public P v x = Ok tt.
Proof.
  intros P v x L Vk Hs U1 U2. unfold fuzz_public.
  assert (V1 : valid_utf8 (fz_data1 x) = true) by (apply valid_utf8_iff; exact U1).
  assert (V2 : valid_utf8 (fz_data2 x) = true) by (apply valid_utf8_iff; exact U2).
  destruct (data_json_roundtrip _ V1) as (A1 & B1). destruct (data_json_roundtrip _ V2) as (A2 & B2).
  set (t := with_footer (token_new (fz_data1 x)) (fz_data2 x)).
  assert (Fe : f_encode data_footer (vt_footer t) = Some (json_object1 (str "data") (fz_data2 x))).
  { cbn [data_footer json_footer f_encode t vt_footer with_footer]. rewrite A2. reflexivity. }
  destruct (c22_sign_outcome P bytes bytes unit v data_enc data_footer t (fz_key x) (fz_data3 x)) as (OE & OP).
  destruct (sign_with_assertions P v data_enc data_footer t (fz_key x) (fz_data3 x)) as [tok|e|] eqn:Q.
  2:{ exfalso. destruct (OE e) as (H & _). destruct (H eq_refl) as (msg & _ & C).
      change (json_to_vec data_json (fz_data1 x) = CErr msg) in C. congruence. }
  2:{ exfalso. destruct OP as (H & _). destruct (H eq_refl) as (m & _ & [C|(f & _ & -> & C)]); [congruence|].
      exact (Hs eq_refl _ C). }
  assert (Hm : forall m, e_encode data_enc (vt_encoding t) (vt_message t) = COk m ->
             e_decode data_enc (e_default data_enc) m = COk (vt_message t)).
  { intros m H. change (json_to_vec data_json (fz_data1 x) = COk m) in H.
    assert (m = json_object1 (str "data") (fz_data1 x)) by congruence. subst m. exact B1. }
  assert (Hf : forall f, f_encode data_footer (vt_footer t) = Some f -> f_decode data_footer f = COk (vt_footer t)).
  { intros f H. assert (f = json_object1 (str "data") (fz_data2 x)) by congruence. subst f. exact B2. }
  destruct (c22_public_roundtrip P bytes bytes unit v data_enc data_footer t (fz_key x) (fz_data3 x) tok L Vk Hm Hf Q)
    as (tok' & T & Uf & D).
  cbn [runwrap obind]. rewrite T. cbn [runwrap obind].
  rewrite Uf. cbn [t vt_footer with_footer]. rewrite bseqb_refl. cbn [rassert obind].
  rewrite D. cbn [runwrap obind vt_message t with_footer token_new]. rewrite bseqb_refl. reflexivity.
Qed.

(** C64: the key-wrapping fuzz target succeeds on every input. *)
Lemma c64_fuzz_wrap_never_fails :
  forall (P : Prims) (v : version) (w : wtype) (wrapping_key key eph : bytes),
  Sizes P -> (v = V4 -> w = WSecret -> EdLaws P) -> valid_key P v (wtype_key w) key = true -> 32 <= length eph ->
  fuzz_wrap P v w wrapping_key key eph = Ok tt.
Proof.
  intros P v w wk key eph L LE Vk Le. unfold fuzz_wrap.
  destruct (c37_pie_roundtrip P v w key wk (fake eph) L LE Vk) as (x & s & Z & D & R & U).
  rewrite (run_fake_ok _ _ x 32 Z Le). cbn [obind]. rewrite D. cbn [obind]. rewrite R. cbn [runwrap obind].
  rewrite U. cbn [runwrap obind]. unfold key_eqb. rewrite bseqb_refl. reflexivity.
Qed.

(** C64: the sealing fuzz target succeeds on every input (a k3 input whose ephemeral is not a
    scalar is skipped by the target). *)
Lemma c64_fuzz_seal_never_fails :
  forall (P : Prims) (v : version) (key sk eph : bytes),
  Laws P -> length key = 32 -> valid_key P v Secret sk = true ->
  length eph = match v with V3 => 48 | V4 => 32 end ->
  fuzz_seal P v key sk eph = Ok tt.
Proof.
  intros P v key sk eph L Lk Vs Le. unfold fuzz_seal. cbv zeta.
  assert (DR : forall n, n <= length eph -> draw (fake eph) 0 n = firstn n eph).
  { intros n Hn. unfold draw. cbn [pos fake tape]. rewrite Nat.add_0_l.
    clear -Hn. revert n Hn. induction eph as [|b l IH]; intros n Hn.
    - replace n with 0 by (cbn in Hn; lia). reflexivity.
    - destruct n; [reflexivity|]. cbn [seq map firstn nth]. f_equal. rewrite <- seq_shift, map_map.
      cbn [nth]. apply IH. cbn in Hn. lia. }
  assert (G : forall r2 res, seal P v 2 key (public_key P v sk) (fake eph) = Some (res, r2) ->
     pos r2 <= length eph ->
     (let? x := run_fake eph (fun r => match seal P v 2 key (public_key P v sk) r with Some y => y | None => (Panic, r) end) in
      let? key2 := runwrap (unseal P v x sk) in rassert (key_eqb P v Local key key2)) = Ok tt).
  { intros r2 res Hs Hp. destruct (c46_seal_roundtrip P v 2 key sk _ _ _ L Lk Vs Hs) as (x & s & -> & _ & _ & U).
    unfold run_fake. rewrite Hs. replace (pos r2 <=? length eph) with true by (symmetry; apply Nat.leb_le; exact Hp).
    cbn [obind]. rewrite U. cbn [runwrap obind]. unfold key_eqb. rewrite bseqb_refl. reflexivity. }
  destruct v.
  - destruct (p_scalar_ok eph) eqn:Sc; [|reflexivity].
    assert (Q : exists res, seal P V3 2 key (public_key P V3 sk) (fake eph) = Some (res, advance (fake eph) 48)).
    { unfold seal. cbn [p384_random].
      destruct (fill 48 (fake eph)) as (b & r1) eqn:F.
      assert (Eb : b = eph).
      { transitivity (draw (fake eph) 0 48).
        - unfold fill in F. unfold draw. rewrite Nat.add_0_r. congruence.
        - rewrite DR by lia. apply firstn_all2. lia. }
      assert (Er : r1 = advance (fake eph) 48) by (unfold fill in F; unfold advance; congruence).
      subst b r1. rewrite Sc. eexists. reflexivity. }
    destruct Q as (res & Q). apply (G _ _ Q). cbn. lia.
  - assert (Q : exists res, seal P V4 2 key (public_key P V4 sk) (fake eph) = Some (res, advance (fake eph) 32)).
    { unfold seal. destruct (fill 32 (fake eph)) as (b & r1) eqn:F.
      assert (Er : r1 = advance (fake eph) 32) by (unfold fill in F; unfold advance; congruence).
      subst r1. eexists. reflexivity. }
    destruct Q as (res & Q). apply (G _ _ Q). cbn. lia.
Qed.

(** C64: the parsing fuzz targets succeed on every byte string. *)
Lemma c64_fuzz_parse_never_fails :
  forall s : bytes,
  (forall v p, fuzz_token_parse v p s = Ok tt) /\ (forall v w, fuzz_wrap_parse v w s = Ok tt).
Proof.
  intros s. destruct c11_parse_no_panic as (A & _ & _ & B & _). split; intros.
  - unfold fuzz_token_parse, ignore.
    pose proof (A bytes unit v p (suffix data_enc) tt (json_footer kid_string_json) s) as H.
    destruct (token_parse v p (suffix data_enc) tt (json_footer kid_string_json) s); try reflexivity. congruence.
  - unfold fuzz_wrap_parse, ignore. pose proof (B v w s) as H. destruct (pie_parse v w s); try reflexivity. congruence.
Qed.

(** C65: the keys the fuzzers generate are valid; they take the first 32 (48 for k3 secret keys)
    bytes of the input, zero-filled, and reject exactly the non-scalars. *)
Lemma c65_arbitrary_keys :
  forall (P : Prims) (v : version) (w : wtype) (input : bytes),
  Sizes P ->
  let n := match v, w with V3, WSecret => 48 | _, _ => 32 end in
  let taken := firstn n (input ++ repeat x00 n) in
  snd (arb_key P v w input) = skipn n input /\
  (forall key, fst (arb_key P v w input) = Some key <->
     key = taken /\ valid_key P v (wtype_key w) key = true) /\
  (fst (arb_key P v w input) = None <-> v = V3 /\ w = WSecret /\ p_scalar_ok taken = false).
Proof.
  intros P v w u L n taken.
  assert (T : forall m, firstn m (u ++ repeat x00 m) = firstn m u ++ repeat x00 (m - length u)).
  { intros m. rewrite firstn_app. f_equal. rewrite firstn_repeat_le; [reflexivity|lia]. }
  assert (Lt : forall m, length (firstn m u ++ repeat x00 (m - length u)) = m).
  { intros m. rewrite app_length, firstn_length, repeat_length. lia. }
  unfold arb_key, arb_array, taken. clear taken. rewrite T.
  assert (G : forall m, (forall key, Some (firstn m u ++ repeat x00 (m - length u)) = Some key <->
               key = firstn m u ++ repeat x00 (m - length u) /\ (length key =? m) = true)).
  { intros m key. split.
    - intros H. assert (key = firstn m u ++ repeat x00 (m - length u)) by congruence. split; [assumption|].
      subst key. rewrite Lt. apply Nat.eqb_refl.
    - intros (-> & _). reflexivity. }
  destruct v, w; cbv beta iota delta [n]; clear n; cbn [fst snd wtype_key valid_key]; (split; [reflexivity|]);
    try (split; [apply G|split; [discriminate|intros (A & B & _); discriminate]]).
  rewrite (p_sk_slice_48 _ L) by apply Lt.
  destruct (p_scalar_ok (firstn 48 u ++ repeat x00 (48 - length u))) eqn:Sc.
  - split; [|split; [discriminate|intros (_ & _ & H); discriminate]]. intros key. split.
    + intros H. assert (key = firstn 48 u ++ repeat x00 (48 - length u)) by congruence. subst key. auto.
    + intros (-> & _). reflexivity.
  - split; [|split; [auto|auto]]. intros key. split; [discriminate|]. intros (-> & H). congruence.
Qed.

(** C65: every valid key is generated by some input, namely its own bytes. *)
Lemma c65_arbitrary_complete :
  forall (P : Prims) (v : version) (w : wtype) (key rest : bytes),
  Sizes P -> valid_key P v (wtype_key w) key = true ->
  arb_key P v w (key ++ rest) = (Some key, rest).
Proof.
  intros P v w key rest L V.
  assert (Lk : length key = match v, w with V3, WSecret => 48 | _, _ => 32 end).
  { destruct v, w; cbn [wtype_key valid_key] in V; try (apply Nat.eqb_eq; exact V).
    unfold p_scalar_ok in V. rewrite !andb_true_iff in V. apply Nat.eqb_eq. apply V. }
  destruct (c65_arbitrary_keys P v w (key ++ rest) L) as (A & B & _). cbv zeta in *.
  rewrite <- Lk in A, B. rewrite (surjective_pairing (arb_key P v w (key ++ rest))). f_equal.
  - apply B. split; [|exact V]. rewrite <- app_assoc. symmetry. apply firstn_app_exact. reflexivity.
  - rewrite A. apply skipn_app_exact. reflexivity.
Qed.

(** ** What the fuzz targets check *)

Lemma runwrap_ok {A} (x : outcome A) a : runwrap x = Ok a -> x = Ok a.
Proof. destruct x; cbn; congruence. Qed.
Lemma runwrap_not_err {A} (x : outcome A) e : runwrap x <> Err e.
Proof. destruct x; discriminate. Qed.
Lemma rassert_ok b : rassert b = Ok tt -> b = true.
Proof. destruct b; [reflexivity|discriminate]. Qed.
Lemma rassert_not_err b e : rassert b <> Err e.
Proof. destruct b; discriminate. Qed.
Lemma apply_keystream_not_err P v k i d e : apply_keystream P v k i d <> Err e.
Proof. destruct v; cbn [apply_keystream]; [discriminate|]. destruct (_ <? _)%N; discriminate. Qed.
Lemma split_at_not_err n l e : split_at n l <> Err e.
Proof. unfold split_at. destruct (_ <? _); discriminate. Qed.
Lemma obind_not_err {A B} (x : outcome A) (f : A -> outcome B) e :
  (forall e', x <> Err e') -> (forall a, f a <> Err e) -> obind x f <> Err e.
Proof. intros Hx Hf. destruct x as [a|e'|]; cbn [obind]; [apply Hf|destruct (Hx e' eq_refl)|discriminate]. Qed.
Lemma obind_ok {A B} (x : outcome A) (f : A -> outcome B) b :
  obind x f = Ok b -> exists a, x = Ok a /\ f a = Ok b.
Proof. destruct x as [a|e|]; cbn [obind]; intros H; try discriminate. exists a. auto. Qed.
Lemma write_chunks_not_err cs e : write_chunks cs <> Err e.
Proof.
  revert e. induction cs as [|c cs IH]; intros e; cbn [write_chunks]; [discriminate|].
  apply obind_not_err; [intros e'; destruct (encode_buf 64 c); discriminate|].
  intros a. apply obind_not_err; [exact IH|discriminate].
Qed.
Lemma pie_display_not_err v w x e : pie_display v w x <> Err e.
Proof. unfold pie_display. apply obind_not_err; [intros e'; apply write_chunks_not_err|discriminate]. Qed.
Lemma run_fake_not_err {A} b (f : rng -> outcome A * rng) e :
  (forall r e', fst (f r) <> Err e') -> run_fake b f <> Err e.
Proof.
  intros H. unfold run_fake. specialize (H (fake b) e). destruct (f (fake b)) as (x & r). cbn [fst] in H.
  destruct (_ <=? _); [exact H|discriminate].
Qed.
Lemma run_fake_inv {A} b (f : rng -> outcome A * rng) a :
  run_fake b f = Ok a -> fst (f (fake b)) = Ok a /\ pos (snd (f (fake b))) <= length b.
Proof.
  unfold run_fake. destruct (f (fake b)) as (x & r). cbn [fst snd].
  destruct (pos r <=? length b) eqn:E; [|discriminate]. intros ->. split; [reflexivity|]. apply Nat.leb_le. exact E.
Qed.
Lemma wrap_pie_not_err P v w key wk r e : fst (wrap_pie P v w key wk r) <> Err e.
Proof.
  unfold wrap_pie. destruct (fill 32 r) as (n & r'). cbn [fst].
  apply obind_not_err; [intros e'; apply apply_keystream_not_err|]. intros c.
  apply obind_not_err; [intros e'; apply split_at_not_err|]. intros (ak & rest). discriminate.
Qed.
Lemma some_pair_fst {A B} (a a' : A) (b b' : B) : Some (a, b) = Some (a', b') -> a = a' /\ b = b'.
Proof. intros H. injection H. auto. Qed.
Lemma seal_not_err P v fuel pdk pk r x r' e : seal P v fuel pdk pk r = Some (x, r') -> x <> Err e.
Proof.
  destruct v; cbn [seal].
  - destruct (p384_random fuel r) as [(esk & r1)|]; [|discriminate]. intros H. apply some_pair_fst in H.
    destruct H as (<- & _). unfold seal_v3. cbv zeta.
    apply obind_not_err; [intros e'; apply apply_keystream_not_err|discriminate].
  - destruct (fill 32 r) as (eb & r1). intros H. apply some_pair_fst in H. destruct H as (<- & _). unfold seal_v4. cbv zeta.
    apply obind_not_err; [intros e'; apply apply_keystream_not_err|discriminate].
Qed.

(** C64: a token fuzz target either passes or panics, and whenever it passes the round trip
    really happened (no law assumed): the token was made and printed, its text parses to a token
    with the footer put in, and opening it gives the message put in. *)
Lemma c64_token_targets_check :
  forall (P : Prims) (v : version) (x : FuzzInput),
  (fuzz_local P v x = Ok tt \/ fuzz_local P v x = Panic) /\
  (fuzz_public P v x = Ok tt \/ fuzz_public P v x = Panic) /\
  let t := with_footer (token_new (fz_data1 x)) (fz_data2 x) in
  (fuzz_local P v x = Ok tt ->
   exists tok tok' t' r',
     encrypt_with_rng P v data_enc data_footer t (fz_key x) (fz_data3 x) (fake (fz_eph x)) = (Ok tok, r') /\
     pos r' <= length (fz_eph x) /\
     token_parse v PLocal [] tt data_footer (token_display v PLocal [] tok) = Ok tok' /\
     unverified_footer tok' = fz_data2 x /\
     decrypt_with_assertions P v data_enc tok' (fz_key x) (fz_data3 x) = Ok t' /\
     vt_message t' = fz_data1 x) /\
  (fuzz_public P v x = Ok tt ->
   exists tok tok' t',
     sign_with_assertions P v data_enc data_footer t (fz_key x) (fz_data3 x) = Ok tok /\
     token_parse v PPublic [] tt data_footer (token_display v PPublic [] tok) = Ok tok' /\
     unverified_footer tok' = fz_data2 x /\
     verify_with_assertions P v data_enc tok' (public_key P v (fz_key x)) (fz_data3 x) = Ok t' /\
     vt_message t' = fz_data1 x).
Proof.
  intros P v x.
  assert (NE : forall y : outcome unit, (forall e, y <> Err e) -> y = Ok tt \/ y = Panic).
  { intros [[]|e|] H; [auto|destruct (H e eq_refl)|auto]. }
  refine (conj _ (conj _ _)).
  - apply NE. intros e. unfold fuzz_local.
    apply obind_not_err; [intros e'; apply runwrap_not_err|]. intros tok.
    apply obind_not_err; [intros e'; apply runwrap_not_err|]. intros tok'.
    apply obind_not_err; [intros e'; apply rassert_not_err|]. intros _.
    apply obind_not_err; [intros e'; apply runwrap_not_err|]. intros t'. apply rassert_not_err.
  - apply NE. intros e. unfold fuzz_public.
    apply obind_not_err; [intros e'; apply runwrap_not_err|]. intros tok.
    apply obind_not_err; [intros e'; apply runwrap_not_err|]. intros tok'.
    apply obind_not_err; [intros e'; apply rassert_not_err|]. intros _.
    apply obind_not_err; [intros e'; apply runwrap_not_err|]. intros t'. apply rassert_not_err.
  - intros t. split; intros H.
    + unfold fuzz_local in H.
      apply obind_ok in H. destruct H as (tok & E1 & H). apply runwrap_ok, run_fake_inv in E1. destruct E1 as (E1 & E1').
      apply obind_ok in H. destruct H as (tok' & E2 & H). apply runwrap_ok in E2.
      apply obind_ok in H. destruct H as ([] & E3 & H). apply rassert_ok, bseqb_eq in E3.
      apply obind_ok in H. destruct H as (t' & E4 & H). apply runwrap_ok in E4. apply rassert_ok, bseqb_eq in H.
      exists tok, tok', t', (snd (encrypt_with_rng P v data_enc data_footer t (fz_key x) (fz_data3 x) (fake (fz_eph x)))).
      split; [rewrite <- E1; apply surjective_pairing|]. split; [exact E1'|]. split; [exact E2|].
      split; [exact E3|]. split; [exact E4|exact H].
    + unfold fuzz_public in H.
      apply obind_ok in H. destruct H as (tok & E1 & H). apply runwrap_ok in E1.
      apply obind_ok in H. destruct H as (tok' & E2 & H). apply runwrap_ok in E2.
      apply obind_ok in H. destruct H as ([] & E3 & H). apply rassert_ok, bseqb_eq in E3.
      apply obind_ok in H. destruct H as (t' & E4 & H). apply runwrap_ok in E4. apply rassert_ok, bseqb_eq in H.
      exists tok, tok', t'. split; [exact E1|]. split; [exact E2|]. split; [exact E3|]. split; [exact E4|exact H].
Qed.

(** C64: the same for the key targets: they pass or panic, and when they pass, unwrapping the
    printed wrapped key, or unsealing the sealed key, gave a key with the same bytes. *)
Lemma c64_key_targets_check :
  forall (P : Prims) (v : version) (w : wtype) (wk key sk eph : bytes),
  (fuzz_wrap P v w wk key eph = Ok tt \/ fuzz_wrap P v w wk key eph = Panic) /\
  (fuzz_seal P v key sk eph = Ok tt \/ fuzz_seal P v key sk eph = Panic) /\
  (fuzz_wrap P v w wk key eph = Ok tt ->
   exists x r' s y key2,
     wrap_pie P v w key wk (fake eph) = (Ok x, r') /\ pos r' <= length eph /\
     pie_display v w x = Ok s /\ pie_parse v w s = Ok y /\ unwrap_pie P v w y wk = Ok key2 /\
     key_to_bytes P v (wtype_key w) key2 = key_to_bytes P v (wtype_key w) key) /\
  (fuzz_seal P v key sk eph = Ok tt ->
   (v = V3 /\ p_scalar_ok eph = false) \/
   exists x r',
     seal P v 2 key (public_key P v sk) (fake eph) = Some (Ok x, r') /\ pos r' <= length eph /\
     unseal P v x sk = Ok key).
Proof.
  intros P v w wk key sk eph.
  assert (NE : forall y : outcome unit, (forall e, y <> Err e) -> y = Ok tt \/ y = Panic).
  { intros [[]|e|] H; [auto|destruct (H e eq_refl)|auto]. }
  assert (SE : forall e, (let? x := run_fake eph (fun r => match seal P v 2 key (public_key P v sk) r with Some y => y | None => (Panic, r) end) in
      let? key2 := runwrap (unseal P v x sk) in rassert (key_eqb P v Local key key2)) <> Err e).
  { intros e. apply obind_not_err.
    - intros e'. apply run_fake_not_err. intros r e''. destruct (seal P v 2 key (public_key P v sk) r) as [(y & r')|] eqn:E; [|discriminate].
      cbn [fst]. exact (seal_not_err _ _ _ _ _ _ _ _ _ E).
    - intros x. apply obind_not_err; [intros e'; apply runwrap_not_err|]. intros k2. apply rassert_not_err. }
  assert (SO : (let? x := run_fake eph (fun r => match seal P v 2 key (public_key P v sk) r with Some y => y | None => (Panic, r) end) in
      let? key2 := runwrap (unseal P v x sk) in rassert (key_eqb P v Local key key2)) = Ok tt ->
      exists x r', seal P v 2 key (public_key P v sk) (fake eph) = Some (Ok x, r') /\ pos r' <= length eph /\
        unseal P v x sk = Ok key).
  { intros H. apply obind_ok in H. destruct H as (x & E1 & H). apply run_fake_inv in E1.
    destruct (seal P v 2 key (public_key P v sk) (fake eph)) as [(y & r')|] eqn:E; cbn [fst snd] in E1;
      [|destruct E1; discriminate].
    destruct E1 as (-> & Hp). apply obind_ok in H. destruct H as (k2 & E2 & H). apply runwrap_ok in E2.
    apply rassert_ok in H. unfold key_eqb in H. apply bseqb_eq in H.
    assert (Ek : key = k2) by (destruct v; exact H). subst k2.
    exists x, r'. split; [reflexivity|]. split; [exact Hp|exact E2]. }
  refine (conj _ (conj _ (conj _ _))).
  - apply NE. intros e. unfold fuzz_wrap.
    apply obind_not_err; [intros e'; apply run_fake_not_err; intros; apply wrap_pie_not_err|]. intros x.
    apply obind_not_err; [intros e'; apply pie_display_not_err|]. intros s.
    apply obind_not_err; [intros e'; apply runwrap_not_err|]. intros y.
    apply obind_not_err; [intros e'; apply runwrap_not_err|]. intros k2. apply rassert_not_err.
  - apply NE. intros e. unfold fuzz_seal. cbv zeta. destruct v; [destruct (p_scalar_ok eph); [apply SE|discriminate]|apply SE].
  - intros H. unfold fuzz_wrap in H.
    apply obind_ok in H. destruct H as (x & E1 & H). apply run_fake_inv in E1. destruct E1 as (E1 & E1').
    apply obind_ok in H. destruct H as (s & E2 & H).
    apply obind_ok in H. destruct H as (y & E3 & H). apply runwrap_ok in E3.
    apply obind_ok in H. destruct H as (k2 & E4 & H). apply runwrap_ok in E4.
    apply rassert_ok in H. unfold key_eqb in H. apply bseqb_eq in H.
    exists x, (snd (wrap_pie P v w key wk (fake eph))), s, y, k2.
    split; [rewrite <- E1; apply surjective_pairing|]. split; [exact E1'|]. split; [exact E2|].
    split; [exact E3|]. split; [exact E4|]. symmetry. exact H.
  - intros H. unfold fuzz_seal in H. cbv zeta in H. destruct v.
    + destruct (p_scalar_ok eph) eqn:Sc; [right; apply SO; exact H|left; auto].
    + right. apply SO. exact H.
Qed.
