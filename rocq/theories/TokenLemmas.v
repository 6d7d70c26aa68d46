(** Proofs about token and PASERK texts. *)
From Coq Require Import ZArith ZifyBool ZifyNat ZifyN.
From Verif Require Import Bytes BytesLemmas Outcome Base64 Base64Lemmas TextLemmas Prims Version Key
  Token Plaintext KeyId Wrap Pbkw Pke Local SpecBase64 SpecPaseto SpecPaserk SpecText.
Ltac Zify.zify_post_hook ::= Z.div_mod_to_equations.

Lemma token_header_eq v p sfx :
  paseto_header v ++ sfx ++ dot ++ purpose_header p ++ dot = token_header v p sfx.
Proof. destruct v, p; reflexivity. Qed.

(** ** Token text *)
Definition token_rest {F E} (e0 : E) (FC : FooterCodec F) (s : bytes) : outcome (SecuredToken F E) :=
  let '(payload, footer) :=
    match split_once x2e s with
    | Some (payload, footer) => (payload, Some footer)
    | None => (s, None)
    end in
  let? payload := ok_or (decode_vec payload) Base64DecodeError in
  let? encoded_footer :=
    match footer with
    | Some f => ok_or (decode_vec f) Base64DecodeError
    | None => Ok []
    end in
  let? footer := payload_err (f_decode FC encoded_footer) in
  Ok {| st_encoding := e0; st_payload := payload;
        st_encoded_footer := encoded_footer; st_footer := footer |}.

Lemma token_parse_eq {F E} v p sfx (e0 : E) (FC : FooterCodec F) s :
  token_parse v p sfx e0 FC s =
  (let? r := ok_or (strip_prefix (token_header v p sfx) s) InvalidToken in token_rest e0 FC r).
Proof.
  rewrite <- token_header_eq, strip_prefix_app. unfold token_parse.
  destruct (strip_prefix (paseto_header v) s) as [s1|]; [cbn [ok_or obind]; rewrite ?strip_prefix_app|reflexivity].
  destruct (strip_prefix sfx s1) as [s2|]; [cbn [ok_or obind]; rewrite ?strip_prefix_app|reflexivity].
  destruct (strip_prefix dot s2) as [s3|]; [cbn [ok_or obind]; rewrite ?strip_prefix_app|reflexivity].
  destruct (strip_prefix (purpose_header p) s3) as [s4|]; [cbn [ok_or obind]; rewrite ?strip_prefix_app|reflexivity].
  destruct (strip_prefix dot s4) as [s5|]; [cbn [ok_or obind]; rewrite ?strip_prefix_app|reflexivity].
  reflexivity.
Qed.

(** the two segment forms *)
Lemma base64url_no_dot b : ~ In x2e (base64url b).
Proof. rewrite <- encode_string_spec. apply encode_string_no_dot. Qed.

Lemma split_short b : split_once x2e (base64url b) = None.
Proof. apply split_once_none, base64url_no_dot. Qed.
Lemma split_long b f : split_once x2e (base64url b ++ str "." ++ f) = Some (base64url b, f).
Proof. apply split_once_some. split; [reflexivity|apply base64url_no_dot]. Qed.

Lemma decode_vec_spec s d : decode_vec s = Some d <-> s = base64url d.
Proof. rewrite decode_vec_iff, encode_string_spec. reflexivity. Qed.
Lemma decode_vec_base64url d : decode_vec (base64url d) = Some d.
Proof. apply decode_vec_spec. reflexivity. Qed.
Lemma base64url_inj a b : base64url a = base64url b -> a = b.
Proof. rewrite <- !encode_string_spec. apply encode_string_inj. Qed.

Definition mk_tok {F E} (e0 : E) (payload ef : bytes) (f : F) : SecuredToken F E :=
  {| st_encoding := e0; st_payload := payload; st_encoded_footer := ef; st_footer := f |}.

Lemma token_rest_short {F E} (e0 : E) (FC : FooterCodec F) b :
  token_rest e0 FC (base64url b) = omap (mk_tok e0 b []) (payload_err (f_decode FC [])).
Proof. unfold token_rest. rewrite split_short, decode_vec_base64url. reflexivity. Qed.
Lemma token_rest_long {F E} (e0 : E) (FC : FooterCodec F) b f :
  token_rest e0 FC (base64url b ++ str "." ++ base64url f)
  = omap (mk_tok e0 b f) (payload_err (f_decode FC f)).
Proof. unfold token_rest. rewrite split_long, !decode_vec_base64url. reflexivity. Qed.

(** remaining segment text: grammar *)
Inductive rest_grammar : bytes -> bytes -> bytes -> Prop :=
| rg_short b : rest_grammar (base64url b) b []
| rg_long b f : rest_grammar (base64url b ++ str "." ++ base64url f) b f.

Lemma token_rest_cases {F E} (e0 : E) (FC : FooterCodec F) s :
  (exists b f, rest_grammar s b f /\
      token_rest e0 FC s = omap (mk_tok e0 b f) (payload_err (f_decode FC f)))
  \/ ((forall b f, ~ rest_grammar s b f) /\ token_rest e0 FC s = Err Base64DecodeError).
Proof.
  destruct (split_once x2e s) as [[a c]|] eqn:S.
  - destruct (decode_vec a) as [b|] eqn:A.
    + destruct (decode_vec c) as [f|] eqn:C.
      * left. exists b, f. apply split_once_some in S as [-> _].
        apply decode_vec_spec in A as ->. apply decode_vec_spec in C as ->.
        split; [exact (rg_long b f)|]. exact (token_rest_long e0 FC b f).
      * right. split.
        -- intros b' f G. inversion G; subst.
           ++ rewrite split_short in S. discriminate.
           ++ rewrite split_long in S. injection S as <- <-. rewrite decode_vec_base64url in C. discriminate.
        -- unfold token_rest. rewrite S, A, C. reflexivity.
    + right. split.
      -- intros b' f G. inversion G; subst.
         ++ rewrite split_short in S. discriminate.
         ++ rewrite split_long in S. injection S as <- <-. rewrite decode_vec_base64url in A. discriminate.
      -- unfold token_rest. rewrite S, A. reflexivity.
  - destruct (decode_vec s) as [b|] eqn:A.
    + left. exists b, []. apply decode_vec_spec in A as ->.
      split; [constructor|]. apply token_rest_short.
    + right. split.
      * intros b' f G. inversion G; subst.
        -- rewrite decode_vec_base64url in A. discriminate.
        -- rewrite split_long in S. discriminate.
      * unfold token_rest. rewrite S, A. reflexivity.
Qed.

Lemma rest_grammar_split s b f : rest_grammar s b f ->
  (s = base64url b /\ f = []) \/ s = base64url b ++ str "." ++ base64url f.
Proof. intros []; auto. Qed.

Lemma rest_grammar_det s b f b' f' :
  rest_grammar s b f -> rest_grammar s b' f' -> b = b' /\ f = f'.
Proof.
  intros G G'. apply rest_grammar_split in G as [[-> ->]| ->];
    apply rest_grammar_split in G' as [[H ->]|H].
  - apply base64url_inj in H. auto.
  - exfalso. apply (base64url_no_dot b). rewrite H. apply in_or_app. right. left. reflexivity.
  - exfalso. apply (base64url_no_dot b'). rewrite <- H. apply in_or_app. right. left. reflexivity.
  - pose proof (split_long b (base64url f)) as S1. pose proof (split_long b' (base64url f')) as S2.
    rewrite <- H, S1 in S2. injection S2 as E1 E2. apply base64url_inj in E1. apply base64url_inj in E2. auto.
Qed.

Lemma token_grammar_rest v p sfx s b f :
  token_grammar v p sfx s b f <-> exists r, s = token_header v p sfx ++ r /\ rest_grammar r b f.
Proof.
  split.
  - intros G. inversion G; subst; eexists; (split; [reflexivity|constructor]).
  - intros (r & -> & G). inversion G; subst; constructor.
Qed.

Lemma token_grammar_det v p sfx s b f b' f' :
  token_grammar v p sfx s b f -> token_grammar v p sfx s b' f' -> b = b' /\ f = f'.
Proof.
  rewrite !token_grammar_rest. intros (r & -> & G) (r' & H & G'). apply app_inv_head in H as <-.
  eapply rest_grammar_det; eauto.
Qed.

Lemma omap_payload {A B} (f : A -> B) (r : codec_result A) :
  omap f (payload_err r) = match r with COk a => Ok (f a) | CErr e => Err (PayloadError e) end.
Proof. destruct r; reflexivity. Qed.

Lemma token_parse_grammar {F E} v p sfx (e0 : E) (FC : FooterCodec F) s b f :
  token_grammar v p sfx s b f ->
  token_parse v p sfx e0 FC s =
  match f_decode FC f with COk x => Ok (mk_tok e0 b f x) | CErr e => Err (PayloadError e) end.
Proof.
  rewrite token_grammar_rest. intros (r & -> & G). rewrite token_parse_eq, strip_prefix_self.
  cbn [ok_or obind]. rewrite <- omap_payload.
  inversion G; subst; [apply token_rest_short|apply token_rest_long].
Qed.

(** complete classification of the parser's result *)
Lemma token_parse_cases {F E} v p sfx (e0 : E) (FC : FooterCodec F) s :
  ((forall r, s <> token_header v p sfx ++ r) /\ token_parse v p sfx e0 FC s = Err InvalidToken)
  \/ ((exists r, s = token_header v p sfx ++ r) /\ (forall b f, ~ token_grammar v p sfx s b f) /\
      token_parse v p sfx e0 FC s = Err Base64DecodeError)
  \/ (exists b f, token_grammar v p sfx s b f /\ token_parse v p sfx e0 FC s =
      match f_decode FC f with COk x => Ok (mk_tok e0 b f x) | CErr e => Err (PayloadError e) end).
Proof.
  destruct (strip_prefix (token_header v p sfx) s) as [r|] eqn:S.
  - apply strip_prefix_iff in S as ->.
    destruct (token_rest_cases e0 FC r) as [(b & f & G & R)|(G & R)].
    + right; right. exists b, f. assert (T : token_grammar v p sfx (token_header v p sfx ++ r) b f).
      { apply token_grammar_rest. eauto. }
      split; [exact T|]. apply token_parse_grammar, T.
    + right; left. split; [eauto|]. split.
      * intros b f T. apply token_grammar_rest in T as (r' & H & T). apply app_inv_head in H as <-.
        exact (G _ _ T).
      * rewrite token_parse_eq, strip_prefix_self. exact R.
  - left. split; [apply strip_prefix_none, S|]. rewrite token_parse_eq, S. reflexivity.
Qed.

Lemma token_parse_ok_iff {F E} v p sfx (e0 : E) (FC : FooterCodec F) s t :
  token_parse v p sfx e0 FC s = Ok t <->
  exists b f x, token_grammar v p sfx s b f /\ f_decode FC f = COk x /\ t = mk_tok e0 b f x.
Proof.
  split.
  - intros H. destruct (token_parse_cases v p sfx e0 FC s) as [[_ R]|[(_ & _ & R)|(b & f & G & R)]];
      rewrite R in H; try discriminate.
    destruct (f_decode FC f) as [x|] eqn:D; [|discriminate]. injection H as <-. eauto 6.
  - intros (b & f & x & G & D & ->). rewrite (token_parse_grammar _ _ _ _ _ _ _ _ G), D. reflexivity.
Qed.

Lemma token_display_spec {F E} v p sfx (t : SecuredToken F E) :
  token_display v p sfx t = token_text (token_header v p sfx) (st_payload t) (st_encoded_footer t).
Proof.
  unfold token_display, token_text. rewrite <- token_header_eq, !encode_string_spec.
  destruct (st_encoded_footer t) as [|x r]; cbn [length Nat.eqb].
  - rewrite !app_nil_r, <- !app_assoc. reflexivity.
  - rewrite <- !app_assoc. reflexivity.
Qed.

Lemma token_display_grammar {F E} v p sfx (t : SecuredToken F E) :
  token_grammar v p sfx (token_display v p sfx t) (st_payload t) (st_encoded_footer t).
Proof.
  rewrite token_display_spec. unfold token_text.
  destruct (st_encoded_footer t); constructor.
Qed.

(** ** PASERK texts *)
Definition paserk_read {A} (h : bytes) (n : nat) (s : bytes) (k : bytes -> outcome A) : outcome A :=
  let? s := ok_or (strip_prefix h s) InvalidToken in
  let? b := read_b64 n s in k b.

Lemma decode_buf_read {A} n s (k : bytes -> outcome A) :
  (let? b := ok_or (decode_buf n s) Base64DecodeError in
   if negb (length b =? n) then Err Base64DecodeError else k b) = (let? b := read_b64 n s in k b).
Proof.
  destruct (read_b64_cases n s) as [[d R]|R].
  - rewrite R. apply read_b64_ok_iff in R as [-> L].
    assert (D : decode_buf n (encode_string d) = Some d) by (apply decode_buf_iff; split; [reflexivity|lia]).
    rewrite D. cbn [ok_or obind]. rewrite L, Nat.eqb_refl. reflexivity.
  - rewrite R. cbn [obind]. destruct (decode_buf n s) as [d|] eqn:D; [|reflexivity].
    cbn [ok_or obind]. destruct (length d =? n) eqn:L; [|reflexivity].
    apply decode_buf_iff in D as [-> _].
    assert (R' : read_b64 n (encode_string d) = Ok d) by (apply read_b64_ok_iff; split; [reflexivity|lia]).
    congruence.
Qed.

Lemma strip3 {A} a b c s (k : bytes -> outcome A) :
  (let? s := ok_or (strip_prefix a s) InvalidToken in
   let? s := ok_or (strip_prefix b s) InvalidToken in
   let? s := ok_or (strip_prefix c s) InvalidToken in k s)
  = let? s := ok_or (strip_prefix (a ++ b ++ c) s) InvalidToken in k s.
Proof.
  rewrite strip_prefix_app. destruct (strip_prefix a s) as [s1|]; [cbn [ok_or obind]; rewrite ?strip_prefix_app|reflexivity].
  destruct (strip_prefix b s1) as [s2|]; [cbn [ok_or obind]; rewrite ?strip_prefix_app|reflexivity]. reflexivity.
Qed.

Lemma plaintext_parse_eq P v k s :
  plaintext_parse P v k s = paserk_read (plain_h v k) (key_len v k) s (key_from_bytes P v k).
Proof.
  unfold plaintext_parse, paserk_read. rewrite strip3.
  replace (paserk_header v ++ dot ++ key_header k) with (plain_h v k) by (destruct v, k; reflexivity).
  destruct (strip_prefix (plain_h v k) s) as [r|]; [|reflexivity].
  cbn [ok_or obind]. apply decode_buf_read.
Qed.

Lemma id_parse_eq v k s : id_parse v k s = paserk_read (id_h v k) 33 s (fun b => Ok b).
Proof.
  unfold id_parse, paserk_read. rewrite strip3.
  replace (paserk_header v ++ dot ++ id_header k) with (id_h v k) by (destruct v, k; reflexivity).
  destruct (strip_prefix (id_h v k) s) as [r|]; [|reflexivity].
  cbn [ok_or obind]. apply (decode_buf_read ID_LEN).
Qed.

Definition pie_split v (total : bytes) : PieWrapped :=
  let '(tagiv, wrapped) := (firstn (pie_tag_len v + 32) total, skipn (pie_tag_len v + 32) total) in
  let '(tag, nonce) := (firstn (pie_tag_len v) tagiv, skipn (pie_tag_len v) tagiv) in
  {| pie_tag := tag; pie_nonce := nonce; pie_key := wrapped |}.

Lemma pie_parse_eq v w s :
  pie_parse v w s = paserk_read (pie_h v w) (pie_total_len v w) s (fun b => Ok (pie_split v b)).
Proof.
  unfold pie_parse, paserk_read.
  replace (pie_h v w) with (paserk_header v ++ dot ++ wrap_header w ++ str "pie.")
    by (destruct v, w; reflexivity).
  rewrite strip_prefix_app.
  destruct (strip_prefix (paserk_header v) s) as [s1|]; [cbn [ok_or obind]; rewrite ?strip_prefix_app|reflexivity].
  destruct (strip_prefix dot s1) as [s2|]; [cbn [ok_or obind]; rewrite ?strip_prefix_app|reflexivity].
  destruct (strip_prefix (wrap_header w) s2) as [s3|]; [cbn [ok_or obind]; rewrite ?strip_prefix_app|reflexivity].
  reflexivity.
Qed.

Definition pw_split v w (total : bytes) : PwWrapped v :=
  let a := salt_len v + state_len v + iv_len v + key_len v (wtype_key w) in
  let '(salt_state_nonce_edk, tag) := (firstn a total, skipn a total) in
  let b := salt_len v + state_len v + iv_len v in
  let '(salt_state_nonce, edk) := (firstn b salt_state_nonce_edk, skipn b salt_state_nonce_edk) in
  let c := salt_len v + state_len v in
  let '(salt_state, nonce) := (firstn c salt_state_nonce, skipn c salt_state_nonce) in
  let '(salt, state) := (firstn (salt_len v) salt_state, skipn (salt_len v) salt_state) in
  {| pw_salt := salt; pw_state := decode_state v state; pw_nonce := nonce;
        pw_edk := edk; pw_tag := tag |}.

Lemma pw_parse_eq v w s :
  pw_parse v w s = paserk_read (pw_h v w) (pw_total_len v w) s (fun b => Ok (pw_split v w b)).
Proof.
  unfold pw_parse, paserk_read. rewrite strip3.
  replace (paserk_header v ++ dot ++ pw_header w) with (pw_h v w) by (destruct v, w; reflexivity).
  reflexivity.
Qed.

Definition sl_split v (total : bytes) : Sealed :=
  let '(tag, rest) := (firstn (sl_tag_len v) total, skipn (sl_tag_len v) total) in
  let '(epk, edk) := (firstn (epk_len v) rest, skipn (epk_len v) rest) in
  {| sl_tag := tag; sl_epk := epk; sl_edk := edk |}.

Lemma seal_parse_eq v s :
  seal_parse v s = paserk_read (seal_h v) (sl_total_len v) s (fun b => Ok (sl_split v b)).
Proof.
  unfold seal_parse, paserk_read. rewrite strip_bind.
  replace (paserk_header v ++ seal_hdr) with (seal_h v) by (destruct v; reflexivity).
  reflexivity.
Qed.

Lemma read_b64_spec n s d : read_b64 n s = Ok d <-> s = base64url d /\ length d = n.
Proof. rewrite <- encode_string_spec. apply read_b64_ok_iff. Qed.

Lemma paserk_read_cases {A} h n s (k : bytes -> outcome A) :
  ((forall r, s <> h ++ r) /\ paserk_read h n s k = Err InvalidToken)
  \/ ((exists r, s = h ++ r) /\ (forall b, length b = n -> s <> h ++ base64url b) /\
      paserk_read h n s k = Err Base64DecodeError)
  \/ (exists b, s = h ++ base64url b /\ length b = n /\ paserk_read h n s k = k b).
Proof.
  unfold paserk_read. destruct (strip_prefix h s) as [r|] eqn:S.
  - apply strip_prefix_iff in S as ->. cbn [ok_or obind].
    destruct (read_b64_cases n r) as [[d R]|R]; rewrite R.
    + right; right. apply read_b64_spec in R as [-> L]. eauto.
    + right; left. split; [eauto|]. split; [|reflexivity].
      intros b L H. apply app_inv_head in H as ->.
      assert (R' : read_b64 n (base64url b) = Ok b) by (apply read_b64_spec; auto). congruence.
  - left. split; [apply strip_prefix_none, S|reflexivity].
Qed.

Lemma paserk_read_hit {A} h b n (k : bytes -> outcome A) :
  length b = n -> paserk_read h n (h ++ base64url b) k = k b.
Proof.
  intros L. unfold paserk_read. rewrite strip_prefix_self. cbn [ok_or obind].
  assert (R' : read_b64 n (base64url b) = Ok b) by (apply read_b64_spec; auto). rewrite R'. reflexivity.
Qed.

Lemma paserk_read_ok_iff {A} h n s (k : bytes -> outcome A) a :
  paserk_read h n s k = Ok a <-> exists b, s = h ++ base64url b /\ length b = n /\ k b = Ok a.
Proof.
  split.
  - intros H. destruct (paserk_read_cases h n s k) as [[_ R]|[(_ & _ & R)|(b & -> & L & R)]];
      rewrite R in H; try discriminate. eauto.
  - intros (b & -> & L & K). rewrite paserk_read_hit by exact L. exact K.
Qed.

(** displays *)
Lemma write_b64_spec b : write_b64 b = Ok (base64url b).
Proof. rewrite write_b64_ok, encode_string_spec. reflexivity. Qed.

Lemma plaintext_display_eq P v k key :
  plaintext_display P v k key = Ok (plain_h v k ++ base64url (key_to_bytes P v k key)).
Proof. unfold plaintext_display. rewrite write_b64_spec. destruct v, k; reflexivity. Qed.

Lemma id_display_eq v k id : id_display v k id = Ok (id_h v k ++ base64url id).
Proof. unfold id_display. rewrite write_b64_spec. destruct v, k; reflexivity. Qed.

Lemma pie_display_eq v w x :
  pie_display v w x = Ok (pie_h v w ++ base64url (pie_tag x ++ pie_nonce x ++ pie_key x)).
Proof. unfold pie_display. rewrite write_b64_spec. destruct v, w; reflexivity. Qed.

Lemma pw_display_eq v w (x : PwWrapped v) :
  pw_display v w x = Ok (pw_h v w ++ base64url
    (pw_salt x ++ encode_state v (pw_state x) ++ pw_nonce x ++ pw_edk x ++ pw_tag x)).
Proof. unfold pw_display. rewrite write_b64_spec. destruct v, w; reflexivity. Qed.

Lemma seal_display_eq v x :
  seal_display v x = Ok (seal_h v ++ base64url (sl_tag x ++ sl_epk x ++ sl_edk x)).
Proof. unfold seal_display. rewrite write_b64_spec. destruct v; reflexivity. Qed.
