(** Proofs for the text-level properties: PAE, base64, parsers, headers, serde. *)
From Coq Require Import ZArith ZifyBool ZifyNat ZifyN.
From Verif Require Import Bytes Outcome Base64 Pae Prims Version Key Token
  Plaintext KeyId Wrap Pbkw Pke Local Public Serde SpecBase64 SpecPaseto SpecPaserk SpecText Observe.
From Verif Require Import BytesLemmas Base64Lemmas PaeLemmas TextLemmas TokenLemmas.
Ltac Zify.zify_post_hook ::= Z.div_mod_to_equations.
Ltac norm H := repeat progress (rewrite <- ?app_assoc in H; cbn [app] in H).

(** C01: equal encodings come from equal lists of pieces (a piece is what its
    sub-slices concatenate to). *)
Lemma c01_pae_injective :
  forall ps qs : list (list bytes),
  fits (map (@concat byte) ps) -> fits (map (@concat byte) qs) ->
  pae ps = pae qs -> map (@concat byte) ps = map (@concat byte) qs.
Proof. intros ps qs Hp Hq. rewrite !pae_flat. apply flat_pae_inj; assumption. Qed.

(** C01: moreover no encoding is a proper prefix of another. *)
Lemma c01_pae_prefix_free :
  forall (ps qs : list (list bytes)) (x y : bytes),
  fits (map (@concat byte) ps) -> fits (map (@concat byte) qs) ->
  pae ps ++ x = pae qs ++ y -> map (@concat byte) ps = map (@concat byte) qs /\ x = y.
Proof. intros ps qs x y Hp Hq. rewrite !pae_flat. apply flat_pae_prefix_free; assumption. Qed.


(** C02: the model's encoding is the standard's, however the pieces are cut. *)
Lemma c02_pae_is_spec :
  forall pieces : list (list bytes),
  (N.of_nat (length pieces) < two63)%N ->
  Forall rust_slice (map (@concat byte) pieces) ->
  pae pieces = PAE (map (@concat byte) pieces).
Proof. exact pae_spec. Qed.

(** C02: fragmentation is irrelevant, without any size bound. *)
Lemma c02_fragmentation :
  forall ps qs : list (list bytes),
  map (@concat byte) ps = map (@concat byte) qs -> pae ps = pae qs.
Proof. intros ps qs H. rewrite !pae_flat, H. reflexivity. Qed.


(** C03: the encoder is RFC 4648 and the decoder (both the allocating one used for
    tokens and the fixed-buffer one used for PASERKs) inverts it. *)
Lemma c03_base64_roundtrip :
  forall b : bytes,
  encode_string b = base64url b /\
  decode_vec (base64url b) = Some b /\
  (forall cap, length b <= cap -> decode_buf cap (base64url b) = Some b).
Proof.
  intros b. rewrite <- encode_string_spec. split; [reflexivity|].
  split; [apply decode_vec_encode|]. intros cap L. apply decode_buf_iff. auto.
Qed.


(** C04: acceptance is exactly being the encoding of the result. *)
Lemma c04_base64_canonical :
  forall (s d : bytes), decode_vec s = Some d <-> s = base64url d.
Proof. exact decode_vec_spec. Qed.

(** C04: the same for the fixed-buffer decoder. *)
Lemma c04_base64_buf_canonical :
  forall (cap : nat) (s d : bytes),
  decode_buf cap s = Some d <-> s = base64url d /\ length d <= cap.
Proof. intros cap s d. rewrite <- encode_string_spec. apply decode_buf_iff. Qed.

Lemma base64url_alphabet b : Forall (fun c => In c alphabet) (base64url b).
Proof.
  rewrite <- encode_string_spec.
  assert (A : forall n, (n < 64)%N -> In (encode_6bits n) alphabet).
  { intros n H. rewrite <- (N2Nat.id n), <- alphabet_nth by lia. apply nth_In. cbn. lia. }
  assert (A3 : forall a b c, Forall (fun c => In c alphabet) (encode_3bytes a b c)).
  { intros x y z. pose proof (enc3_lt x y z) as (H1 & H2 & H3 & H4). unfold encode_3bytes.
    repeat (apply Forall_cons; [apply A; assumption|]). apply Forall_nil. }
  induction b as [|a|a b|a b c r IH] using list3_ind.
  - constructor.
  - pose proof (A3 a x00 x00) as H. rewrite Forall_forall in *. intros c Hc. apply H.
    apply (firstn_in 2). exact Hc.
  - pose proof (A3 a b x00) as H. rewrite Forall_forall in *. intros c Hc. apply H.
    apply (firstn_in 3). exact Hc.
  - rewrite enc3_cons. apply Forall_app. split; [apply A3|exact IH].
Qed.

Lemma base64url_length b : length (base64url b) = (4 * length b + 2) / 3.
Proof.
  rewrite <- encode_string_spec, encode_string_length. unfold encoded_len.
  destruct (4 * length b mod 3 =? 0) eqn:E; lia.
Qed.

(** C04: hence no other alphabet, no padding or white space, no length 1 mod 4, and
    no second text for the same bytes. *)
Lemma c04_base64_strict :
  forall (s d : bytes), decode_vec s = Some d ->
  Forall (fun c => In c alphabet) s /\ length s mod 4 <> 1 /\
  length s = (4 * length d + 2) / 3 /\
  (forall s', decode_vec s' = Some d -> s' = s).
Proof.
  intros s d H. apply decode_vec_spec in H as ->. split; [apply base64url_alphabet|].
  rewrite base64url_length. split; [lia|]. split; [reflexivity|].
  intros s' H. apply decode_vec_spec in H. exact H.
Qed.


(** C05 *)
Lemma c05_write_b64_total :
  forall b : bytes, write_b64 b = Ok (base64url b) /\ length (base64url b) = (4 * length b + 2) / 3.
Proof. intros b. split; [apply write_b64_spec|apply base64url_length]. Qed.


(** C06: every text is either the encoding of an n-byte string, which is returned,
    or is refused with the base64 error. *)
Lemma c06_read_b64_exact :
  forall (n : nat) (s : bytes),
  (exists d, length d = n /\ s = base64url d /\ read_b64 n s = Ok d) \/
  ((forall d, length d = n -> s <> base64url d) /\ read_b64 n s = Err Base64DecodeError).
Proof.
  intros n s. destruct (read_b64_cases n s) as [[d R]|R].
  - left. exists d. pose proof R as R'. apply read_b64_spec in R' as [-> L]. auto.
  - right. split; [|exact R]. intros d L ->.
    assert (R' : read_b64 n (base64url d) = Ok d) by (apply read_b64_spec; auto). congruence.
Qed.


(** C07: parsing the printed text gives payload and raw footer back, and the footer
    is what the footer decoder makes of the raw footer bytes. *)
Lemma c07_token_text_roundtrip :
  forall (F E : Type) (v : version) (p : purpose) (sfx : bytes) (e0 : E)
         (FC : FooterCodec F) (t : SecuredToken F E) (f : F),
  f_decode FC (st_encoded_footer t) = COk f ->
  token_parse v p sfx e0 FC (token_display v p sfx t) =
  Ok {| st_encoding := e0; st_payload := st_payload t;
        st_encoded_footer := st_encoded_footer t; st_footer := f |}.
Proof.
  intros F E v p sfx e0 FC t f H.
  rewrite (token_parse_grammar v p sfx e0 FC _ _ _ (token_display_grammar v p sfx t)), H. reflexivity.
Qed.

(** C07: so if the token's footer is the decoding of its raw footer and the encoding
    is the type's default, the very same token comes back. *)
Lemma c07_token_text_identity :
  forall (F E : Type) (v : version) (p : purpose) (sfx : bytes)
         (FC : FooterCodec F) (t : SecuredToken F E),
  f_decode FC (st_encoded_footer t) = COk (st_footer t) ->
  token_parse v p sfx (st_encoding t) FC (token_display v p sfx t) = Ok t.
Proof.
  intros F E v p sfx FC t H.
  rewrite (c07_token_text_roundtrip F E v p sfx (st_encoding t) FC t (st_footer t) H).
  destruct t; reflexivity.
Qed.

(** C07: the printed text is the standard's. *)
Lemma c07_token_text_spec :
  forall (F E : Type) (v : version) (p : purpose) (sfx : bytes) (t : SecuredToken F E),
  token_display v p sfx t =
  token_text (token_header v p sfx) (st_payload t) (st_encoded_footer t).
Proof. exact @token_display_spec. Qed.


(** C08 *)
Lemma c08_token_language :
  forall (F E : Type) (v : version) (p : purpose) (sfx : bytes) (e0 : E)
         (FC : FooterCodec F) (s : bytes) (t : SecuredToken F E),
  token_parse v p sfx e0 FC s = Ok t <->
  exists body footer f,
    token_grammar v p sfx s body footer /\ f_decode FC footer = COk f /\
    t = {| st_encoding := e0; st_payload := body; st_encoded_footer := footer; st_footer := f |}.
Proof. exact @token_parse_ok_iff. Qed.


(** C09: the ideal claim (distinct accepted texts are distinct tokens) is false. *)
Lemma c09_unique_text_refuted :
  exists (s1 s2 : bytes) (t : SecuredToken unit unit),
  s1 <> s2 /\ token_parse V4 PLocal [] tt unit_footer s1 = Ok t /\
  token_parse V4 PLocal [] tt unit_footer s2 = Ok t.
Proof.
  exists (str "v4.local.cGF5bG9hZA"), (str "v4.local.cGF5bG9hZA."),
    {| st_encoding := tt; st_payload := str "payload"; st_encoded_footer := []; st_footer := tt |}.
  split; [intros H; vm_compute in H; discriminate H|]. split; vm_compute; reflexivity.
Qed.

(** C09: the final dot is the only redundancy. *)
Lemma c09_only_final_dot :
  forall (F E : Type) (v : version) (p : purpose) (sfx : bytes) (e0 : E)
         (FC : FooterCodec F) (s1 s2 : bytes) (t1 t2 : SecuredToken F E),
  token_parse v p sfx e0 FC s1 = Ok t1 -> token_parse v p sfx e0 FC s2 = Ok t2 ->
  st_payload t1 = st_payload t2 -> st_encoded_footer t1 = st_encoded_footer t2 ->
  s1 = s2 \/ (st_encoded_footer t1 = [] /\ (s2 = s1 ++ str "." \/ s1 = s2 ++ str ".")).
Proof.
  intros F E v p sfx e0 FC s1 s2 t1 t2 H1 H2 Hp Hf.
  apply token_parse_ok_iff in H1 as (b1 & f1 & x1 & G1 & D1 & ->).
  apply token_parse_ok_iff in H2 as (b2 & f2 & x2 & G2 & D2 & ->).
  cbn [mk_tok st_payload st_encoded_footer] in *. subst b2 f2.
  apply token_grammar_rest in G1 as (r1 & -> & G1). apply token_grammar_rest in G2 as (r2 & -> & G2).
  apply rest_grammar_split in G1 as [[-> E1]| ->]; apply rest_grammar_split in G2 as [[-> E2]| ->].
  - left. reflexivity.
  - right. split; [exact E1|]. left. subst f1. cbn [base64url map groups6 bits_of flat_map].
    rewrite !app_nil_r, <- !app_assoc. reflexivity.
  - right. split; [exact E2|]. right. subst f1. cbn [base64url map groups6 bits_of flat_map].
    rewrite !app_nil_r, <- !app_assoc. reflexivity.
  - left. reflexivity.
Qed.


(** ** C10: disjoint languages *)

Definition kind_rest (k : text_kind) (r : bytes) : Prop :=
  match k with KToken _ _ _ => exists b f, rest_grammar r b f | _ => True end.

Lemma accepts_header P k s : accepts P k s -> exists r, s = kind_header k ++ r /\ kind_rest k r.
Proof.
  intros [F E v p sfx e0 FC s' t H|v k' s' key H|v k' s' id H|v w s' x H|v w s' x H|v s' x H];
    cbn [kind_header kind_rest].
  - apply token_parse_ok_iff in H as (b & f & x & G & _).
    apply token_grammar_rest in G as (r & -> & G). eauto.
  - rewrite plaintext_parse_eq in H. apply paserk_read_ok_iff in H as (b & -> & _). eauto.
  - rewrite id_parse_eq in H. apply paserk_read_ok_iff in H as (b & -> & _). eauto.
  - rewrite pie_parse_eq in H. apply paserk_read_ok_iff in H as (b & -> & _). eauto.
  - rewrite pw_parse_eq in H. apply paserk_read_ok_iff in H as (b & -> & _). eauto.
  - rewrite seal_parse_eq in H. apply paserk_read_ok_iff in H as (b & -> & _). eauto.
Qed.

Definition paserk_kinds : list text_kind :=
  flat_map (fun v => map (KPlain v) [Local; Public; Secret] ++ map (KId v) [Local; Public; Secret]
                     ++ map (KPie v) [WLocal; WSecret] ++ map (KPw v) [WLocal; WSecret] ++ [KSeal v])
           [V3; V4].

Lemma paserk_kinds_all k : is_paserk k = true -> In k paserk_kinds.
Proof.
  destruct k as [v p sfx|v k|v k|v w|v w|v]; [discriminate|..]; intros _;
    destruct v; try destruct k; try destruct w; vm_compute; tauto.
Qed.

Definition kind_eqb (a b : text_kind) : bool :=
  match a, b with
  | KPlain v k, KPlain v' k' | KId v k, KId v' k' =>
      match v, v' with V3, V3 | V4, V4 => true | _, _ => false end &&
      match k, k' with Local, Local | Public, Public | Secret, Secret => true | _, _ => false end
  | KPie v w, KPie v' w' | KPw v w, KPw v' w' =>
      match v, v' with V3, V3 | V4, V4 => true | _, _ => false end &&
      match w, w' with WLocal, WLocal | WSecret, WSecret => true | _, _ => false end
  | KSeal v, KSeal v' => match v, v' with V3, V3 | V4, V4 => true | _, _ => false end
  | _, _ => false
  end.
Lemma kind_eqb_eq a b : kind_eqb a b = true -> a = b.
Proof.
  destruct a as [v p sfx|v k|v k|v w|v w|v]; destruct b as [v' p' sfx'|v' k'|v' k'|v' w'|v' w'|v'];
    cbn [kind_eqb]; try discriminate; destruct v, v'; try discriminate;
    try (destruct k, k'; try discriminate; reflexivity);
    try (destruct w, w'; try discriminate; reflexivity); reflexivity.
Qed.

(** one of two prefixes of a common text is a prefix of the other *)
Lemma prefix_compare {A} (a b x y : list A) :
  a ++ x = b ++ y -> (exists c, b = a ++ c) \/ (exists c, a = b ++ c).
Proof.
  revert b; induction a as [|u a IH]; intros [|w b] H; cbn [app] in *.
  - left. exists []. reflexivity.
  - left. exists (w :: b). reflexivity.
  - right. exists (u :: a). reflexivity.
  - injection H as -> H. apply IH in H as [[c ->]|[c ->]]; [left|right]; exists c; reflexivity.
Qed.

Lemma paserk_headers_disjoint a b :
  In a paserk_kinds -> In b paserk_kinds ->
  (exists c, kind_header b = kind_header a ++ c) -> a = b.
Proof.
  intros Ha Hb [c H].
  assert (T : forallb (fun a => forallb (fun b =>
     kind_eqb a b || match strip_prefix (kind_header a) (kind_header b) with None => true | _ => false end)
     paserk_kinds) paserk_kinds = true) by (vm_compute; reflexivity).
  rewrite forallb_forall in T. specialize (T a Ha). rewrite forallb_forall in T. specialize (T b Hb).
  apply orb_true_iff in T as [T|T]; [apply kind_eqb_eq, T|].
  rewrite H, strip_prefix_self in T. discriminate T.
Qed.

Lemma token_header_split v p sfx :
  token_header v p sfx = str "v" ++ (match v with V3 => x33 | V4 => x34 end)
    :: sfx ++ x2e :: purpose_header p ++ [x2e].
Proof. destruct v, p; cbn; reflexivity. Qed.

(** A text segment pair has at most one dot. *)
Definition dots (l : bytes) : nat := count_occ Byte.byte_eq_dec l x2e.
Lemma dots_app a b : dots (a ++ b) = dots a + dots b.
Proof. apply count_occ_app. Qed.
Lemma dots_base64url b : dots (base64url b) = 0.
Proof. apply count_occ_not_In, base64url_no_dot. Qed.
Lemma rest_dots r b f : rest_grammar r b f -> dots r <= 1.
Proof.
  intros G. apply rest_grammar_split in G as [[-> _]| ->];
    rewrite ?dots_app, ?dots_base64url; cbn; lia.
Qed.

(** "local" and "public" are not base64url texts, by luck of length and last bits. *)
Lemma purpose_not_base64 p b : base64url b <> purpose_header p.
Proof.
  intros H. symmetry in H. apply decode_vec_spec in H. destruct p; vm_compute in H; discriminate H.
Qed.

Lemma token_kinds_disjoint_le v p sfx v' p' sfx' r r' b f b' f' :
  length sfx <= length sfx' ->
  rest_grammar r b f -> rest_grammar r' b' f' ->
  token_header v p sfx ++ r = token_header v' p' sfx' ++ r' -> v = v' /\ p = p' /\ sfx = sfx'.
Proof.
  intros L G G' H. rewrite !token_header_split in H. cbn [app str] in H.
  injection H as Hv H. split; [destruct v, v'; try discriminate Hv; reflexivity|]. clear Hv.
  norm H.
  assert (D : exists d, sfx' = sfx ++ d).
  { destruct (prefix_compare _ _ _ _ H) as [[c C]|[c C]]; [eauto|].
    exists []. rewrite app_nil_r. subst sfx. rewrite app_length in L.
    destruct c; [rewrite app_nil_r; reflexivity|cbn in L; lia]. }
  destruct D as [d ->]. norm H. apply app_inv_head in H.
  destruct d as [|x d].
  { cbn [app] in H. injection H as H. split; [|symmetry; apply app_nil_r].
    destruct p, p'; try reflexivity; discriminate H. }
  exfalso. cbn [app] in H. injection H as <- H. norm H.
  assert (Np : ~ In x2e (purpose_header p)).
  { destruct p; cbn; intros K; repeat (destruct K as [K|K]; [discriminate K|]); exact K. }
  destruct (prefix_compare (purpose_header p) d (x2e :: r) (x2e :: purpose_header p' ++ x2e :: r') H)
    as [[c ->]|[c C]].
  - norm H. apply app_inv_head in H. destruct c as [|y c].
    + cbn [app] in H. injection H as ->.
      apply rest_grammar_split in G as [[E _]|E].
      * apply (base64url_no_dot b). rewrite <- E. apply in_or_app. right. left. reflexivity.
      * assert (S : split_once x2e (purpose_header p' ++ x2e :: r') = Some (purpose_header p', r')).
        { apply split_once_some. split; [reflexivity|].
          destruct p'; cbn; intros K; repeat (destruct K as [K|K]; [discriminate K|]); exact K. }
        rewrite E, split_long in S. injection S as S _. exact (purpose_not_base64 _ _ S).
    + cbn [app] in H. injection H as <- ->. apply rest_dots in G.
      rewrite dots_app in G.
      change (x2e :: purpose_header p' ++ x2e :: r') with ([x2e] ++ purpose_header p' ++ [x2e] ++ r') in G.
      rewrite !dots_app in G. cbn [dots] in G. change (dots [x2e]) with 1 in G. lia.
  - rewrite C in H. norm H. apply app_inv_head in H. destruct c as [|y c].
    + rewrite app_nil_r in C. subst d.
      cbn [app] in H. injection H as ->.
      apply rest_grammar_split in G as [[E _]|E].
      * apply (base64url_no_dot b). rewrite <- E. apply in_or_app. right. left. reflexivity.
      * assert (S : split_once x2e (purpose_header p' ++ x2e :: r') = Some (purpose_header p', r')).
        { apply split_once_some. split; [reflexivity|].
          destruct p'; cbn; intros K; repeat (destruct K as [K|K]; [discriminate K|]); exact K. }
        rewrite E, split_long in S. injection S as S _. exact (purpose_not_base64 _ _ S).
    + cbn [app] in H. injection H as -> H. apply Np. rewrite C. apply in_or_app. right. left. reflexivity.
Qed.

Lemma token_kinds_disjoint v p sfx v' p' sfx' r r' b f b' f' :
  rest_grammar r b f -> rest_grammar r' b' f' ->
  token_header v p sfx ++ r = token_header v' p' sfx' ++ r' -> v = v' /\ p = p' /\ sfx = sfx'.
Proof.
  intros G G' H. destruct (Nat.le_ge_cases (length sfx) (length sfx')) as [L|L].
  - exact (token_kinds_disjoint_le _ _ _ _ _ _ _ _ _ _ _ _ L G G' H).
  - symmetry in H. destruct (token_kinds_disjoint_le _ _ _ _ _ _ _ _ _ _ _ _ L G' G H) as (-> & -> & ->). auto.
Qed.

(** C10: a text is accepted by at most one kind of parser.  Kinds comprise the
    version, the purpose and the encoding suffix (any suffix, even with dots) of
    tokens, and the version and type of PASERKs. *)
Lemma c10_kinds_disjoint :
  forall (P : Prims) (k1 k2 : text_kind) (s : bytes),
  accepts P k1 s -> accepts P k2 s -> k1 = k2.
Proof.
  intros P k1 k2 s A1 A2.
  apply accepts_header in A1 as (r1 & H1 & K1). apply accepts_header in A2 as (r2 & H2 & K2).
  rewrite H1 in H2. clear s H1.
  destruct (is_paserk k1) eqn:P1; destruct (is_paserk k2) eqn:P2.
  - apply paserk_kinds_all in P1. apply paserk_kinds_all in P2.
    destruct (prefix_compare _ _ _ _ H2) as [C|C].
    + apply paserk_headers_disjoint; assumption.
    + symmetry. apply paserk_headers_disjoint; assumption.
  - exfalso. destruct k2 as [v p sfx| | | | |]; try discriminate P2.
    cbn [kind_header] in H2. rewrite token_header_split in H2.
    destruct k1 as [? ? ?|v1 k|v1 k|v1 w|v1 w|v1]; try discriminate P1; destruct v1; discriminate H2.
  - exfalso. destruct k1 as [v p sfx| | | | |]; try discriminate P1.
    cbn [kind_header] in H2. rewrite token_header_split in H2.
    destruct k2 as [? ? ?|v2 k|v2 k|v2 w|v2 w|v2]; try discriminate P2; destruct v2; discriminate H2.
  - destruct k1 as [v p sfx| | | | |]; try discriminate P1.
    destruct k2 as [v' p' sfx'| | | | |]; try discriminate P2.
    cbn [kind_header kind_rest] in *. destruct K1 as (b1 & f1 & G1). destruct K2 as (b2 & f2 & G2).
    destruct (token_kinds_disjoint _ _ _ _ _ _ _ _ _ _ _ _ G1 G2 H2) as (-> & -> & ->). reflexivity.
Qed.


Lemma key_from_bytes_no_panic P v k b : key_from_bytes P v k b <> Panic.
Proof.
  destruct v, k; cbn [key_from_bytes]; try discriminate.
  - destruct (p_parse P b); discriminate.
  - destruct (p_sk_slice P b); discriminate.
  - destruct (ed_pk_ok P b); discriminate.
  - destruct (ed_from_keypair P b); discriminate.
Qed.

Lemma key_from_bytes_err P v k b e : key_from_bytes P v k b = Err e -> e = InvalidKey.
Proof.
  destruct v, k; cbn [key_from_bytes]; try discriminate.
  - destruct (p_parse P b); cbn; congruence.
  - destruct (p_sk_slice P b); cbn; congruence.
  - destruct (ed_pk_ok P b); cbn; congruence.
  - destruct (ed_from_keypair P b); cbn; congruence.
Qed.

Lemma paserk_read_no_panic {A} h n s (k : bytes -> outcome A) :
  (forall b, k b <> Panic) -> paserk_read h n s k <> Panic.
Proof.
  intros K H. destruct (paserk_read_cases h n s k) as [[_ R]|[(_ & _ & R)|(b & _ & _ & R)]];
    rewrite R in H; try discriminate. exact (K _ H).
Qed.

(** C11 *)
Lemma c11_parse_no_panic :
  (forall (F E : Type) v p sfx (e0 : E) (FC : FooterCodec F) s, token_parse v p sfx e0 FC s <> Panic) /\
  (forall P v k s, plaintext_parse P v k s <> Panic) /\
  (forall v k s, id_parse v k s <> Panic) /\
  (forall v w s, pie_parse v w s <> Panic) /\
  (forall v w s, pw_parse v w s <> Panic) /\
  (forall v s, seal_parse v s <> Panic).
Proof.
  repeat split; intros.
  - intros H. destruct (token_parse_cases v p sfx e0 FC s) as [[_ R]|[(_ & _ & R)|(b & f & _ & R)]];
      rewrite R in H; try discriminate. destruct (f_decode FC f); discriminate.
  - rewrite plaintext_parse_eq. apply paserk_read_no_panic. apply key_from_bytes_no_panic.
  - rewrite id_parse_eq. apply paserk_read_no_panic. discriminate.
  - rewrite pie_parse_eq. apply paserk_read_no_panic. discriminate.
  - rewrite pw_parse_eq. apply paserk_read_no_panic. discriminate.
  - rewrite seal_parse_eq. apply paserk_read_no_panic. discriminate.
Qed.


(** C12, tokens: the three failure classes are exclusive, exhaustive and determined
    by the first layer at fault. *)
Lemma c12_token_errors :
  forall (F E : Type) (v : version) (p : purpose) (sfx : bytes) (e0 : E)
         (FC : FooterCodec F) (s : bytes),
  let h := token_header v p sfx in
  let r := token_parse v p sfx e0 FC s in
  (r = Err InvalidToken <-> ~ exists x, s = h ++ x) /\
  (r = Err Base64DecodeError <-> (exists x, s = h ++ x) /\ ~ exists b f, token_grammar v p sfx s b f) /\
  (forall e, r = Err (PayloadError e) <->
             exists b f, token_grammar v p sfx s b f /\ f_decode FC f = CErr e) /\
  r <> Err InvalidKey /\ r <> Err CryptoError.
Proof.
  intros F E v p sfx e0 FC s h r. subst h r.
  assert (GH : forall b f, token_grammar v p sfx s b f -> exists x, s = token_header v p sfx ++ x).
  { intros b f G. apply token_grammar_rest in G as (x & -> & _). eauto. }
  destruct (token_parse_cases v p sfx e0 FC s) as [[N R]|[(X & N & R)|(b & f & G & R)]]; rewrite R.
  - repeat split; try discriminate.
    + intros _ (x & H). exact (N x H).
    + intros [(x & H) _]. destruct (N x H).
    + intros (b & f & G & _). destruct (GH b f G) as [x H]. destruct (N x H).
  - repeat split; try discriminate; auto.
    + intros HH. destruct (HH X).
    + intros (b & f & G). exact (N b f G).
    + intros (b & f & G & _). destruct (N b f G).
  - assert (D : forall e, f_decode FC f = CErr e <-> exists b f, token_grammar v p sfx s b f /\ f_decode FC f = CErr e).
    { intros e. split; [eauto|]. intros (b' & f' & G' & D'). 
      destruct (token_grammar_det _ _ _ _ _ _ _ _ G G') as [-> ->]. exact D'. }
    destruct (f_decode FC f) as [x|e'] eqn:Df.
    + repeat split; try discriminate.
      * intros HH. destruct HH. eauto.
      * intros [_ H]. destruct H. eauto.
      * intros H. apply D in H. discriminate.
    + repeat split; try discriminate.
      * intros HH. destruct HH. eauto.
      * intros [_ H]. destruct H. eauto.
      * intros H. apply D. congruence.
      * intros H. apply D in H. congruence.
Qed.

Definition paserk_check (P : Prims) (k : text_kind) (b : bytes) : outcome unit :=
  match k with
  | KPlain v k => omap (fun _ => tt) (key_from_bytes P v k b)
  | _ => Ok tt
  end.

Lemma omap_paserk_read {A B} (f : A -> B) h n s k :
  omap f (paserk_read h n s k) = paserk_read h n s (fun b => omap f (k b)).
Proof.
  unfold paserk_read. destruct (strip_prefix h s); [cbn [ok_or obind]|reflexivity].
  destruct (read_b64 n b); reflexivity.
Qed.

Lemma paserk_result_eq P k s :
  is_paserk k = true ->
  paserk_result P k s = paserk_read (kind_header k) (body_size k) s (paserk_check P k).
Proof.
  destruct k as [? ? ?|v k|v k|v w|v w|v]; [discriminate|..]; intros _; cbn [paserk_result paserk_check kind_header].
  - rewrite plaintext_parse_eq, omap_paserk_read.
    replace (body_size (KPlain v k)) with (key_len v k) by (destruct v, k; reflexivity). reflexivity.
  - rewrite id_parse_eq, omap_paserk_read. reflexivity.
  - rewrite pie_parse_eq, omap_paserk_read.
    replace (body_size (KPie v w)) with (pie_total_len v w) by (destruct v, w; reflexivity). reflexivity.
  - rewrite pw_parse_eq, omap_paserk_read.
    replace (body_size (KPw v w)) with (pw_total_len v w) by (destruct v, w; reflexivity). reflexivity.
  - rewrite seal_parse_eq, omap_paserk_read.
    replace (body_size (KSeal v)) with (sl_total_len v) by (destruct v; reflexivity). reflexivity.
Qed.

(** C12, PASERKs.  [body_size] is the standard's body length for the kind. *)
Lemma c12_paserk_errors :
  forall (P : Prims) (k : text_kind) (s : bytes),
  is_paserk k = true ->
  let h := kind_header k in
  let r := paserk_result P k s in
  let well_formed := exists b, length b = body_size k /\ s = h ++ base64url b in
  (r = Err InvalidToken <-> ~ exists x, s = h ++ x) /\
  (r = Err Base64DecodeError <-> (exists x, s = h ++ x) /\ ~ well_formed) /\
  (r = Err InvalidKey <-> exists v kt b, k = KPlain v kt /\ length b = body_size k /\
        s = h ++ base64url b /\ key_from_bytes P v kt b = Err InvalidKey) /\
  (r = Ok tt -> well_formed) /\
  ((forall v kt, k <> KPlain v kt) -> well_formed -> r = Ok tt) /\
  r <> Err CryptoError /\ (forall e, r <> Err (PayloadError e)) /\ r <> Panic.
Proof.
  intros P k s IP h r wf. subst h r wf. rewrite (paserk_result_eq P k _ IP).
  assert (CK : forall b, paserk_check P k b = Ok tt \/
     (exists v kt, k = KPlain v kt /\ key_from_bytes P v kt b = Err InvalidKey /\
                   paserk_check P k b = Err InvalidKey)).
  { intros b. destruct k as [? ? ?|v kt|? ?|? ?|? ?|?]; cbn [paserk_check]; auto.
    destruct (key_from_bytes P v kt b) as [x|e|] eqn:K; cbn [omap obind]; [auto| |].
    - pose proof (key_from_bytes_err _ _ _ _ _ K) as ->. right. exists v, kt. auto.
    - destruct (key_from_bytes_no_panic _ _ _ _ K). }
  destruct (paserk_read_cases (kind_header k) (body_size k) s (paserk_check P k))
    as [[N R]|[(X & N & R)|(b & Es & L & R)]]; rewrite R.
  - repeat split; try discriminate.
    + intros _ (x & H). exact (N x H).
    + intros [(x & H) _]. destruct (N x H).
    + intros (v & kt & b & _ & _ & H & _). destruct (N _ H).
    + intros _ (b & _ & H). destruct (N _ H).
  - repeat split; try discriminate; auto.
    + intros HH. destruct (HH X).
    + intros (b & L & HH). exact (N b L HH).
    + intros (v & kt & b & _ & L & H & _). destruct (N b L H).
    + intros _ (b & L & H). destruct (N b L H).
  - assert (NN : ~ ~ exists x, s = kind_header k ++ x) by (intros H; apply H; eauto).
    assert (NW : ~ ~ exists b, length b = body_size k /\ s = kind_header k ++ base64url b)
      by (intros H; apply H; eauto).
    destruct (CK b) as [C|(v & kt & Ek & K & C)]; rewrite C.
    + repeat split; try discriminate; try tauto; eauto.
      intros (v & kt & b' & Ek & L' & Es' & K'). rewrite Es in Es'. apply app_inv_head, base64url_inj in Es' as <-.
      subst k. cbn [paserk_check] in C. rewrite K' in C. discriminate.
    + repeat split; try discriminate; try tauto.
      * intros _. exists v, kt, b. auto.
      * intros H. destruct (H v kt Ek).
Qed.


(** C13: which footers each footer type accepts, and what it returns. *)
Lemma c13_footer_types :
  (forall b, f_decode unit_footer b = COk tt <-> b = []) /\
  (forall b, b <> [] -> f_decode unit_footer b = CErr (str "unexpected footer " ++ debug_slice b)) /\
  (forall b, f_decode vec_footer b = COk b) /\
  (forall T (J : JsonCodec T), f_decode (json_footer J) [] = CErr (str "missing footer")) /\
  (forall T (J : JsonCodec T) b, b <> [] -> f_decode (json_footer J) b = json_from_slice J b).
Proof.
  repeat split; intros; try reflexivity.
  - destruct b; [reflexivity|discriminate].
  - subst b. reflexivity.
  - destruct b; [contradiction|reflexivity].
  - destruct b; [contradiction|reflexivity].
Qed.

(** C13, observed at the parser: which token texts each footer type accepts. *)
Lemma c13_footer_acceptance :
  forall (E : Type) (v : version) (p : purpose) (sfx : bytes) (e0 : E) (s body footer : bytes),
  token_grammar v p sfx s body footer ->
  (is_ok (token_parse v p sfx e0 unit_footer s) = true <-> footer = []) /\
  token_parse v p sfx e0 vec_footer s =
    Ok {| st_encoding := e0; st_payload := body; st_encoded_footer := footer; st_footer := footer |} /\
  (forall T (J : JsonCodec T) t,
     token_parse v p sfx e0 (json_footer J) s = Ok t <->
     footer <> [] /\ exists x, json_from_slice J footer = COk x /\
       t = {| st_encoding := e0; st_payload := body; st_encoded_footer := footer; st_footer := x |}).
Proof.
  intros E v p sfx e0 s body footer G.
  rewrite !(token_parse_grammar v p sfx e0 _ _ _ _ G). repeat split.
  - destruct footer; [reflexivity|discriminate].
  - intros ->. reflexivity.
  - intros ->. rewrite (token_parse_grammar v p sfx e0 _ _ _ _ G) in H. discriminate H.
  - rewrite (token_parse_grammar v p sfx e0 _ _ _ _ G) in H. destruct footer; [discriminate H|].
    cbn [json_footer f_decode] in H. destruct (json_from_slice J (b :: footer)) as [x|]; [|discriminate].
    injection H as <-. eauto.
  - intros (NE & x & D & ->). rewrite (token_parse_grammar v p sfx e0 _ _ _ _ G).
    destruct footer; [contradiction|]. cbn [json_footer f_decode]. rewrite D. reflexivity.
Qed.


Lemma token_header_inj v p sfx v' p' sfx' :
  token_header v p sfx = token_header v' p' sfx' -> v = v' /\ p = p' /\ sfx = sfx'.
Proof.
  intros H. rewrite !token_header_split in H. cbn [app str] in H. injection H as Hv H.
  split; [destruct v, v'; try discriminate Hv; reflexivity|].
  replace (sfx ++ x2e :: purpose_header p ++ [x2e])
    with ((sfx ++ x2e :: removelast (removelast (purpose_header p)))
           ++ [nth (length (purpose_header p) - 2) (purpose_header p) x00;
               last (purpose_header p) x00; x2e]) in H
    by (destruct p; cbn; rewrite <- app_assoc; reflexivity).
  replace (sfx' ++ x2e :: purpose_header p' ++ [x2e])
    with ((sfx' ++ x2e :: removelast (removelast (purpose_header p')))
           ++ [nth (length (purpose_header p') - 2) (purpose_header p') x00;
               last (purpose_header p') x00; x2e]) in H
    by (destruct p'; cbn; rewrite <- app_assoc; reflexivity).
  apply app_inj_len_r in H as [H1 H2]; [|reflexivity].
  assert (p = p') as <- by (destruct p, p'; try reflexivity; discriminate H2).
  split; [reflexivity|].
  apply app_inj_len_r in H1 as [H1 _]; [exact H1|reflexivity].
Qed.

(** C28: at text level, different suffixes (or versions, or purposes) have no
    accepted text in common, whatever footer types and encodings are used. *)
Lemma c28_suffix_text_disjoint :
  forall (F F' E E' : Type) v p sfx v' p' sfx' (e0 : E) (e0' : E')
         (FC : FooterCodec F) (FC' : FooterCodec F') (s : bytes) t t',
  token_parse v p sfx e0 FC s = Ok t -> token_parse v' p' sfx' e0' FC' s = Ok t' ->
  v = v' /\ p = p' /\ sfx = sfx'.
Proof.
  intros F F' E E' v p sfx v' p' sfx' e0 e0' FC FC' s t t' H H'.
  apply token_parse_ok_iff in H as (b & f & x & G & _).
  apply token_parse_ok_iff in H' as (b' & f' & x' & G' & _).
  apply token_grammar_rest in G as (r & -> & G). apply token_grammar_rest in G' as (r' & H & G').
  exact (token_kinds_disjoint _ _ _ _ _ _ _ _ _ _ _ _ G G' H).
Qed.

(** C28: the authenticated header determines version, purpose and suffix, for all
    suffixes. *)
Lemma c28_header_determines_encoding :
  forall v p sfx v' p' sfx',
  token_header v p sfx = token_header v' p' sfx' -> v = v' /\ p = p' /\ sfx = sfx'.
Proof. exact token_header_inj. Qed.
