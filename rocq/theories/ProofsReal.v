(** Proofs for C80 and C81: the statements that need no assumption when the primitives are the
    executable SHA-2, AES, BLAKE2b, XChaCha20, PBKDF2, Argon2id, Ed25519, X25519 and P-384. *)
From Verif Require Import Bytes Outcome Base64 Prims Version Key Token Local Public KeyId Plaintext Wrap Pbkw Pke
  SpecBase64 SpecPaseto SpecPaserk SpecText SpecKey Observe History Fmt AnyRng SpecEffects SpecSystem CurveAsym.
From Verif Require Import BytesLemmas TokenLemmas CipherLemmas CurveLemmas CurveWeak AesLemmas ProofsText ProofsLocal
  ProofsPublic ProofsKey ProofsWrap ProofsSystem.

(** C80: lengths and formats of the real primitives. *)
Lemma c80_real_sizes : Sizes Real.
Proof. exact real_sizes. Qed.

(** C80: AES-256 encrypts different blocks differently, under every key... *)
Lemma c80_real_aes_injective :
  forall key a b : bytes, length a = 16 -> length b = 16 -> aes256 Real key a = aes256 Real key b -> a = b.
Proof. exact c_aes256_inj. Qed.

(** C80: ...so v3 tokens for messages of whole blocks are the standard's tokens exactly if
    the low 64 bits of the derived counter do not overflow. *)
Lemma c80_real_v3_token_is_spec_iff :
  forall (M F E : Type) (EN : Encoding E M) (FC : FooterCodec F)
         (t : ValidatedToken M F E) (key implicit m f : bytes) (r : rng) (n : nat),
  e_encode EN (vt_encoding t) (vt_message t) = COk m ->
  f_encode FC (vt_footer t) = Some f ->
  local_sizes V3 (suffix EN) m f implicit -> length m = 16 * n ->
  (fst (encrypt_with_rng Real V3 EN FC t key implicit r) =
   Ok {| st_encoding := vt_encoding t;
         st_payload := local_encrypt Real V3 (suffix EN) key (draw r 0 32) m f implicit;
         st_encoded_footer := f; st_footer := vt_footer t |} <->
   ctr_safe (local_iv Real V3 key (draw r 0 32)) (length m)).
Proof.
  intros M F E EN FC t key i m f r n.
  exact (c55_token_is_spec_iff Real M F E EN FC t key i m f r n real_sizes c_aes256_inj).
Qed.

(** C80: with the real primitives, local tokens and wrapped symmetric keys (under a key or a
    password) are read back, for all keys, messages, footers, assertions and random numbers. *)
Lemma c80_real_roundtrips :
  forall (v : version) (sfx message footer key key' implicit pw : bytes) (st : kdf_state v) (r : rng),
  length key' = 32 -> state_u32 v st = true -> kdf_accepts v pw st -> within_limit v (nlen message) ->
  let EN := {| suffix := sfx; e_default := tt; e_encode := fun _ m => COk m;
               e_decode := fun _ m => COk m |} in
  let t := {| vt_encoding := tt; vt_message := message; vt_footer := footer |} in
  (exists tok tok',
    encrypt_with_rng Real v EN vec_footer t key implicit r = (Ok tok, advance r 32) /\
    token_parse v PLocal sfx tt vec_footer (token_display v PLocal sfx tok) = Ok tok' /\
    decrypt_with_assertions Real v EN tok' key implicit = Ok t) /\
  (exists x s, wrap_pie Real v WLocal key' key r = (Ok x, advance r 32) /\
    pie_display v WLocal x = Ok s /\ pie_parse v WLocal s = Ok x /\
    unwrap_pie Real v WLocal x key = Ok key') /\
  (exists x s, pw_wrap Real v WLocal key' pw st r = (Ok x, advance r (pw_salt_size v + pw_nonce_size v)) /\
    pw_display v WLocal x = Ok s /\ pw_parse v WLocal s = Ok x /\
    pw_unwrap Real v WLocal x pw = Ok key').
Proof.
  intros v sfx message footer key key' i pw st r Lk Hu Ha Hw EN t.
  assert (Hv : valid_key Real v (wtype_key WLocal) key' = true)
    by (destruct v; cbn [wtype_key valid_key]; rewrite Lk; reflexivity).
  split; [|split].
  - exact (c14_local_roundtrip_raw Real v sfx message footer key i r real_sizes Hw).
  - apply (c37_pie_roundtrip Real v WLocal key' key r real_sizes); [discriminate|exact Hv].
  - destruct (c41_pw_roundtrip Real v WLocal key' pw st r real_sizes ltac:(discriminate) Hv Hu Ha)
      as (x & s & H1 & H2 & H3 & _ & H4). exists x, s. auto.
Qed.

(** C80: with the real primitives, reading and opening an untrusted wrapped, password-wrapped
    (k3) or sealed (k4) key gives a usable key or an error, never a panic. *)
Lemma c80_real_no_panic :
  forall (v : version) (w : wtype) (s wk pw sk : bytes),
  length sk = 32 ->
  let good k (z : outcome bytes) :=
    (exists key, z = Ok key /\ valid_key Real v k key = true) \/ z = Err CryptoError \/ z = Err InvalidKey in
  (forall x, pie_parse v w s = Ok x -> good (wtype_key w) (unwrap_pie Real v w x wk)) /\
  (v = V3 -> forall x, pw_parse v w s = Ok x -> good (wtype_key w) (pw_unwrap Real v w x pw)) /\
  (v = V4 -> forall x, seal_parse v s = Ok x -> good Local (unseal Real v x sk)).
Proof.
  intros v w s wk pw sk Ls good. unfold good. clear good. split; [|split].
  - intros x Hx. exact (c39_pie_unwrap_no_panic Real v w wk s x real_sizes Hx).
  - intros V x Hx. destruct (c43_pw_unwrap_panic_iff Real v w pw s x real_sizes Hx) as (_ & N & K & R).
    destruct (pw_unwrap Real v w x pw) as [key|e|] eqn:U.
    + left. exists key. auto.
    + destruct (R e eq_refl) as [->| ->]; auto.
    + destruct (N V eq_refl).
  - intros V x Hx. assert (Hv : valid_key Real v Secret sk = true) by (subst v; cbn [valid_key]; rewrite Ls; reflexivity).
    destruct (c48_unseal_panic_iff Real v s x sk real_sizes Hx Hv) as (N & K & R).
    destruct (unseal Real v x sk) as [key|e|] eqn:U.
    + left. exists key. split; [reflexivity|]. pose proof (K key eq_refl) as L. subst v. cbn [valid_key]. rewrite L. reflexivity.
    + right. left. f_equal. auto.
    + destruct N as [N _]. destruct (N eq_refl) as [C _]. rewrite V in C. discriminate C.
Qed.

(** C80: authenticity with the real primitives (C78): a wrapped-key text accepted under [wk] was
    published, or it carries a MAC on a string never authenticated from [wk]. *)
Lemma c80_real_pie_text :
  forall S fuel (g : gen S) actions s0 h s1 (v : version) (w : wtype) (s wk key : bytes) (x : PieWrapped),
  fills g -> ghistory Real fuel g actions s0 h s1 ->
  pie_parse v w s = Ok x -> unwrap_pie Real v w x wk = Ok key ->
  (exists key', In (ERand (OpPie v w key' wk) (RPie (Ok x))) h /\
     published (ERand (OpPie v w key' wk) (RPie (Ok x))) = Some s /\
     (valid_key Real v (wtype_key w) key' = true -> key = key')) \/
  (let a := pie_h v w ++ pie_nonce x ++ pie_key x in
   mac Real v (pie_ak Real v wk (pie_nonce x)) a = pie_tag x /\ ~ authenticated h wk a).
Proof. intros S fuel g actions s0 h s1 v w s wk key x. exact (c78_pie_text S Real fuel g actions s0 h s1 v w s wk key x real_sizes). Qed.

(** C80: the same for local tokens. *)
Lemma c80_real_local_text :
  forall S fuel (g : gen S) actions s0 h s1 (M F E : Type) (v : version) (EN : Encoding E M)
         (FC : FooterCodec F) e0 (s key i : bytes) (t : SecuredToken F E) x,
  fills g -> ghistory Real fuel g actions s0 h s1 -> Forall event_sizes h ->
  rust_slice s -> rust_slice i ->
  token_parse v PLocal (suffix EN) e0 FC s = Ok t -> decrypt_with_assertions Real v EN t key i = Ok x ->
  (exists q b m text, In (ERand (OpEncrypt q) (RToken (Ok b))) h /\ rq_key q = key /\ rq_implicit q = i /\
     published (ERand (OpEncrypt q) (RToken (Ok b))) = Some text /\
     (s = text \/ (st_encoded_footer t = [] /\ s = text ++ str ".")) /\
     e_encode (rq_encoding q) (vt_encoding (rq_token q)) (vt_message (rq_token q)) = COk m /\
     e_decode EN e0 m = COk (vt_message x)) \/
  (let b := st_payload t in
   let a := PAE [local_header v (suffix EN); body_nonce b; body_cipher v b; st_encoded_footer t; i] in
   mac Real v (local_ak Real v key (body_nonce b)) a = body_tag v b /\ ~ authenticated h key a).
Proof.
  intros S fuel g actions s0 h s1 M F E v EN FC e0 s key i t x.
  exact (c78_local_text S Real fuel g actions s0 h s1 M F E v EN FC e0 s key i t x real_sizes).
Qed.

(** C80: the same for public tokens (up to the signature, see C59). *)
Lemma c80_real_public_text :
  forall S fuel (g : gen S) actions s0 h s1 (M F E : Type) (v : version) (EN : Encoding E M)
         (FC : FooterCodec F) e0 (s sk i : bytes) (t : SecuredToken F E) x,
  fills g -> ghistory Real fuel g actions s0 h s1 -> Forall event_sizes h ->
  rust_slice s -> rust_slice i -> valid_key Real v Secret sk = true ->
  token_parse v PPublic (suffix EN) e0 FC s = Ok t ->
  verify_with_assertions Real v EN t (public_key Real v sk) i = Ok x ->
  let m := body_message v (st_payload t) in
  let f := st_encoded_footer t in
  (exists q b', In (ESign q (Ok b')) h /\ sq_sk q = sk /\ sq_implicit q = i /\
     body_message v b' = m /\
     published (ESign q (Ok b')) = Some (token_text (public_header v (suffix EN)) b' f) /\
     (s = token_text (public_header v (suffix EN)) (st_payload t) f \/
      (f = [] /\ s = token_text (public_header v (suffix EN)) (st_payload t) f ++ str ".")) /\
     e_encode (sq_encoding q) (vt_encoding (sq_token q)) (vt_message (sq_token q)) = COk m /\
     e_decode EN e0 m = COk (vt_message x)) \/
  (let a := public_m2 v (suffix EN) (public_key Real v sk) m f i in
   valid_sig Real v (public_key Real v sk) a (body_sig v (st_payload t)) = true /\ ~ signed Real h sk a).
Proof.
  intros S fuel g actions s0 h s1 M F E v EN FC e0 s sk i t x.
  exact (c78_public_text S Real fuel g actions s0 h s1 M F E v EN FC e0 s sk i t x real_sizes).
Qed.

(** C81: the byte 1 and 31 zeros, the encoding of the neutral element of the curve, is taken
    as a v4 public key by every constructor. *)
Lemma c81_weak_key_accepted :
  let weak := x01 :: repeat x00 31 in
  valid_key Real V4 Public weak = true /\
  v4_public_from_bytes Real weak = Ok weak /\
  plaintext_parse Real V4 Public (str "k4.public.AQAAAAAAAAAAAAAAAAAAAAAAAAAAAAAAAAAAAAAAAAA") = Ok weak.
Proof.
  cbv zeta. change (x01 :: repeat x00 31) with weak_key.
  assert (H : ed_pk_ok Real weak_key = true) by exact weak_pk_ok.
  split; [unfold valid_key; rewrite H; reflexivity|]. split; [unfold v4_public_from_bytes; rewrite H; reflexivity|].
  rewrite plaintext_parse_eq. apply paserk_read_ok_iff. exists weak_key.
  split; [vm_compute; reflexivity|]. split; [reflexivity|]. unfold key_from_bytes. rewrite H. reflexivity.
Qed.

(** C81: "a token accepted by [verify] under a public key that the library accepts was made
    with a secret key" is false for v4: under that key one fixed signature fits every
    message, footer, implicit assertion and encoding. *)
Lemma c81_signature_needs_secret_refuted :
  exists pk sig : bytes, valid_key Real V4 Public pk = true /\ length sig = 64 /\
  forall (M F E : Type) (EN : Encoding E M) (FC : FooterCodec F) (e0 : E) (m f implicit : bytes)
         (message : M) (footer : F),
  e_decode EN e0 m = COk message -> f_decode FC f = COk footer ->
  exists t, token_parse V4 PPublic (suffix EN) e0 FC (token_text (public_header V4 (suffix EN)) (m ++ sig) f) = Ok t /\
    verify_with_assertions Real V4 EN t pk implicit =
    Ok {| vt_encoding := e0; vt_message := message; vt_footer := footer |}.
Proof.
  exists weak_key, weak_sig. split; [exact (proj1 c81_weak_key_accepted)|]. split; [reflexivity|].
  intros M F E EN FC e0 m f i message footer Hm Hf.
  assert (V : forall x, valid_sig Real V4 weak_key x weak_sig = true) by (intros x; exact (weak_verify x)).
  exists (mk_tok e0 (m ++ weak_sig) f footer). split.
  - apply token_parse_ok_iff. exists (m ++ weak_sig), f, footer. split; [|auto].
    pose proof (token_display_grammar V4 PPublic (suffix EN) (mk_tok e0 (m ++ weak_sig) f footer)) as G.
    rewrite token_display_spec in G. exact G.
  - rewrite (verify_parts Real V4 EN (mk_tok e0 (m ++ weak_sig) f footer) weak_key i m weak_sig eq_refl eq_refl). cbn [mk_tok st_encoding st_footer st_encoded_footer].
    rewrite V.
    rewrite Hm. reflexivity.
Qed.

(** C81: "a sealed key can be read only with the recipient's secret key" is false for the
    same public key: the Diffie-Hellman result is 32 zeros whatever the random bytes, so the
    standard's unsealing with zeros in its place opens every key sealed to it. *)
Lemma c81_sealing_needs_secret_refuted :
  exists pk : bytes, valid_key Real V4 Public pk = true /\
  forall (fuel : nat) (key : bytes) (r : rng), length key = 32 ->
  let zeros := repeat x00 32 in
  exists x s, seal Real V4 fuel key pk r = Some (Ok x, advance r 32) /\
    seal_display V4 x = Ok s /\ seal_parse V4 s = Ok x /\
    unseal_spec Real V4 zeros (sl_epk x) zeros (sl_tag x) (sl_edk x) = Some key.
Proof.
  exists weak_key. split; [exact (proj1 c81_weak_key_accepted)|]. intros fuel key r Lk zeros.
  pose proof real_sizes as L.
  assert (Hm : ed_to_mont Real weak_key = zeros) by exact weak_mont.
  assert (Hx : forall s, x_mul Real s zeros = zeros) by exact weak_x_mul.
  assert (H1 : hashed_pk Real V4 weak_key = zeros) by exact Hm.
  assert (H2 : forall e, send_xk Real V4 e weak_key = zeros).
  { intros e. unfold send_xk. rewrite Hm. apply Hx. }
  cbn [seal]. rewrite fill_eq. change (seal_v4 Real key weak_key (draw r 0 32)) with (seal_with Real V4 key weak_key (draw r 0 32)).
  rewrite seal_with_eq. cbv zeta.
  rewrite H1, H2.
  set (epk := send_epk Real V4 (draw r 0 32)).
  assert (Le : length epk = 32) by (exact (x_base_len _ L _)).
  assert (K : forall d, length d = 32 -> apply_keystream Real V4 (sl_ek Real V4 zeros epk zeros) (sl_n Real V4 zeros epk zeros) d
                 = Ok (cipher Real V4 (sl_ek Real V4 zeros epk zeros) (sl_n Real V4 zeros epk zeros) d)).
  { intros d Hd. apply keystream_seal_spec; [exact L|exact Hd|exact I]. }
  pose proof (K key Lk) as K1. rewrite K1. cbn [obind]. apply apply_keystream_invol in K1 as [Lc K2]; [|exact L].
  rewrite K in K2 by congruence. apply ok_inj in K2.
  eexists. eexists. split; [reflexivity|]. split; [apply seal_display_eq|]. split.
  - apply seal_parse_ok_iff. split; [|reflexivity]. unfold seal_wf. cbn [sl_tag sl_epk sl_edk].
    split; [rewrite seal_spec_tag_mac; apply mac_len, L|]. split; [exact Le|congruence].
  - unfold unseal_spec. cbn [sl_tag sl_epk sl_edk]. rewrite bseqb_refl. unfold sl_ek, sl_n in K2 |- *.
    destruct (seal_ek_n Real V4 zeros epk zeros) as [ek n]. cbn [fst snd] in *. rewrite K2. reflexivity.
Qed.
