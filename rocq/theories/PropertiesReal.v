(** Theorems of the property list; statements only, proofs are in [ProofsReal]. *)
From Verif Require Import Bytes Outcome Base64 Prims Version Key Token Local Public KeyId Plaintext Wrap Pbkw Pke
  SpecBase64 SpecPaseto SpecPaserk SpecText SpecKey Observe History Fmt AnyRng SpecEffects SpecSystem CurveAsym.
From Verif Require Import BytesLemmas TokenLemmas CipherLemmas CurveLemmas CurveWeak AesLemmas ProofsText ProofsLocal
  ProofsPublic ProofsKey ProofsWrap ProofsSystem.
From Verif Require Import ProofsReal Samples.

(** C80: lengths and formats of the real primitives. *)
Theorem C80_real_sizes : Sizes Real.
Proof. exact c80_real_sizes. Qed.
Print Assumptions C80_real_sizes.

(** C80: AES-256 encrypts different blocks differently, under every key... *)
Theorem C80_real_aes_injective :
  forall key a b : bytes, length a = 16 -> length b = 16 -> aes256 Real key a = aes256 Real key b -> a = b.
Proof. exact c80_real_aes_injective. Qed.
Print Assumptions C80_real_aes_injective.

Example C80_aes_example : length (repeat x2a 16) = 16 /\ length (repeat x2b 16) = 16 /\ repeat x2a 16 <> repeat x2b 16.
Proof. split; [reflexivity|]. split; [reflexivity|discriminate]. Qed.

(** C80: ...so v3 tokens for messages of whole blocks are the standard's tokens exactly if
    the low 64 bits of the derived counter do not overflow. *)
Theorem C80_real_v3_token_is_spec_iff :
  forall (M F E : Type) (EN : Encoding E M) (FC : FooterCodec F)
         (t : ValidatedToken M F E) (key implicit m f : bytes) (r : rng) (n : nat),
  e_encode EN (vt_encoding t) (vt_message t) = COk m ->
  f_encode FC (vt_footer t) = Some f ->
  local_sizes V3 (suffix EN) m f implicit -> length m = 16 * n ->
  (fst (encrypt_with_rng Real V3 EN FC t key implicit r) =
   Ok {| st_encoding := vt_encoding t;
         st_payload := local_encrypt Real V3 (suffix EN) key (draw r 0 32) m f implicit;
         st_encoded_footer := f; st_footer := vt_footer t |} <->
   ctr_safe (local_iv Real V3 key (draw r 0 32)) (length m)).
Proof. exact c80_real_v3_token_is_spec_iff. Qed.
Print Assumptions C80_real_v3_token_is_spec_iff.

Example C80_v3_token_example :
  local_sizes V3 [] (repeat x2a 32) f0 ia /\ length (repeat x2a 32) = 16 * 2 /\
  e_encode num_encoding (vt_encoding tok0) (vt_message tok0) = COk m0.
Proof. evaluate. Qed.

(** C80: with the real primitives, local tokens and wrapped symmetric keys (under a key or a
    password) are read back, for all keys, messages, footers, assertions and random numbers. *)
Theorem C80_real_roundtrips :
  forall (v : version) (sfx message footer key key' implicit pw : bytes) (st : kdf_state v) (r : rng),
  length key' = 32 -> state_u32 v st = true -> kdf_accepts v pw st -> within_limit v (nlen message) ->
  let EN := {| suffix := sfx; e_default := tt; e_encode := fun _ m => COk m;
               e_decode := fun _ m => COk m |} in
  let t := {| vt_encoding := tt; vt_message := message; vt_footer := footer |} in
  (exists tok tok',
    encrypt_with_rng Real v EN vec_footer t key implicit r = (Ok tok, advance r 32) /\
    token_parse v PLocal sfx tt vec_footer (token_display v PLocal sfx tok) = Ok tok' /\
    decrypt_with_assertions Real v EN tok' key implicit = Ok t) /\
  (exists x s, wrap_pie Real v WLocal key' key r = (Ok x, advance r 32) /\
    pie_display v WLocal x = Ok s /\ pie_parse v WLocal s = Ok x /\
    unwrap_pie Real v WLocal x key = Ok key') /\
  (exists x s, pw_wrap Real v WLocal key' pw st r = (Ok x, advance r (pw_salt_size v + pw_nonce_size v)) /\
    pw_display v WLocal x = Ok s /\ pw_parse v WLocal s = Ok x /\
    pw_unwrap Real v WLocal x pw = Ok key').
Proof. exact c80_real_roundtrips. Qed.
Print Assumptions C80_real_roundtrips.

Example C80_roundtrips_example : forall v : version,
  length other32 = 32 /\ state_u32 v (settings0 v) = true /\ kdf_accepts v (str "password") (settings0 v) /\
  within_limit v (nlen (str "message")).
Proof. evaluate. Qed.

(** C80: with the real primitives, reading and opening an untrusted wrapped, password-wrapped
    (k3) or sealed (k4) key gives a usable key or an error, never a panic. *)
Theorem C80_real_no_panic :
  forall (v : version) (w : wtype) (s wk pw sk : bytes),
  length sk = 32 ->
  let good k (z : outcome bytes) :=
    (exists key, z = Ok key /\ valid_key Real v k key = true) \/ z = Err CryptoError \/ z = Err InvalidKey in
  (forall x, pie_parse v w s = Ok x -> good (wtype_key w) (unwrap_pie Real v w x wk)) /\
  (v = V3 -> forall x, pw_parse v w s = Ok x -> good (wtype_key w) (pw_unwrap Real v w x pw)) /\
  (v = V4 -> forall x, seal_parse v s = Ok x -> good Local (unseal Real v x sk)).
Proof. exact c80_real_no_panic. Qed.
Print Assumptions C80_real_no_panic.

Example C80_no_panic_example : length key32 = 32 /\
  is_ok (pie_parse V3 WSecret (str "k3.secret-wrap.pie." ++ repeat "A"%byte 171)) = true /\
  is_ok (pw_parse V3 WLocal (str "k3.local-pw." ++ repeat "A"%byte 176)) = true /\
  is_ok (seal_parse V4 (str "k4.seal." ++ repeat "A"%byte 128)) = true.
Proof. evaluate. Qed.

(** C80: authenticity with the real primitives (C78): a wrapped-key text accepted under [wk] was
    published, or it carries a MAC on a string never authenticated from [wk]. *)
Theorem C80_real_pie_text :
  forall S fuel (g : gen S) actions s0 h s1 (v : version) (w : wtype) (s wk key : bytes) (x : PieWrapped),
  fills g -> ghistory Real fuel g actions s0 h s1 ->
  pie_parse v w s = Ok x -> unwrap_pie Real v w x wk = Ok key ->
  (exists key', In (ERand (OpPie v w key' wk) (RPie (Ok x))) h /\
     published (ERand (OpPie v w key' wk) (RPie (Ok x))) = Some s /\
     (valid_key Real v (wtype_key w) key' = true -> key = key')) \/
  (let a := pie_h v w ++ pie_nonce x ++ pie_key x in
   mac Real v (pie_ak Real v wk (pie_nonce x)) a = pie_tag x /\ ~ authenticated h wk a).
Proof. exact c80_real_pie_text. Qed.
Print Assumptions C80_real_pie_text.

Example C80_pie_example : forall v : version, exists x s r',
  let o := OpPie v WLocal other32 key32 in
  ghistory Real 1 tape_gen [ARand o] rng0 [ERand o (RPie (Ok x))] r' /\ fills tape_gen /\
  pie_parse v WLocal s = Ok x /\ unwrap_pie Real v WLocal x key32 = Ok other32.
Proof.
  intros v.
  destruct (c37_pie_roundtrip Real v WLocal other32 key32 rng0 c80_real_sizes) as (x & s & H1 & _ & H2 & H3);
    [discriminate|destruct v; reflexivity|].
  exists x, s, (advance rng0 32). split; [|split; [exact tape_gen_fills|auto]].
  apply tape_ghistory. cbn [perform_all perform run_op]. rewrite H1. reflexivity.
Qed.

(** C80: the same for local tokens. *)
Theorem C80_real_local_text :
  forall S fuel (g : gen S) actions s0 h s1 (M F E : Type) (v : version) (EN : Encoding E M)
         (FC : FooterCodec F) e0 (s key i : bytes) (t : SecuredToken F E) x,
  fills g -> ghistory Real fuel g actions s0 h s1 -> Forall event_sizes h ->
  rust_slice s -> rust_slice i ->
  token_parse v PLocal (suffix EN) e0 FC s = Ok t -> decrypt_with_assertions Real v EN t key i = Ok x ->
  (exists q b m text, In (ERand (OpEncrypt q) (RToken (Ok b))) h /\ rq_key q = key /\ rq_implicit q = i /\
     published (ERand (OpEncrypt q) (RToken (Ok b))) = Some text /\
     (s = text \/ (st_encoded_footer t = [] /\ s = text ++ str ".")) /\
     e_encode (rq_encoding q) (vt_encoding (rq_token q)) (vt_message (rq_token q)) = COk m /\
     e_decode EN e0 m = COk (vt_message x)) \/
  (let b := st_payload t in
   let a := PAE [local_header v (suffix EN); body_nonce b; body_cipher v b; st_encoded_footer t; i] in
   mac Real v (local_ak Real v key (body_nonce b)) a = body_tag v b /\ ~ authenticated h key a).
Proof. exact c80_real_local_text. Qed.
Print Assumptions C80_real_local_text.

Example C80_local_example : forall v : version, exists (tok tok' : SecuredToken bytes unit) r',
  let EN := {| suffix := []; e_default := tt; e_encode := fun _ m => COk m; e_decode := fun _ m => COk m |} in
  let t := {| vt_encoding := tt; vt_message := str "message"; vt_footer := str "footer" |} in
  let q := {| rq_version := v; rq_encoding := EN; rq_footer := vec_footer; rq_token := t;
              rq_key := key32; rq_implicit := ia |} in
  ghistory Real 1 tape_gen [ARand (OpEncrypt q)] rng0 [ERand (OpEncrypt q) (RToken (Ok (st_payload tok)))] r' /\
  token_parse v PLocal [] tt vec_footer (token_display v PLocal [] tok) = Ok tok' /\
  decrypt_with_assertions Real v EN tok' key32 ia = Ok t.
Proof.
  intros v.
  destruct (c14_local_roundtrip_raw Real v [] (str "message") (str "footer") key32 ia rng0 c80_real_sizes)
    as (tok & tok' & H1 & H2 & H3); [destruct v; evaluate|].
  exists tok, tok', (advance rng0 32). split; [|split; [exact H2|exact H3]].
  apply tape_ghistory. cbn [perform_all perform run_op rq_M rq_F rq_E rq_version rq_encoding rq_footer rq_token rq_key rq_implicit].
  rewrite H1. reflexivity.
Qed.

(** C80: the same for public tokens (up to the signature, see C59). *)
Theorem C80_real_public_text :
  forall S fuel (g : gen S) actions s0 h s1 (M F E : Type) (v : version) (EN : Encoding E M)
         (FC : FooterCodec F) e0 (s sk i : bytes) (t : SecuredToken F E) x,
  fills g -> ghistory Real fuel g actions s0 h s1 -> Forall event_sizes h ->
  rust_slice s -> rust_slice i -> valid_key Real v Secret sk = true ->
  token_parse v PPublic (suffix EN) e0 FC s = Ok t ->
  verify_with_assertions Real v EN t (public_key Real v sk) i = Ok x ->
  let m := body_message v (st_payload t) in
  let f := st_encoded_footer t in
  (exists q b', In (ESign q (Ok b')) h /\ sq_sk q = sk /\ sq_implicit q = i /\
     body_message v b' = m /\
     published (ESign q (Ok b')) = Some (token_text (public_header v (suffix EN)) b' f) /\
     (s = token_text (public_header v (suffix EN)) (st_payload t) f \/
      (f = [] /\ s = token_text (public_header v (suffix EN)) (st_payload t) f ++ str ".")) /\
     e_encode (sq_encoding q) (vt_encoding (sq_token q)) (vt_message (sq_token q)) = COk m /\
     e_decode EN e0 m = COk (vt_message x)) \/
  (let a := public_m2 v (suffix EN) (public_key Real v sk) m f i in
   valid_sig Real v (public_key Real v sk) a (body_sig v (st_payload t)) = true /\ ~ signed Real h sk a).
Proof. exact c80_real_public_text. Qed.
Print Assumptions C80_real_public_text.

(** (Public tokens accepted with these primitives: [VectorsPublic3], [VectorsPublic4].) *)
Example C80_public_example : valid_key Real V3 Secret key48 = true /\ valid_key Real V4 Secret key32 = true.
Proof. evaluate. Qed.

(** C81: the byte 1 and 31 zeros, the encoding of the neutral element of the curve, is taken
    as a v4 public key by every constructor. *)
Theorem C81_weak_key_accepted :
  let weak := x01 :: repeat x00 31 in
  valid_key Real V4 Public weak = true /\
  v4_public_from_bytes Real weak = Ok weak /\
  plaintext_parse Real V4 Public (str "k4.public.AQAAAAAAAAAAAAAAAAAAAAAAAAAAAAAAAAAAAAAAAAA") = Ok weak.
Proof. exact c81_weak_key_accepted. Qed.
Print Assumptions C81_weak_key_accepted.

(** C81: "a token accepted by [verify] under a public key that the library accepts was made
    with a secret key" is false for v4: under that key one fixed signature fits every
    message, footer, implicit assertion and encoding. *)
Theorem C81_signature_needs_secret_refuted :
  exists pk sig : bytes, valid_key Real V4 Public pk = true /\ length sig = 64 /\
  forall (M F E : Type) (EN : Encoding E M) (FC : FooterCodec F) (e0 : E) (m f implicit : bytes)
         (message : M) (footer : F),
  e_decode EN e0 m = COk message -> f_decode FC f = COk footer ->
  exists t, token_parse V4 PPublic (suffix EN) e0 FC (token_text (public_header V4 (suffix EN)) (m ++ sig) f) = Ok t /\
    verify_with_assertions Real V4 EN t pk implicit =
    Ok {| vt_encoding := e0; vt_message := message; vt_footer := footer |}.
Proof. exact c81_signature_needs_secret_refuted. Qed.
Print Assumptions C81_signature_needs_secret_refuted.

(** A token for the message "hi" anyone can write; accepted by the previous theorem. *)
Example C81_forgery_example :
  let EN := {| suffix := []; e_default := tt; e_encode := fun _ m => COk m; e_decode := fun _ m => COk m |} in
  e_decode EN tt (str "hi") = COk (str "hi") /\ f_decode vec_footer (str "footer") = COk (str "footer") /\
  is_ok (token_parse V4 PPublic [] tt vec_footer
    (str "v4.public.aGkBAAAAAAAAAAAAAAAAAAAAAAAAAAAAAAAAAAAAAAAAAAAAAAAAAAAAAAAAAAAAAAAAAAAAAAAAAAAAAAAAAAAA.Zm9vdGVy"))
  = true /\
  token_text (public_header V4 []) (str "hi" ++ (x01 :: repeat x00 63)) (str "footer") =
  str "v4.public.aGkBAAAAAAAAAAAAAAAAAAAAAAAAAAAAAAAAAAAAAAAAAAAAAAAAAAAAAAAAAAAAAAAAAAAAAAAAAAAAAAAAAAAA.Zm9vdGVy".
Proof. evaluate. Qed.

(** C81: "a sealed key can be read only with the recipient's secret key" is false for the
    same public key: the Diffie-Hellman result is 32 zeros whatever the random bytes, so the
    standard's unsealing with zeros in its place opens every key sealed to it. *)
Theorem C81_sealing_needs_secret_refuted :
  exists pk : bytes, valid_key Real V4 Public pk = true /\
  forall (fuel : nat) (key : bytes) (r : rng), length key = 32 ->
  let zeros := repeat x00 32 in
  exists x s, seal Real V4 fuel key pk r = Some (Ok x, advance r 32) /\
    seal_display V4 x = Ok s /\ seal_parse V4 s = Ok x /\
    unseal_spec Real V4 zeros (sl_epk x) zeros (sl_tag x) (sl_edk x) = Some key.
Proof. exact c81_sealing_needs_secret_refuted. Qed.
Print Assumptions C81_sealing_needs_secret_refuted.

Example C81_sealing_example : length key32 = 32 /\ epk_size V4 = 32.
Proof. evaluate. Qed.
