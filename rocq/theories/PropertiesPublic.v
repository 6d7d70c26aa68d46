(** Theorems of the property list; statements only, proofs are in [ProofsPublic]. *)
From Coq Require Import ZArith ZifyBool ZifyNat ZifyN.
From Verif Require Import Bytes Outcome Base64 Pae Prims Version Key Token Local Public
  SpecBase64 SpecPaseto SpecPaserk SpecText Observe.
From Verif Require Import ProofsPublic Samples.

(** C22: sign, print, parse, verify returns message and footer. *)
Theorem C22_public_roundtrip :
  forall (P : Prims) (M F E : Type) (v : version) (EN : Encoding E M) (FC : FooterCodec F)
         (t : ValidatedToken M F E) (sk implicit : bytes) (tok : SecuredToken F E),
  Laws P -> valid_key P v Secret sk = true ->
  (forall m, e_encode EN (vt_encoding t) (vt_message t) = COk m ->
             e_decode EN (e_default EN) m = COk (vt_message t)) ->
  (forall f, f_encode FC (vt_footer t) = Some f -> f_decode FC f = COk (vt_footer t)) ->
  sign_with_assertions P v EN FC t sk implicit = Ok tok ->
  exists tok',
    token_parse v PPublic (suffix EN) (e_default EN) FC (token_display v PPublic (suffix EN) tok) = Ok tok' /\
    unverified_footer tok' = vt_footer t /\
    verify_with_assertions P v EN tok' (public_key P v sk) implicit =
      Ok {| vt_encoding := e_default EN; vt_message := vt_message t; vt_footer := vt_footer t |}.
Proof. exact c22_public_roundtrip. Qed.
Print Assumptions C22_public_roundtrip.

Example C22_example : forall v : version,
  Laws Mini /\ valid_key Mini v Secret (sk0 v) = true /\
  e_decode num_encoding (e_default num_encoding) m0 = COk (vt_message tok0) /\
  f_decode (json_footer braces) f0 = COk (vt_footer tok0) /\
  sign_with_assertions Mini v num_encoding (json_footer braces) tok0 (sk0 v) ia = Ok (signed_tok Mini v ia) /\
  token_parse v PPublic (str "x") x07 (json_footer braces)
    (token_display v PPublic (str "x") (signed_tok Mini v ia)) = Ok (signed_tok Mini v ia) /\
  verify_with_assertions Mini v num_encoding (signed_tok Mini v ia) (public_key Mini v (sk0 v)) ia = Ok tok0 /\
  verify_with_assertions Mini v num_encoding (signed_tok Mini v ia) (public_key Mini v (sk1 v)) ia = Err CryptoError.
Proof. evaluate. Qed.

(** C22: v4 signing always succeeds when message and footer can be encoded; v3 as well
    unless the ECDSA implementation yields a zero r or s; errors come only from the
    message encoder. *)
Theorem C22_sign_outcome :
  forall (P : Prims) (M F E : Type) (v : version) (EN : Encoding E M) (FC : FooterCodec F)
         (t : ValidatedToken M F E) (sk implicit : bytes),
  let res := sign_with_assertions P v EN FC t sk implicit in
  (forall e, res = Err e <->
     exists msg, e = PayloadError msg /\ e_encode EN (vt_encoding t) (vt_message t) = CErr msg) /\
  (res = Panic <->
     exists m, e_encode EN (vt_encoding t) (vt_message t) = COk m /\
       (f_encode FC (vt_footer t) = None \/
        exists f, f_encode FC (vt_footer t) = Some f /\ v = V3 /\
          p_sign P sk (sha384 P (preauth_v3 (p_pub P sk) (suffix EN) m f implicit)) = None)).
Proof. exact c22_sign_outcome. Qed.
Print Assumptions C22_sign_outcome.

Example C22_outcome_example : forall v : version,
  let bad_message := {| vt_encoding := x07; vt_message := 300%N; vt_footer := str "kid" |} in
  let bad_footer := {| vt_encoding := x07; vt_message := 42%N; vt_footer := [] |} in
  let run t := sign_with_assertions Mini v num_encoding (json_footer braces) t (sk0 v) ia in
  is_ok (run tok0) = true /\ run bad_message = Err (PayloadError (str "too big")) /\ run bad_footer = Panic.
Proof. evaluate. Qed.

(** C23: the payload is message || signature over the standard's m2. *)
Theorem C23_sign_is_spec :
  forall (P : Prims) (M F E : Type) (v : version) (EN : Encoding E M) (FC : FooterCodec F)
         (t : ValidatedToken M F E) (sk implicit m f : bytes),
  Sizes P -> valid_key P v Secret sk = true ->
  e_encode EN (vt_encoding t) (vt_message t) = COk m ->
  f_encode FC (vt_footer t) = Some f ->
  public_sizes v (suffix EN) m f implicit ->
  let m2 := public_m2 v (suffix EN) (public_key P v sk) m f implicit in
  sign_with_assertions P v EN FC t sk implicit =
  match (match v with V3 => p_sign P sk (sha384 P m2) | V4 => Some (ed_sign P sk m2) end) with
  | Some sg => Ok {| st_encoding := vt_encoding t; st_payload := m ++ sg;
                     st_encoded_footer := f; st_footer := vt_footer t |}
  | None => Panic
  end.
Proof. exact c23_sign_is_spec. Qed.
Print Assumptions C23_sign_is_spec.

Example C23_example : forall v : version,
  public_sizes v (suffix num_encoding) m0 f0 ia /\
  length (signature Mini v (str "x") m0 f0 ia) = sig_len v /\
  signature Mini v (str "x") m0 f0 ia <> signature Mini v (str "x") m0 f0 [].
Proof. evaluate. Qed.

(** C24: on a payload holding a (for v3: well-formed) signature, verification is the
    standard's signature check followed by the decoder. *)
Theorem C24_verify_is_spec :
  forall (P : Prims) (M F E : Type) (v : version) (EN : Encoding E M)
         (t : SecuredToken F E) (pk implicit : bytes),
  valid_key P v Public pk = true ->
  let b := st_payload t in
  let m := body_message v b in
  let sg := body_sig v b in
  sig_len v <= length b ->
  (v = V3 -> p_sig_ok sg = true) ->
  public_sizes v (suffix EN) m (st_encoded_footer t) implicit ->
  verify_with_assertions P v EN t pk implicit =
  if public_valid P v (suffix EN) pk m (st_encoded_footer t) implicit sg then
    match e_decode EN (st_encoding t) m with
    | COk msg => Ok {| vt_encoding := st_encoding t; vt_message := msg; vt_footer := st_footer t |}
    | CErr e => Err (PayloadError e)
    end
  else Err CryptoError.
Proof. exact c24_verify_is_spec. Qed.
Print Assumptions C24_verify_is_spec.

(** All outcomes occur. *)
Example C24_example : forall v : version,
  let t := signed_tok Mini v ia in
  let b := st_payload t in
  let pk := public_key Mini v (sk0 v) in
  let t' := {| st_encoding := x08; st_payload := b; st_encoded_footer := f0; st_footer := str "kid" |} in
  valid_key Mini v Public pk = true /\ sig_len v <= length b /\
  match v with V3 => p_sig_ok (body_sig v b) | V4 => true end = true /\
  public_sizes v (str "x") (body_message v b) f0 ia /\
  public_valid Mini v (str "x") pk (body_message v b) f0 ia (body_sig v b) = true /\
  verify_with_assertions Mini v num_encoding t' pk ia = Err (PayloadError (str "bad tag")) /\
  verify_with_assertions Mini v num_encoding t pk [] = Err CryptoError.
Proof. evaluate. Qed.

(** C17 for signatures: an invalid signature never yields anything that depends on the
    message decoder: the result is [CryptoError], or the v3 panic of C26. *)
Theorem C17_no_decoding_before_verification :
  forall (P : Prims) (M F E : Type) (v : version) (EN : Encoding E M)
         (t : SecuredToken F E) (pk implicit : bytes),
  valid_key P v Public pk = true ->
  let b := st_payload t in
  let m := body_message v b in
  let sg := body_sig v b in
  sig_len v <= length b ->
  public_sizes v (suffix EN) m (st_encoded_footer t) implicit ->
  public_valid P v (suffix EN) pk m (st_encoded_footer t) implicit sg = false ->
  verify_with_assertions P v EN t pk implicit =
  match v with V3 => if p_sig_ok sg then Err CryptoError else Panic | V4 => Err CryptoError end.
Proof. exact c17_no_decoding_before_verification. Qed.
Print Assumptions C17_no_decoding_before_verification.

(** A rejected signature; for v3, also one that is not even well formed. *)
Example C17_public_example : forall v : version,
  let b := st_payload (signed_tok Mini v ia) in
  let zero := m0 ++ repeat x00 (sig_len v) in
  let pk := public_key Mini v (sk0 v) in
  valid_key Mini v Public pk = true /\ sig_len v <= length b /\
  public_sizes v (str "x") (body_message v b) f0 [] /\
  public_valid Mini v (str "x") pk (body_message v b) f0 [] (body_sig v b) = false /\
  public_sizes v (str "x") (body_message v zero) f0 ia /\
  public_valid Mini v (str "x") pk (body_message v zero) f0 ia (body_sig v zero) = false.
Proof. evaluate. Qed.

(** C25: the signed bytes determine message, footer, assertion, encoding and, in v3, the
    public key. *)
Theorem C25_signed_bytes_injective :
  forall (v : version) (pk1 pk2 sfx1 sfx2 m1 m2 f1 f2 i1 i2 : bytes),
  (v = V3 -> rust_slice pk1 /\ rust_slice pk2) ->
  public_sizes v sfx1 m1 f1 i1 -> public_sizes v sfx2 m2 f2 i2 ->
  public_m2 v sfx1 pk1 m1 f1 i1 = public_m2 v sfx2 pk2 m2 f2 i2 ->
  sfx1 = sfx2 /\ m1 = m2 /\ f1 = f2 /\ i1 = i2 /\ (v = V3 -> pk1 = pk2).
Proof. exact c25_signed_bytes_injective. Qed.
Print Assumptions C25_signed_bytes_injective.

(** Moving a byte from the message to the footer changes the signed bytes. *)
Example C25_example : forall v : version,
  let pk := public_key Mini v (sk0 v) in
  rust_slice pk /\ public_sizes v (str "x") (str "ab") (str "c") ia /\
  public_sizes v (str "x") (str "a") (str "bc") ia /\
  public_m2 v (str "x") pk (str "ab") (str "c") ia <> public_m2 v (str "x") pk (str "a") (str "bc") ia.
Proof. evaluate. Qed.

(** C25, as transplant resistance: two accepted tokens carrying one signature agree on
    message, footer, assertion, encoding (and v3 key), or the signature is valid for two
    different byte strings, which are exhibited. *)
Theorem C25_no_transplant :
  forall (P : Prims) (M1 F1 E1 M2 F2 E2 : Type) (v : version)
         (EN1 : Encoding E1 M1) (EN2 : Encoding E2 M2)
         (t1 : SecuredToken F1 E1) (t2 : SecuredToken F2 E2) (pk1 pk2 i1 i2 : bytes) x1 x2,
  valid_key P v Public pk1 = true -> valid_key P v Public pk2 = true ->
  let b1 := st_payload t1 in let b2 := st_payload t2 in
  let m1 := body_message v b1 in let m2 := body_message v b2 in
  let f1 := st_encoded_footer t1 in let f2 := st_encoded_footer t2 in
  let sg := body_sig v b1 in
  public_sizes v (suffix EN1) m1 f1 i1 -> public_sizes v (suffix EN2) m2 f2 i2 ->
  verify_with_assertions P v EN1 t1 pk1 i1 = Ok x1 ->
  verify_with_assertions P v EN2 t2 pk2 i2 = Ok x2 ->
  body_sig v b2 = sg ->
  (m1 = m2 /\ f1 = f2 /\ i1 = i2 /\ suffix EN1 = suffix EN2 /\ (v = V3 -> pk1 = pk2)) \/
  (let s1 := public_m2 v (suffix EN1) pk1 m1 f1 i1 in
   let s2 := public_m2 v (suffix EN2) pk2 m2 f2 i2 in
   s1 <> s2 /\ valid_sig P v pk1 s1 sg = true /\ valid_sig P v pk2 s2 sg = true).
Proof. exact c25_no_transplant. Qed.
Print Assumptions C25_no_transplant.

(** Both alternatives occur: one token twice, and, with the broken primitives of [Samples], one
    signature accepted under two footers. *)
Example C25_transplant_example : forall v : version,
  let t := signed_tok Mini v ia in
  let w := signed_tok Weak v ia in
  let w' := refoot w (str "{kim}") (str "kim") in
  let pk := public_key Weak v (sk0 v) in
  valid_key Weak v Public pk = true /\
  verify_with_assertions Mini v num_encoding t (public_key Mini v (sk0 v)) ia = Ok tok0 /\
  public_sizes v (str "x") (body_message v (st_payload w)) f0 ia /\
  public_sizes v (str "x") (body_message v (st_payload w')) (str "{kim}") ia /\
  verify_with_assertions Weak v num_encoding w pk ia = Ok tok0 /\
  is_ok (verify_with_assertions Weak v num_encoding w' pk ia) = true /\
  body_sig v (st_payload w') = body_sig v (st_payload w) /\
  verify_with_assertions Mini v num_encoding (refoot t (str "{kim}") (str "kim")) (public_key Mini v (sk0 v)) ia
    = Err CryptoError.
Proof. evaluate. Qed.

(** C26: exact panic condition of verification. *)
Theorem C26_verify_panic_iff :
  forall (P : Prims) (M F E : Type) (v : version) (EN : Encoding E M)
         (t : SecuredToken F E) (pk implicit : bytes),
  let b := st_payload t in
  (verify_with_assertions P v EN t pk implicit = Panic <->
   length b < sig_len v \/
   (sig_len v <= length b /\ v = V3 /\
    ~ (scalar384 (firstn 48 (body_sig V3 b)) /\ scalar384 (skipn 48 (body_sig V3 b))))).
Proof. exact c26_verify_panic_iff. Qed.
Print Assumptions C26_verify_panic_iff.

(** Both disjuncts occur: a short payload, and a v3 signature with s out of range. *)
Example C26_example : forall v : version,
  let pk := public_key Mini v (sk0 v) in
  let t b := {| st_encoding := x07; st_payload := b; st_encoded_footer := f0; st_footer := str "kid" |} in
  let half := firstn 50 (st_payload (signed_tok Mini V3 ia)) ++ repeat xff 48 in
  verify_with_assertions Mini v num_encoding (t (str "short")) pk ia = Panic /\
  verify_with_assertions Mini V3 num_encoding (t half) (public_key Mini V3 (sk0 V3)) ia = Panic /\
  verify_with_assertions Mini v num_encoding (signed_tok Mini v ia) pk ia = Ok tok0.
Proof. evaluate. Qed.

(** C26, ideal claim refuted: a short text that parses makes verification panic, for every
    key. *)
Theorem C26_verify_no_panic_refuted :
  forall (v : version), exists (s : bytes) (t : SecuredToken unit unit),
  token_parse v PPublic [] tt unit_footer s = Ok t /\
  forall (P : Prims) (M : Type) (J : JsonCodec M) (pk implicit : bytes),
  verify_with_assertions P v (json_encoding J) t pk implicit = Panic.
Proof. exact c26_verify_no_panic_refuted. Qed.
Print Assumptions C26_verify_no_panic_refuted.

(** C26: v3 also panics on tokens of full length: a signature of 96 zero bytes. *)
Theorem C26_v3_zero_signature_refuted :
  exists (s : bytes) (t : SecuredToken unit unit),
  token_parse V3 PPublic [] tt unit_footer s = Ok t /\ length (st_payload t) = 98 /\
  forall (P : Prims) (M : Type) (J : JsonCodec M) (pk implicit : bytes),
  verify_with_assertions P V3 (json_encoding J) t pk implicit = Panic.
Proof. exact c26_v3_zero_signature_refuted. Qed.
Print Assumptions C26_v3_zero_signature_refuted.

(** C27, public: the short entry points. *)
Theorem C27_public_short_entry_points :
  forall (P : Prims) (M F E : Type) (v : version) (EN : Encoding E M) (FC : FooterCodec F)
         (t : ValidatedToken M F E) (tok : SecuredToken F E) (sk pk : bytes),
  sign P v EN FC t sk = sign_with_assertions P v EN FC t sk [] /\
  verify P v EN tok pk = verify_with_assertions P v EN tok pk [].
Proof. exact c27_public_short_entry_points. Qed.
Print Assumptions C27_public_short_entry_points.

Example C27_short_public_example : forall v : version,
  verify Mini v num_encoding (signed_tok Mini v []) (public_key Mini v (sk0 v)) = Ok tok0 /\
  sign Mini v num_encoding (json_footer braces) tok0 (sk0 v) = Ok (signed_tok Mini v []).
Proof. evaluate. Qed.

(** C27, public: a token valid with a non-empty assertion and accepted without one has a
    signature valid for two different byte strings. *)
Theorem C27_assertion_not_droppable_public :
  forall (P : Prims) (M F E M' F' E' : Type) (v : version) (EN : Encoding E M) (EN' : Encoding E' M')
         (tok : SecuredToken F E) (tok' : SecuredToken F' E') (pk i : bytes) x x',
  valid_key P v Public pk = true ->
  let b := st_payload tok in
  st_payload tok' = b -> i <> [] ->
  public_sizes v (suffix EN) (body_message v b) (st_encoded_footer tok) i ->
  public_sizes v (suffix EN') (body_message v b) (st_encoded_footer tok') [] ->
  verify_with_assertions P v EN tok pk i = Ok x ->
  verify P v EN' tok' pk = Ok x' ->
  exists s1 s2, s1 <> s2 /\ valid_sig P v pk s1 (body_sig v b) = true /\
                valid_sig P v pk s2 (body_sig v b) = true.
Proof. exact c27_assertion_not_droppable_public. Qed.
Print Assumptions C27_assertion_not_droppable_public.

(** The hypotheses can only be met with signatures that are valid for several messages. *)
Example C27_public_example : forall v : version,
  let w := signed_tok Weak v ia in
  let b := st_payload w in
  let pk := public_key Weak v (sk0 v) in
  valid_key Weak v Public pk = true /\ ia <> [] /\
  public_sizes v (str "x") (body_message v b) f0 ia /\ public_sizes v (str "x") (body_message v b) f0 [] /\
  verify_with_assertions Weak v num_encoding w pk ia = Ok tok0 /\ verify Weak v num_encoding w pk = Ok tok0 /\
  verify Mini v num_encoding (signed_tok Mini v ia) (public_key Mini v (sk0 v)) = Err CryptoError.
Proof. evaluate. Qed.

(** C13 for public tokens: the received raw footer bytes are what is verified. *)
Theorem C13_raw_footer_verified :
  forall (P : Prims) (M F F' E : Type) (v : version) (EN : Encoding E M)
         (t : SecuredToken F E) (f' : F') (pk implicit : bytes),
  let t' := {| st_encoding := st_encoding t; st_payload := st_payload t;
               st_encoded_footer := st_encoded_footer t; st_footer := f' |} in
  verify_with_assertions P v EN t' pk implicit =
  omap (fun x => {| vt_encoding := vt_encoding x; vt_message := vt_message x; vt_footer := f' |})
       (verify_with_assertions P v EN t pk implicit) /\
  (forall x, verify_with_assertions P v EN t pk implicit = Ok x -> vt_footer x = st_footer t).
Proof. exact c13_raw_footer_verified. Qed.
Print Assumptions C13_raw_footer_verified.

(** Two typed views of one raw footer. *)
Example C13_verified_example : forall v : version,
  let t := signed_tok Mini v ia in
  let t' := {| st_encoding := st_encoding t; st_payload := st_payload t;
               st_encoded_footer := st_encoded_footer t; st_footer := 7%N |} in
  let pk := public_key Mini v (sk0 v) in
  verify_with_assertions Mini v num_encoding t pk ia = Ok tok0 /\
  verify_with_assertions Mini v num_encoding t' pk ia =
    Ok {| vt_encoding := x07; vt_message := 42%N; vt_footer := 7%N |}.
Proof. evaluate. Qed.

(** C57: across all versions and purposes, the authenticated byte string determines the
    version, the purpose, the encoding and every field; in particular v3/v4, local/public
    never authenticate the same bytes. *)
Theorem C57_authenticated_data_determines_everything :
  forall (P : Prims) (v1 v2 : version) (p1 p2 : purpose)
         (pk1 sfx1 n1 m1 f1 i1 pk2 sfx2 n2 m2 f2 i2 : bytes),
  P384Sizes P ->
  auth_sizes P v1 p1 pk1 sfx1 n1 m1 f1 i1 -> auth_sizes P v2 p2 pk2 sfx2 n2 m2 f2 i2 ->
  auth_data v1 p1 pk1 sfx1 n1 m1 f1 i1 = auth_data v2 p2 pk2 sfx2 n2 m2 f2 i2 ->
  v1 = v2 /\ p1 = p2 /\ sfx1 = sfx2 /\ m1 = m2 /\ f1 = f2 /\ i1 = i2 /\
  (p1 = PLocal -> n1 = n2) /\ (v1 = V3 -> p1 = PPublic -> pk1 = pk2).
Proof. exact c57_authenticated_data_determines_everything. Qed.
Print Assumptions C57_authenticated_data_determines_everything.

Example C57_example : forall (v : version) (p : purpose),
  let pk := public_key Mini v (sk0 v) in
  P384Sizes Mini /\
  rust_slice (token_header v p (str "x")) /\ rust_slice n0 /\ rust_slice m0 /\ rust_slice f0 /\ rust_slice ia /\
  valid_key Mini v Public pk = true /\
  auth_data v p pk (str "x") n0 m0 f0 ia <> auth_data v p pk (str "") n0 m0 f0 ia.
Proof. evaluate. Qed.

(** C57: [auth_data] is what the implementation MACs and signs. *)
Theorem C57_auth_data_is_implemented :
  forall (P : Prims) (v : version) (pk key sfx n c m f i sg : bytes),
  (length n = 32 -> auth_sizes P v PLocal pk sfx n c f i ->
   generic_digest P v key sfx n c f i = mac P v key (auth_data v PLocal pk sfx n c f i)) /\
  (auth_sizes P v PPublic pk sfx n m f i ->
   verify_raw P v pk sfx m f i sg =
   if match v with V3 => negb (p_sig_ok sg) | V4 => false end then Panic
   else Ok (valid_sig P v pk (auth_data v PPublic pk sfx n m f i) sg)).
Proof. exact c57_auth_data_is_implemented. Qed.
Print Assumptions C57_auth_data_is_implemented.

Example C57_implemented_example : forall (v : version) (p : purpose),
  let pk := public_key Mini v (sk0 v) in
  length n0 = 32 /\ auth_sizes Mini v p pk (str "x") n0 m0 f0 ia /\
  length (generic_digest Mini v key32 (str "x") n0 m0 f0 ia) = tag_len v.
Proof. intros v p. destruct v, p; cbv zeta; unfold auth_sizes; evaluate. Qed.

(** C53, public tokens. *)
Theorem C53_public_text_length :
  forall (P : Prims) (M F E : Type) (v : version) (EN : Encoding E M) (FC : FooterCodec F)
         (t : ValidatedToken M F E) (sk implicit m f : bytes) tok,
  Sizes P -> valid_key P v Secret sk = true ->
  e_encode EN (vt_encoding t) (vt_message t) = COk m -> f_encode FC (vt_footer t) = Some f ->
  sign_with_assertions P v EN FC t sk implicit = Ok tok ->
  length (token_display v PPublic (suffix EN) tok) =
  length (suffix EN) + 10 + (4 * (length m + sig_len v) + 2) / 3
  + match f with [] => 0 | _ => 1 + (4 * length f + 2) / 3 end.
Proof. exact c53_public_text_length. Qed.
Print Assumptions C53_public_text_length.

Example C53_public_example : forall v : version,
  length (token_display v PPublic (str "x") (signed_tok Mini v ia)) =
  match v with V3 => 1 + 10 + 131 + 8 | V4 => 1 + 10 + 88 + 8 end.
Proof. evaluate. Qed.
