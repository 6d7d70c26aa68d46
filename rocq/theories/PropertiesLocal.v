(** Theorems of the property list; statements only, proofs are in [ProofsLocal]. *)
From Coq Require Import ZArith ZifyBool ZifyNat ZifyN.
From Verif Require Import Bytes Outcome Base64 Pae Prims Version Key Token Local
  SpecBase64 SpecPaseto SpecPaserk SpecText Observe.
From Verif Require Import ProofsLocal Samples.

(** C14: encrypt, print, parse, decrypt returns the message and the footer.  The codec
    hypotheses concern only this message and this footer. *)
Theorem C14_local_roundtrip :
  forall (P : Prims) (M F E : Type) (v : version) (EN : Encoding E M) (FC : FooterCodec F)
         (t : ValidatedToken M F E) (key implicit m f : bytes) (r : rng),
  SymLaws P ->
  e_encode EN (vt_encoding t) (vt_message t) = COk m ->
  e_decode EN (e_default EN) m = COk (vt_message t) ->
  f_encode FC (vt_footer t) = Some f ->
  f_decode FC f = COk (vt_footer t) ->
  within_limit v (nlen m) ->
  exists tok tok',
    encrypt_with_rng P v EN FC t key implicit r = (Ok tok, advance r 32) /\
    token_parse v PLocal (suffix EN) (e_default EN) FC (token_display v PLocal (suffix EN) tok) = Ok tok' /\
    unverified_footer tok' = vt_footer t /\
    decrypt_with_assertions P v EN tok' key implicit =
      Ok {| vt_encoding := e_default EN; vt_message := vt_message t; vt_footer := vt_footer t |}.
Proof. exact c14_local_roundtrip. Qed.
Print Assumptions C14_local_roundtrip.

(** A message type with failing encodings, a JSON-like footer, a suffix and an assertion. *)
Example C14_example : forall v : version,
  SymLaws Mini /\
  e_encode num_encoding (vt_encoding tok0) (vt_message tok0) = COk m0 /\
  e_decode num_encoding (e_default num_encoding) m0 = COk (vt_message tok0) /\
  f_encode (json_footer braces) (vt_footer tok0) = Some f0 /\
  f_decode (json_footer braces) f0 = COk (vt_footer tok0) /\
  within_limit v (nlen m0) /\
  encrypt_with_rng Mini v num_encoding (json_footer braces) tok0 key32 ia rng0 =
    (Ok (sealed_tok Mini v ia), advance rng0 32) /\
  token_parse v PLocal (str "x") x07 (json_footer braces)
    (token_display v PLocal (str "x") (sealed_tok Mini v ia)) = Ok (sealed_tok Mini v ia) /\
  decrypt_with_assertions Mini v num_encoding (sealed_tok Mini v ia) key32 ia = Ok tok0 /\
  decrypt_with_assertions Mini v num_encoding (sealed_tok Mini v ia) other32 ia = Err CryptoError.
Proof. evaluate. Qed.

(** C14 with raw-byte footers and messages: no codec hypothesis is left. *)
Theorem C14_local_roundtrip_raw :
  forall (P : Prims) (v : version) (sfx message footer key implicit : bytes) (r : rng),
  SymLaws P -> within_limit v (nlen message) ->
  let EN := {| suffix := sfx; e_default := tt; e_encode := fun _ m => COk m;
               e_decode := fun _ m => COk m |} in
  let t := {| vt_encoding := tt; vt_message := message; vt_footer := footer |} in
  exists tok tok',
    encrypt_with_rng P v EN vec_footer t key implicit r = (Ok tok, advance r 32) /\
    token_parse v PLocal sfx tt vec_footer (token_display v PLocal sfx tok) = Ok tok' /\
    decrypt_with_assertions P v EN tok' key implicit = Ok t.
Proof. exact c14_local_roundtrip_raw. Qed.
Print Assumptions C14_local_roundtrip_raw.

Example C14_raw_example : forall v : version,
  let EN := {| suffix := []; e_default := tt; e_encode := fun _ m => COk m; e_decode := fun _ m => COk m |} in
  let t := {| vt_encoding := tt; vt_message := str "message"; vt_footer := str "footer" |} in
  SymLaws Mini /\ within_limit v (nlen (str "message")) /\
  match fst (encrypt_with_rng Mini v EN vec_footer t key32 ia rng0) with
  | Ok tok => decrypt_with_assertions Mini v EN tok key32 ia = Ok t /\
              decrypt_with_assertions Mini v EN tok key32 [] = Err CryptoError
  | _ => False
  end.
Proof. intros v. destruct v; cbv zeta; (split; [evaluate|]); (split; [evaluate|]); vm_compute; split; reflexivity. Qed.

(** C15: the encrypted payload is the standard's, with the 32 drawn bytes as nonce.
    [local_safe]: no 64-bit counter overflow for v3 (see C55), XChaCha20 length
    limit for v4 (see C58). *)
Theorem C15_encrypt_is_spec :
  forall (P : Prims) (M F E : Type) (v : version) (EN : Encoding E M) (FC : FooterCodec F)
         (t : ValidatedToken M F E) (key implicit m f : bytes) (r : rng),
  SymLaws P ->
  e_encode EN (vt_encoding t) (vt_message t) = COk m ->
  f_encode FC (vt_footer t) = Some f ->
  local_sizes v (suffix EN) m f implicit ->
  let n := draw r 0 32 in
  local_safe P v key n (length m) ->
  encrypt_with_rng P v EN FC t key implicit r =
  (Ok {| st_encoding := vt_encoding t;
         st_payload := local_encrypt P v (suffix EN) key n m f implicit;
         st_encoded_footer := f; st_footer := vt_footer t |}, advance r 32).
Proof. exact c15_encrypt_is_spec. Qed.
Print Assumptions C15_encrypt_is_spec.

Example C15_example : forall v : version,
  local_sizes v (suffix num_encoding) m0 f0 ia /\
  local_safe Mini v key32 (draw rng0 0 32) (length m0) /\
  length (local_encrypt Mini v (str "x") key32 n0 m0 f0 ia) = 32 + 2 + tag_len v.
Proof. evaluate. Qed.

(** C16: on a payload long enough to hold nonce and tag, decryption is the standard's
    Decrypt followed by the message decoder, with the error classes named. *)
Theorem C16_decrypt_is_spec :
  forall (P : Prims) (M F E : Type) (v : version) (EN : Encoding E M)
         (t : SecuredToken F E) (key implicit : bytes),
  SymLaws P ->
  let b := st_payload t in
  let n := body_nonce b in
  let c := body_cipher v b in
  let tg := body_tag v b in
  32 + tag_len v <= length b ->
  local_sizes v (suffix EN) c (st_encoded_footer t) implicit ->
  local_safe P v key n (length c) ->
  decrypt_with_assertions P v EN t key implicit =
  match local_decrypt P v (suffix EN) key n c tg (st_encoded_footer t) implicit with
  | None => Err CryptoError
  | Some m =>
      match e_decode EN (st_encoding t) m with
      | CErr e => Err (PayloadError e)
      | COk msg => Ok {| vt_encoding := st_encoding t; vt_message := msg; vt_footer := st_footer t |}
      end
  end.
Proof. exact c16_decrypt_is_spec. Qed.
Print Assumptions C16_decrypt_is_spec.

(** All three outcomes occur: success, rejected payload, rejected tag. *)
Example C16_example : forall v : version,
  let t := sealed_tok Mini v ia in
  let b := st_payload t in
  let t' := {| st_encoding := x08; st_payload := b; st_encoded_footer := f0; st_footer := str "kid" |} in
  32 + tag_len v <= length b /\
  local_sizes v (str "x") (body_cipher v b) (st_encoded_footer t) ia /\
  local_safe Mini v key32 (body_nonce b) (length (body_cipher v b)) /\
  local_decrypt Mini v (str "x") key32 (body_nonce b) (body_cipher v b) (body_tag v b) f0 ia = Some m0 /\
  decrypt_with_assertions Mini v num_encoding t key32 ia = Ok tok0 /\
  decrypt_with_assertions Mini v num_encoding t' key32 ia = Err (PayloadError (str "bad tag")) /\
  decrypt_with_assertions Mini v num_encoding t key32 (str "other") = Err CryptoError.
Proof. evaluate. Qed.

(** C17: a wrong tag gives [CryptoError] whatever the message type, decoder, decoded
    footer and encoding value are: the decoder is never consulted. *)
Theorem C17_no_decoding_before_authentication :
  forall (P : Prims) (M F E : Type) (v : version) (EN : Encoding E M)
         (t : SecuredToken F E) (key implicit : bytes),
  let b := st_payload t in
  32 + tag_len v <= length b ->
  local_sizes v (suffix EN) (body_cipher v b) (st_encoded_footer t) implicit ->
  body_tag v b <> local_tag P v (suffix EN) key (body_nonce b) (body_cipher v b)
                            (st_encoded_footer t) implicit ->
  decrypt_with_assertions P v EN t key implicit = Err CryptoError.
Proof. exact c17_no_decoding_before_authentication. Qed.
Print Assumptions C17_no_decoding_before_authentication.

Example C17_example : forall v : version,
  let t := sealed_tok Mini v ia in
  let b := st_payload t in
  32 + tag_len v <= length b /\
  local_sizes v (str "x") (body_cipher v b) (st_encoded_footer t) (str "other") /\
  body_tag v b <> local_tag Mini v (str "x") key32 (body_nonce b) (body_cipher v b) f0 (str "other").
Proof. evaluate. Qed.

(** C18: two tokens with equal tags accepted under one key agree on nonce,
    ciphertext, footer, assertion and encoding suffix, or the MAC has the exhibited
    collision.  The pair (authentication key, MAC message) of each is explicit. *)
Theorem C18_tamper_detection :
  forall (P : Prims) (M1 F1 E1 M2 F2 E2 : Type) (v : version)
         (EN1 : Encoding E1 M1) (EN2 : Encoding E2 M2)
         (t1 : SecuredToken F1 E1) (t2 : SecuredToken F2 E2) (key i1 i2 : bytes) x1 x2,
  let b1 := st_payload t1 in let b2 := st_payload t2 in
  let n1 := body_nonce b1 in let n2 := body_nonce b2 in
  let c1 := body_cipher v b1 in let c2 := body_cipher v b2 in
  let f1 := st_encoded_footer t1 in let f2 := st_encoded_footer t2 in
  local_sizes v (suffix EN1) c1 f1 i1 -> local_sizes v (suffix EN2) c2 f2 i2 ->
  decrypt_with_assertions P v EN1 t1 key i1 = Ok x1 ->
  decrypt_with_assertions P v EN2 t2 key i2 = Ok x2 ->
  body_tag v b1 = body_tag v b2 ->
  (n1 = n2 /\ c1 = c2 /\ f1 = f2 /\ i1 = i2 /\ suffix EN1 = suffix EN2) \/
  (let m1 := PAE [local_header v (suffix EN1); n1; c1; f1; i1] in
   let m2 := PAE [local_header v (suffix EN2); n2; c2; f2; i2] in
   m1 <> m2 /\ mac P v (local_ak P v key n1) m1 = mac P v (local_ak P v key n2) m2).
Proof. exact c18_tamper_detection. Qed.
Print Assumptions C18_tamper_detection.

(** Both alternatives occur: equal tokens (any primitives), and, with the broken primitives of
    [Samples], two different accepted tokens with equal tags. *)
Example C18_example : forall v : version,
  let t := sealed_tok Mini v ia in
  let w := sealed_tok Weak v ia in
  let w' := refoot w (str "{kim}") (str "kim") in
  local_sizes v (str "x") (body_cipher v (st_payload t)) f0 ia /\
  decrypt_with_assertions Mini v num_encoding t key32 ia = Ok tok0 /\
  local_sizes v (str "x") (body_cipher v (st_payload w')) (str "{kim}") ia /\
  decrypt_with_assertions Weak v num_encoding w key32 ia = Ok tok0 /\
  is_ok (decrypt_with_assertions Weak v num_encoding w' key32 ia) = true.
Proof. evaluate. Qed.

(** C18, as tamper evidence: take an honest token and change anything in its body
    (keeping the tag), footer, assertion or encoding: the result is [CryptoError]
    unless the MAC collides on the two explicit messages. *)
Theorem C18_honest_token_tampered :
  forall (P : Prims) (M2 F2 E2 : Type) (v : version) (EN2 : Encoding E2 M2)
         (sfx key n m f i : bytes) (t2 : SecuredToken F2 E2) (i2 : bytes),
  SymLaws P -> length n = 32 ->
  let c := local_cipher P v key n m in
  let body := local_encrypt P v sfx key n m f i in
  let b2 := st_payload t2 in
  let n2 := body_nonce b2 in let c2 := body_cipher v b2 in let f2 := st_encoded_footer t2 in
  32 + tag_len v <= length b2 ->
  local_sizes v sfx c f i -> local_sizes v (suffix EN2) c2 f2 i2 ->
  body_tag v b2 = body_tag v body ->
  (n2, c2, f2, i2, suffix EN2) <> (n, c, f, i, sfx) ->
  let m1 := PAE [local_header v sfx; n; c; f; i] in
  let m2 := PAE [local_header v (suffix EN2); n2; c2; f2; i2] in
  ~ (m1 <> m2 /\ mac P v (local_ak P v key n) m1 = mac P v (local_ak P v key n2) m2) ->
  decrypt_with_assertions P v EN2 t2 key i2 = Err CryptoError.
Proof. exact c18_honest_token_tampered. Qed.
Print Assumptions C18_honest_token_tampered.

Example C18_tampered_example : forall v : version,
  let t2 := refoot (sealed_tok Mini v ia) (str "{kim}") (str "kim") in
  let c := local_cipher Mini v key32 n0 m0 in
  length n0 = 32 /\ 32 + tag_len v <= length (st_payload t2) /\
  local_sizes v (str "x") c f0 ia /\
  local_sizes v (str "x") (body_cipher v (st_payload t2)) (st_encoded_footer t2) ia /\
  body_tag v (st_payload t2) = body_tag v (local_encrypt Mini v (str "x") key32 n0 m0 f0 ia) /\
  (body_nonce (st_payload t2), body_cipher v (st_payload t2), st_encoded_footer t2, ia, str "x")
    <> (n0, c, f0, ia, str "x") /\
  (let m1 := PAE [local_header v (str "x"); n0; c; f0; ia] in
   let m2 := PAE [local_header v (str "x"); n0; c; str "{kim}"; ia] in
   ~ (m1 <> m2 /\ mac Mini v (local_ak Mini v key32 n0) m1 = mac Mini v (local_ak Mini v key32 n0) m2)) /\
  decrypt_with_assertions Mini v num_encoding t2 key32 ia = Err CryptoError.
Proof. evaluate. Qed.

(** C19: exact panic condition of decryption. *)
Theorem C19_decrypt_panic_iff :
  forall (P : Prims) (M F E : Type) (v : version) (EN : Encoding E M)
         (t : SecuredToken F E) (key implicit : bytes),
  let b := st_payload t in
  local_sizes v (suffix EN) (body_cipher v b) (st_encoded_footer t) implicit ->
  (decrypt_with_assertions P v EN t key implicit = Panic <->
   length b < 32 + tag_len v \/
   (32 + tag_len v <= length b /\
    v = V4 /\ (xchacha20_limit < nlen (body_cipher v b))%N /\
    body_tag v b = local_tag P v (suffix EN) key (body_nonce b) (body_cipher v b)
                             (st_encoded_footer t) implicit)).
Proof. exact c19_decrypt_panic_iff. Qed.
Print Assumptions C19_decrypt_panic_iff.

Example C19_example : forall v : version,
  let t := sealed_tok Mini v ia in
  let short := {| st_encoding := x07; st_payload := repeat x01 (31 + tag_len v);
                  st_encoded_footer := f0; st_footer := str "kid" |} in
  local_sizes v (str "x") (body_cipher v (st_payload t)) f0 ia /\
  local_sizes v (str "x") (body_cipher v (st_payload short)) f0 ia /\
  decrypt_with_assertions Mini v num_encoding t key32 ia <> Panic /\
  decrypt_with_assertions Mini v num_encoding short key32 ia = Panic.
Proof. evaluate. Qed.

(** C19, ideal claim refuted: a short text that parses makes decryption panic, for every
    key, assertion, primitives and message type, in both versions. *)
Theorem C19_decrypt_no_panic_refuted :
  forall (v : version), exists (s : bytes) (t : SecuredToken unit unit),
  token_parse v PLocal [] tt unit_footer s = Ok t /\
  forall (P : Prims) (M : Type) (J : JsonCodec M) (key implicit : bytes),
  decrypt_with_assertions P v (json_encoding J) t key implicit = Panic.
Proof. exact c19_decrypt_no_panic_refuted. Qed.
Print Assumptions C19_decrypt_no_panic_refuted.

(** C20: exactly when and how encryption fails, and that it always consumes exactly
    32 bytes of randomness. *)
Theorem C20_encrypt_outcome :
  forall (P : Prims) (M F E : Type) (v : version) (EN : Encoding E M) (FC : FooterCodec F)
         (t : ValidatedToken M F E) (key implicit : bytes) (r : rng),
  let res := encrypt_with_rng P v EN FC t key implicit r in
  snd res = advance r 32 /\
  (forall e, fst res = Err e <->
     exists msg, e = PayloadError msg /\ e_encode EN (vt_encoding t) (vt_message t) = CErr msg) /\
  (fst res = Panic <->
     exists m, e_encode EN (vt_encoding t) (vt_message t) = COk m /\
       (f_encode FC (vt_footer t) = None \/
        (f_encode FC (vt_footer t) <> None /\ ~ within_limit v (nlen m)))) /\
  (forall tok, fst res = Ok tok ->
     f_encode FC (vt_footer t) = Some (st_encoded_footer tok) /\
     st_footer tok = vt_footer t /\ st_encoding tok = vt_encoding t).
Proof. exact c20_encrypt_outcome. Qed.
Print Assumptions C20_encrypt_outcome.

(** All outcomes occur. *)
Example C20_example : forall v : version,
  let bad_message := {| vt_encoding := x07; vt_message := 300%N; vt_footer := str "kid" |} in
  let bad_footer := {| vt_encoding := x07; vt_message := 42%N; vt_footer := [] |} in
  let run t := fst (encrypt_with_rng Mini v num_encoding (json_footer braces) t key32 ia rng0) in
  run tok0 = Ok (sealed_tok Mini v ia) /\
  run bad_message = Err (PayloadError (str "too big")) /\
  run bad_footer = Panic.
Proof. evaluate. Qed.

(** C20, finding: a JSON footer that serde_json cannot serialise makes encryption panic
    instead of returning [PayloadError]. *)
Theorem C20_json_footer_panics :
  forall (P : Prims) (M T : Type) (v : version) (J : JsonCodec M) (JF : JsonCodec T)
         (t : ValidatedToken M T unit) (key implicit m e : bytes) (r : rng),
  json_to_vec J (vt_message t) = COk m -> json_to_vec JF (vt_footer t) = CErr e ->
  fst (encrypt_with_rng P v (json_encoding J) (json_footer JF) t key implicit r) = Panic.
Proof. exact c20_json_footer_panics. Qed.
Print Assumptions C20_json_footer_panics.

Example C20_json_example :
  json_to_vec braces (str "message") = COk (str "{message}") /\ json_to_vec braces [] = CErr (str "empty").
Proof. evaluate. Qed.

(** C21: in any sequence of encryption requests from one generator, whatever their
    types, versions, keys and outcomes, the nonce of the k-th one (if it succeeds) is the
    k-th 32-byte block of the generator's output. *)
Theorem C21_nonces_are_fresh_blocks :
  forall (P : Prims) (reqs : list enc_request) (r : rng),
  snd (run_encryptions P reqs r) = advance r (32 * length reqs) /\
  forall k body, nth_error (fst (run_encryptions P reqs r)) k = Some (Ok body) ->
  firstn 32 body = draw r (32 * k) 32.
Proof. exact c21_nonces_are_fresh_blocks. Qed.
Print Assumptions C21_nonces_are_fresh_blocks.

(** Three requests, of both versions, the middle one failing. *)
Definition C21_requests : list enc_request :=
  let rq v m := {| rq_M := N; rq_F := bytes; rq_E := byte; rq_version := v; rq_encoding := num_encoding;
                   rq_footer := json_footer braces;
                   rq_token := {| vt_encoding := x07; vt_message := m; vt_footer := str "kid" |};
                   rq_key := key32; rq_implicit := ia |} in
  [rq V4 1%N; rq V3 300%N; rq V4 3%N].
Example C21_example :
  map (omap (firstn 32)) (fst (run_encryptions Mini C21_requests rng0)) =
    [Ok (draw rng0 0 32); Err (PayloadError (str "too big")); Ok (draw rng0 64 32)] /\
  pos (snd (run_encryptions Mini C21_requests rng0)) = 5 + 96.
Proof. evaluate. Qed.

(** C21: hence equal nonces at different points of a history mean that the generator
    repeated a 32-byte block. *)
Theorem C21_nonce_reuse_means_repeated_block :
  forall (P : Prims) (reqs : list enc_request) (r : rng) (j k : nat) (b1 b2 : bytes),
  nth_error (fst (run_encryptions P reqs r)) j = Some (Ok b1) ->
  nth_error (fst (run_encryptions P reqs r)) k = Some (Ok b2) ->
  firstn 32 b1 = firstn 32 b2 -> draw r (32 * j) 32 = draw r (32 * k) 32.
Proof. exact c21_nonce_reuse_means_repeated_block. Qed.
Print Assumptions C21_nonce_reuse_means_repeated_block.

(** With a generator of period 32 the nonces do repeat. *)
Example C21_reuse_example :
  let r := {| tape := fun i => n2b (N.of_nat (i mod 32)); pos := 0 |} in
  let bodies := fst (run_encryptions Mini C21_requests r) in
  exists b1 b2, nth_error bodies 0 = Some (Ok b1) /\ nth_error bodies 2 = Some (Ok b2) /\
  firstn 32 b1 = firstn 32 b2 /\ b1 <> b2.
Proof. cbv zeta. do 2 eexists. split; [vm_compute; reflexivity|]. evaluate. Qed.

(** C13: what is authenticated and returned does not depend on the decoded footer: the
    received raw bytes are authenticated, the decoded footer is only passed along. *)
Theorem C13_raw_footer_authenticated :
  forall (P : Prims) (M F F' E : Type) (v : version) (EN : Encoding E M)
         (t : SecuredToken F E) (f' : F') (key implicit : bytes),
  let t' := {| st_encoding := st_encoding t; st_payload := st_payload t;
               st_encoded_footer := st_encoded_footer t; st_footer := f' |} in
  decrypt_with_assertions P v EN t' key implicit =
  omap (fun x => {| vt_encoding := vt_encoding x; vt_message := vt_message x; vt_footer := f' |})
       (decrypt_with_assertions P v EN t key implicit) /\
  (forall x, decrypt_with_assertions P v EN t key implicit = Ok x -> vt_footer x = st_footer t).
Proof. exact c13_raw_footer_authenticated. Qed.
Print Assumptions C13_raw_footer_authenticated.

(** Two typed views of one raw footer. *)
Example C13_raw_footer_example : forall v : version,
  let t := sealed_tok Mini v ia in
  let t' := {| st_encoding := st_encoding t; st_payload := st_payload t;
               st_encoded_footer := st_encoded_footer t; st_footer := 7%N |} in
  decrypt_with_assertions Mini v num_encoding t key32 ia = Ok tok0 /\
  decrypt_with_assertions Mini v num_encoding t' key32 ia =
    Ok {| vt_encoding := x07; vt_message := 42%N; vt_footer := 7%N |}.
Proof. evaluate. Qed.

(** C27, local: the short entry points are the assertion variants with an empty
    assertion. *)
Theorem C27_local_short_entry_points :
  forall (P : Prims) (M F E : Type) (v : version) (EN : Encoding E M) (FC : FooterCodec F)
         (t : ValidatedToken M F E) (tok : SecuredToken F E) (key : bytes) (r : rng),
  encrypt P v EN FC t key r = encrypt_with_rng P v EN FC t key [] r /\
  decrypt P v EN tok key = decrypt_with_assertions P v EN tok key [].
Proof. exact c27_local_short_entry_points. Qed.
Print Assumptions C27_local_short_entry_points.

Example C27_short_example : forall v : version,
  decrypt Mini v num_encoding (sealed_tok Mini v []) key32 = Ok tok0 /\
  decrypt Mini v num_encoding (sealed_tok Mini v ia) key32 = Err CryptoError.
Proof. evaluate. Qed.

(** C27, local: a token made with a non-empty assertion and accepted without one is an
    explicit MAC collision. *)
Theorem C27_assertion_not_droppable :
  forall (P : Prims) (M F E M' F' E' : Type) (v : version) (EN : Encoding E M) (EN' : Encoding E' M')
         (tok : SecuredToken F E) (tok' : SecuredToken F' E') (key i : bytes) x x',
  let b := st_payload tok in
  st_payload tok' = b -> i <> [] ->
  local_sizes v (suffix EN) (body_cipher v b) (st_encoded_footer tok) i ->
  local_sizes v (suffix EN') (body_cipher v b) (st_encoded_footer tok') [] ->
  decrypt_with_assertions P v EN tok key i = Ok x ->
  decrypt P v EN' tok' key = Ok x' ->
  exists m1 m2, m1 <> m2 /\
    mac P v (local_ak P v key (body_nonce b)) m1 = mac P v (local_ak P v key (body_nonce b)) m2.
Proof. exact c27_assertion_not_droppable. Qed.
Print Assumptions C27_assertion_not_droppable.

(** The hypotheses can only be met with a colliding MAC, such as the broken one of [Samples]. *)
Example C27_example : forall v : version,
  let w := sealed_tok Weak v ia in
  let b := st_payload w in
  ia <> [] /\
  local_sizes v (str "x") (body_cipher v b) f0 ia /\ local_sizes v (str "x") (body_cipher v b) f0 [] /\
  decrypt_with_assertions Weak v num_encoding w key32 ia = Ok tok0 /\
  decrypt Weak v num_encoding w key32 = Ok tok0 /\
  decrypt Mini v num_encoding (sealed_tok Mini v ia) key32 = Err CryptoError.
Proof. evaluate. Qed.

(** C58: for v4 encryption panics exactly when the (encodable) message exceeds
    64*(2^32-1) bytes; v3 has no such limit. *)
Theorem C58_v4_length_limit :
  forall (P : Prims) (M F E : Type) (v : version) (EN : Encoding E M) (FC : FooterCodec F)
         (t : ValidatedToken M F E) (key implicit m f : bytes) (r : rng),
  e_encode EN (vt_encoding t) (vt_message t) = COk m ->
  f_encode FC (vt_footer t) = Some f ->
  (fst (encrypt_with_rng P v EN FC t key implicit r) = Panic <->
   v = V4 /\ (64 * (2 ^ 32 - 1) < nlen m)%N).
Proof. exact c58_v4_length_limit. Qed.
Print Assumptions C58_v4_length_limit.

(** Messages beyond the limit exist, and are not a matter of encoding. *)
Example C58_example :
  (exists m : bytes, (64 * (2 ^ 32 - 1) < nlen m)%N) /\
  e_encode num_encoding (vt_encoding tok0) (vt_message tok0) = COk m0 /\
  f_encode (json_footer braces) (vt_footer tok0) = Some f0.
Proof.
  split; [|evaluate].
  exists (repeat x00 (N.to_nat (64 * 2 ^ 32))). unfold nlen. rewrite repeat_length, N2Nat.id. reflexivity.
Qed.

(** C55: block by block, the implementation's counter equals the standard's 128-bit
    counter exactly as long as the low 64 bits do not overflow. *)
Theorem C55_counter_blocks :
  forall (iv : bytes) (i : nat), length iv = 16 -> (N.of_nat i <= two64)%N ->
  (ctr64_block iv i = ctr128_block iv i <-> (be_val (skipn 8 iv) + N.of_nat i < two64)%N).
Proof. exact c55_counter_blocks. Qed.
Print Assumptions C55_counter_blocks.

(** Low half at its maximum: block 0 agrees, block 1 has wrapped. *)
Example C55_example :
  let iv := repeat x2a 8 ++ repeat xff 8 in
  length iv = 16 /\
  ctr64_block iv 0 = ctr128_block iv 0 /\
  ctr64_block iv 1 = repeat x2a 8 ++ repeat x00 8 /\
  ctr128_block iv 1 = repeat x2a 7 ++ [x2b] ++ repeat x00 8.
Proof. evaluate. Qed.

(** C55: so the v3 cipher is the standard's as long as there is no overflow... *)
Theorem C55_cipher_agrees :
  forall (P : Prims) (key iv d : bytes), length iv = 16 -> ctr_safe iv (length d) ->
  apply_keystream P V3 key iv d = Ok (aes256_ctr P key iv d).
Proof. exact c55_cipher_agrees. Qed.
Print Assumptions C55_cipher_agrees.

Example C55_agrees_example :
  let iv := repeat x2a 8 ++ repeat xff 7 ++ [xfd] in
  length iv = 16 /\ ctr_safe iv 45 /\ blocks 45 = 3.
Proof. evaluate. Qed.

(** C55: ...and differs from it otherwise, for any block cipher that is injective (as AES
    is, see C80): data of whole blocks is encrypted as in the standard exactly if the low
    64 bits do not overflow. *)
Theorem C55_cipher_differs_on_overflow :
  forall (P : Prims) (key iv d : bytes) (n : nat),
  SymLaws P ->
  (forall a b, length a = 16 -> length b = 16 -> aes256 P key a = aes256 P key b -> a = b) ->
  length iv = 16 -> length d = 16 * n ->
  (apply_keystream P V3 key iv d = Ok (aes256_ctr P key iv d) <-> ctr_safe iv (length d)).
Proof. exact c55_cipher_differs_on_overflow. Qed.
Print Assumptions C55_cipher_differs_on_overflow.

Example C55_differs_example :
  let iv := repeat x2a 8 ++ repeat xff 8 in
  (forall a b, length a = 16 -> length b = 16 -> aes256 Mini key32 a = aes256 Mini key32 b -> a = b) /\
  length iv = 16 /\ ctr_safe iv 16 /\ ~ ctr_safe iv 32.
Proof.
  split; [exact (mini_aes_injective key32)|]. split; [reflexivity|]. split; [evaluate|].
  intros H. vm_compute in H. exact (H eq_refl).
Qed.

(** C55: so a v3 token for a message of whole blocks is the standard's token exactly if the
    low 64 bits of the derived counter do not overflow. *)
Theorem C55_token_is_spec_iff :
  forall (P : Prims) (M F E : Type) (EN : Encoding E M) (FC : FooterCodec F)
         (t : ValidatedToken M F E) (key implicit m f : bytes) (r : rng) (n : nat),
  SymLaws P ->
  (forall k a b, length a = 16 -> length b = 16 -> aes256 P k a = aes256 P k b -> a = b) ->
  e_encode EN (vt_encoding t) (vt_message t) = COk m ->
  f_encode FC (vt_footer t) = Some f ->
  local_sizes V3 (suffix EN) m f implicit -> length m = 16 * n ->
  (fst (encrypt_with_rng P V3 EN FC t key implicit r) =
   Ok {| st_encoding := vt_encoding t;
         st_payload := local_encrypt P V3 (suffix EN) key (draw r 0 32) m f implicit;
         st_encoded_footer := f; st_footer := vt_footer t |} <->
   ctr_safe (local_iv P V3 key (draw r 0 32)) (length m)).
Proof. exact c55_token_is_spec_iff. Qed.
Print Assumptions C55_token_is_spec_iff.

Example C55_token_example :
  (forall k a b, length a = 16 -> length b = 16 -> aes256 Mini k a = aes256 Mini k b -> a = b) /\
  local_sizes V3 [] (repeat x2a 32) f0 ia /\ length (repeat x2a 32) = 16 * 2 /\
  ctr_safe (local_iv Mini V3 key32 (draw rng0 0 32)) 32.
Proof. split; [exact mini_aes_injective|]. evaluate. Qed.

(** C53, local tokens: the printed length is determined by the lengths of message,
    footer and suffix. *)
Theorem C53_local_text_length :
  forall (P : Prims) (M F E : Type) (v : version) (EN : Encoding E M) (FC : FooterCodec F)
         (t : ValidatedToken M F E) (key implicit m f : bytes) (r : rng) tok r',
  SymLaws P ->
  e_encode EN (vt_encoding t) (vt_message t) = COk m -> f_encode FC (vt_footer t) = Some f ->
  encrypt_with_rng P v EN FC t key implicit r = (Ok tok, r') ->
  length (token_display v PLocal (suffix EN) tok) =
  length (suffix EN) + 9 + (4 * (32 + length m + tag_len v) + 2) / 3
  + match f with [] => 0 | _ => 1 + (4 * length f + 2) / 3 end.
Proof. exact c53_local_text_length. Qed.
Print Assumptions C53_local_text_length.

Example C53_local_example : forall v : version,
  length (token_display v PLocal (str "x") (sealed_tok Mini v ia)) =
  match v with V3 => 1 + 9 + 110 + 8 | V4 => 1 + 9 + 88 + 8 end.
Proof. evaluate. Qed.
