(** Theorems of the property list; statements only, proofs are in [ProofsText]. *)
From Coq Require Import ZArith ZifyBool ZifyNat ZifyN.
From Verif Require Import Bytes Outcome Base64 Pae Prims Version Key Token
  Plaintext KeyId Wrap Pbkw Pke Local Public Serde SpecBase64 SpecPaseto SpecPaserk SpecText Observe.
From Verif Require Import ProofsText.

(** C01: equal encodings come from equal lists of pieces (a piece is what its
    sub-slices concatenate to). *)
Theorem C01_pae_injective :
  forall ps qs : list (list bytes),
  fits (map (@concat byte) ps) -> fits (map (@concat byte) qs) ->
  pae ps = pae qs -> map (@concat byte) ps = map (@concat byte) qs.
Proof. exact c01_pae_injective. Qed.
Print Assumptions C01_pae_injective.

(** Two fragmentations of the same pieces. *)
Example C01_injective_example :
  let ps := [[str "v4"; str ""; str "."; str "local"; str "."]; [str "nonce"]; []] in
  let qs := [[str "v4.local."]; [str "non"; str "ce"]; [[]]] in
  fits (map (@concat byte) ps) /\ fits (map (@concat byte) qs) /\ ps <> qs /\ pae ps = pae qs.
Proof.
  split; [split; [reflexivity|repeat constructor]|]. split; [split; [reflexivity|repeat constructor]|].
  split; [discriminate|vm_compute; reflexivity].
Qed.

(** C01: moreover no encoding is a proper prefix of another. *)
Theorem C01_pae_prefix_free :
  forall (ps qs : list (list bytes)) (x y : bytes),
  fits (map (@concat byte) ps) -> fits (map (@concat byte) qs) ->
  pae ps ++ x = pae qs ++ y -> map (@concat byte) ps = map (@concat byte) qs /\ x = y.
Proof. exact c01_pae_prefix_free. Qed.
Print Assumptions C01_pae_prefix_free.

(** The hypotheses hold of the five pieces of a real token, and moving one byte
    between neighbours changes the encoding. *)
Example C01_example :
  let ps := [[str "v4"; str ""; str "."; str "local"; str "."]; [str "nonce"]; [str "ab"]; [str "c"]; []] in
  let qs := [[str "v4.local."]; [str "nonce"]; [str "a"]; [str "bc"]; []] in
  fits (map (@concat byte) ps) /\ fits (map (@concat byte) qs) /\ pae ps <> pae qs.
Proof.
  split; [|split].
  - split; [reflexivity|repeat constructor].
  - split; [reflexivity|repeat constructor].
  - intros H. vm_compute in H. discriminate.
Qed.

(** C02: the model's encoding is the standard's, however the pieces are cut. *)
Theorem C02_pae_is_spec :
  forall pieces : list (list bytes),
  (N.of_nat (length pieces) < two63)%N ->
  Forall rust_slice (map (@concat byte) pieces) ->
  pae pieces = PAE (map (@concat byte) pieces).
Proof. exact c02_pae_is_spec. Qed.
Print Assumptions C02_pae_is_spec.

Example C02_spec_example :
  let ps := [[str "a"; str "b"]; []; [str "c"]] in
  (N.of_nat (length ps) < two63)%N /\ Forall rust_slice (map (@concat byte) ps) /\
  pae ps = [x03; x00; x00; x00; x00; x00; x00; x00;
            x02; x00; x00; x00; x00; x00; x00; x00; x61; x62;
            x00; x00; x00; x00; x00; x00; x00; x00;
            x01; x00; x00; x00; x00; x00; x00; x00; x63].
Proof. split; [reflexivity|]. split; [repeat constructor|vm_compute; reflexivity]. Qed.

(** C02: fragmentation is irrelevant, without any size bound. *)
Theorem C02_fragmentation :
  forall ps qs : list (list bytes),
  map (@concat byte) ps = map (@concat byte) qs -> pae ps = pae qs.
Proof. exact c02_fragmentation. Qed.
Print Assumptions C02_fragmentation.

Example C02_example :
  let ps := [[str "v4"; str ""; str "."; str "local"; str "."]; [str "nonce"]; []] in
  (N.of_nat (length ps) < two63)%N /\ Forall rust_slice (map (@concat byte) ps) /\
  pae ps = PAE [str "v4.local."; str "nonce"; str ""].
Proof. split; [reflexivity|]. split; [repeat constructor|reflexivity]. Qed.

(** C03: the encoder is RFC 4648 and the decoder (both the allocating one used for
    tokens and the fixed-buffer one used for PASERKs) inverts it. *)
Theorem C03_base64_roundtrip :
  forall b : bytes,
  encode_string b = base64url b /\
  decode_vec (base64url b) = Some b /\
  (forall cap, length b <= cap -> decode_buf cap (base64url b) = Some b).
Proof. exact c03_base64_roundtrip. Qed.
Print Assumptions C03_base64_roundtrip.

Example C03_example :
  encode_string (str "{""data"":1}") = str "eyJkYXRhIjoxfQ" /\
  decode_vec (str "eyJkYXRhIjoxfQ") = Some (str "{""data"":1}").
Proof. split; vm_compute; reflexivity. Qed.

(** C04: acceptance is exactly being the encoding of the result. *)
Theorem C04_base64_canonical :
  forall (s d : bytes), decode_vec s = Some d <-> s = base64url d.
Proof. exact c04_base64_canonical. Qed.
Print Assumptions C04_base64_canonical.

Example C04_canonical_example :
  decode_vec (str "-_8") = Some [xfb; xff] /\ str "-_8" = base64url [xfb; xff] /\ decode_vec (str "-_9") = None.
Proof. repeat split; vm_compute; reflexivity. Qed.

(** C04: the same for the fixed-buffer decoder. *)
Theorem C04_base64_buf_canonical :
  forall (cap : nat) (s d : bytes),
  decode_buf cap s = Some d <-> s = base64url d /\ length d <= cap.
Proof. exact c04_base64_buf_canonical. Qed.
Print Assumptions C04_base64_buf_canonical.

Example C04_buf_example :
  decode_buf 2 (str "-_8") = Some [xfb; xff] /\ decode_buf 1 (str "-_8") = None /\ decode_buf 2 (str "-_9") = None.
Proof. repeat split; vm_compute; reflexivity. Qed.

(** C04: hence no other alphabet, no padding or white space, no length 1 mod 4, and
    no second text for the same bytes. *)
Theorem C04_base64_strict :
  forall (s d : bytes), decode_vec s = Some d ->
  Forall (fun c => In c alphabet) s /\ length s mod 4 <> 1 /\
  length s = (4 * length d + 2) / 3 /\
  (forall s', decode_vec s' = Some d -> s' = s).
Proof. exact c04_base64_strict. Qed.
Print Assumptions C04_base64_strict.

(** Accepted and rejected segments (trailing bits, padding, standard alphabet). *)
Example C04_example :
  decode_vec (str "Zg") = Some (str "f") /\ decode_vec (str "Zh") = None /\
  decode_vec (str "Zg==") = None /\ decode_vec (str "-_-_") = Some [xfb; xff; xbf] /\
  decode_vec (str "+/+/") = None /\ decode_vec (str "Z") = None /\ decode_vec (str "Zg ") = None.
Proof. repeat split; vm_compute; reflexivity. Qed.

(** C05 *)
Theorem C05_write_b64_total :
  forall b : bytes, write_b64 b = Ok (base64url b) /\ length (base64url b) = (4 * length b + 2) / 3.
Proof. exact c05_write_b64_total. Qed.
Print Assumptions C05_write_b64_total.

(** Three chunks: 48 + 48 + 4 bytes. *)
Example C05_example :
  length (chunks 48 (repeat xab 100)) = 3 /\
  write_b64 (repeat xab 100) = Ok (base64url (repeat xab 100)).
Proof. split; vm_compute; reflexivity. Qed.

(** C06: every text is either the encoding of an n-byte string, which is returned,
    or is refused with the base64 error. *)
Theorem C06_read_b64_exact :
  forall (n : nat) (s : bytes),
  (exists d, length d = n /\ s = base64url d /\ read_b64 n s = Ok d) \/
  ((forall d, length d = n -> s <> base64url d) /\ read_b64 n s = Err Base64DecodeError).
Proof. exact c06_read_b64_exact. Qed.
Print Assumptions C06_read_b64_exact.

Example C06_example :
  read_b64 4 (str "AAECAw") = Ok [x00; x01; x02; x03] /\
  read_b64 4 (str "AAEC") = Err Base64DecodeError /\
  read_b64 4 (str "AAECAwQ") = Err Base64DecodeError /\
  read_b64 4 (str "") = Err Base64DecodeError /\
  read_b64 0 (str "") = Ok [].
Proof. repeat split; vm_compute; reflexivity. Qed.

(** C07: parsing the printed text gives payload and raw footer back, and the footer
    is what the footer decoder makes of the raw footer bytes. *)
Theorem C07_token_text_roundtrip :
  forall (F E : Type) (v : version) (p : purpose) (sfx : bytes) (e0 : E)
         (FC : FooterCodec F) (t : SecuredToken F E) (f : F),
  f_decode FC (st_encoded_footer t) = COk f ->
  token_parse v p sfx e0 FC (token_display v p sfx t) =
  Ok {| st_encoding := e0; st_payload := st_payload t;
        st_encoded_footer := st_encoded_footer t; st_footer := f |}.
Proof. exact c07_token_text_roundtrip. Qed.
Print Assumptions C07_token_text_roundtrip.

(** The parsed token has the default encoding and the footer the codec reads, here a unit. *)
Example C07_roundtrip_example :
  let t := {| st_encoding := x09; st_payload := str "payload"; st_encoded_footer := []; st_footer := tt |} in
  f_decode unit_footer (st_encoded_footer t) = COk tt /\
  token_parse V3 PPublic (str "x") x07 unit_footer (token_display V3 PPublic (str "x") t) =
  Ok {| st_encoding := x07; st_payload := str "payload"; st_encoded_footer := []; st_footer := tt |}.
Proof. split; vm_compute; reflexivity. Qed.

(** C07: so if the token's footer is the decoding of its raw footer and the encoding
    is the type's default, the very same token comes back. *)
Theorem C07_token_text_identity :
  forall (F E : Type) (v : version) (p : purpose) (sfx : bytes)
         (FC : FooterCodec F) (t : SecuredToken F E),
  f_decode FC (st_encoded_footer t) = COk (st_footer t) ->
  token_parse v p sfx (st_encoding t) FC (token_display v p sfx t) = Ok t.
Proof. exact c07_token_text_identity. Qed.
Print Assumptions C07_token_text_identity.

Example C07_identity_example :
  let t := {| st_encoding := tt; st_payload := []; st_encoded_footer := [x00]; st_footer := [x00] |} in
  f_decode vec_footer (st_encoded_footer t) = COk (st_footer t) /\
  token_parse V4 PPublic [] tt vec_footer (token_display V4 PPublic [] t) = Ok t.
Proof. split; vm_compute; reflexivity. Qed.

(** C07: the printed text is the standard's. *)
Theorem C07_token_text_spec :
  forall (F E : Type) (v : version) (p : purpose) (sfx : bytes) (t : SecuredToken F E),
  token_display v p sfx t =
  token_text (token_header v p sfx) (st_payload t) (st_encoded_footer t).
Proof. exact c07_token_text_spec. Qed.
Print Assumptions C07_token_text_spec.

Example C07_example :
  let t := {| st_encoding := tt; st_payload := str "payload"; st_encoded_footer := str "kid";
              st_footer := str "kid" |} in
  f_decode vec_footer (st_encoded_footer t) = COk (st_footer t) /\
  token_display V4 PLocal [] t = str "v4.local.cGF5bG9hZA.a2lk" /\
  token_parse V4 PLocal [] tt vec_footer (str "v4.local.cGF5bG9hZA.a2lk") = Ok t.
Proof. repeat split; vm_compute; reflexivity. Qed.

(** C08 *)
Theorem C08_token_language :
  forall (F E : Type) (v : version) (p : purpose) (sfx : bytes) (e0 : E)
         (FC : FooterCodec F) (s : bytes) (t : SecuredToken F E),
  token_parse v p sfx e0 FC s = Ok t <->
  exists body footer f,
    token_grammar v p sfx s body footer /\ f_decode FC footer = COk f /\
    t = {| st_encoding := e0; st_payload := body; st_encoded_footer := footer; st_footer := f |}.
Proof. exact c08_token_language. Qed.
Print Assumptions C08_token_language.

Example C08_example :
  token_grammar V4 PLocal [] (str "v4.local.cGF5bG9hZA.a2lk") (str "payload") (str "kid") /\
  token_parse V4 PLocal [] tt unit_footer (str "v4.local.cGF5bG9hZA.a2lk") =
    Err (PayloadError (str "unexpected footer [107, 105, 100]")) /\
  token_parse V4 PLocal [] tt unit_footer (str "v4.public.cGF5bG9hZA") = Err InvalidToken /\
  token_parse V4 PLocal [] tt vec_footer (str "v4.local.cGF5bG9hZA.a2lk.") = Err Base64DecodeError.
Proof.
  split; [exact (tg_long V4 PLocal [] (str "payload") (str "kid"))|].
  repeat split; vm_compute; reflexivity.
Qed.

(** C09: the ideal claim (distinct accepted texts are distinct tokens) is false. *)
Theorem C09_unique_text_refuted :
  exists (s1 s2 : bytes) (t : SecuredToken unit unit),
  s1 <> s2 /\ token_parse V4 PLocal [] tt unit_footer s1 = Ok t /\
  token_parse V4 PLocal [] tt unit_footer s2 = Ok t.
Proof. exact c09_unique_text_refuted. Qed.
Print Assumptions C09_unique_text_refuted.

(** C09: the final dot is the only redundancy. *)
Theorem C09_only_final_dot :
  forall (F E : Type) (v : version) (p : purpose) (sfx : bytes) (e0 : E)
         (FC : FooterCodec F) (s1 s2 : bytes) (t1 t2 : SecuredToken F E),
  token_parse v p sfx e0 FC s1 = Ok t1 -> token_parse v p sfx e0 FC s2 = Ok t2 ->
  st_payload t1 = st_payload t2 -> st_encoded_footer t1 = st_encoded_footer t2 ->
  s1 = s2 \/ (st_encoded_footer t1 = [] /\ (s2 = s1 ++ str "." \/ s1 = s2 ++ str ".")).
Proof. exact c09_only_final_dot. Qed.
Print Assumptions C09_only_final_dot.

Example C09_example :
  is_ok (token_parse V3 PPublic [] tt vec_footer (str "v3.public.AAAA.Zg")) = true.
Proof. vm_compute; reflexivity. Qed.

(** C10: a text is accepted by at most one kind of parser.  Kinds comprise the
    version, the purpose and the encoding suffix (any suffix, even with dots) of
    tokens, and the version and type of PASERKs. *)
Theorem C10_kinds_disjoint :
  forall (P : Prims) (k1 k2 : text_kind) (s : bytes),
  accepts P k1 s -> accepts P k2 s -> k1 = k2.
Proof. exact c10_kinds_disjoint. Qed.
Print Assumptions C10_kinds_disjoint.

Example C10_example : forall P,
  accepts P (KToken V4 PLocal []) (str "v4.local.cGF5bG9hZA") /\
  accepts P (KId V4 Local) (str "k4.lid.AAAAAAAAAAAAAAAAAAAAAAAAAAAAAAAAAAAAAAAAAAAA").
Proof.
  intros P. split.
  - eapply (acc_token P unit unit V4 PLocal [] tt unit_footer). vm_compute. reflexivity.
  - eapply acc_id. vm_compute. reflexivity.
Qed.

(** C11 *)
Theorem C11_parse_no_panic :
  (forall (F E : Type) v p sfx (e0 : E) (FC : FooterCodec F) s, token_parse v p sfx e0 FC s <> Panic) /\
  (forall P v k s, plaintext_parse P v k s <> Panic) /\
  (forall v k s, id_parse v k s <> Panic) /\
  (forall v w s, pie_parse v w s <> Panic) /\
  (forall v w s, pw_parse v w s <> Panic) /\
  (forall v s, seal_parse v s <> Panic).
Proof. exact c11_parse_no_panic. Qed.
Print Assumptions C11_parse_no_panic.

Example C11_example :
  seal_parse V3 (str "k3.seal.") = Err Base64DecodeError /\ pw_parse V4 WLocal [] = Err InvalidToken.
Proof. split; vm_compute; reflexivity. Qed.

(** C12, tokens: the three failure classes are exclusive, exhaustive and determined
    by the first layer at fault. *)
Theorem C12_token_errors :
  forall (F E : Type) (v : version) (p : purpose) (sfx : bytes) (e0 : E)
         (FC : FooterCodec F) (s : bytes),
  let h := token_header v p sfx in
  let r := token_parse v p sfx e0 FC s in
  (r = Err InvalidToken <-> ~ exists x, s = h ++ x) /\
  (r = Err Base64DecodeError <-> (exists x, s = h ++ x) /\ ~ exists b f, token_grammar v p sfx s b f) /\
  (forall e, r = Err (PayloadError e) <->
             exists b f, token_grammar v p sfx s b f /\ f_decode FC f = CErr e) /\
  r <> Err InvalidKey /\ r <> Err CryptoError.
Proof. exact c12_token_errors. Qed.
Print Assumptions C12_token_errors.

(** All four outcomes occur. *)
Example C12_token_example :
  let parse := token_parse V4 PLocal [] tt unit_footer in
  parse (str "v4.public.AAAA") = Err InvalidToken /\
  parse (str "v4.local.AAAA.Z") = Err Base64DecodeError /\
  parse (str "v4.local.AAAA.Zg") = Err (PayloadError (str "unexpected footer [102]")) /\
  is_ok (parse (str "v4.local.AAAA")) = true.
Proof. repeat split; vm_compute; reflexivity. Qed.

(** C12, PASERKs.  [body_size] is the standard's body length for the kind. *)
Theorem C12_paserk_errors :
  forall (P : Prims) (k : text_kind) (s : bytes),
  is_paserk k = true ->
  let h := kind_header k in
  let r := paserk_result P k s in
  let well_formed := exists b, length b = body_size k /\ s = h ++ base64url b in
  (r = Err InvalidToken <-> ~ exists x, s = h ++ x) /\
  (r = Err Base64DecodeError <-> (exists x, s = h ++ x) /\ ~ well_formed) /\
  (r = Err InvalidKey <-> exists v kt b, k = KPlain v kt /\ length b = body_size k /\
        s = h ++ base64url b /\ key_from_bytes P v kt b = Err InvalidKey) /\
  (r = Ok tt -> well_formed) /\
  ((forall v kt, k <> KPlain v kt) -> well_formed -> r = Ok tt) /\
  r <> Err CryptoError /\ (forall e, r <> Err (PayloadError e)) /\ r <> Panic.
Proof. exact c12_paserk_errors. Qed.
Print Assumptions C12_paserk_errors.

Example C12_example : forall P,
  paserk_result P (KId V4 Local) (str "k4.lid.AAAA") = Err Base64DecodeError /\
  paserk_result P (KId V4 Local) (str "k3.lid.AAAA") = Err InvalidToken /\
  token_parse V4 PLocal [] tt unit_footer (str "v4.local.AA=") = Err Base64DecodeError.
Proof. intros P. repeat split; vm_compute; reflexivity. Qed.

(** C13: which footers each footer type accepts, and what it returns. *)
Theorem C13_footer_types :
  (forall b, f_decode unit_footer b = COk tt <-> b = []) /\
  (forall b, b <> [] -> f_decode unit_footer b = CErr (str "unexpected footer " ++ debug_slice b)) /\
  (forall b, f_decode vec_footer b = COk b) /\
  (forall T (J : JsonCodec T), f_decode (json_footer J) [] = CErr (str "missing footer")) /\
  (forall T (J : JsonCodec T) b, b <> [] -> f_decode (json_footer J) b = json_from_slice J b).
Proof. exact c13_footer_types. Qed.
Print Assumptions C13_footer_types.

Example C13_types_example :
  f_decode unit_footer [x66; x00] = CErr (str "unexpected footer [102, 0]") /\
  f_decode vec_footer [x66; x00] = COk [x66; x00].
Proof. split; vm_compute; reflexivity. Qed.

(** C13, observed at the parser: which token texts each footer type accepts. *)
Theorem C13_footer_acceptance :
  forall (E : Type) (v : version) (p : purpose) (sfx : bytes) (e0 : E) (s body footer : bytes),
  token_grammar v p sfx s body footer ->
  (is_ok (token_parse v p sfx e0 unit_footer s) = true <-> footer = []) /\
  token_parse v p sfx e0 vec_footer s =
    Ok {| st_encoding := e0; st_payload := body; st_encoded_footer := footer; st_footer := footer |} /\
  (forall T (J : JsonCodec T) t,
     token_parse v p sfx e0 (json_footer J) s = Ok t <->
     footer <> [] /\ exists x, json_from_slice J footer = COk x /\
       t = {| st_encoding := e0; st_payload := body; st_encoded_footer := footer; st_footer := x |}).
Proof. exact c13_footer_acceptance. Qed.
Print Assumptions C13_footer_acceptance.

Example C13_example :
  token_grammar V4 PPublic [] (str "v4.public.AAAA.Zg") [x00; x00; x00] (str "f").
Proof. exact (tg_long V4 PPublic [] [x00; x00; x00] (str "f")). Qed.

(** C28: at text level, different suffixes (or versions, or purposes) have no
    accepted text in common, whatever footer types and encodings are used. *)
Theorem C28_suffix_text_disjoint :
  forall (F F' E E' : Type) v p sfx v' p' sfx' (e0 : E) (e0' : E')
         (FC : FooterCodec F) (FC' : FooterCodec F') (s : bytes) t t',
  token_parse v p sfx e0 FC s = Ok t -> token_parse v' p' sfx' e0' FC' s = Ok t' ->
  v = v' /\ p = p' /\ sfx = sfx'.
Proof. exact c28_suffix_text_disjoint. Qed.
Print Assumptions C28_suffix_text_disjoint.

(** One text, two footer types. *)
Example C28_text_example :
  is_ok (token_parse V4 PLocal (str "c") tt vec_footer (str "v4c.local.AAAA")) = true /\
  is_ok (token_parse V4 PLocal (str "c") x07 unit_footer (str "v4c.local.AAAA")) = true.
Proof. split; vm_compute; reflexivity. Qed.

(** C28: the authenticated header determines version, purpose and suffix, for all
    suffixes. *)
Theorem C28_header_determines_encoding :
  forall v p sfx v' p' sfx',
  token_header v p sfx = token_header v' p' sfx' -> v = v' /\ p = p' /\ sfx = sfx'.
Proof. exact c28_header_determines_encoding. Qed.
Print Assumptions C28_header_determines_encoding.

Example C28_example :
  is_ok (token_parse V4 PLocal (str "c") tt vec_footer (str "v4c.local.AAAA")) = true /\
  token_parse V4 PLocal (str "") tt vec_footer (str "v4c.local.AAAA") = Err InvalidToken.
Proof. split; vm_compute; reflexivity. Qed.
