(** Theorems of the property list; statements only, proofs are in [ProofsFuzz]. *)
From Coq Require Import ZArith ZifyBool ZifyNat ZifyN.
From Verif Require Import Bytes Outcome Base64 Prims Version Key Token Local Public Plaintext KeyId
  Wrap Pbkw Pke Json Fuzz SpecBase64 SpecPaseto SpecPaserk SpecText SpecKey SpecJson Observe.
From Verif Require Import ProofsFuzz Samples.

(** C66: the JSON string reader accepts exactly the RFC 8259 strings whose value is UTF-8,
    with the value the RFC gives them. *)
Theorem C66_json_string_reader :
  forall s v r : bytes,
  parse_str_value s = Some (v, r) <->
  exists blank t, Forall (fun b => In b (str " " ++ [x0a; x09; x0d])) blank /\
    s = blank ++ t ++ r /\ jstring t v /\ utf8_text v.
Proof. exact c66_json_string_reader. Qed.
Print Assumptions C66_json_string_reader.

(** Blanks, all kinds of escapes, a surrogate pair, a two-byte character, and a rest. *)
Example C66_string_example :
  parse_str_value (str " ""a\u00E9\n\/\ud83d\uDE00\""" ++ [xc3; xa9] ++ str """, 1") =
    Some (str "a" ++ [xc3; xa9; x0a; x2f; xf0; x9f; x98; x80; x22; xc3; xa9], str ", 1") /\
  parse_str_value (str """\ud83d""") = None /\ parse_str_value (str """" ++ [xff] ++ str """") = None /\
  parse_str_value (str """a" ++ [x0a] ++ str """") = None /\ parse_str_value (str "x""a""") = None.
Proof. evaluate. Qed.

(** C66: what the one-field JSON objects of the crate's footers and messages look like, and
    that reading them back gives the same value, whatever the text. *)
Theorem C66_json_roundtrip :
  forall text : bytes, utf8_text text ->
  (exists lit, json_to_vec data_json text = COk (str "{""data"":" ++ lit ++ str "}") /\
     jstring lit text) /\
  (forall b, json_to_vec data_json text = COk b -> json_from_slice data_json b = COk text) /\
  (forall b, json_to_vec kid_string_json text = COk b -> json_from_slice kid_string_json b = COk text).
Proof. exact c66_json_roundtrip. Qed.
Print Assumptions C66_json_roundtrip.

(** Quotes, a backslash, a line feed, a control character and a non-ASCII character. *)
Example C66_roundtrip_example :
  let text := str "a""b\" ++ [x0a; x01; xc3; xa9] in
  utf8_text text /\
  json_to_vec data_json text = COk (str "{""data"":""a\""b\\\n\u0001" ++ [xc3; xa9] ++ str """}").
Proof. split; [apply JsonLemmas.valid_utf8_iff; reflexivity|reflexivity]. Qed.

(** C66: texts that are not UTF-8 never come out of the reader. *)
Theorem C66_json_only_utf8 :
  forall b text : bytes, json_from_slice data_json b = COk text -> utf8_text text.
Proof. exact c66_json_only_utf8. Qed.
Print Assumptions C66_json_only_utf8.

(** Other members are skipped; a missing or repeated field is refused. *)
Example C66_only_utf8_example :
  json_from_slice data_json (str "{ ""x"": [1, {""y"": null}, -2.5e3], ""data"": ""€"" } ") = COk [xe2; x82; xac] /\
  json_from_slice data_json (str "[""a""]") = COk (str "a") /\
  json_from_slice data_json (str "{""x"":1}") = CErr (str "json") /\
  json_from_slice data_json (str "{""data"":""a"",""data"":""a""}") = CErr (str "json") /\
  json_from_slice data_json (str "{""data"":""a""}}") = CErr (str "json") /\
  json_from_slice data_json (str "{""data"":""" ++ [xc0; x80] ++ str """}") = CErr (str "json").
Proof. evaluate. Qed.

(** C67: the documented key rotation (lib.rs:34-101) with its actual footer: the signed token
    carries [{"kid":"k4.pid.…"}]; whoever parses it reads back the identifier, finds the signing
    key's public key in the map and verification returns what was signed. *)
Theorem C67_documented_rotation_public :
  forall (P : Prims) (M E : Type) (v : version) (EN : Encoding E M) (keys : list (bytes * bytes))
         (t : ValidatedToken M bytes E) (sk implicit : bytes) (tok : SecuredToken bytes E),
  let FC := json_footer (kid_json v Public) in
  Laws P -> valid_key P v Secret sk = true -> key_map P v Public keys ->
  to_id P v Public (public_key P v sk) = Ok (vt_footer t) ->
  In (vt_footer t, public_key P v sk) keys ->
  (forall m, e_encode EN (vt_encoding t) (vt_message t) = COk m ->
             e_decode EN (e_default EN) m = COk (vt_message t)) ->
  sign_with_assertions P v EN FC t sk implicit = Ok tok ->
  st_encoded_footer tok = str "{""kid"":""" ++ id_h v Public ++ base64url (vt_footer t) ++ str """}" /\
  exists tok' pk',
    token_parse v PPublic (suffix EN) (e_default EN) FC (token_display v PPublic (suffix EN) tok) = Ok tok' /\
    unverified_footer tok' = vt_footer t /\
    lookup (unverified_footer tok') keys = Some pk' /\
    (verify_with_assertions P v EN tok' pk' implicit =
       Ok {| vt_encoding := e_default EN; vt_message := vt_message t; vt_footer := vt_footer t |}
     \/ id_collision P v Public (public_key P v sk) pk').
Proof. exact c67_documented_rotation_public. Qed.
Print Assumptions C67_documented_rotation_public.

Definition C67_id (v : version) (k : ktype) (key : bytes) : bytes :=
  match to_id Mini v k key with Ok i => i | _ => [] end.
(** Two keys in the map, the token signed by the second. *)
Example C67_example : forall v : version,
  let pk0 := public_key Mini v (sk0 v) in
  let pk1 := public_key Mini v (sk1 v) in
  let keys := [(C67_id v Public pk1, pk1); (C67_id v Public pk0, pk0)] in
  let t := {| vt_encoding := x07; vt_message := 42%N; vt_footer := C67_id v Public pk0 |} in
  key_map Mini v Public keys /\ In (vt_footer t, pk0) keys /\
  to_id Mini v Public pk0 = Ok (vt_footer t) /\
  is_ok (sign_with_assertions Mini v num_encoding (json_footer (kid_json v Public)) t (sk0 v) ia) = true /\
  id_display v Public (vt_footer t) = Ok (id_h v Public ++ base64url (vt_footer t)) /\
  f_encode (json_footer (kid_json v Public)) (vt_footer t) =
    Some (str "{""kid"":""" ++ id_h v Public ++ base64url (vt_footer t) ++ str """}").
Proof.
  intros v. cbv zeta. split; [|split; [|destruct v; evaluate]].
  - intros i key [H|[H|[]]]; injection H as <- <-; destruct v; split; vm_compute; reflexivity.
  - right; left; reflexivity.
Qed.

(** C67: the same for local tokens. *)
Theorem C67_documented_rotation_local :
  forall (P : Prims) (M E : Type) (v : version) (EN : Encoding E M) (keys : list (bytes * bytes))
         (t : ValidatedToken M bytes E) (key implicit m : bytes) (r : rng),
  let FC := json_footer (kid_json v Local) in
  Sizes P -> key_map P v Local keys ->
  to_id P v Local key = Ok (vt_footer t) -> In (vt_footer t, key) keys ->
  e_encode EN (vt_encoding t) (vt_message t) = COk m ->
  e_decode EN (e_default EN) m = COk (vt_message t) ->
  within_limit v (nlen m) ->
  exists tok tok' key',
    encrypt_with_rng P v EN FC t key implicit r = (Ok tok, advance r 32) /\
    st_encoded_footer tok = str "{""kid"":""" ++ id_h v Local ++ base64url (vt_footer t) ++ str """}" /\
    token_parse v PLocal (suffix EN) (e_default EN) FC (token_display v PLocal (suffix EN) tok) = Ok tok' /\
    unverified_footer tok' = vt_footer t /\
    lookup (unverified_footer tok') keys = Some key' /\
    (decrypt_with_assertions P v EN tok' key' implicit =
       Ok {| vt_encoding := e_default EN; vt_message := vt_message t; vt_footer := vt_footer t |}
     \/ id_collision P v Local key key').
Proof. exact c67_documented_rotation_local. Qed.
Print Assumptions C67_documented_rotation_local.

Example C67_local_example : forall v : version,
  let keys := [(C67_id v Local key32, key32); (C67_id v Local other32, other32)] in
  let t := {| vt_encoding := x07; vt_message := 42%N; vt_footer := C67_id v Local other32 |} in
  key_map Mini v Local keys /\ In (vt_footer t, other32) keys /\
  to_id Mini v Local other32 = Ok (vt_footer t) /\
  is_ok (fst (encrypt_with_rng Mini v num_encoding (json_footer (kid_json v Local)) t other32 ia rng0)) = true.
Proof.
  intros v. cbv zeta. split; [|split; [|destruct v; evaluate]].
  - intros i key [H|[H|[]]]; injection H as <- <-; destruct v; split; vm_compute; reflexivity.
  - right; left; reflexivity.
Qed.

(** C64: the local fuzz target succeeds on every input: any UTF-8 texts as message and footer,
    any assertion, any key, any 32 bytes of randomness. *)
Theorem C64_fuzz_local_never_fails :
  forall (P : Prims) (v : version) (x : FuzzInput),
  SymLaws P -> 32 <= length (fz_eph x) ->
  utf8_text (fz_data1 x) -> utf8_text (fz_data2 x) ->
  within_limit v (nlen (fz_data1 x) * 6 + 11) ->
  fuzz_local P v x = Ok tt.
Proof. exact c64_fuzz_local_never_fails. Qed.
Print Assumptions C64_fuzz_local_never_fails.

Definition C64_input (key : bytes) : FuzzInput := {|
  fz_key := key; fz_eph := other32; fz_data1 := str "say ""hi""" ++ [x0a; xc3; xa9];
  fz_data2 := []; fz_data3 := [xff; xfe] |}.
Example C64_local_example : forall v : version,
  SymLaws Mini /\ 32 <= length (fz_eph (C64_input key32)) /\
  utf8_text (fz_data1 (C64_input key32)) /\ utf8_text (fz_data2 (C64_input key32)) /\
  within_limit v (nlen (fz_data1 (C64_input key32)) * 6 + 11) /\
  fuzz_local Mini v (C64_input key32) = Ok tt.
Proof.
  intros v. split; [apply mini_laws|]. split; [vm_compute; lia|].
  split; [apply JsonLemmas.valid_utf8_iff; reflexivity|]. split; [apply JsonLemmas.valid_utf8_iff; reflexivity|].
  destruct v; evaluate.
Qed.
(** The target does detect failures: a generator that runs dry panics. *)
Example C64_local_dry :
  fuzz_local Mini V4 {| fz_key := key32; fz_eph := [x01]; fz_data1 := []; fz_data2 := []; fz_data3 := [] |} = Panic.
Proof. vm_compute. reflexivity. Qed.

(** C64: the public fuzz target succeeds on every input for which ECDSA finds a signature
    (always, for v4). *)
Theorem C64_fuzz_public_never_fails :
  forall (P : Prims) (v : version) (x : FuzzInput),
  Laws P -> valid_key P v Secret (fz_key x) = true ->
  (v = V3 -> forall digest, p_sign P (fz_key x) digest <> None) ->
  utf8_text (fz_data1 x) -> utf8_text (fz_data2 x) ->
  fuzz_public P v x = Ok tt.
Proof. exact c64_fuzz_public_never_fails. Qed.
Print Assumptions C64_fuzz_public_never_fails.

Example C64_public_example : forall v : version,
  valid_key Mini v Secret (sk0 v) = true /\ fuzz_public Mini v (C64_input (sk0 v)) = Ok tt.
Proof. evaluate. Qed.
Example C64_sign_total : forall digest, p_sign Mini (sk0 V3) digest <> None.
Proof. discriminate. Qed.

(** C64: the key-wrapping fuzz target succeeds on every input. *)
Theorem C64_fuzz_wrap_never_fails :
  forall (P : Prims) (v : version) (w : wtype) (wrapping_key key eph : bytes),
  Sizes P -> (v = V4 -> w = WSecret -> EdLaws P) -> valid_key P v (wtype_key w) key = true -> 32 <= length eph ->
  fuzz_wrap P v w wrapping_key key eph = Ok tt.
Proof. exact c64_fuzz_wrap_never_fails. Qed.
Print Assumptions C64_fuzz_wrap_never_fails.

Example C64_wrap_example : forall (v : version) (w : wtype),
  valid_key Mini v (wtype_key w) (wrapped_key v w) = true /\
  fuzz_wrap Mini v w key32 (wrapped_key v w) other32 = Ok tt.
Proof. evaluate. Qed.

(** C64: the sealing fuzz target succeeds on every input (a k3 input whose ephemeral is not a
    scalar is skipped by the target). *)
Theorem C64_fuzz_seal_never_fails :
  forall (P : Prims) (v : version) (key sk eph : bytes),
  Laws P -> length key = 32 -> valid_key P v Secret sk = true ->
  length eph = match v with V3 => 48 | V4 => 32 end ->
  fuzz_seal P v key sk eph = Ok tt.
Proof. exact c64_fuzz_seal_never_fails. Qed.
Print Assumptions C64_fuzz_seal_never_fails.

Example C64_seal_example : forall v : version,
  valid_key Mini v Secret (sk0 v) = true /\
  fuzz_seal Mini v other32 (sk0 v) (sk1 v) = Ok tt.
Proof. evaluate. Qed.

(** C64: the parsing fuzz targets succeed on every byte string. *)
Theorem C64_fuzz_parse_never_fails :
  forall s : bytes,
  (forall v p, fuzz_token_parse v p s = Ok tt) /\ (forall v w, fuzz_wrap_parse v w s = Ok tt).
Proof. exact c64_fuzz_parse_never_fails. Qed.
Print Assumptions C64_fuzz_parse_never_fails.

Example C64_parse_example :
  fuzz_token_parse V4 PLocal (str "v4.local.AAAA.e30") = Ok tt /\
  token_parse V4 PLocal [] tt (json_footer kid_string_json) (str "v4.local.AAAA.e30") = Err (PayloadError (str "json")) /\
  is_ok (token_parse V4 PLocal [] tt (json_footer kid_string_json) (str "v4.local.AAAA.eyJraWQiOiIifQ")) = true.
Proof. evaluate. Qed.

(** C65: the keys the fuzzers generate are valid; they take the first 32 (48 for k3 secret keys)
    bytes of the input, zero-filled, and reject exactly the non-scalars. *)
Theorem C65_arbitrary_keys :
  forall (P : Prims) (v : version) (w : wtype) (input : bytes),
  Sizes P ->
  let n := match v, w with V3, WSecret => 48 | _, _ => 32 end in
  let taken := firstn n (input ++ repeat x00 n) in
  snd (arb_key P v w input) = skipn n input /\
  (forall key, fst (arb_key P v w input) = Some key <->
     key = taken /\ valid_key P v (wtype_key w) key = true) /\
  (fst (arb_key P v w input) = None <-> v = V3 /\ w = WSecret /\ p_scalar_ok taken = false).
Proof. exact c65_arbitrary_keys. Qed.
Print Assumptions C65_arbitrary_keys.

Example C65_example :
  arb_key Mini V4 WSecret (str "seed") = (Some (str "seed" ++ repeat x00 28), []) /\
  arb_key Mini V3 WSecret [] = (None, []) /\
  fst (arb_key Mini V3 WSecret (repeat xff 50)) = None /\ snd (arb_key Mini V3 WSecret (repeat xff 50)) = [xff; xff].
Proof. evaluate. Qed.

(** C65: every valid key is generated by some input, namely its own bytes. *)
Theorem C65_arbitrary_complete :
  forall (P : Prims) (v : version) (w : wtype) (key rest : bytes),
  Sizes P -> valid_key P v (wtype_key w) key = true ->
  arb_key P v w (key ++ rest) = (Some key, rest).
Proof. exact c65_arbitrary_complete. Qed.
Print Assumptions C65_arbitrary_complete.

Example C65_complete_example : forall (v : version) (w : wtype),
  valid_key Mini v (wtype_key w) (wrapped_key v w) = true /\
  arb_key Mini v w (wrapped_key v w ++ str "rest") = (Some (wrapped_key v w), str "rest").
Proof. evaluate. Qed.

(** C64: a token fuzz target either passes or panics, and whenever it passes the round trip
    really happened (no law assumed): the token was made and printed, its text parses to a token
    with the footer put in, and opening it gives the message put in. *)
Theorem C64_token_targets_check :
  forall (P : Prims) (v : version) (x : FuzzInput),
  (fuzz_local P v x = Ok tt \/ fuzz_local P v x = Panic) /\
  (fuzz_public P v x = Ok tt \/ fuzz_public P v x = Panic) /\
  let t := with_footer (token_new (fz_data1 x)) (fz_data2 x) in
  (fuzz_local P v x = Ok tt ->
   exists tok tok' t' r',
     encrypt_with_rng P v data_enc data_footer t (fz_key x) (fz_data3 x) (fake (fz_eph x)) = (Ok tok, r') /\
     pos r' <= length (fz_eph x) /\
     token_parse v PLocal [] tt data_footer (token_display v PLocal [] tok) = Ok tok' /\
     unverified_footer tok' = fz_data2 x /\
     decrypt_with_assertions P v data_enc tok' (fz_key x) (fz_data3 x) = Ok t' /\
     vt_message t' = fz_data1 x) /\
  (fuzz_public P v x = Ok tt ->
   exists tok tok' t',
     sign_with_assertions P v data_enc data_footer t (fz_key x) (fz_data3 x) = Ok tok /\
     token_parse v PPublic [] tt data_footer (token_display v PPublic [] tok) = Ok tok' /\
     unverified_footer tok' = fz_data2 x /\
     verify_with_assertions P v data_enc tok' (public_key P v (fz_key x)) (fz_data3 x) = Ok t' /\
     vt_message t' = fz_data1 x).
Proof. exact c64_token_targets_check. Qed.
Print Assumptions C64_token_targets_check.

(** Both results occur: a generator with too few bytes makes the target panic. *)
Example C64_token_targets_example : forall v : version,
  fuzz_local Mini v (C64_input key32) = Ok tt /\
  fuzz_public Mini v (C64_input (sk0 v)) = Ok tt /\
  fuzz_local Mini v {| fz_key := key32; fz_eph := n0 ++ n0; fz_data1 := str "m"; fz_data2 := str "f";
                       fz_data3 := [] |} = Ok tt /\
  fuzz_local Mini v {| fz_key := key32; fz_eph := firstn 31 n0; fz_data1 := str "m"; fz_data2 := str "f";
                       fz_data3 := [] |} = Panic.
Proof. evaluate. Qed.

(** C64: the same for the key targets: they pass or panic, and when they pass, unwrapping the
    printed wrapped key, or unsealing the sealed key, gave a key with the same bytes. *)
Theorem C64_key_targets_check :
  forall (P : Prims) (v : version) (w : wtype) (wk key sk eph : bytes),
  (fuzz_wrap P v w wk key eph = Ok tt \/ fuzz_wrap P v w wk key eph = Panic) /\
  (fuzz_seal P v key sk eph = Ok tt \/ fuzz_seal P v key sk eph = Panic) /\
  (fuzz_wrap P v w wk key eph = Ok tt ->
   exists x r' s y key2,
     wrap_pie P v w key wk (fake eph) = (Ok x, r') /\ pos r' <= length eph /\
     pie_display v w x = Ok s /\ pie_parse v w s = Ok y /\ unwrap_pie P v w y wk = Ok key2 /\
     key_to_bytes P v (wtype_key w) key2 = key_to_bytes P v (wtype_key w) key) /\
  (fuzz_seal P v key sk eph = Ok tt ->
   (v = V3 /\ p_scalar_ok eph = false) \/
   exists x r',
     seal P v 2 key (public_key P v sk) (fake eph) = Some (Ok x, r') /\ pos r' <= length eph /\
     unseal P v x sk = Ok key).
Proof. exact c64_key_targets_check. Qed.
Print Assumptions C64_key_targets_check.

(** Both results occur: a wrong length of the ephemeral makes the targets panic. *)
Example C64_targets_example : forall v : version,
  fuzz_local Mini v (C64_input key32) = Ok tt /\
  fuzz_wrap Mini v WLocal key32 other32 other32 = Ok tt /\
  fuzz_wrap Mini v WLocal key32 other32 [x01] = Panic.
Proof. evaluate. Qed.
