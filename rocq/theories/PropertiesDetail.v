(** Theorems of the property list; statements only, proofs are in [ProofsDetail]. *)
From Verif Require Import Bytes Outcome Base64 Prims Version Key Token Local Public Wrap Pbkw Pke Serde
  SpecBase64 SpecPaseto SpecPaserk SpecText SpecKey SpecDetail Observe.
From Verif Require Import ProofsDetail Samples.

(** C71: the unit footer refuses every non-empty footer with a message that lists its bytes in
    decimal, as [{:?}] prints a slice. *)
Theorem C71_unit_footer_error :
  forall b : bytes, b <> [] ->
  f_decode unit_footer b =
  CErr (str "unexpected footer [" ++ join (str ", ") (map (fun c => decimal (b2n c)) b) ++ str "]").
Proof. exact c71_unit_footer_error. Qed.
Print Assumptions C71_unit_footer_error.

Example C71_unit_footer_error_example :
  f_decode unit_footer [x00; x09; x63; x64; xff] = CErr (str "unexpected footer [0, 9, 99, 100, 255]").
Proof. evaluate. Qed.

(** C56: the exact text of every error, as a user sees it. *)
Theorem C56_error_texts :
  forall e : paseto_error,
  exists text, error_display e = text /\
  (e = Base64DecodeError -> text = str "The token could not be base64 decoded") /\
  (e = InvalidKey -> text = str "Could not parse the key") /\
  (e = InvalidToken -> text = str "Could not parse the token") /\
  (e = CryptoError -> text = str "Token signature could not be validated") /\
  (forall x, e = PayloadError x -> text = str "there was an error with the payload encoding: " ++ x).
Proof. exact c56_error_texts. Qed.
Print Assumptions C56_error_texts.

Example C56_error_texts_example :
  error_display CryptoError = str "Token signature could not be validated" /\
  error_display (PayloadError (str "missing footer")) =
    str "there was an error with the payload encoding: missing footer".
Proof. evaluate. Qed.

(** C56: what a user reads when a serde string is no key id, wrapped or sealed key: one text
    if the header is missing, another if the body is not the encoding of that many bytes. *)
Theorem C56_deserialize_texts :
  forall (P : Prims) (v : version) (k : ktype) (w : wtype) (s msg : bytes),
  let fails h n := (exists x, s = h ++ x) /\ ~ (exists b, length b = n /\ s = h ++ base64url b) in
  let no_header h := ~ exists x, s = h ++ x in
  let explains h n :=
    (msg = str "Could not parse the token" /\ no_header h) \/
    (msg = str "The token could not be base64 decoded" /\ fails h n) in
  (id_deserialize v k (SStr s) = DErr msg <-> explains (kind_header (KId v k)) (body_size (KId v k))) /\
  (pie_deserialize v w (SStr s) = DErr msg <-> explains (kind_header (KPie v w)) (body_size (KPie v w))) /\
  (pw_deserialize v w (SStr s) = DErr msg <-> explains (kind_header (KPw v w)) (body_size (KPw v w))) /\
  (seal_deserialize v (SStr s) = DErr msg <-> explains (kind_header (KSeal v)) (body_size (KSeal v))).
Proof. exact c56_deserialize_texts. Qed.
Print Assumptions C56_deserialize_texts.

Example C56_deserialize_example :
  id_deserialize V4 Local (SStr (str "k4.lid.AAAA")) = DErr (str "The token could not be base64 decoded") /\
  seal_deserialize V3 (SStr (str "k4.seal.AAAA")) = DErr (str "Could not parse the token").
Proof. evaluate. Qed.

(** C71: a token with the unit footer and a footer part is refused with that message, one with
    an empty JSON footer with "missing footer"; these are the messages a caller of [parse]
    sees. *)
Theorem C71_parse_reports_footer :
  forall (E T : Type) (v : version) (p : purpose) (sfx : bytes) (e0 : E) (J : JsonCodec T) (payload f : bytes),
  (f <> [] ->
   token_parse v p sfx e0 unit_footer
     (token_header v p sfx ++ base64url payload ++ str "." ++ base64url f) =
   Err (PayloadError (str "unexpected footer [" ++ join (str ", ") (map (fun c => decimal (b2n c)) f) ++ str "]"))) /\
  token_parse v p sfx e0 (json_footer J) (token_header v p sfx ++ base64url payload) =
  Err (PayloadError (str "missing footer")).
Proof. exact c71_parse_reports_footer. Qed.
Print Assumptions C71_parse_reports_footer.

Example C71_parse_example :
  token_parse V4 PLocal [] tt unit_footer (str "v4.local.AAAA.eyI") =
    Err (PayloadError (str "unexpected footer [123, 34]")) /\
  token_parse V4 PLocal [] tt (json_footer braces) (str "v4.local.AAAA") =
    Err (PayloadError (str "missing footer")).
Proof. evaluate. Qed.

(** C71: JSON tokens have no suffix: what is printed starts with exactly the registered header,
    and what is authenticated starts with it too. *)
Theorem C71_json_header :
  forall (M F E : Type) (J : JsonCodec M) (v : version) (p : purpose) (t : SecuredToken F E),
  token_display v p (suffix (json_encoding J)) t =
  (match v, p with
   | V3, PLocal => str "v3.local."
   | V3, PPublic => str "v3.public."
   | V4, PLocal => str "v4.local."
   | V4, PPublic => str "v4.public."
   end ++ base64url (st_payload t) ++
   match st_encoded_footer t with [] => [] | f => str "." ++ base64url f end) /\
  (forall m, e_encode (json_encoding J) tt m = json_to_vec J m) /\
  (forall b, e_decode (json_encoding J) tt b = json_from_slice J b).
Proof. exact c71_json_header. Qed.
Print Assumptions C71_json_header.

Example C71_json_header_example :
  token_display V4 PLocal (suffix (json_encoding braces))
    {| st_encoding := tt; st_payload := str "ab"; st_encoded_footer := f0; st_footer := str "kid" |} =
  str "v4.local.YWI.e2tpZH0".
Proof. evaluate. Qed.

(** C72: whether a local token, wrapped key or sealed key is refused as unauthentic does not
    depend on the cipher at all: with any other cipher in its place exactly the same inputs
    are refused.  So nothing is deciphered before the tag has been checked. *)
Theorem C72_verdict_without_cipher :
  forall (P : Prims) aes xchacha, let Q := recipher P aes xchacha in
  SymLaws P -> SymLaws Q ->
  (forall (M F E : Type) v (EN : Encoding E M) (t : SecuredToken F E) key i,
     decrypt_with_assertions P v EN t key i = Err CryptoError <->
     decrypt_with_assertions Q v EN t key i = Err CryptoError) /\
  (forall v w x wk, unwrap_pie P v w x wk = Err CryptoError <-> unwrap_pie Q v w x wk = Err CryptoError) /\
  (forall v w (x : PwWrapped v) pw, pw_unwrap P v w x pw = Err CryptoError <-> pw_unwrap Q v w x pw = Err CryptoError) /\
  (forall v x sk, valid_key P v Secret sk = true ->
     (unseal P v x sk = Err CryptoError <-> unseal Q v x sk = Err CryptoError)).
Proof. exact c72_verdict_without_cipher. Qed.
Print Assumptions C72_verdict_without_cipher.

Definition nocipher : Prims := recipher Mini (fun _ _ => repeat x00 16) (fun _ _ n => repeat x00 n).
Example C72_laws_example : SymLaws nocipher.
Proof.
  constructor; cbn [sha384 hmac_sha384 hkdf_sha384 aes256 pbkdf2_sha384_32 blake2b blake2b_mac
                    xchacha20_ks argon2id_32 nocipher recipher sym Mini ToyAsym.with_toy MiniSym]; intros;
    first [apply repeat_length|apply mini_length].
Qed.
Example C72_verdict_example : forall v : version,
  is_ok (decrypt_with_assertions Mini v num_encoding (sealed_tok Mini v ia) key32 ia) = true /\
  decrypt_with_assertions nocipher v num_encoding (sealed_tok Mini v ia) key32 ia <> Err CryptoError /\
  decrypt_with_assertions nocipher v num_encoding (sealed_tok Mini v ia) other32 ia = Err CryptoError /\
  unwrap_pie nocipher v WLocal (pie0 Mini v WLocal) other32 = Err CryptoError /\
  pw_unwrap nocipher v WLocal (pw0 Mini v WLocal) (str "guess") = Err CryptoError /\
  unseal nocipher v (seal0 Mini v) (sk1 v) = Err CryptoError.
Proof. evaluate. Qed.
