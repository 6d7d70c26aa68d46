(** Theorems of the property list; statements only, proofs are in [ProofsJsonDoc]. *)
From Coq Require Import ZifyBool ZifyNat ZifyN.
From Verif Require Import Bytes Outcome Prims Version Key KeyId Token Json SpecBase64 SpecText SpecKey SpecJson SpecJsonDoc.
From Verif Require Import ProofsJsonDoc Samples.

(** C73: the documents the JSON reader accepts for a struct with one string field are exactly
    those of the RFC 8259 grammar in which the field occurs once (members of other names are
    skipped), and one-element arrays; the text read is the decoded string. *)
Theorem C73_document_language :
  forall field s v : bytes, parse_object1 field s = Some v <-> document field s v.
Proof. exact c73_document_language. Qed.
Print Assumptions C73_document_language.

(** Other members are skipped whatever their value, even with a lone surrogate; the field's own
    escapes are decoded. *)
Example C73_document_example :
  document (str "kid")
    (str " { ""n"" : [1, -2.5e+3, {""b"":null}, ""\ud800""] ,""kid"":""xA\n"" }") (str "xA" ++ [x0a]) /\
  document (str "kid") (str "[ ""xA"" ]") (str "xA").
Proof. split; apply C73_document_language; evaluate. Qed.
(** Refused: a second occurrence, a trailing comma, a value that is no string, a lone surrogate
    in the field, a number with a leading zero, and anything after the document. *)
Example C73_refused_example : Forall (fun s => forall v, ~ document (str "kid") s v)
  [str "{""kid"":""a"",""kid"":""a""}"; str "{""kid"":""a"",}"; str "{""kid"":1}"; str "{""kid"":""\ud800""}";
   str "{""kid"":""a"",""n"":01}"; str "{""kid"":""a""} x"; str "{}"; str "[]"; str "[""a"",""b""]"].
Proof. repeat constructor; intros v H; apply C73_document_language in H; vm_compute in H; discriminate. Qed.

(** C73: the grammar never reads two texts from the same document. *)
Theorem C73_document_deterministic :
  forall field s v v' : bytes, document field s v -> document field s v' -> v = v'.
Proof. exact c73_document_deterministic. Qed.
Print Assumptions C73_document_deterministic.

Example C73_deterministic_example :
  document (str "kid") (str "{""kid"":""a""}") (str "a") /\ ~ document (str "kid") (str "{""kid"":""a""}") (str "b").
Proof.
  split; [apply C73_document_language; evaluate|].
  intros H. apply C73_document_language in H. vm_compute in H. discriminate.
Qed.

(** C73: what the three codecs in use accept.  Payloads with a [data] string, footers with a [kid]
    string, and footers whose [kid] must also be the text of a key id. *)
Theorem C73_codecs :
  forall (v : version) (k : ktype) (b x : bytes),
  (json_from_slice data_json b = COk x <-> document (str "data") b x) /\
  (json_from_slice kid_string_json b = COk x <-> document (str "kid") b x) /\
  (json_from_slice (kid_json v k) b = COk x <->
   exists text, document (str "kid") b text /\ id_parse v k text = Ok x) /\
  (forall text, document (str "data") b text -> utf8_text text).
Proof. exact c73_codecs. Qed.
Print Assumptions C73_codecs.

Example C73_codecs_example :
  json_from_slice data_json (str "{""exp"":[],""data"":""é""}") = COk [xc3; xa9] /\
  (exists e, json_from_slice (kid_json V4 Local) (str "{""kid"":""k4.lid.AAAA""}") = CErr e).
Proof. split; [evaluate|eexists; vm_compute; reflexivity]. Qed.

(** C66: strings are written in exactly one way: the shortest string token denoting the text, and
    of several shortest ones (upper- or lower-case digits of an escape) the last. *)
Theorem C66_written_text_shortest :
  forall text lit : bytes,
  json_to_vec data_json text = COk (str "{""data"":" ++ lit ++ str "}") \/
  json_to_vec kid_string_json text = COk (str "{""kid"":" ++ lit ++ str "}") ->
  jstring lit text /\
  forall other, jstring other text -> other <> lit ->
    (length lit < length other \/ length lit = length other /\ before other lit)%nat.
Proof. exact c66_written_text_shortest. Qed.
Print Assumptions C66_written_text_shortest.

(** A text with other tokens: the longer escape of DEL, and the upper-case digit of a control
    character. *)
Example C66_written_example :
  let text := [x7f; x1f] in
  let lit := str """" ++ [x7f] ++ str "\u001f""" in
  json_to_vec data_json text = COk (str "{""data"":" ++ lit ++ str "}") /\
  parse_str_value (str """\u007f\u001f""") = Some (text, []) /\
  parse_str_value (str """" ++ [x7f] ++ str "\u001F""") = Some (text, []).
Proof. evaluate. Qed.
