(** * Serde: the hand-written [Serialize]/[Deserialize] implementations.

    lib.rs:471-512, id.rs:214-249, plaintext.rs:59-94, wrap.rs:512-550,
    pbkw.rs:551-590, pke.rs:509-545: all are [serializer.collect_str(self)] and a
    visitor that only implements [visit_str], as [v.parse().map_err(E::custom)]. *)
From Verif Require Import Bytes Outcome Prims Version Key Token Plaintext KeyId Wrap Pbkw Pke.

(** What a deserializer can hand to the visitor: a string, or some other serde
    type (described by its [Unexpected] rendering). *)
Inductive serde_value := SStr (s : bytes) | SOther (unexpected : bytes).

(** [serializer.collect_str(self)] given the outcome of [Display]. *)
Definition serialize (display : outcome bytes) : outcome serde_value :=
  omap SStr display.

(** Result of [Deserialize::deserialize]; the error is its message. *)
Inductive de_result (A : Type) := DOk (a : A) | DErr (msg : bytes) | DPanic.
Arguments DOk {A} a. Arguments DErr {A} msg. Arguments DPanic {A}.

(** [deserializer.deserialize_str(FromStrVisitor)]: [visit_str] parses and wraps the
    error's text; any other visit method falls to serde's default
    [Error::invalid_type(unexpected, &self)]. *)
Definition deserialize {A} (expecting : bytes) (parse : bytes -> outcome A) (x : serde_value)
  : de_result A :=
  match x with
  | SStr s => match parse s with
              | Ok a => DOk a
              | Err e => DErr (error_display e)
              | Panic => DPanic
              end
  | SOther u => DErr (str "invalid type: " ++ u ++ str ", expected " ++ expecting)
  end.

(** ** The six implementations.  The expected-type texts are the [expecting] methods:
    lib.rs:495-502 (without the encoding suffix), id.rs:232-239, plaintext.rs:77-84,
    wrap.rs:530-537, pbkw.rs:569-576, pke.rs:527-529.  [SStr] also stands for
    [visit_string], [visit_borrowed_str] and [visit_char], whose serde defaults
    forward to [visit_str]. *)
Definition expecting_token (v : version) (p : purpose) : bytes :=
  str "a """ ++ paseto_header v ++ dot ++ purpose_header p ++ str "."" paseto".
Definition expecting_key (v : version) (kind : bytes) : bytes :=
  str "a """ ++ paserk_header v ++ dot ++ kind ++ str """ serialized key".

Definition token_serialize {F E} v p sfx (t : SecuredToken F E) : outcome serde_value :=
  serialize (Ok (token_display v p sfx t)).
Definition token_deserialize {F E} v p sfx (e0 : E) (FC : FooterCodec F) : serde_value -> de_result (SecuredToken F E) :=
  deserialize (expecting_token v p) (token_parse v p sfx e0 FC).

Definition id_serialize v k id := serialize (id_display v k id).
Definition id_deserialize v k := deserialize (expecting_key v (id_header k)) (id_parse v k).

Definition plaintext_serialize P v k key := serialize (plaintext_display P v k key).
Definition plaintext_deserialize P v k :=
  deserialize (expecting_key v (key_header k)) (plaintext_parse P v k).

Definition pie_serialize v w x := serialize (pie_display v w x).
Definition pie_deserialize v w :=
  deserialize (expecting_key v (wrap_header w ++ str "pie.")) (pie_parse v w).

Definition pw_serialize v w x := serialize (pw_display v w x).
Definition pw_deserialize v w := deserialize (expecting_key v (pw_header w)) (pw_parse v w).

Definition seal_serialize v x := serialize (seal_display v x).
Definition seal_deserialize v := deserialize (expecting_key v (str "seal.")) (seal_parse v).
