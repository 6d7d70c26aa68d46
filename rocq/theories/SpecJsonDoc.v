(** * SpecJsonDoc: the values of RFC 8259, and the documents a struct with one string field is
    read from.  Written from the RFC; nothing here mentions the model's reader. *)
From Verif Require Import Bytes SpecJson.
Local Open Scope N_scope.

(** RFC 8259 section 2: [ws] *)
Definition blank (s : bytes) : Prop := Forall (fun b => In b [x20; x09; x0a; x0d]) s.

(** Section 7, without the meaning: a string token whose [\u] escapes may be lone surrogates and
    whose raw bytes need not be UTF-8. *)
Inductive lchar : bytes -> Prop :=
| lc_raw b : 32 <= b2n b -> [b] <> str """" -> [b] <> str "\" -> lchar [b]
| lc_escape c : In c (str """\/bfnrt") -> lchar (str "\" ++ [c])
| lc_u t n : u_escape t n -> lchar t.
Inductive lchars : bytes -> Prop :=
| lcs_nil : lchars []
| lcs_cons t ts : lchar t -> lchars ts -> lchars (t ++ ts).
Definition lstring (t : bytes) : Prop := exists cs, t = str """" ++ cs ++ str """" /\ lchars cs.

(** Section 6: numbers *)
Definition digit (b : byte) : Prop := 48 <= b2n b <= 57.
Definition digits1 (t : bytes) : Prop := t <> [] /\ Forall digit t.
Definition optional (p : bytes -> Prop) (t : bytes) : Prop := t = [] \/ p t.
Definition int_part (t : bytes) : Prop :=
  t = str "0" \/ exists d ds, t = d :: ds /\ 49 <= b2n d <= 57 /\ Forall digit ds.
Definition frac_part (t : bytes) : Prop := exists ds, t = str "." ++ ds /\ digits1 ds.
Definition exp_part (t : bytes) : Prop :=
  exists e sign ds, t = [e] ++ sign ++ ds /\ In e (str "eE") /\
    In sign [[]; str "+"; str "-"] /\ digits1 ds.
Definition unsigned (t : bytes) : Prop :=
  exists i f e, t = i ++ f ++ e /\ int_part i /\ optional frac_part f /\ optional exp_part e.
Definition jnumber (t : bytes) : Prop := unsigned t \/ exists u, t = str "-" ++ u /\ unsigned u.

(** Sections 3 to 5: values, the elements of an array, the members of an object; elements and
    members come with the blanks around them. *)
Inductive jvalue : bytes -> Prop :=
| jv_literal t : In t [str "null"; str "true"; str "false"] -> jvalue t
| jv_number t : jnumber t -> jvalue t
| jv_string t : lstring t -> jvalue t
| jv_array t : jelements t -> jvalue (str "[" ++ t ++ str "]")
| jv_array0 b : blank b -> jvalue (str "[" ++ b ++ str "]")
| jv_object t : jmembers t -> jvalue (str "{" ++ t ++ str "}")
| jv_object0 b : blank b -> jvalue (str "{" ++ b ++ str "}")
with jelements : bytes -> Prop :=
| je_one b v b' : blank b -> jvalue v -> blank b' -> jelements (b ++ v ++ b')
| je_more b v b' t : blank b -> jvalue v -> blank b' -> jelements t ->
    jelements (b ++ v ++ b' ++ str "," ++ t)
with jmembers : bytes -> Prop :=
| jm_one b k b1 b2 v b' : blank b -> lstring k -> blank b1 -> blank b2 -> jvalue v -> blank b' ->
    jmembers (b ++ k ++ b1 ++ str ":" ++ b2 ++ v ++ b')
| jm_more b k b1 b2 v b' t : blank b -> lstring k -> blank b1 -> blank b2 -> jvalue v -> blank b' ->
    jmembers t -> jmembers (b ++ k ++ b1 ++ str ":" ++ b2 ++ v ++ b' ++ str "," ++ t).

(** A string token of UTF-8 text and the text. *)
Definition text_token (t v : bytes) : Prop := jstring t v /\ utf8_text v.

(** One member of the outer object: [vs] is the list of values it gives to [field].  A member of
    that name must be a string, any other an arbitrary value. *)
Definition field_member (field t : bytes) (vs : list bytes) : Prop :=
  exists b k b1 b2 v b' name,
    t = b ++ k ++ b1 ++ str ":" ++ b2 ++ v ++ b' /\
    blank b /\ blank b1 /\ blank b2 /\ blank b' /\ text_token k name /\
    ((name = field /\ exists text, text_token v text /\ vs = [text]) \/
     (name <> field /\ jvalue v /\ vs = [])).
Inductive field_members (field : bytes) : bytes -> list bytes -> Prop :=
| fm_one t vs : field_member field t vs -> field_members field t vs
| fm_more t vs t' vs' : field_member field t vs -> field_members field t' vs' ->
    field_members field (t ++ str "," ++ t') (vs ++ vs').

(** The documents from which the text [v] is read: an object in which [field] occurs exactly
    once, or an array of exactly one string; blanks around. *)
Definition document (field s v : bytes) : Prop :=
  exists b body b', s = b ++ body ++ b' /\ blank b /\ blank b' /\
    ((exists t, body = str "{" ++ t ++ str "}" /\ field_members field t [v]) \/
     (exists b1 t b2, body = str "[" ++ b1 ++ t ++ b2 ++ str "]" /\
        blank b1 /\ blank b2 /\ text_token t v)).

(** [a] comes before [b], a text of any length, in the order of the first differing byte. *)
Definition before (a b : bytes) : Prop :=
  exists p x y r s, a = p ++ x :: r /\ b = p ++ y :: s /\ b2n x < b2n y.
