(** * SpecJson: strings of RFC 8259 section 7 and UTF-8 (Unicode table 3-7).
    Written from the standards. *)
From Verif Require Import Bytes.
Local Open Scope N_scope.

(** [utf8 c l]: [l] is the UTF-8 form of the scalar value [c], described by how the
    bytes are read back. *)
Definition tail_byte (b : byte) : Prop := 128 <= b2n b <= 191.
Inductive utf8 : N -> bytes -> Prop :=
| utf8_1 a : b2n a <= 127 -> utf8 (b2n a) [a]
| utf8_2 a b c : 194 <= b2n a <= 223 -> tail_byte b ->
    c = (b2n a - 192) * 64 + (b2n b - 128) -> utf8 c [a; b]
| utf8_3 a b d c : 224 <= b2n a <= 239 -> tail_byte b -> tail_byte d ->
    c = (b2n a - 224) * 4096 + (b2n b - 128) * 64 + (b2n d - 128) ->
    2048 <= c -> ~ (55296 <= c <= 57343) -> utf8 c [a; b; d]
| utf8_4 a b d e c : 240 <= b2n a <= 244 -> tail_byte b -> tail_byte d -> tail_byte e ->
    c = (b2n a - 240) * 262144 + (b2n b - 128) * 4096 + (b2n d - 128) * 64 + (b2n e - 128) ->
    65536 <= c <= 1114111 -> utf8 c [a; b; d; e].

(** A byte string that is UTF-8 text. *)
Inductive utf8_text : bytes -> Prop :=
| ut_nil : utf8_text []
| ut_cons c l r : utf8 c l -> utf8_text r -> utf8_text (l ++ r).

(** One hexadecimal digit, either case. *)
Inductive hexdig : byte -> N -> Prop :=
| hd_num b : 48 <= b2n b <= 57 -> hexdig b (b2n b - 48)
| hd_low b : 97 <= b2n b <= 102 -> hexdig b (b2n b - 97 + 10)
| hd_up b : 65 <= b2n b <= 70 -> hexdig b (b2n b - 65 + 10).

(** Backslash, u and four digits. *)
Inductive u_escape : bytes -> N -> Prop :=
| ue a b c d na nb nc nd : hexdig a na -> hexdig b nb -> hexdig c nc -> hexdig d nd ->
    u_escape (str "\u" ++ [a; b; c; d]) (((na * 16 + nb) * 16 + nc) * 16 + nd).

(** [jchar t v]: the text [t] is one character of a JSON string denoting [v].  Unescaped
    characters are taken byte by byte. *)
Inductive jchar : bytes -> bytes -> Prop :=
| jc_raw b : 32 <= b2n b -> [b] <> str """" -> [b] <> str "\" -> jchar [b] [b]
| jc_quote : jchar (str "\""") (str """")
| jc_backslash : jchar (str "\\") (str "\")
| jc_slash : jchar (str "\/") (str "/")
| jc_b : jchar (str "\b") [x08]
| jc_f : jchar (str "\f") [x0c]
| jc_n : jchar (str "\n") [x0a]
| jc_r : jchar (str "\r") [x0d]
| jc_t : jchar (str "\t") [x09]
| jc_u t c v : u_escape t c -> ~ (55296 <= c <= 57343) -> utf8 c v -> jchar t v
| jc_uu t1 t2 hi lo c v : u_escape t1 hi -> u_escape t2 lo ->
    55296 <= hi <= 56319 -> 56320 <= lo <= 57343 ->
    c = 65536 + (hi - 55296) * 1024 + (lo - 56320) -> utf8 c v -> jchar (t1 ++ t2) v.

Inductive jchars : bytes -> bytes -> Prop :=
| jcs_nil : jchars [] []
| jcs_cons t v ts vs : jchar t v -> jchars ts vs -> jchars (t ++ ts) (v ++ vs).

(** A JSON string token and the value it denotes. *)
Definition jstring (t v : bytes) : Prop :=
  exists cs, t = str """" ++ cs ++ str """" /\ jchars cs v.
