(** * Json: serde_json 1.0.97 on structs with one string-valued field.

    The crate hands payloads and footers to [serde_json::to_vec] and
    [serde_json::from_slice] (lib.rs:267-277, 309-320).  This file transcribes what
    these do on [#[derive(Serialize, Deserialize)] struct { field: T }] where [T] is
    [String] (the [Data] of lib.rs:683-686 and the [Footer] of the fuzz targets) or
    a type serialised as its text (the [kid: KeyId] of lib.rs:38-43).  The source of
    serde_json is not in this sandbox: this is its documented structure.  The texts of
    JSON errors (with line and column) are not modelled. *)
From Verif Require Import Bytes Outcome Prims Version Key KeyId Token.
Local Open Scope N_scope.

(** ** Serialisation *)

(** ser.rs [HEX_DIGITS] *)
Definition hex_digit (n : N) : byte := if n <? 10 then n2b (48 + n) else n2b (87 + n).

(** ser.rs [ESCAPE] table and [CharEscape]: only quote, backslash and control
    characters are escaped. *)
Definition escape_byte (b : byte) : bytes :=
  if beqb b x22 then [x5c; x22]
  else if beqb b x5c then [x5c; x5c]
  else if beqb b x08 then [x5c; x62]
  else if beqb b x09 then [x5c; x74]
  else if beqb b x0a then [x5c; x6e]
  else if beqb b x0c then [x5c; x66]
  else if beqb b x0d then [x5c; x72]
  else if b2n b <? 32 then [x5c; x75; x30; x30; hex_digit (b2n b / 16); hex_digit (b2n b mod 16)]
  else [b].

(** ser.rs [format_escaped_str] *)
Definition json_string (s : bytes) : bytes := [x22] ++ flat_map escape_byte s ++ [x22].

(** [to_vec] of a one-field struct (compact formatter) *)
Definition json_object1 (field value : bytes) : bytes :=
  str "{" ++ json_string field ++ str ":" ++ json_string value ++ str "}".

(** ** Deserialisation *)

(** [core::str::from_utf8] (Unicode table 3-7) *)
Definition in_range (lo hi : N) (b : byte) : bool := (lo <=? b2n b) && (b2n b <=? hi).
Definition cont (b : byte) : bool := in_range 128 191 b.
Fixpoint valid_utf8 (s : bytes) : bool :=
  match s with
  | [] => true
  | a :: r =>
      if b2n a <? 128 then valid_utf8 r
      else match r with
      | [] => false
      | b :: r =>
          if in_range 194 223 a then cont b && valid_utf8 r
          else match r with
          | [] => false
          | c :: r =>
              if beqb a xe0 then in_range 160 191 b && cont c && valid_utf8 r
              else if beqb a xed then in_range 128 159 b && cont c && valid_utf8 r
              else if in_range 225 239 a then cont b && cont c && valid_utf8 r
              else match r with
              | [] => false
              | d :: r =>
                  if beqb a xf0 then in_range 144 191 b && cont c && cont d && valid_utf8 r
                  else if beqb a xf4 then in_range 128 143 b && cont c && cont d && valid_utf8 r
                  else if in_range 241 243 a then cont b && cont c && cont d && valid_utf8 r
                  else false
              end
          end
      end
  end.

(** [char::encode_utf8] *)
Definition utf8_encode (c : N) : bytes :=
  if c <? 128 then [n2b c]
  else if c <? 2048 then [n2b (192 + c / 64); n2b (128 + c mod 64)]
  else if c <? 65536 then [n2b (224 + c / 4096); n2b (128 + c / 64 mod 64); n2b (128 + c mod 64)]
  else [n2b (240 + c / 262144); n2b (128 + c / 4096 mod 64); n2b (128 + c / 64 mod 64);
        n2b (128 + c mod 64)].

(** read.rs [decode_hex_val] *)
Definition hex_val (b : byte) : option N :=
  let c := b2n b in
  if (48 <=? c) && (c <=? 57) then Some (c - 48)
  else if (97 <=? c) && (c <=? 102) then Some (c - 87)
  else if (65 <=? c) && (c <=? 70) then Some (c - 55)
  else None.

(** read.rs [decode_hex_escape] *)
Definition hex4 (s : bytes) : option (N * bytes) :=
  match s with
  | a :: b :: c :: d :: r =>
      match hex_val a, hex_val b, hex_val c, hex_val d with
      | Some a, Some b, Some c, Some d => Some (a * 4096 + b * 256 + c * 16 + d, r)
      | _, _, _, _ => None
      end
  | _ => None
  end.

(** The one-character escapes of read.rs [parse_escape] *)
Definition simple_escape (b : byte) : option byte :=
  if beqb b x22 then Some x22 else if beqb b x5c then Some x5c else if beqb b x2f then Some x2f
  else if beqb b x62 then Some x08 else if beqb b x66 then Some x0c else if beqb b x6e then Some x0a
  else if beqb b x72 then Some x0d else if beqb b x74 then Some x09 else None.

(** read.rs [parse_unicode_escape], after the [u]: lone surrogates are errors *)
Definition unicode_escape (s : bytes) : option (bytes * bytes) :=
  match hex4 s with
  | None => None
  | Some (n, r) =>
      if (56320 <=? n) && (n <=? 57343) then None
      else if (55296 <=? n) && (n <=? 56319) then
        match r with
        | e :: u :: r =>
            if beqb e x5c && beqb u x75 then
              match hex4 r with
              | Some (m, r) =>
                  if (56320 <=? m) && (m <=? 57343)
                  then Some (utf8_encode ((n - 55296) * 1024 + (m - 56320) + 65536), r)
                  else None
              | None => None
              end
            else None
        | _ => None
        end
      else Some (utf8_encode n, r)
  end.

(** read.rs [SliceRead::parse_str_bytes], after the opening quote; returns the decoded
    bytes and the input after the closing quote.  [fuel] bounds the characters. *)
Fixpoint str_chars (fuel : nat) (s : bytes) : option (bytes * bytes) :=
  match fuel, s with
  | S f, b :: r =>
      if beqb b x22 then Some ([], r)
      else if beqb b x5c then
        match r with
        | [] => None
        | e :: r' =>
            match (if beqb e x75 then unicode_escape r'
                   else match simple_escape e with Some c => Some ([c], r') | None => None end) with
            | Some (d, r2) =>
                match str_chars f r2 with Some (ds, r3) => Some (d ++ ds, r3) | None => None end
            | None => None
            end
        end
      else if b2n b <? 32 then None
      else match str_chars f r with Some (ds, r3) => Some (b :: ds, r3) | None => None end
  | _, _ => None
  end.

(** read.rs [parse_str]: the decoded bytes must be UTF-8 *)
Definition parse_str (s : bytes) : option (bytes * bytes) :=
  match str_chars (length s) s with
  | Some (d, r) => if valid_utf8 d then Some (d, r) else None
  | None => None
  end.

(** read.rs [ignore_str]: only the syntax of escapes is checked *)
Fixpoint skip_str (fuel : nat) (s : bytes) : option bytes :=
  match fuel, s with
  | S f, b :: r =>
      if beqb b x22 then Some r
      else if beqb b x5c then
        match r with
        | [] => None
        | e :: r' =>
            if beqb e x75 then match hex4 r' with Some (_, r2) => skip_str f r2 | None => None end
            else match simple_escape e with Some _ => skip_str f r' | None => None end
        end
      else if b2n b <? 32 then None
      else skip_str f r
  | _, _ => None
  end.

(** de.rs [parse_whitespace] *)
Definition is_ws (b : byte) : bool := beqb b x20 || beqb b x0a || beqb b x09 || beqb b x0d.
Fixpoint ws (s : bytes) : bytes :=
  match s with
  | b :: r => if is_ws b then ws r else s
  | [] => []
  end.

Definition is_digit (b : byte) : bool := in_range 48 57 b.
Fixpoint digits (s : bytes) : bytes :=
  match s with
  | b :: r => if is_digit b then digits r else s
  | [] => []
  end.

(** de.rs [ignore_exponent], after the [e] *)
Definition skip_exponent (s : bytes) : option bytes :=
  let s := match s with
           | b :: r => if beqb b x2b || beqb b x2d then r else s
           | [] => s
           end in
  match s with
  | b :: r => if is_digit b then Some (digits r) else None
  | [] => None
  end.

Definition is_e (b : byte) : bool := beqb b x65 || beqb b x45.

(** de.rs [ignore_integer] (the sign already read) with [ignore_decimal] *)
Definition skip_number (s : bytes) : option bytes :=
  match s with
  | [] => None
  | b :: r =>
      match (if beqb b x30 then match r with
                                | c :: _ => if is_digit c then None else Some r
                                | [] => Some r
                                end
             else if is_digit b then Some (digits r) else None) with
      | None => None
      | Some [] => Some []
      | Some (c :: r) =>
          if beqb c x2e then
            match r with
            | d :: r => if is_digit d then
                          match digits r with
                          | e :: r' => if is_e e then skip_exponent r' else Some (e :: r')
                          | [] => Some []
                          end
                        else None
            | [] => None
            end
          else if is_e c then skip_exponent r
          else Some (c :: r)
      end
  end.

(** A scalar value in de.rs [ignore_value]; the caller skipped whitespace. *)
Definition skip_scalar (s : bytes) : option bytes :=
  match s with
  | [] => None
  | b :: r =>
      if beqb b x6e then strip_prefix (str "ull") r
      else if beqb b x74 then strip_prefix (str "rue") r
      else if beqb b x66 then strip_prefix (str "alse") r
      else if beqb b x2d then skip_number r
      else if is_digit b then skip_number s
      else if beqb b x22 then skip_str (length r) r
      else None
  end.

(** de.rs [ignore_value]: an explicit stack of open brackets ([true] for an object).
    [skip_value] is the head of its outer loop, [skip_after] the inner loop,
    [skip_next] the part that reads an object key. *)
Fixpoint skip_value (fuel : nat) (stack : list bool) (s : bytes) : option bytes :=
  match fuel with
  | O => None
  | S f =>
      match ws s with
      | [] => None
      | b :: r =>
          if beqb b x5b then skip_after f false false stack r
          else if beqb b x7b then skip_after f false true stack r
          else match skip_scalar (b :: r) with
               | None => None
               | Some r =>
                   match stack with
                   | [] => Some r
                   | frame :: st => skip_after f true frame st r
                   end
               end
      end
  end
with skip_after (fuel : nat) (comma frame : bool) (stack : list bool) (s : bytes) : option bytes :=
  match fuel with
  | O => None
  | S f =>
      match ws s with
      | [] => None
      | b :: r =>
          if comma && beqb b x2c then skip_next f frame stack r
          else if beqb b (if frame then x7d else x5d) then
            match stack with
            | [] => Some r
            | fr :: st => skip_after f true fr st r
            end
          else if comma then None
          else skip_next f frame stack (b :: r)
      end
  end
with skip_next (fuel : nat) (frame : bool) (stack : list bool) (s : bytes) : option bytes :=
  match fuel with
  | O => None
  | S f =>
      if frame then
        match ws s with
        | b :: r =>
            if beqb b x22 then
              match skip_str (length r) r with
              | Some r =>
                  match ws r with
                  | c :: r => if beqb c x3a then skip_value f (frame :: stack) r else None
                  | [] => None
                  end
              | None => None
              end
            else None
        | [] => None
        end
      else skip_value f (frame :: stack) s
  end.

(** Every step of [ignore_value] consumes input except the steps between its loops:
    three units of fuel per byte suffice. *)
Definition ignore_value (s : bytes) : option bytes := skip_value (3 * length s + 3) [] s.

(** A string value: de.rs [deserialize_str] *)
Definition parse_str_value (s : bytes) : option (bytes * bytes) :=
  match ws s with
  | b :: r => if beqb b x22 then parse_str r else None
  | [] => None
  end.

(** The derived [visit_map] over de.rs [MapAccess]: [first] as in [MapAccess], [seen]
    the field's value so far; the result is the value and the input after the closing
    brace. *)
Fixpoint members (fuel : nat) (field : bytes) (first : bool) (seen : option bytes) (s : bytes)
  : option (bytes * bytes) :=
  match fuel with
  | O => None
  | S f =>
      match ws s with
      | [] => None
      | b :: r =>
          if beqb b x7d then
            match seen with Some v => Some (v, r) | None => None end      (* missing field *)
          else
            match (if negb first && beqb b x2c then Some (ws r)
                   else if first then Some (b :: r) else None) with
            | Some (q :: r) =>
                if beqb q x22 then
                  match parse_str r with
                  | Some (key, r) =>
                      match ws r with
                      | c :: r =>
                          if beqb c x3a then
                            if bseqb key field then
                              match seen with
                              | Some _ => None                           (* duplicate field *)
                              | None =>
                                  match parse_str_value r with
                                  | Some (v, r) => members f field false (Some v) r
                                  | None => None
                                  end
                              end
                            else
                              match ignore_value r with
                              | Some r => members f field false seen r
                              | None => None
                              end
                          else None
                      | [] => None
                      end
                  | None => None
                  end
                else None
            | _ => None
            end
      end
  end.

(** The derived [visit_seq]: a one-element array is accepted for a one-field struct. *)
Definition seq1 (s : bytes) : option (bytes * bytes) :=
  match parse_str_value s with
  | Some (v, r) =>
      match ws r with
      | c :: r => if beqb c x5d then Some (v, r) else None
      | [] => None
      end
  | None => None
  end.

(** [from_slice]: de.rs [deserialize_struct], then [Deserializer::end]. *)
Definition parse_object1 (field s : bytes) : option bytes :=
  match ws s with
  | b :: r =>
      match (if beqb b x7b then members (S (length r)) field true None r
             else if beqb b x5b then seq1 r else None) with
      | Some (v, r) => match ws r with [] => Some v | _ => None end
      | None => None
      end
  | [] => None
  end.

Local Close Scope N_scope.

(** The two codecs in use: [T] written as the text [ser t], read back by [de]. *)
Definition json_struct1 {T} (field : bytes) (ser : T -> option bytes) (de : bytes -> option T)
  : JsonCodec T := {|
  json_to_vec := fun t =>
    match ser t with Some s => COk (json_object1 field s) | None => CErr (str "json") end;
  json_from_slice := fun b =>
    match parse_object1 field b with
    | Some s => match de s with Some t => COk t | None => CErr (str "json") end
    | None => CErr (str "json")
    end;
|}.

(** [struct Data { data: String }], lib.rs:683-686 *)
Definition data_json : JsonCodec bytes := json_struct1 (str "data") Some Some.

(** [struct Footer { kid: String }], fuzz/fuzz_targets/local_v3_parse.rs:7-10 *)
Definition kid_string_json : JsonCodec bytes := json_struct1 (str "kid") Some Some.

(** [struct Footer { kid: KeyId<V, K> }], lib.rs:38-43: [KeyId] is serialised as its
    text (id.rs:214-249). *)
Definition kid_json (v : version) (k : ktype) : JsonCodec bytes :=
  json_struct1 (str "kid")
    (fun id => match id_display v k id with Ok t => Some t | _ => None end)
    (fun s => match id_parse v k s with Ok id => Some id | _ => None end).
