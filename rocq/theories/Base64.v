(** * Base64: base64ct 1.6.0 [Base64UrlUnpadded] and the two PASERK helpers.

    The crate's own code is /repo/src/paserk/mod.rs:201-231; the base64ct
    functions it calls are transcribed from that crate's documented structure
    (its source is not in this sandbox), keeping the chunk loops, the
    remainder handling and the final-block validation as separate steps. *)
From Verif Require Import Bytes Outcome.
Local Open Scope N_scope.

(** base64ct [Alphabet::encode_6bits] for the url alphabet, as arithmetic. *)
Definition encode_6bits (n : N) : byte :=
  if n <? 26 then n2b (65 + n)
  else if n <? 52 then n2b (97 + (n - 26))
  else if n <? 62 then n2b (48 + (n - 52))
  else if n =? 62 then n2b 45
  else n2b 95.

(** base64ct [Alphabet::decode_6bits]: [None] stands for the -1 error value. *)
Definition decode_6bits (b : byte) : option N :=
  let c := b2n b in
  if (65 <=? c) && (c <=? 90) then Some (c - 65)
  else if (97 <=? c) && (c <=? 122) then Some (c - 97 + 26)
  else if (48 <=? c) && (c <=? 57) then Some (c - 48 + 52)
  else if c =? 45 then Some 62
  else if c =? 95 then Some 63
  else None.

(** base64ct [Alphabet::encode_3bytes]; [x >> k] is [/ 2^k], [& 63] is [mod 64],
    and the or-ed operands have disjoint bits, so [|] is [+]. *)
Definition encode_3bytes (a b c : byte) : bytes :=
  let a := b2n a in let b := b2n b in let c := b2n c in
  [ encode_6bits (a / 4);
    encode_6bits (a mod 4 * 16 + b / 16);
    encode_6bits (b mod 16 * 4 + c / 64);
    encode_6bits (c mod 64) ].

(** base64ct [Alphabet::decode_3bytes]; the [as u8] truncations are in [n2b]. *)
Definition decode_3bytes (w x y z : byte) : option bytes :=
  match decode_6bits w, decode_6bits x, decode_6bits y, decode_6bits z with
  | Some w, Some x, Some y, Some z =>
      Some [ n2b (w * 4 + x / 16); n2b (x * 16 + y / 4); n2b (y * 64 + z) ]
  | _, _, _, _ => None
  end.

Local Close Scope N_scope.

(** base64ct [encoded_len] (unpadded); the [checked_mul] overflow (inputs of
    2^62 bytes) is not modelled. *)
Definition encoded_len (n : nat) : nat :=
  4 * n / 3 + (if (4 * n mod 3 =? 0) then 0 else 1).

(** base64ct [decoded_len] *)
Definition decoded_len (n : nat) : nat :=
  let k := n / 4 in
  let l := n - 4 * k in
  3 * k + 3 * l / 4.

(** base64ct [Encoding::encode_string]: 3-byte chunks, then the zero-padded
    remainder truncated to the output length. *)
Fixpoint encode_string (s : bytes) : bytes :=
  match s with
  | a :: b :: c :: r => encode_3bytes a b c ++ encode_string r
  | [a; b] => firstn 3 (encode_3bytes a b x00)
  | [a] => firstn 2 (encode_3bytes a x00 x00)
  | [] => []
  end.

(** base64ct [Encoding::encode] into a buffer of [cap] bytes. *)
Definition encode_buf (cap : nat) (s : bytes) : option bytes :=
  if cap <? encoded_len (length s) then None else Some (encode_string s).

(** The decoding loop of base64ct [Encoding::decode]: 4-char chunks, then the
    'A'-padded remainder; a remainder of one character is an error. *)
Fixpoint decode_body (s : bytes) : option bytes :=
  match s with
  | w :: x :: y :: z :: r =>
      match decode_3bytes w x y z, decode_body r with
      | Some d, Some ds => Some (d ++ ds)
      | _, _ => None
      end
  | [w; x; y] => match decode_3bytes w x y x41 with
                 | Some d => Some (firstn 2 d) | None => None end
  | [w; x] => match decode_3bytes w x x41 x41 with
              | Some d => Some (firstn 1 d) | None => None end
  | [_] => None
  | [] => Some []
  end.

(** base64ct [validate_last_block]: re-encode the last decoded block and compare
    it (on the common prefix) to the last encoded block. *)
Definition last_block_start (len size : nat) : nat := (len - 1) / size * size.

Fixpoint zip_eqb (a b : bytes) : bool :=
  match a, b with
  | x :: a', y :: b' => beqb x y && zip_eqb a' b'
  | _, _ => true
  end.

Definition validate_last_block (enc dec : bytes) : bool :=
  match enc, dec with
  | [], [] => true
  | _, _ =>
      zip_eqb (encode_string (skipn (last_block_start (length dec) 3) dec))
              (skipn (last_block_start (length enc) 4) enc)
  end.

(** base64ct [Encoding::decode] into a buffer of [cap] bytes. *)
Definition decode_buf (cap : nat) (s : bytes) : option bytes :=
  if cap <? decoded_len (length s) then None
  else match decode_body s with
       | Some d => if validate_last_block s d then Some d else None
       | None => None
       end.

(** base64ct [Encoding::decode_vec] *)
Definition decode_vec (s : bytes) : option bytes :=
  decode_buf (decoded_len (length s)) s.

(** [slice.chunks(n)] *)
Fixpoint chunks_fuel (fuel n : nat) (l : bytes) : list bytes :=
  match fuel, l with
  | _, [] => []
  | O, _ => []
  | S f, _ => firstn n l :: chunks_fuel f n (skipn n l)
  end.
Definition chunks (n : nat) (l : bytes) : list bytes := chunks_fuel (length l) n l.

(** [write_b64], /repo/src/paserk/mod.rs:201-208: 48-byte chunks through a
    64-byte buffer, [encode(..).unwrap()].  Returns the text written. *)
Fixpoint write_chunks (cs : list bytes) : outcome bytes :=
  match cs with
  | [] => Ok []
  | c :: r =>
      let? s := unwrap (encode_buf 64 c) in
      let? t := write_chunks r in
      Ok (s ++ t)
  end.
Definition write_b64 (b : bytes) : outcome bytes := write_chunks (chunks 48 b).

(** [read_b64], /repo/src/paserk/mod.rs:210-231, for [L::Length = n]. *)
Definition read_b64 (n : nat) (s : bytes) : outcome bytes :=
  let expected_len := (length s + 3) / 4 * 3 in
  if expected_len <? n then Err Base64DecodeError
  else
    let? d := ok_or (decode_buf n s) Base64DecodeError in
    if negb (length d =? n) then Err Base64DecodeError else Ok d.
