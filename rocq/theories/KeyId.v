(** * KeyId: key identifiers.  /repo/src/paserk/id.rs *)
From Verif Require Import Bytes Outcome Base64 Prims Version Key.

(** [KeyId] holds 33 bytes (id.rs:56-60); version and key type are phantom. *)
Definition ID_LEN : nat := 33.

(** [Display for KeyId], id.rs:67-74; [Debug] is the same, id.rs:62-66. *)
Definition id_display (v : version) (k : ktype) (id : bytes) : outcome bytes :=
  let? b := write_b64 id in
  Ok (paserk_header v ++ dot ++ id_header k ++ b).

(** [FromStr for KeyId], id.rs:76-100 *)
Definition id_parse (v : version) (k : ktype) (s : bytes) : outcome bytes :=
  let? s := ok_or (strip_prefix (paserk_header v) s) InvalidToken in
  let? s := ok_or (strip_prefix dot s) InvalidToken in
  let? s := ok_or (strip_prefix (id_header k) s) InvalidToken in
  let? b := ok_or (decode_buf ID_LEN s) Base64DecodeError in
  if negb (length b =? ID_LEN) then Err Base64DecodeError else Ok b.

(** [Ord::cmp] on byte arrays: lexicographic; id.rs:102-111 *)
Fixpoint bytes_cmp (a b : bytes) : comparison :=
  match a, b with
  | [], [] => Eq
  | [], _ :: _ => Lt
  | _ :: _, [] => Gt
  | x :: a', y :: b' =>
      match N.compare (b2n x) (b2n y) with
      | Eq => bytes_cmp a' b'
      | c => c
      end
  end.
Definition id_cmp (a b : bytes) : comparison := bytes_cmp a b.

(** [PartialEq], id.rs:112-117 *)
Definition id_eqb (a b : bytes) : bool := bseqb a b.

(** [Hash], id.rs:124-128: the bytes fed to the hasher ([<[u8] as Hash>::hash]
    writes the length, then the content). *)
Definition id_hash_input (a : bytes) : bytes := le_bytes 8 (nlen a) ++ a.

(** Size of the text buffer in [From<&Key>], id.rs:158 and id.rs:187 *)
Definition id_buffer (v : version) : nat :=
  match v with V3 => 49 * 4 / 3 + 3 | V4 => 64 * 4 / 3 + 3 end.

(** The bytes hashed, id.rs:161-168 and 190-197; [p] is the encoded key *)
Definition id_hash_message (v : version) (k : ktype) (p : bytes) : bytes :=
  paserk_header v ++ dot ++ id_header k ++ paserk_header v ++ dot ++ key_header k ++ p.

(** [From<&Key<V3, K>> for KeyId], id.rs:151-177;
    [From<&Key<V4, K>> for KeyId], id.rs:180-205; [Key::to_id], id.rs:145-147. *)
Definition to_id (P : Prims) (v : version) (k : ktype) (key : bytes) : outcome bytes :=
  let? p := unwrap (encode_buf (id_buffer v) (key_to_bytes P v k key)) in
  match v with
  | V3 =>
      let d := sha384 P (id_hash_message V3 k p) in
      if length d <? 33 then Panic else Ok (firstn 33 d)       (* &d[..33] *)
  | V4 => Ok (blake2b P 33 (id_hash_message V4 k p))
  end.
