(** * Plaintext: plaintext PASERKs.  /repo/src/paserk/plaintext.rs *)
From Verif Require Import Bytes Outcome Base64 Prims Version Key.

(** [Display for PlaintextKey], plaintext.rs:22-29 *)
Definition plaintext_display (P : Prims) (v : version) (k : ktype) (key : bytes) : outcome bytes :=
  let? b := write_b64 (key_to_bytes P v k key) in
  Ok (paserk_header v ++ dot ++ key_header k ++ b).

(** [FromStr for PlaintextKey], plaintext.rs:31-57 *)
Definition plaintext_parse (P : Prims) (v : version) (k : ktype) (s : bytes) : outcome bytes :=
  let? s := ok_or (strip_prefix (paserk_header v) s) InvalidToken in
  let? s := ok_or (strip_prefix dot s) InvalidToken in
  let? s := ok_or (strip_prefix (key_header k) s) InvalidToken in
  let? b := ok_or (decode_buf (key_len v k) s) Base64DecodeError in
  if negb (length b =? key_len v k) then Err Base64DecodeError
  else key_from_bytes P v k b.
