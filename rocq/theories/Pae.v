(** * Pae: pre-authentication encoding, /repo/src/pae.rs. *)
From Verif Require Import Bytes.

(** [usize as u64] / u64 addition: wraps (release build of [Iterator::sum]). *)
Definition u64 (n : N) : N := (n mod two64)%N.

(** [write_piece], /repo/src/pae.rs:35-41: the u64 sum of the sub-slice lengths,
    little-endian, then the sub-slices in order.  The sink ([WriteBytes],
    pae.rs:1-25: Vec, Mac or Digest) only ever appends, so its effect is the
    returned byte string. *)
Definition write_piece (piece : list bytes) : bytes :=
  let len := fold_left (fun acc x => u64 (acc + nlen x)) piece 0%N in
  le_bytes 8 len ++ fold_left (fun out x => out ++ x) piece [].

(** [pae], /repo/src/pae.rs:27-33. *)
Definition pae (pieces : list (list bytes)) : bytes :=
  fold_left (fun out piece => out ++ write_piece piece) pieces
            (le_bytes 8 (u64 (N.of_nat (length pieces)))).
