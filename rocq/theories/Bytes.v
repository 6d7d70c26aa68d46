(** * Bytes: the machine-level vocabulary of the model.

    [byte] is Coq's 256-constructor inductive type, i.e. exactly Rust's [u8];
    [bytes] stands for [&[u8]], [Vec<u8>], [GenericArray<u8,_>] and, because
    every string operation the crate performs ([strip_prefix], [split_once]
    on ASCII needles, concatenation) is byte-wise, also for [&str]/[String]
    (UTF-8 validity is not tracked: the model accepts a superset). *)
From Coq Require Import Strings.Byte.
From Coq Require Export Strings.String.
From Coq Require Export List NArith Lia Bool Arith.
From Coq Require Export Init.Byte.
Export ListNotations.
Open Scope list_scope.

Definition bytes := list byte.

(** ASCII literal -> bytes (Rust byte-string / str literal). *)
Definition str (s : string) : bytes := list_byte_of_string s.
Arguments str s%string_scope.

(** u8 <-> N *)
Definition b2n (b : byte) : N := Byte.to_N b.
Definition n2b (n : N) : byte :=
  match Byte.of_N (n mod 256) with Some b => b | None => x00 end.

Definition beqb (a b : byte) : bool := Byte.eqb a b.

(** [<[u8] as PartialEq>::eq]: equal length and equal elements. *)
Fixpoint bseqb (a b : bytes) : bool :=
  match a, b with
  | [], [] => true
  | x :: a', y :: b' => beqb x y && bseqb a' b'
  | _, _ => false
  end.

(** [usize] length as an [N]. *)
Definition nlen (l : bytes) : N := N.of_nat (length l).

(** u8 xor *)
Definition bxor (a b : byte) : byte := n2b (N.lxor (b2n a) (b2n b)).

(** Element-wise xor (stops at the shorter argument). *)
Fixpoint bsxor (a b : bytes) : bytes :=
  match a, b with
  | x :: a', y :: b' => bxor x y :: bsxor a' b'
  | _, _ => []
  end.

(** [uN::to_le_bytes] with [k = N/8]: wraps modulo [256^k]. *)
Fixpoint le_bytes (k : nat) (n : N) : bytes :=
  match k with
  | O => []
  | S k' => n2b n :: le_bytes k' (n / 256)
  end.

(** [uN::from_le_bytes] *)
Fixpoint le_val (l : bytes) : N :=
  match l with
  | [] => 0
  | b :: r => b2n b + 256 * le_val r
  end%N.

(** [uN::to_be_bytes] / [uN::from_be_bytes] *)
Definition be_bytes (k : nat) (n : N) : bytes := rev (le_bytes k n).
Definition be_val (l : bytes) : N := le_val (rev l).

Definition two64 : N := 18446744073709551616.
Definition two32 : N := 4294967296.
