(** * SpecDetail: decimal numerals and joined lists, from the standard library's printer;
    primitives with exchanged ciphers. *)
From Coq Require Import DecimalString DecimalN.
From Verif Require Import Bytes Prims.

(** The decimal numeral of a number (no leading zeros, "0" for zero). *)
Definition decimal (n : N) : bytes := str (NilZero.string_of_uint (N.to_uint n)).

(** [a ++ sep ++ b ++ sep ++ c]. *)
Fixpoint join (sep : bytes) (l : list bytes) : bytes :=
  match l with
  | [] => []
  | [a] => a
  | a :: r => a ++ sep ++ join sep r
  end.

(** The same primitives with other stream and block ciphers. *)
Definition recipher (P : Prims) (aes : bytes -> bytes -> bytes) (xchacha : bytes -> bytes -> nat -> bytes) : Prims := {|
  sym := {| sha384 := sha384 P; hmac_sha384 := hmac_sha384 P; hkdf_sha384 := hkdf_sha384 P; aes256 := aes;
            pbkdf2_sha384_32 := pbkdf2_sha384_32 P; blake2b := blake2b P; blake2b_mac := blake2b_mac P;
            xchacha20_ks := xchacha; argon2id_32 := argon2id_32 P |};
  asym := asym P;
|}.
