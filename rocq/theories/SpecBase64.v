(** * SpecBase64: RFC 4648 section 5 (base64url) without padding, at bit level.
    Written from the RFC; shares nothing with [Base64]. *)
From Verif Require Import Bytes.

(** RFC 4648, table 2. *)
Definition alphabet : bytes :=
  str "ABCDEFGHIJKLMNOPQRSTUVWXYZabcdefghijklmnopqrstuvwxyz0123456789-_".

(** The eight bits of an octet, most significant first. *)
Definition bits_of_byte (b : byte) : list bool :=
  map (fun i => N.testbit (b2n b) (N.of_nat i)) [7; 6; 5; 4; 3; 2; 1; 0].

Definition bits_of (l : bytes) : list bool := flat_map bits_of_byte l.

(** Value of a bit string, most significant first. *)
Definition val_of_bits (l : list bool) : nat :=
  fold_left (fun acc (b : bool) => 2 * acc + (if b then 1 else 0)) l 0.

(** Cut in groups of six, the last one filled with zero bits. *)
Fixpoint groups6 (l : list bool) : list (list bool) :=
  match l with
  | a :: b :: c :: d :: e :: f :: r => [a; b; c; d; e; f] :: groups6 r
  | [] => []
  | short => [firstn 6 (short ++ repeat false 6)]
  end.

Definition base64url (l : bytes) : bytes :=
  map (fun g => nth (val_of_bits g) alphabet x00) (groups6 (bits_of l)).

(** RFC 4648 section 10 / 9 examples (tests of the specification). *)
Example base64url_empty : base64url [] = [].
Proof. reflexivity. Qed.
Example base64url_f : base64url (str "f") = str "Zg".
Proof. reflexivity. Qed.
Example base64url_fo : base64url (str "fo") = str "Zm8".
Proof. reflexivity. Qed.
Example base64url_foobar : base64url (str "foobar") = str "Zm9vYmFy".
Proof. reflexivity. Qed.
Example base64url_special : base64url [xfb; xff; xbf] = str "-_-_".
Proof. reflexivity. Qed.
