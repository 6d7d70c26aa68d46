(** * ToyAsym: an asymmetric instance satisfying the laws.

    [EdLaws] and [P384Laws] state facts about elliptic curves (commutativity of
    Diffie-Hellman, correctness of signatures) proved for the real
    curves in [RealLaws.v], where they are slow to evaluate.  This instance replaces the curve groups by the
    additive groups of integers modulo 2^256 and modulo the P-384 group order, and
    signatures by keyed hashes.  It is insecure, but it satisfies every law with
    the same sizes, the same encodings and the same accepted tags, so it shows that
    the hypotheses [Laws P] of the theorems can be met by non-degenerate functions
    (keys, messages and nonces all influence the results).  The hashes are those of the
    symmetric instance [S]: see [Toy] (real hashes) in [ConcreteLemmas] and [Mini] (small,
    fast ones) in [Samples]. *)
From Verif Require Import Bytes Prims.
Local Open Scope N_scope.

(** ** Ed25519 / X25519 *)
Definition toy_gen : N := 18.
Definition toy_ed_pub (seed : bytes) : bytes := le_bytes 32 (toy_gen * le_val seed).
Definition toy_ed_pk_ok (pk : bytes) : bool := (length pk =? 32)%nat && N.even (le_val pk).
Definition toy_ed_sign (S : Sym) (seed m : bytes) : bytes := blake2b_mac S 64 (toy_ed_pub seed) m.
Definition toy_ed_verify (S : Sym) (pk m sg : bytes) : bool := bseqb sg (blake2b_mac S 64 pk m).
Definition toy_le32 (b : bytes) : bytes := le_bytes 32 (le_val b).
(** clamping: clear the three low bits, clear bit 255, set bit 254 *)
Definition toy_clamp (b : bytes) : bytes :=
  let n := le_val b in
  le_bytes 32 (N.lor (2 ^ 254) (8 * (n / 8 mod 2 ^ 251))).
Definition toy_x_base (s : bytes) : bytes := le_bytes 32 (toy_gen * le_val s).
Definition toy_x_mul (s p : bytes) : bytes := le_bytes 32 (le_val s * le_val p).

(** ** P-384 *)
Definition toy_p_gen : N := 65537.
Definition toy_p_sk_slice (b : bytes) : option bytes :=
  let k := repeat x00 (48 - length b) ++ b in
  if (24 <=? length b)%nat && p_scalar_ok k then Some k else None.
Definition toy_p_pub (s : bytes) : bytes := x02 :: be_bytes 48 (be_val s * toy_p_gen mod p384_n).
Definition toy_p_x_ok (r : bytes) : bool := (length r =? 48)%nat && (be_val r <? p384_n).
Definition toy_p_parse (b : bytes) : option bytes :=
  match b with
  | x02 :: r => if toy_p_x_ok r then Some b else None
  | x03 :: r => if toy_p_x_ok r then Some b else None
  | x05 :: r => if toy_p_x_ok r then Some (x02 :: r) else None
  | x04 :: r =>
      if (length r =? 96)%nat && toy_p_x_ok (firstn 48 r) then
        Some ((if N.even (be_val (skipn 48 r)) then x02 else x03) :: firstn 48 r)
      else None
  | _ => None
  end.
Definition toy_scalar_of (h : bytes) : N := 1 + be_val h mod (p384_n - 1).
Definition toy_p_r (S : Sym) (pk d : bytes) : N := toy_scalar_of (hmac_sha384 S pk d).
Definition toy_p_s (S : Sym) (pk d : bytes) : N := toy_scalar_of (hmac_sha384 S (x01 :: pk) d).
Definition toy_p_sign (S : Sym) (s d : bytes) : option bytes :=
  let pk := toy_p_pub s in
  Some (be_bytes 48 (toy_p_r S pk d) ++ be_bytes 48 (toy_p_s S pk d)).
(** ECDSA accepts [s] and [n - s]. *)
Definition toy_p_verify (S : Sym) (pk d sg : bytes) : bool :=
  let r := be_val (firstn 48 sg) in
  let s := be_val (skipn 48 sg) in
  (r =? toy_p_r S pk d) && ((s =? toy_p_s S pk d) || (s =? p384_n - toy_p_s S pk d)).
Definition toy_p_dh (s k : bytes) : bytes := be_bytes 48 (be_val s * be_val (tl k) mod p384_n).

Definition ToyAsym (S : Sym) : Asym := {|
  ed_pub := toy_ed_pub;
  ed_pk_ok := toy_ed_pk_ok;
  ed_sign := toy_ed_sign S;
  ed_verify := toy_ed_verify S;
  ed_to_mont := toy_le32;
  ed_scalar := toy_le32;
  x_scalar := toy_clamp;
  x_base := toy_x_base;
  x_mul := toy_x_mul;
  p_sk_slice := toy_p_sk_slice;
  p_sk_pem := toy_p_sk_slice;
  p_pk_pem := toy_p_parse;
  p_pub := toy_p_pub;
  p_parse := toy_p_parse;
  p_sign := toy_p_sign S;
  p_verify := toy_p_verify S;
  p_dh := toy_p_dh;
|}.

Definition with_toy (S : Sym) : Prims := {| sym := S; asym := ToyAsym S |}.
