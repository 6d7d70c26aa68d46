(** * SpecPaseto: the PASETO standard (version 3 and 4), written from the
    specification documents; it shares only the primitives and [base64url]
    with the rest. *)
From Verif Require Import Bytes Prims Version SpecBase64.

(** ** Pre-authentication encoding (PASETO "Common implementation details") *)

(** LE64: little-endian, the most significant bit cleared. *)
Definition LE64 (n : N) : bytes :=
  map (fun i => n2b (N.shiftr (N.land n 9223372036854775807) (8 * N.of_nat i)))
      [0; 1; 2; 3; 4; 5; 6; 7].

Definition PAE (pieces : list bytes) : bytes :=
  LE64 (N.of_nat (length pieces)) ++ flat_map (fun p => LE64 (nlen p) ++ p) pieces.

(** Slices in Rust have at most [isize::MAX] bytes. *)
Definition two63 : N := 9223372036854775808.
Definition rust_slice (b : bytes) : Prop := (nlen b < two63)%N.

(** Number of pieces and piece lengths fit in the 64-bit length words. *)
Definition fits (ps : list bytes) : Prop :=
  (N.of_nat (length ps) < two64)%N /\ Forall (fun p => (nlen p < two64)%N) ps.

Example PAE_spec_empty : PAE [] = [x00;x00;x00;x00;x00;x00;x00;x00].
Proof. reflexivity. Qed.
Example PAE_spec_test :
  PAE [str "test"] = [x01;x00;x00;x00;x00;x00;x00;x00; x04;x00;x00;x00;x00;x00;x00;x00] ++ str "test".
Proof. reflexivity. Qed.

(** ** Headers *)
Definition local_header (v : version) (sfx : bytes) : bytes :=
  match v with V3 => str "v3" ++ sfx ++ str ".local." | V4 => str "v4" ++ sfx ++ str ".local." end.
Definition public_header (v : version) (sfx : bytes) : bytes :=
  match v with V3 => str "v3" ++ sfx ++ str ".public." | V4 => str "v4" ++ sfx ++ str ".public." end.

(** 48 big-endian bytes of a number between 1 and the order of P-384 minus 1 (SEC 2, 2.5.1):
    a k3 secret key, and each half of a v3 signature. *)
Definition scalar384 (b : bytes) : Prop :=
  length b = 48 /\
  (0 < be_val b < 0xffffffffffffffffffffffffffffffffffffffffffffffffc7634d81f4372ddf581a0db248b0a77aecec196accc52973)%N.

(** Final message: header, body, optional footer. *)
Definition token_text (h body footer : bytes) : bytes :=
  match footer with
  | [] => h ++ base64url body
  | _ => h ++ base64url body ++ str "." ++ base64url footer
  end.

(** ** AES-256-CTR as the standard means it: a 128-bit big-endian counter. *)
Definition two128 : N := 340282366920938463463374607431768211456.
Definition ctr128_block (iv : bytes) (i : nat) : bytes :=
  be_bytes 16 ((be_val iv + N.of_nat i) mod two128).
Definition aes256_ctr (S : Sym) (key iv data : bytes) : bytes :=
  bsxor data (flat_map (fun i => aes256 S key (ctr128_block iv i)) (seq 0 ((length data + 15) / 16))).

Definition xchacha20 (S : Sym) (key n data : bytes) : bytes :=
  bsxor data (xchacha20_ks S key n (length data)).

(** ** v3.local / v4.local *)

(** Key split: encryption key, cipher nonce, authentication key. *)
Definition local_split (S : Sym) (v : version) (k n : bytes) : bytes * bytes * bytes :=
  match v with
  | V3 =>
      let tmp := hkdf_sha384 S k (str "paseto-encryption-key" ++ n) 48 in
      (firstn 32 tmp, skipn 32 tmp, hkdf_sha384 S k (str "paseto-auth-key-for-aead" ++ n) 48)
  | V4 =>
      let tmp := blake2b_mac S 56 k (str "paseto-encryption-key" ++ n) in
      (firstn 32 tmp, skipn 32 tmp, blake2b_mac S 32 k (str "paseto-auth-key-for-aead" ++ n))
  end.

Definition local_cipher (S : Sym) (v : version) (k n m : bytes) : bytes :=
  let '(ek, n2, _) := local_split S v k n in
  match v with
  | V3 => aes256_ctr S ek n2 m
  | V4 => xchacha20 S ek n2 m
  end.

Definition local_tag (S : Sym) (v : version) (sfx k n c f i : bytes) : bytes :=
  let '(_, _, ak) := local_split S v k n in
  let pre := PAE [local_header v sfx; n; c; f; i] in
  match v with
  | V3 => hmac_sha384 S ak pre
  | V4 => blake2b_mac S 32 ak pre
  end.

(** "Encrypt": the token body. *)
Definition local_encrypt (S : Sym) (v : version) (sfx k n m f i : bytes) : bytes :=
  let c := local_cipher S v k n m in
  n ++ c ++ local_tag S v sfx k n c f i.

(** "Decrypt" on a body already cut into nonce, ciphertext, tag. *)
Definition local_decrypt (S : Sym) (v : version) (sfx k n c t f i : bytes) : option bytes :=
  if bseqb t (local_tag S v sfx k n c f i)
  then Some (local_cipher S v k n c)
  else None.

(** ** v3.public / v4.public: the signed message *)
Definition public_m2 (v : version) (sfx pk m f i : bytes) : bytes :=
  match v with
  | V3 => PAE [pk; public_header V3 sfx; m; f; i]
  | V4 => PAE [public_header V4 sfx; m; f; i]
  end.

(** Signature validity of [sig] on [m2]: Ed25519 for v4, ECDSA over P-384 with
    SHA-384 for v3. *)
Definition public_valid (P : Prims) (v : version) (sfx pk m f i sig : bytes) : bool :=
  match v with
  | V3 => p_verify P pk (sha384 P (public_m2 V3 sfx pk m f i)) sig
  | V4 => ed_verify P pk (public_m2 V4 sfx pk m f i) sig
  end.
