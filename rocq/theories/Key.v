(** * Key: keys, their constructors and their byte forms.

    An inner key ([KeyType::InnerKeyType]) is represented by bytes:
    - Local: the 32 key bytes (local/mod.rs:57)
    - V4 Secret: the 32-byte seed of [ed25519_dalek::SigningKey]
    - V4 Public: the 32 bytes of [ed25519_dalek::VerifyingKey]
    - V3 Secret: the 48 bytes of the scalar of [p384::ecdsa::SigningKey]
    - V3 Public: the 49-byte compressed form of [p384::ecdsa::VerifyingKey] *)
From Verif Require Import Bytes Outcome Prims Version.

(** The invariant of the Rust types. *)
Definition valid_key (P : Prims) (v : version) (k : ktype) (key : bytes) : bool :=
  match v, k with
  | _, Local => length key =? 32
  | V4, Secret => length key =? 32
  | V4, Public => (length key =? 32) && ed_pk_ok P key
  | V3, Secret => p_scalar_ok key
  | V3, Public => (length key =? 49) &&
      match p_parse P key with Some k' => bseqb k' key | None => false end
  end.

(** [KeyType::to_bytes]: local/mod.rs:58-60; public/mod.rs:60-62,74-76;
    public/v3.rs:56-62; public/v4.rs:53-59. *)
Definition key_to_bytes (P : Prims) (v : version) (k : ktype) (key : bytes) : bytes :=
  match v, k with
  | V4, Secret => key ++ ed_pub P key        (* to_keypair_bytes *)
  | _, _ => key
  end.

(** ed25519-dalek [SigningKey::from_keypair_bytes]: both halves must parse and the
    second must be the public key of the first. *)
Definition ed_from_keypair (P : Prims) (b : bytes) : option bytes :=
  let seed := firstn 32 b in
  let pk := skipn 32 b in
  if ed_pk_ok P pk && bseqb (ed_pub P seed) pk then Some seed else None.

(** [KeyType::from_bytes] on an array of [key_len v k] bytes: local/mod.rs:61-63;
    public/mod.rs:63-65,77-79; public/v3.rs:44-54; public/v4.rs:39-51. *)
Definition key_from_bytes (P : Prims) (v : version) (k : ktype) (b : bytes) : outcome bytes :=
  match v, k with
  | _, Local => Ok b
  | V4, Secret => ok_or (ed_from_keypair P b) InvalidKey
  | V4, Public => if ed_pk_ok P b then Ok b else Err InvalidKey
  | V3, Secret => ok_or (p_sk_slice P b) InvalidKey
  | V3, Public => ok_or (p_parse P b) InvalidKey
  end.

(** [Key == Key], key/mod.rs:34-38 *)
Definition key_eqb (P : Prims) (v : version) (k : ktype) (a b : bytes) : bool :=
  bseqb (key_to_bytes P v k a) (key_to_bytes P v k b).

(** [Debug for Key], key/mod.rs:48-57, without [cfg(fuzzing_repro)]:
    [debug_struct("Key").finish_non_exhaustive()]. *)
Definition key_debug (key : bytes) : bytes := str "Key { .. }".

(** ** Public constructors, key/convert.rs *)

(** [SecretKey<V3>::from_sec1_pem], convert.rs:24-29 *)
Definition v3_secret_from_pem (P : Prims) (s : bytes) : outcome bytes :=
  ok_or (p_sk_pem P s) InvalidKey.

(** [SecretKey<V3>::from_bytes], convert.rs:32-36 *)
Definition v3_secret_from_bytes (P : Prims) (s : bytes) : outcome bytes :=
  ok_or (p_sk_slice P s) InvalidKey.

(** [SecretKey<V3>::public_key], convert.rs:39-43;
    [SecretKey<V4>::public_key], convert.rs:117-121 *)
Definition public_key (P : Prims) (v : version) (sk : bytes) : bytes :=
  match v with V3 => p_pub P sk | V4 => ed_pub P sk end.

(** [PublicKey<V3>::from_public_key_pem], convert.rs:61-68 *)
Definition v3_public_from_pem (P : Prims) (s : bytes) : outcome bytes :=
  ok_or (p_pk_pem P s) InvalidKey.

(** [PublicKey<V3>::from_sec1_bytes], convert.rs:71-76 *)
Definition v3_public_from_sec1 (P : Prims) (s : bytes) : outcome bytes :=
  ok_or (p_parse P s) InvalidKey.

(** [SecretKey<V4>::from_keypair_bytes], convert.rs:91-97 *)
Definition v4_secret_from_keypair (P : Prims) (s : bytes) : outcome bytes :=
  if length s =? 64 then ok_or (ed_from_keypair P s) InvalidKey else Err InvalidKey.

(** [SecretKey<V4>::from_secret_key], convert.rs:110-114 ([[u8; 32]] argument) *)
Definition v4_secret_from_seed (s : bytes) : bytes := s.

(** [PublicKey<V4>::from_public_key], convert.rs:136-142 *)
Definition v4_public_from_bytes (P : Prims) (s : bytes) : outcome bytes :=
  if length s =? 32 then (if ed_pk_ok P s then Ok s else Err InvalidKey) else Err InvalidKey.

(** [SymmetricKey::from_bytes], convert.rs:155-159,165-169 ([[u8; 32]] argument) *)
Definition local_from_bytes (s : bytes) : bytes := s.

(** [Key::to_bytes], convert.rs:147-149 *)
Definition to_bytes := key_to_bytes.

(** [SymmetricKey::new_random], convert.rs:179-183 *)
Definition local_new_random (r : rng) : bytes * rng := fill 32 r.

(** [SecretKey<V4>::new_random], convert.rs:194-200 *)
Definition v4_secret_new_random (r : rng) : bytes * rng := fill 32 r.

(** [SecretKey<V3>::new_random], convert.rs:211-215 *)
Definition v3_secret_new_random (fuel : nat) (r : rng) : option (bytes * rng) :=
  p384_random fuel r.
