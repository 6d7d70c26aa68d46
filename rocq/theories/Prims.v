(** * Prims: the cryptographic crates, seen through the calls the code makes.

    Every field is a total function on byte strings standing for one crate
    call; streaming [update]/[chain_update] calls are represented by hashing
    the concatenation.  The model is parametric in this record; the laws
    needed by a theorem are the [Prop] records below.  [ConcreteSym.v]
    provides an executable instance of [Sym] for which [SymLaws] is proved. *)
From Verif Require Import Bytes.

(** Symmetric primitives. *)
Record Sym := {
  (** sha2 [Sha384] *)
  sha384 : bytes -> bytes;
  (** hmac [Hmac<Sha384>]: key, message (any key length is accepted) *)
  hmac_sha384 : bytes -> bytes -> bytes;
  (** hkdf [Hkdf::<Sha384>::new(None, ikm).expand_multi_info(info, out)]:
      ikm, concatenated info, output length *)
  hkdf_sha384 : bytes -> bytes -> nat -> bytes;
  (** aes [Aes256] block encryption: key, 16-byte block *)
  aes256 : bytes -> bytes -> bytes;
  (** pbkdf2 [pbkdf2_hmac_array::<Sha384, 32>]: password, salt, rounds *)
  pbkdf2_sha384_32 : bytes -> bytes -> N -> bytes;
  (** blake2 [Blake2b<O>]: output length, message *)
  blake2b : nat -> bytes -> bytes;
  (** blake2 [Blake2bMac<O>]: output length, key, message *)
  blake2b_mac : nat -> bytes -> bytes -> bytes;
  (** keystream of chacha20 [XChaCha20]: key, 24-byte nonce, number of bytes *)
  xchacha20_ks : bytes -> bytes -> nat -> bytes;
  (** argon2 [Argon2id], version 0x13, 32-byte output, *validated* parameters:
      memory in KiB, time, parallelism, password, salt *)
  argon2id_32 : N -> N -> N -> bytes -> bytes -> bytes;
}.

(** ctr 0.9 [Ctr64BE<Aes256>]: the i-th counter block keeps the first 8 bytes of
    the IV and adds [i] to the last 8 (big-endian) modulo 2^64. *)
Definition ctr64_block (iv : bytes) (i : nat) : bytes :=
  firstn 8 iv ++ be_bytes 8 ((be_val (skipn 8 iv) + N.of_nat i) mod two64).

(** Its keystream, first [n] bytes. *)
Definition aes256ctr_ks (S : Sym) (key iv : bytes) (n : nat) : bytes :=
  firstn n (flat_map (fun i => aes256 S key (ctr64_block iv i)) (seq 0 ((n + 15) / 16))).

(** Asymmetric primitives. *)
Record Asym := {
  (** ed25519-dalek [SigningKey::from_bytes(seed).verifying_key().to_bytes()] *)
  ed_pub : bytes -> bytes;
  (** does [VerifyingKey::from_bytes] accept these 32 bytes *)
  ed_pk_ok : bytes -> bool;
  (** [SigningKey::sign]: seed, message *)
  ed_sign : bytes -> bytes -> bytes;
  (** [VerifyingKey::verify]: key, message, signature *)
  ed_verify : bytes -> bytes -> bytes -> bool;
  (** [VerifyingKey::to_montgomery().to_bytes()] *)
  ed_to_mont : bytes -> bytes;
  (** [ExpandedSecretKey::from(seed).scalar] as 32 bytes *)
  ed_scalar : bytes -> bytes;
  (** [Scalar::from_bytes_mod_order(clamp_integer(b))] as 32 bytes *)
  x_scalar : bytes -> bytes;
  (** [EdwardsPoint::mul_base(s).to_montgomery().to_bytes()] *)
  x_base : bytes -> bytes;
  (** [Scalar * MontgomeryPoint] *)
  x_mul : bytes -> bytes -> bytes;
  (** p384 [SigningKey::from_slice] on slices of arbitrary length: the 48 bytes
      of the scalar *)
  p_sk_slice : bytes -> option bytes;
  (** p384 [SecretKey::from_sec1_pem], [VerifyingKey::from_public_key_pem] *)
  p_sk_pem : bytes -> option bytes;
  p_pk_pem : bytes -> option bytes;
  (** compressed SEC1 public key of a 48-byte secret scalar *)
  p_pub : bytes -> bytes;
  (** p384 [VerifyingKey]/[PublicKey::from_sec1_bytes] followed by
      [to_encoded_point(true)] *)
  p_parse : bytes -> option bytes;
  (** ecdsa [sign_digest] (RFC 6979): secret scalar, 48-byte digest; [None] is the
      [expect] panic when r or s comes out zero *)
  p_sign : bytes -> bytes -> option bytes;
  (** ecdsa [verify_digest]: compressed key, digest, well-formed signature *)
  p_verify : bytes -> bytes -> bytes -> bool;
  (** p384 [diffie_hellman(..).raw_secret_bytes()]: scalar, compressed point *)
  p_dh : bytes -> bytes -> bytes;
}.

Record Prims := { sym :> Sym; asym :> Asym }.

(** The group order of P-384 (SEC 2). *)
Definition p384_n : N :=
  39402006196394479212279040100143613805079739270465446667946905279627659399113263569398956308152294913554433653942643.

(** [NonZeroScalar] validity of 48 big-endian bytes: what
    [SecretKey::from_bytes] and each half in [ecdsa::Signature::from_bytes]
    check. *)
Definition p_scalar_ok (b : bytes) : bool :=
  (length b =? 48) && negb (be_val b =? 0)%N && (be_val b <? p384_n)%N.

(** ecdsa [Signature::from_bytes(sig)] succeeds (sig has 96 bytes). *)
Definition p_sig_ok (s : bytes) : bool :=
  p_scalar_ok (firstn 48 s) && p_scalar_ok (skipn 48 s).

(** argon2 0.5.2 [Params::new(m, t, p, Some(32))] succeeds. *)
Definition argon2_params_ok (m t p : N) : bool :=
  (8 <=? m)%N && (8 * p <=? m)%N && (1 <=? t)%N && (1 <=? p)%N && (p <=? 16777215)%N.

(** argon2 [hash_password_into] rejects passwords of 2^32 bytes and more. *)
Definition argon2_pw_ok (pw : bytes) : bool := (nlen pw <? two32)%N.

(** chacha20 0.9 [XChaCha20]: [apply_keystream] panics once more than 2^32-1
    64-byte blocks are requested. *)
Definition xchacha20_limit : N := 274877906880. (* 64 * (2^32 - 1) *)

(** Laws used by theorems. *)
Record SymLaws (S : Sym) : Prop := {
  sha384_len : forall m, length (sha384 S m) = 48;
  hmac_len : forall k m, length (hmac_sha384 S k m) = 48;
  hkdf_len : forall k i n, n <= 64 -> length (hkdf_sha384 S k i n) = n;
  aes_len : forall k b, length (aes256 S k b) = 16;
  pbkdf2_len : forall pw s n, length (pbkdf2_sha384_32 S pw s n) = 32;
  blake2b_len : forall o m, o <= 64 -> length (blake2b S o m) = o;
  blake2b_mac_len : forall o k m, o <= 64 -> length (blake2b_mac S o k m) = o;
  xchacha_len : forall k iv n, length (xchacha20_ks S k iv n) = n;
  argon2_len : forall m t p pw s, length (argon2id_32 S m t p pw s) = 32;
}.

(** Lengths and formats of the curve operations.  [CurveLemmas.v] proves them for the
    executable curves of [CurveAsym.v]. *)
Record EdSizes (A : Asym) : Prop := {
  ed_pub_len : forall s, length s = 32 -> length (ed_pub A s) = 32;
  ed_sign_len : forall s m, length s = 32 -> length (ed_sign A s m) = 64;
  ed_to_mont_len : forall pk, length (ed_to_mont A pk) = 32;
  x_base_len : forall s, length (x_base A s) = 32;
  x_mul_len : forall s p, length (x_mul A s p) = 32;
}.

Record P384Sizes (A : Asym) : Prop := {
  p_sk_slice_48 : forall b, length b = 48 ->
    p_sk_slice A b = if p_scalar_ok b then Some b else None;
  p_sk_slice_ok : forall b k, p_sk_slice A b = Some k -> p_scalar_ok k = true;
  p_sk_pem_ok : forall b k, p_sk_pem A b = Some k -> p_scalar_ok k = true;
  p_pub_max : forall s, p_scalar_ok s = true -> length (p_pub A s) <= 49;
  p_parse_len : forall b k, p_parse A b = Some k -> length k = 49;
  p_parse_tag : forall t r k, p_parse A (t :: r) = Some k ->
    t = x02 \/ t = x03 \/ t = x04 \/ t = x05;
  p_sign_ok : forall s d sg, p_scalar_ok s = true -> p_sign A s d = Some sg ->
    length sg = 96 /\ p_sig_ok sg = true;
  p_dh_len : forall s k, length (p_dh A s k) = 48;
}.

(** Facts about the curves' group structure: a public key is a valid point, a signature
    verifies, Diffie-Hellman agrees. *)
Record EdLaws (A : Asym) : Prop := {
  ed_pub_ok : forall s, length s = 32 -> ed_pk_ok A (ed_pub A s) = true;
  ed_correct : forall s m, length s = 32 -> ed_verify A (ed_pub A s) m (ed_sign A s m) = true;
  x_dh : forall seed e, length seed = 32 -> length e = 32 ->
    x_mul A (x_scalar A e) (ed_to_mont A (ed_pub A seed)) =
    x_mul A (ed_scalar A seed) (x_base A (x_scalar A e));
}.

Record P384Laws (A : Asym) : Prop := {
  p_pk_pem_ok : forall b k, p_pk_pem A b = Some k ->
    length k = 49 /\ p_parse A k = Some k;
  p_pub_len : forall s, p_scalar_ok s = true -> length (p_pub A s) = 49;
  p_pub_parse : forall s, p_scalar_ok s = true -> p_parse A (p_pub A s) = Some (p_pub A s);
  p_parse_canon : forall b k, p_parse A b = Some k ->
    length k = 49 /\ p_parse A k = Some k;
  p_correct : forall s d sg, p_scalar_ok s = true -> p_sign A s d = Some sg ->
    p_verify A (p_pub A s) d sg = true;
  p_dh_comm : forall s t, p_scalar_ok s = true -> p_scalar_ok t = true ->
    p_dh A s (p_pub A t) = p_dh A t (p_pub A s);
}.

(** What theorems assume of the primitives: only sizes and formats ([Sizes]), or also the
    group structure ([Laws]). *)
Record Sizes (P : Prims) : Prop := {
  sym_laws :> SymLaws P;
  ed_sizes :> EdSizes P;
  p384_sizes :> P384Sizes P;
}.

Record Laws (P : Prims) : Prop := {
  sizes :> Sizes P;
  ed_laws :> EdLaws P;
  p384_laws :> P384Laws P;
}.

(** ** Random generators ([RngCore + CryptoRng]) *)

(** The stream a generator will produce, and how much of it was consumed. *)
Record rng := { tape : nat -> byte; pos : nat }.

(** [rng.fill_bytes(&mut buf)] with [buf.len() = n] *)
Definition fill (n : nat) (r : rng) : bytes * rng :=
  (map (tape r) (seq (pos r) n), {| tape := tape r; pos := pos r + n |}).

(** [NonZeroScalar::random]: draw 48 bytes until they are a valid non-zero scalar.
    [None]: not finished after [fuel] draws (the Rust loop is unbounded). *)
Fixpoint p384_random (fuel : nat) (r : rng) : option (bytes * rng) :=
  match fuel with
  | O => None
  | S f =>
      let '(b, r') := fill 48 r in
      if p_scalar_ok b then Some (b, r') else p384_random f r'
  end.
