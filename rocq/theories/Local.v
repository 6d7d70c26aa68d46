(** * Local: encryption and decryption of local tokens.
    /repo/src/purpose/local/{mod,v3,v4}.rs *)
From Verif Require Import Bytes Outcome Pae Prims Version Token.

(** local/mod.rs:120 *)
Definition NONCE_LEN : nat := 32.

(** [LocalVersion::TagSize], v3.rs:48, v4.rs:54 *)
Definition tag_size (v : version) : nat := match v with V3 => 48 | V4 => 32 end.

(** [LocalEncryption::AuthKeySize], v3.rs:75, v4.rs:81 *)
Definition auth_key_size (v : version) : nat := match v with V3 => 48 | V4 => 32 end.

(** [GenericCipher::KeyIvPair], v3.rs:35, v4.rs:41 *)
Definition key_iv_size (v : version) : nat := match v with V3 => 48 | V4 => 56 end.

(** [Kdf::mac], v3.rs:22-31 (HKDF) and v4.rs:31-37 (keyed BLAKE2b); [n] is the
    output size chosen by the caller's type. *)
Definition kdf_mac (P : Prims) (v : version) (n : nat) (key : bytes) (info : list bytes) : bytes :=
  match v with
  | V3 => hkdf_sha384 P key (concat info) n
  | V4 => blake2b_mac P n key (concat info)
  end.

(** [GenericMac::Mac], v3.rs:17-19, v4.rs:18-24: the tag MAC. *)
Definition tag_mac (P : Prims) (v : version) (key msg : bytes) : bytes :=
  match v with
  | V3 => hmac_sha384 P key msg
  | V4 => blake2b_mac P 32 key msg
  end.

(** [GenericCipher::key_iv_init(pair).apply_keystream(data)], v3.rs:34-43,
    v4.rs:40-49: split the pair after 32 bytes, xor the keystream; XChaCha20
    panics past its length limit ([StreamCipher::apply_keystream]). *)
Definition apply_keystream (P : Prims) (v : version) (key iv data : bytes) : outcome bytes :=
  match v with
  | V3 => Ok (bsxor data (aes256ctr_ks P key iv (length data)))
  | V4 => if (xchacha20_limit <? nlen data)%N then Panic
          else Ok (bsxor data (xchacha20_ks P key iv (length data)))
  end.

Definition key_iv_apply (P : Prims) (v : version) (pair data : bytes) : outcome bytes :=
  apply_keystream P v (firstn 32 pair) (skipn 32 pair) data.

(** [generic_digest], local/mod.rs:122-150 *)
Definition generic_digest (P : Prims) (v : version)
           (auth_key encoding_header nonce ciphertext footer implicit : bytes) : bytes :=
  tag_mac P v auth_key
    (pae [ [ paseto_header v; encoding_header; dot; purpose_header PLocal; dot ];
           [ nonce ]; [ ciphertext ]; [ footer ]; [ implicit ] ]).

(** [generic_encrypt], local/mod.rs:153-171.  Returns the message buffer after
    in-place encryption, and the tag. *)
Definition generic_encrypt (P : Prims) (v : version)
           (key encoding_header nonce message footer implicit : bytes)
  : outcome (bytes * bytes) :=
  let ek_iv_pair := kdf_mac P v (key_iv_size v) key [str "paseto-encryption-key"; nonce] in
  let ak := kdf_mac P v (auth_key_size v) key [str "paseto-auth-key-for-aead"; nonce] in
  let? message := key_iv_apply P v ek_iv_pair message in
  Ok (message, generic_digest P v ak encoding_header nonce message footer implicit).

(** [generic_decrypt], local/mod.rs:174-198.  [Ok None] is the [Err(())] result;
    [Ok (Some m)] the decrypted buffer. *)
Definition generic_decrypt (P : Prims) (v : version)
           (key encoding_header nonce message tag footer implicit : bytes)
  : outcome (option bytes) :=
  let ek_iv_pair := kdf_mac P v (key_iv_size v) key [str "paseto-encryption-key"; nonce] in
  let ak := kdf_mac P v (auth_key_size v) key [str "paseto-auth-key-for-aead"; nonce] in
  let tag2 := generic_digest P v ak encoding_header nonce message footer implicit in
  if negb (bseqb tag tag2) then Ok None
  else let? m := key_iv_apply P v ek_iv_pair message in Ok (Some m).

(** [sandwich], local/mod.rs:344-352 *)
Definition sandwich (v prepend append : bytes) : bytes := prepend ++ v ++ append.

(** [DecryptedToken::encrypt_inner], local/mod.rs:201-230 *)
Definition encrypt_inner {M F E} (P : Prims) (v : version) (EN : Encoding E M) (FC : FooterCodec F)
           (t : ValidatedToken M F E) (key nonce implicit : bytes)
  : outcome (SecuredToken F E) :=
  let? m := payload_err (e_encode EN (vt_encoding t) (vt_message t)) in
  let? f := unwrap (f_encode FC (vt_footer t)) in
  let? '(c, tag) := generic_encrypt P v key (suffix EN) nonce m f implicit in
  Ok {| st_encoding := vt_encoding t; st_payload := sandwich c nonce tag;
        st_encoded_footer := f; st_footer := vt_footer t |}.

(** [encrypt_with_assertions_and_rng], local/mod.rs:274-283: the nonce is drawn
    before anything else. *)
Definition encrypt_with_rng {M F E} (P : Prims) (v : version) (EN : Encoding E M)
           (FC : FooterCodec F) (t : ValidatedToken M F E) (key implicit : bytes) (r : rng)
  : outcome (SecuredToken F E) * rng :=
  let '(nonce, r') := fill NONCE_LEN r in
  (encrypt_inner P v EN FC t key nonce implicit, r').

(** [encrypt], local/mod.rs:242-244 (its generator is [rand::thread_rng()],
    here the argument [r]) *)
Definition encrypt {M F E} P v (EN : Encoding E M) (FC : FooterCodec F)
           (t : ValidatedToken M F E) key r :=
  encrypt_with_rng P v EN FC t key [] r.

(** [decrypt_with_assertions], local/mod.rs:308-340.  [split_at_mut(NONCE_LEN)]
    panics on short payloads; [m.len() - TagSize] underflows (debug) or makes
    the second [split_at_mut] panic (release). *)
Definition decrypt_with_assertions {M F E} (P : Prims) (v : version) (EN : Encoding E M)
           (t : SecuredToken F E) (key implicit : bytes) : outcome (ValidatedToken M F E) :=
  let? '(n, m) := split_at NONCE_LEN (st_payload t) in
  let? k := usize_sub (length m) (tag_size v) in
  let? '(m, tg) := split_at k m in
  let? r := generic_decrypt P v key (suffix EN) n m tg (st_encoded_footer t) implicit in
  let? m := ok_or r CryptoError in
  let? message := payload_err (e_decode EN (st_encoding t) m) in
  Ok {| vt_encoding := st_encoding t; vt_message := message; vt_footer := st_footer t |}.

(** [decrypt], local/mod.rs:288-296 *)
Definition decrypt {M F E} P v (EN : Encoding E M) (t : SecuredToken F E) key :=
  decrypt_with_assertions P v EN t key [].
