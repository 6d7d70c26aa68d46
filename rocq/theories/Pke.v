(** * Pke: sealed keys.  /repo/src/paserk/pke.rs *)
From Verif Require Import Bytes Outcome Base64 Prims Version Key Local.

(** [SealedKey], pke.rs:62-66 *)
Record Sealed := { sl_tag : bytes; sl_epk : bytes; sl_edk : bytes }.

(** [TagLen], [EpkLen], [TotalLen]: pke.rs:147-151, 285-288 *)
Definition sl_tag_len (v : version) : nat := match v with V3 => 48 | V4 => 32 end.
Definition epk_len (v : version) : nat := match v with V3 => 49 | V4 => 32 end.
Definition sl_total_len (v : version) : nat := match v with V3 => 129 | V4 => 96 end.

Definition seal_hdr : bytes := str ".seal.".

(** The SHA-384 / BLAKE2b input of the key derivations: pke.rs:186-203, 241-248,
    264-272 (V3) and 329-345, 387-394, 410-417 (V4) *)
Definition seal_kdf_msg (v : version) (d : byte) (xk epk pk : bytes) : bytes :=
  [d] ++ paserk_header v ++ seal_hdr ++ xk ++ epk ++ pk.

(** The tag's message: pke.rs:208-215, 250-257, 355-362, 396-403 *)
Definition seal_tag_msg (v : version) (epk edk : bytes) : bytes :=
  paserk_header v ++ seal_hdr ++ epk ++ edk.

(** [seal] for V3, pke.rs:168-222.  [esk] is the ephemeral scalar. *)
Definition seal_v3 (P : Prims) (pdk pk esk : bytes) : outcome Sealed :=
  let epk := p_pub P esk in
  let xk := p_dh P esk pk in
  let h := sha384 P (seal_kdf_msg V3 x01 xk epk pk) in
  let '(ek, n) := (firstn 32 h, skipn 32 h) in
  let ak := sha384 P (seal_kdf_msg V3 x02 xk epk pk) in
  let? edk := apply_keystream P V3 ek n pdk in
  let tag := hmac_sha384 P ak (seal_tag_msg V3 epk edk) in
  Ok {| sl_tag := tag; sl_epk := epk; sl_edk := edk |}.

(** [seal] for V4, pke.rs:305-369.  [eb] are the 32 random bytes. *)
Definition seal_v4 (P : Prims) (pdk pk eb : bytes) : outcome Sealed :=
  let xpk := ed_to_mont P pk in
  let esk := x_scalar P eb in
  let epk := x_base P esk in
  let xk := x_mul P esk xpk in
  let ek := blake2b P 32 (seal_kdf_msg V4 x01 xk epk xpk) in
  let ak := blake2b P 32 (seal_kdf_msg V4 x02 xk epk xpk) in
  let n := blake2b P 24 (epk ++ xpk) in
  let? edk := apply_keystream P V4 ek n pdk in
  let tag := blake2b_mac P 32 ak (seal_tag_msg V4 epk edk) in
  Ok {| sl_tag := tag; sl_epk := epk; sl_edk := edk |}.

(** [seal_with_rng], pke.rs:101-107; [None]: rejection sampling out of fuel. *)
Definition seal (P : Prims) (v : version) (fuel : nat) (pdk pk : bytes) (r : rng)
  : option (outcome Sealed * rng) :=
  match v with
  | V3 => match p384_random fuel r with
          | Some (esk, r') => Some (seal_v3 P pdk pk esk, r')
          | None => None
          end
  | V4 => let '(eb, r') := fill 32 r in Some (seal_v4 P pdk pk eb, r')
  end.

(** [unseal] for V3, pke.rs:224-280 *)
Definition unseal_v3 (P : Prims) (x : Sealed) (sk : bytes) : outcome bytes :=
  let? sk := (if p_scalar_ok sk then Ok sk else Panic) in   (* SecretKey::from_bytes().unwrap() *)
  let pk := p_pub P sk in
  let? epk := unwrap (p_parse P (sl_epk x)) in              (* from_sec1_bytes(..).unwrap() *)
  let xk := p_dh P sk epk in
  let ak := sha384 P (seal_kdf_msg V3 x02 xk (sl_epk x) pk) in
  let tag := hmac_sha384 P ak (seal_tag_msg V3 (sl_epk x) (sl_edk x)) in
  if negb (bseqb (sl_tag x) tag) then Err CryptoError
  else
    let h := sha384 P (seal_kdf_msg V3 x01 xk (sl_epk x) pk) in
    let '(ek, n) := (firstn 32 h, skipn 32 h) in
    apply_keystream P V3 ek n (sl_edk x).

(** [unseal] for V4, pke.rs:371-428; [sk] is the seed. *)
Definition unseal_v4 (P : Prims) (x : Sealed) (sk : bytes) : outcome bytes :=
  let epk := sl_epk x in
  let xpk := ed_to_mont P (ed_pub P sk) in
  let xk := x_mul P (ed_scalar P sk) epk in
  let ak := blake2b P 32 (seal_kdf_msg V4 x02 xk epk xpk) in
  let t2 := blake2b_mac P 32 ak (seal_tag_msg V4 epk (sl_edk x)) in
  if negb (bseqb (sl_tag x) t2) then Err CryptoError
  else
    let ek := blake2b P 32 (seal_kdf_msg V4 x01 xk epk xpk) in
    let n := blake2b P 24 (epk ++ xpk) in
    apply_keystream P V4 ek n (sl_edk x).

(** [SealedKey::unseal], pke.rs:112-114 *)
Definition unseal (P : Prims) (v : version) (x : Sealed) (sk : bytes) : outcome bytes :=
  match v with V3 => unseal_v3 P x sk | V4 => unseal_v4 P x sk end.

(** [FromStr for SealedKey], pke.rs:431-444; [split_total], pke.rs:152-160,289-297 *)
Definition seal_parse (v : version) (s : bytes) : outcome Sealed :=
  let? s := ok_or (strip_prefix (paserk_header v) s) InvalidToken in
  let? s := ok_or (strip_prefix seal_hdr s) InvalidToken in
  let? total := read_b64 (sl_total_len v) s in
  let '(tag, rest) := (firstn (sl_tag_len v) total, skipn (sl_tag_len v) total) in
  let '(epk, edk) := (firstn (epk_len v) rest, skipn (epk_len v) rest) in
  Ok {| sl_tag := tag; sl_epk := epk; sl_edk := edk |}.

(** [Display for SealedKey], pke.rs:446-453; [join_total], pke.rs:161-166,298-303 *)
Definition seal_display (v : version) (x : Sealed) : outcome bytes :=
  let? b := write_b64 (sl_tag x ++ sl_epk x ++ sl_edk x) in
  Ok (paserk_header v ++ seal_hdr ++ b).
