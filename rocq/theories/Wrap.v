(** * Wrap: PIE-wrapped keys.  /repo/src/paserk/wrap.rs *)
From Verif Require Import Bytes Outcome Base64 Prims Version Key Local.

(** [PieWrappedKey] (fields [tag], [nonce], [wrapped_key]) *)
Record PieWrapped := { pie_tag : bytes; pie_nonce : bytes; pie_key : bytes }.

(** [WrapType::WRAP_HEADER], wrap.rs:420-426 *)
Definition wrap_header (w : wtype) : bytes :=
  match w with WLocal => str "local-wrap." | WSecret => str "secret-wrap." end.

(** [PieVersion::Tag], wrap.rs:387,404 *)
Definition pie_tag_len (v : version) : nat := match v with V3 => 48 | V4 => 32 end.

(** [PieWrapType::Output] sizes, wrap.rs:443-469 *)
Definition pie_total_len (v : version) (w : wtype) : nat :=
  match v, w with
  | V3, WLocal => 112 | V3, WSecret => 128
  | V4, WLocal => 96 | V4, WSecret => 128
  end.

(** [PieVersion::EncKeyMac], wrap.rs:384,401: HMAC-SHA384 / Blake2bMac<56> *)
Definition pie_enc_key_mac (P : Prims) (v : version) (k m : bytes) : bytes :=
  match v with V3 => hmac_sha384 P k m | V4 => blake2b_mac P 56 k m end.

(** [PieVersion::AuthKeyMac], wrap.rs:383,400: HMAC-SHA384 / Blake2bMac<32> *)
Definition pie_auth_key_mac (P : Prims) (v : version) (k m : bytes) : bytes :=
  match v with V3 => hmac_sha384 P k m | V4 => blake2b_mac P 32 k m end.

(** [PieVersion::TagMac], wrap.rs:385,402: HMAC-SHA384 / Blake2bMac<32> *)
Definition pie_tag_mac (P : Prims) (v : version) (k m : bytes) : bytes :=
  match v with V3 => hmac_sha384 P k m | V4 => blake2b_mac P 32 k m end.

(** The tag's message, wrap.rs:185-194 and 269-278 *)
Definition pie_tag_message (v : version) (w : wtype) (n c : bytes) : bytes :=
  paserk_header v ++ dot ++ wrap_header w ++ str "pie." ++ n ++ c.

(** [wrap_pie_with_rng], wrap.rs:150-201 *)
Definition wrap_pie (P : Prims) (v : version) (w : wtype) (key wk : bytes) (r : rng)
  : outcome PieWrapped * rng :=
  let '(n, r') := fill 32 r in
  let ek := pie_enc_key_mac P v wk ([x80] ++ n) in
  let '(ek, n2) := (firstn 32 ek, skipn 32 ek) in          (* split_enc_key *)
  let ak := pie_auth_key_mac P v wk ([x81] ++ n) in
  (let? c := apply_keystream P v ek n2 (key_to_bytes P v (wtype_key w) key) in
   let? '(ak, _) := split_at 32 ak in                      (* &ak[..32] *)
   let tag := pie_tag_mac P v ak (pie_tag_message v w n c) in
   Ok {| pie_tag := tag; pie_nonce := n; pie_key := c |}, r').

(** [unwrap_key], wrap.rs:252-305 *)
Definition unwrap_pie (P : Prims) (v : version) (w : wtype) (x : PieWrapped) (wk : bytes)
  : outcome bytes :=
  let ak := pie_auth_key_mac P v wk ([x81] ++ pie_nonce x) in
  let? '(ak, _) := split_at 32 ak in
  let tag2 := pie_tag_mac P v ak (pie_tag_message v w (pie_nonce x) (pie_key x)) in
  if negb (bseqb (pie_tag x) tag2) then Err CryptoError
  else
    let ek := pie_enc_key_mac P v wk ([x80] ++ pie_nonce x) in
    let '(ek, n2) := (firstn 32 ek, skipn 32 ek) in
    let? ptk := apply_keystream P v ek n2 (pie_key x) in
    key_from_bytes P v (wtype_key w) ptk.

(** [FromStr for PieWrappedKey], wrap.rs:308-332 *)
Definition pie_parse (v : version) (w : wtype) (s : bytes) : outcome PieWrapped :=
  let? s := ok_or (strip_prefix (paserk_header v) s) InvalidToken in
  let? s := ok_or (strip_prefix dot s) InvalidToken in
  let? s := ok_or (strip_prefix (wrap_header w) s) InvalidToken in
  let? s := ok_or (strip_prefix (str "pie.") s) InvalidToken in
  let? total := read_b64 (pie_total_len v w) s in
  let '(tagiv, wrapped) := (firstn (pie_tag_len v + 32) total, skipn (pie_tag_len v + 32) total) in
  let '(tag, nonce) := (firstn (pie_tag_len v) tagiv, skipn (pie_tag_len v) tagiv) in
  Ok {| pie_tag := tag; pie_nonce := nonce; pie_key := wrapped |}.

(** [Display for PieWrappedKey], wrap.rs:334-346 *)
Definition pie_display (v : version) (w : wtype) (x : PieWrapped) : outcome bytes :=
  let? b := write_b64 (pie_tag x ++ pie_nonce x ++ pie_key x) in
  Ok (paserk_header v ++ dot ++ wrap_header w ++ str "pie." ++ b).
