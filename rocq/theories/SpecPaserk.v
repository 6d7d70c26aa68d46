(** * SpecPaserk: the PASERK standard for k3/k4, written from its documents. *)
From Verif Require Import Bytes Prims Version SpecBase64 SpecPaseto.

(** ** Headers (PASERK "types") *)
Definition kver (v : version) : bytes := match v with V3 => str "k3" | V4 => str "k4" end.

Definition plain_h (v : version) (k : ktype) : bytes :=
  kver v ++ match k with Local => str ".local." | Public => str ".public." | Secret => str ".secret." end.
Definition id_h (v : version) (k : ktype) : bytes :=
  kver v ++ match k with Local => str ".lid." | Public => str ".pid." | Secret => str ".sid." end.
Definition pie_h (v : version) (w : wtype) : bytes :=
  kver v ++ match w with WLocal => str ".local-wrap.pie." | WSecret => str ".secret-wrap.pie." end.
Definition pw_h (v : version) (w : wtype) : bytes :=
  kver v ++ match w with WLocal => str ".local-pw." | WSecret => str ".secret-pw." end.
Definition seal_h (v : version) : bytes := kver v ++ str ".seal.".

(** ** Plaintext and ids *)
Definition plaintext_paserk (v : version) (k : ktype) (key : bytes) : bytes :=
  plain_h v k ++ base64url key.

(** The 33-byte digest of an id: SHA-384 truncated / BLAKE2b-264 of
    header || plaintext PASERK. *)
Definition id_digest (S : Sym) (v : version) (k : ktype) (key : bytes) : bytes :=
  let msg := id_h v k ++ plaintext_paserk v k key in
  match v with
  | V3 => firstn 33 (sha384 S msg)
  | V4 => blake2b S 33 msg
  end.

(** Stream cipher of the version. *)
Definition cipher (S : Sym) (v : version) (ek n data : bytes) : bytes :=
  match v with V3 => aes256_ctr S ek n data | V4 => xchacha20 S ek n data end.

(** ** PIE *)
Definition pie_ek_n2 (S : Sym) (v : version) (wk n : bytes) : bytes * bytes :=
  let x := match v with
           | V3 => hmac_sha384 S wk (x80 :: n)
           | V4 => blake2b_mac S 56 wk (x80 :: n)
           end in
  (firstn 32 x, skipn 32 x).
Definition pie_ak (S : Sym) (v : version) (wk n : bytes) : bytes :=
  match v with
  | V3 => firstn 32 (hmac_sha384 S wk (x81 :: n))
  | V4 => blake2b_mac S 32 wk (x81 :: n)
  end.
Definition pie_spec_tag (S : Sym) (v : version) (w : wtype) (wk n c : bytes) : bytes :=
  let ak := pie_ak S v wk n in
  match v with
  | V3 => hmac_sha384 S ak (pie_h v w ++ n ++ c)
  | V4 => blake2b_mac S 32 ak (pie_h v w ++ n ++ c)
  end.
Definition pie_cipher (S : Sym) (v : version) (wk n data : bytes) : bytes :=
  let '(ek, n2) := pie_ek_n2 S v wk n in cipher S v ek n2 data.
(** t || n || c *)
Definition pie_wrap_body (S : Sym) (v : version) (w : wtype) (wk n ptk : bytes) : bytes :=
  let c := pie_cipher S v wk n ptk in
  pie_spec_tag S v w wk n c ++ n ++ c.

(** ** PBKW.  Parameters: PBKDF2 iterations (k3); memory in bytes, time,
    parallelism (k4). *)
Definition pw_params_bytes (v : version) (mem time para iters : N) : bytes :=
  match v with
  | V3 => be_bytes 4 iters
  | V4 => be_bytes 8 mem ++ be_bytes 4 time ++ be_bytes 4 para
  end.
Definition pw_prekey (S : Sym) (v : version) (pw salt : bytes) (mem time para iters : N) : bytes :=
  match v with
  | V3 => pbkdf2_sha384_32 S pw salt iters
  | V4 => argon2id_32 S (mem / 1024) time para pw salt
  end.
Definition pw_ek (S : Sym) (v : version) (k : bytes) : bytes :=
  match v with V3 => firstn 32 (sha384 S (xff :: k)) | V4 => blake2b S 32 (xff :: k) end.
Definition pw_ak (S : Sym) (v : version) (k : bytes) : bytes :=
  match v with V3 => sha384 S (xfe :: k) | V4 => blake2b S 32 (xfe :: k) end.
Definition pw_spec_tag (S : Sym) (v : version) (w : wtype) (k salt params n edk : bytes) : bytes :=
  let ak := pw_ak S v k in
  match v with
  | V3 => hmac_sha384 S ak (pw_h v w ++ salt ++ params ++ n ++ edk)
  | V4 => blake2b_mac S 32 ak (pw_h v w ++ salt ++ params ++ n ++ edk)
  end.
(** s || params || n || edk || t *)
Definition pw_wrap_body (S : Sym) (v : version) (w : wtype)
           (pw salt n ptk : bytes) (mem time para iters : N) : bytes :=
  let k := pw_prekey S v pw salt mem time para iters in
  let params := pw_params_bytes v mem time para iters in
  let edk := cipher S v (pw_ek S v k) n ptk in
  salt ++ params ++ n ++ edk ++ pw_spec_tag S v w k salt params n edk.

(** ** PKE (sealing).  [xk] is the Diffie-Hellman result, [pk] the recipient key as
    it enters the hash (compressed P-384 point; X25519 form of the Ed25519 key). *)
Definition seal_ek_n (S : Sym) (v : version) (xk epk pk : bytes) : bytes * bytes :=
  match v with
  | V3 => let x := sha384 S (x01 :: seal_h V3 ++ xk ++ epk ++ pk) in (firstn 32 x, skipn 32 x)
  | V4 => (blake2b S 32 (x01 :: seal_h V4 ++ xk ++ epk ++ pk), blake2b S 24 (epk ++ pk))
  end.
Definition seal_ak (S : Sym) (v : version) (xk epk pk : bytes) : bytes :=
  match v with
  | V3 => sha384 S (x02 :: seal_h V3 ++ xk ++ epk ++ pk)
  | V4 => blake2b S 32 (x02 :: seal_h V4 ++ xk ++ epk ++ pk)
  end.
Definition seal_spec_tag (S : Sym) (v : version) (xk epk pk edk : bytes) : bytes :=
  let ak := seal_ak S v xk epk pk in
  match v with
  | V3 => hmac_sha384 S ak (seal_h V3 ++ epk ++ edk)
  | V4 => blake2b_mac S 32 ak (seal_h V4 ++ epk ++ edk)
  end.
(** t || epk || edk *)
Definition seal_body (S : Sym) (v : version) (xk epk pk pdk : bytes) : bytes :=
  let '(ek, n) := seal_ek_n S v xk epk pk in
  let edk := cipher S v ek n pdk in
  seal_spec_tag S v xk epk pk edk ++ epk ++ edk.

(** ** The receiving side: what each standard accepts *)

(** PIE unwrap of t, n, c: the plaintext key bytes if the tag is right. *)
Definition pie_unwrap_spec (S : Sym) (v : version) (w : wtype) (wk t n c : bytes) : option bytes :=
  if bseqb t (pie_spec_tag S v w wk n c) then Some (pie_cipher S v wk n c) else None.

(** PBKW unwrap. *)
Definition pw_unwrap_spec (S : Sym) (v : version) (w : wtype)
           (pw salt n edk t : bytes) (mem time para iters : N) : option bytes :=
  let k := pw_prekey S v pw salt mem time para iters in
  let params := pw_params_bytes v mem time para iters in
  if bseqb t (pw_spec_tag S v w k salt params n edk)
  then Some (cipher S v (pw_ek S v k) n edk) else None.

(** PKE unseal. *)
Definition unseal_spec (S : Sym) (v : version) (xk epk pk t edk : bytes) : option bytes :=
  if bseqb t (seal_spec_tag S v xk epk pk edk)
  then let '(ek, n) := seal_ek_n S v xk epk pk in Some (cipher S v ek n edk) else None.
