(** * Pbkw: password-wrapped keys.  /repo/src/paserk/pbkw.rs *)
From Verif Require Import Bytes Outcome Base64 Prims Version Key Local.

(** [Pbkdf2State], pbkw.rs:301-317; [Argon2State], pbkw.rs:319-340 (u32 fields) *)
Record pbkdf2_state := { iterations : N }.
Record argon2_state := { mem : N; time : N; para : N }.

(** [PwVersion::KdfState], pbkw.rs:450,481 *)
Definition kdf_state (v : version) : Type :=
  match v with V3 => pbkdf2_state | V4 => argon2_state end.

(** The fields are [u32]. *)
Definition state_u32 (v : version) : kdf_state v -> bool :=
  match v with
  | V3 => fun s => (iterations s <? two32)%N
  | V4 => fun s => (mem s <? two32)%N && (time s <? two32)%N && (para s <? two32)%N
  end.

(** [Default], pbkw.rs:311-317 and 331-340 *)
Definition default_state (v : version) : kdf_state v :=
  match v with
  | V3 => {| iterations := 100000 |}
  | V4 => {| mem := 67108864; time := 2; para := 1 |}    (* 0x0400_0000 *)
  end.

(** [PwVersion::Salt], [KdfStateLen], [Cipher::IvSize], pbkw.rs:449-454,480-485 *)
Definition salt_len (v : version) : nat := match v with V3 => 32 | V4 => 16 end.
Definition state_len (v : version) : nat := match v with V3 => 4 | V4 => 16 end.
Definition iv_len (v : version) : nat := match v with V3 => 16 | V4 => 24 end.

(** [PwWrapType::SaltStateIvEdkTag], pbkw.rs:523-549 *)
Definition pw_total_len (v : version) (w : wtype) : nat :=
  match v, w with
  | V4, WLocal => 120 | V3, WLocal => 132
  | V4, WSecret => 152 | V3, WSecret => 148
  end.

(** [PwType::WRAP_HEADER], pbkw.rs:406-412 *)
Definition pw_header (w : wtype) : bytes :=
  match w with WLocal => str "local-pw." | WSecret => str "secret-pw." end.

(** [PwVersion::kdf], pbkw.rs:456-458 and 487-497: Argon2 panics on parameters
    rejected by [Params::new] or on an over-long password. *)
Definition pw_kdf (P : Prims) (v : version) (pw salt : bytes) : kdf_state v -> outcome bytes :=
  match v with
  | V3 => fun s => Ok (pbkdf2_sha384_32 P pw salt (iterations s))
  | V4 => fun s =>
      if argon2_params_ok (mem s / 1024) (time s) (para s) && argon2_pw_ok pw
      then Ok (argon2id_32 P (mem s / 1024) (time s) (para s) pw salt)
      else Panic
  end.

(** [PwVersion::encode_state], pbkw.rs:465-467 and 503-508 *)
Definition encode_state (v : version) : kdf_state v -> bytes :=
  match v with
  | V3 => fun s => be_bytes 4 (iterations s)
  | V4 => fun s => [x00; x00; x00; x00] ++ be_bytes 4 (mem s) ++ be_bytes 4 (time s)
                     ++ be_bytes 4 (para s)
  end.

(** [PwVersion::decode_state], pbkw.rs:468-471 and 509-520 (the first four of the
    16 bytes are ignored in V4) *)
Definition decode_state (v : version) (b : bytes) : kdf_state v :=
  match v with
  | V3 => {| iterations := be_val b |}
  | V4 =>
      let b := skipn 4 b in
      let '(mem2, b) := (firstn 4 b, skipn 4 b) in
      let '(tim, par) := (firstn 4 b, skipn 4 b) in
      {| mem := be_val mem2; time := be_val tim; para := be_val par |}
  end.

(** [PwVersion::KeyHash], pbkw.rs:446,477 *)
Definition pw_key_hash (P : Prims) (v : version) (m : bytes) : bytes :=
  match v with V3 => sha384 P m | V4 => blake2b P 32 m end.

(** [PwVersion::split_ek], pbkw.rs:460-463,499-501 *)
Definition split_ek (v : version) (ek : bytes) : bytes :=
  match v with V3 => firstn 32 ek | V4 => ek end.

(** [PwVersion::TagMac], pbkw.rs:447,478 *)
Definition pw_tag_mac (P : Prims) (v : version) (k m : bytes) : bytes :=
  match v with V3 => hmac_sha384 P k m | V4 => blake2b_mac P 32 k m end.

(** [PwWrappedKey], pbkw.rs:78-84 *)
Record PwWrapped (v : version) := {
  pw_salt : bytes; pw_state : kdf_state v; pw_nonce : bytes; pw_edk : bytes; pw_tag : bytes }.
Arguments pw_salt {v}. Arguments pw_state {v}. Arguments pw_nonce {v}.
Arguments pw_edk {v}. Arguments pw_tag {v}.

(** The tag's message, pbkw.rs:183-193 and 215-225 *)
Definition pw_tag_message (v : version) (w : wtype) (salt : bytes) (st : kdf_state v)
           (n edk : bytes) : bytes :=
  paserk_header v ++ dot ++ pw_header w ++ salt ++ encode_state v st ++ n ++ edk.

(** [pw_wrap_with_settings_and_rng], pbkw.rs:153-202: the salt is drawn, then the
    KDF runs, then the nonce is drawn. *)
Definition pw_wrap (P : Prims) (v : version) (w : wtype) (key pw : bytes) (st : kdf_state v)
           (r : rng) : outcome (PwWrapped v) * rng :=
  let '(salt, r1) := fill (salt_len v) r in
  match pw_kdf P v pw salt st with
  | Ok k =>
      let ek := split_ek v (pw_key_hash P v ([xff] ++ k)) in
      let ak := pw_key_hash P v ([xfe] ++ k) in
      let '(n, r2) := fill (iv_len v) r1 in
      (let? edk := apply_keystream P v ek n (key_to_bytes P v (wtype_key w) key) in
       let tag := pw_tag_mac P v ak (pw_tag_message v w salt st n edk) in
       Ok {| pw_salt := salt; pw_state := st; pw_nonce := n; pw_edk := edk; pw_tag := tag |}, r2)
  | Err e => (Err e, r1)
  | Panic => (Panic, r1)
  end.

(** [pw_wrap] (the public method), pbkw.rs:133-135: default settings *)
Definition pw_wrap_default P v w key pw r := pw_wrap P v w key pw (default_state v) r.

(** [unwrap_key], pbkw.rs:207-243 *)
Definition pw_unwrap (P : Prims) (v : version) (w : wtype) (x : PwWrapped v) (pw : bytes)
  : outcome bytes :=
  let? k := pw_kdf P v pw (pw_salt x) (pw_state x) in
  let ak := pw_key_hash P v ([xfe] ++ k) in
  let tag := pw_tag_mac P v ak
               (pw_tag_message v w (pw_salt x) (pw_state x) (pw_nonce x) (pw_edk x)) in
  if negb (bseqb tag (pw_tag x)) then Err CryptoError
  else
    let ek := split_ek v (pw_key_hash P v ([xff] ++ k)) in
    let? ptk := apply_keystream P v ek (pw_nonce x) (pw_edk x) in
    key_from_bytes P v (wtype_key w) ptk.

(** [settings], pbkw.rs:248-250 *)
Definition pw_settings {v} (x : PwWrapped v) : kdf_state v := pw_state x.

(** [FromStr for PwWrappedKey], pbkw.rs:253-281 *)
Definition pw_parse (v : version) (w : wtype) (s : bytes) : outcome (PwWrapped v) :=
  let? s := ok_or (strip_prefix (paserk_header v) s) InvalidToken in
  let? s := ok_or (strip_prefix dot s) InvalidToken in
  let? s := ok_or (strip_prefix (pw_header w) s) InvalidToken in
  let? total := read_b64 (pw_total_len v w) s in
  let a := salt_len v + state_len v + iv_len v + key_len v (wtype_key w) in
  let '(salt_state_nonce_edk, tag) := (firstn a total, skipn a total) in
  let b := salt_len v + state_len v + iv_len v in
  let '(salt_state_nonce, edk) := (firstn b salt_state_nonce_edk, skipn b salt_state_nonce_edk) in
  let c := salt_len v + state_len v in
  let '(salt_state, nonce) := (firstn c salt_state_nonce, skipn c salt_state_nonce) in
  let '(salt, state) := (firstn (salt_len v) salt_state, skipn (salt_len v) salt_state) in
  Ok {| pw_salt := salt; pw_state := decode_state v state; pw_nonce := nonce;
        pw_edk := edk; pw_tag := tag |}.

(** [Display for PwWrappedKey], pbkw.rs:283-299 *)
Definition pw_display (v : version) (w : wtype) (x : PwWrapped v) : outcome bytes :=
  let? b := write_b64 (pw_salt x ++ encode_state v (pw_state x) ++ pw_nonce x
                         ++ pw_edk x ++ pw_tag x) in
  Ok (paserk_header v ++ dot ++ pw_header w ++ b).
