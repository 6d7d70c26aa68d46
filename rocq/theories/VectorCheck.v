(** * VectorCheck: the repository's test procedures, run on the model.

    Each function transcribes the body of a test in /repo/tests/{paseto,paserk}.rs, with the
    primitives of [CurveAsym.Real].  Messages are kept as raw bytes instead of
    [serde_json::Value] (the vectors' payloads are what serde_json prints). *)
From Verif Require Import Bytes Outcome Base64 Prims Version Key Token Local Public Plaintext KeyId
  Wrap Pbkw Pke ConcreteSym CurveAsym.

(** [hex::decode] *)
Definition hex_digit (b : byte) : N :=
  let n := b2n b in if (n <? 58)%N then (n - 48)%N else (n - 87)%N.
Fixpoint hex_bytes (l : bytes) : bytes :=
  match l with
  | a :: b :: r => n2b (16 * hex_digit a + hex_digit b) :: hex_bytes r
  | _ => []
  end.
Definition hex (s : string) : bytes := hex_bytes (str s).
Arguments hex s%string_scope.

(** [FakeRng { bytes, start: 0 }] *)
Definition fake_rng (b : bytes) : rng := {| tape := fun i => nth i b x00; pos := 0 |}.

(** the message type of the vectors *)
Definition raw_encoding : Encoding unit bytes := {|
  suffix := []; e_default := tt; e_encode := fun _ m => COk m; e_decode := fun _ b => COk b |}.

Definition is_err {A} (x : outcome A) : bool := match x with Err _ => true | _ => false end.
Definition ok_is (x : outcome bytes) (b : bytes) : bool := match x with Ok y => bseqb y b | _ => false end.

(** paseto.rs, [Local] success and failure cases *)
Definition check_local (v : version) (key nonce token payload footer implicit : bytes) : bool :=
  match token_parse v PLocal [] tt vec_footer token with
  | Ok t =>
      bseqb (unverified_footer t) footer &&
      match decrypt_with_assertions Real v raw_encoding t key implicit with
      | Ok d =>
          bseqb (vt_message d) payload &&
          match fst (encrypt_with_rng Real v raw_encoding vec_footer
                       (with_footer (token_new (vt_message d)) (vt_footer d)) key implicit (fake_rng nonce)) with
          | Ok t' => bseqb (token_display v PLocal [] t') token
          | _ => false
          end
      | _ => false
      end
  | _ => false
  end.
Definition check_local_fail (v : version) (key token footer implicit : bytes) : bool :=
  match token_parse v PLocal [] tt vec_footer token with
  | Ok t => bseqb (unverified_footer t) footer && is_err (decrypt_with_assertions Real v raw_encoding t key implicit)
  | Err _ => true
  | Panic => false
  end.

(** paseto.rs, [ParseKey] *)
Definition parse_secret (v : version) (b : bytes) : outcome bytes :=
  match v with V3 => v3_secret_from_bytes Real b | V4 => v4_secret_from_keypair Real b end.
Definition parse_public (v : version) (b : bytes) : outcome bytes :=
  match v with V3 => v3_public_from_sec1 Real b | V4 => v4_public_from_bytes Real b end.
Definition parse_key (v : version) (k : ktype) (b : bytes) : outcome bytes :=
  match k with Local => Ok (local_from_bytes b) | Secret => parse_secret v b | Public => parse_public v b end.

(** paseto.rs, [Public] success and failure cases *)
Definition check_public (v : version) (public secret token payload footer implicit : bytes) : bool :=
  match parse_public v public, parse_secret v secret, token_parse v PPublic [] tt vec_footer token with
  | Ok pk, Ok sk, Ok t =>
      bseqb (unverified_footer t) footer &&
      match verify_with_assertions Real v raw_encoding t pk implicit with
      | Ok d =>
          bseqb (vt_message d) payload &&
          match sign_with_assertions Real v raw_encoding vec_footer
                  (with_footer (token_new (vt_message d)) (vt_footer d)) sk implicit with
          | Ok t' => bseqb (token_display v PPublic [] t') token
          | _ => false
          end
      | _ => false
      end
  | _, _, _ => false
  end.
Definition check_public_fail (v : version) (public token footer implicit : bytes) : bool :=
  match token_parse v PPublic [] tt vec_footer token with
  | Ok t =>
      match parse_public v public with
      | Ok pk => bseqb (unverified_footer t) footer && is_err (verify_with_assertions Real v raw_encoding t pk implicit)
      | _ => false
      end
  | Err _ => true
  | Panic => false
  end.

(** paserk.rs, [IdTest] *)
Definition check_id (v : version) (k : ktype) (key paserk : bytes) : bool :=
  match parse_key v k key with
  | Ok key =>
      match to_id Real v k key, id_parse v k paserk with
      | Ok kid, Ok kid2 => id_eqb kid kid2 && ok_is (id_display v k kid) paserk
      | _, _ => false
      end
  | _ => false
  end.

(** paserk.rs, [KeyTest] *)
Definition check_key (v : version) (k : ktype) (key paserk : bytes) : bool :=
  match plaintext_parse Real v k paserk, parse_key v k key with
  | Ok key2, Ok key => key_eqb Real v k key key2 && ok_is (plaintext_display Real v k key) paserk
  | _, _ => false
  end.
Definition check_key_fail (v : version) (k : ktype) (paserk : bytes) : bool :=
  is_err (plaintext_parse Real v k paserk).

(** paserk.rs, [PieWrapTest]; printing the parsed value is checked as well *)
Definition check_pie (v : version) (w : wtype) (wk paserk unwrapped : bytes) : bool :=
  match pie_parse v w paserk with
  | Ok x =>
      ok_is (pie_display v w x) paserk &&
      match unwrap_pie Real v w x wk with
      | Ok key => bseqb (to_bytes Real v (wtype_key w) key) unwrapped
      | _ => false
      end
  | _ => false
  end.
Definition check_pie_fail (v : version) (w : wtype) (wk paserk : bytes) : bool :=
  match pie_parse v w paserk with
  | Ok x => is_err (unwrap_pie Real v w x wk)
  | Err _ => true
  | Panic => false
  end.

(** paserk.rs, [PbkwTest] *)
Definition check_pw (v : version) (w : wtype) (pw paserk unwrapped : bytes) : bool :=
  match pw_parse v w paserk with
  | Ok x =>
      ok_is (pw_display v w x) paserk &&
      match pw_unwrap Real v w x pw with
      | Ok key => bseqb (to_bytes Real v (wtype_key w) key) unwrapped
      | _ => false
      end
  | _ => false
  end.
Definition check_pw_fail (v : version) (w : wtype) (pw paserk : bytes) : bool :=
  match pw_parse v w paserk with
  | Ok x => is_err (pw_unwrap Real v w x pw)
  | Err _ => true
  | Panic => false
  end.
(** the part of [PbkwTest] before the key derivation: the text parses to the vector's
    "options" and prints back *)
Definition check_pw_text_v3 (w : wtype) (paserk : bytes) (iters : N) : bool :=
  match pw_parse V3 w paserk with
  | Ok x => (iterations (pw_settings x) =? iters)%N && ok_is (pw_display V3 w x) paserk
  | _ => false
  end.
Definition check_pw_text_v4 (w : wtype) (paserk : bytes) (memlimit opslimit : N) : bool :=
  match pw_parse V4 w paserk with
  | Ok x =>
      let st : argon2_state := pw_settings x in
      (mem st =? memlimit)%N && (time st =? opslimit)%N && (para st =? 1)%N && ok_is (pw_display V4 w x) paserk
  | _ => false
  end.

(** paserk.rs, [PkeTest]; [NewKey2] *)
Definition seal_key (v : version) (s : bytes) : outcome bytes :=
  match v with V3 => v3_secret_from_pem Real s | V4 => v4_secret_from_keypair Real (hex_bytes s) end.
Definition check_seal (v : version) (secret paserk unsealed : bytes) : bool :=
  match seal_parse v paserk, seal_key v secret with
  | Ok x, Ok sk => ok_is (seal_display v x) paserk && ok_is (unseal Real v x sk) unsealed
  | _, _ => false
  end.
Definition check_seal_fail (v : version) (secret paserk : bytes) : bool :=
  match seal_parse v paserk with
  | Ok x => match seal_key v secret with Ok sk => is_err (unseal Real v x sk) | _ => false end
  | Err _ => true
  | Panic => false
  end.
