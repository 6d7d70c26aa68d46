(** * VectorsFindings: the findings of the theorems, run with the actual algorithms.

    Made from the vectors of /repo/tests/test-vectors, in the style of the other [Vectors] files:
    computed when this file is built, a test of the model and not part of any proof. *)
From Verif Require Import Bytes Outcome Base64 Prims Version Key Token Local Public Plaintext
  Pbkw Pke CurveAsym SpecPaserk VectorCheck.

Definition is_panic {A} (x : outcome A) : bool := match x with Panic => true | _ => false end.
Definition opens_local (v : version) (key token payload implicit : bytes) : bool :=
  match token_parse v PLocal [] tt vec_footer token with
  | Ok t => match decrypt_with_assertions Real v raw_encoding t key implicit with
            | Ok d => bseqb (vt_message d) payload
            | _ => false
            end
  | _ => false
  end.
Definition panics_local (v : version) (key token : bytes) : bool :=
  match token_parse v PLocal [] tt vec_footer token with
  | Ok t => is_panic (decrypt_with_assertions Real v raw_encoding t key [])
  | _ => false
  end.
Definition opens_public (v : version) (public token payload implicit : bytes) : bool :=
  match parse_public v public, token_parse v PPublic [] tt vec_footer token with
  | Ok pk, Ok t => match verify_with_assertions Real v raw_encoding t pk implicit with
                   | Ok d => bseqb (vt_message d) payload
                   | _ => false
                   end
  | _, _ => false
  end.
Definition panics_public (v : version) (public token : bytes) : bool :=
  match parse_public v public, token_parse v PPublic [] tt vec_footer token with
  | Ok pk, Ok t => is_panic (verify_with_assertions Real v raw_encoding t pk [])
  | _, _ => false
  end.
(** two different texts, one key; the first is not what the key prints *)
Definition same_v3_key (a b : bytes) : bool :=
  match plaintext_parse Real V3 Public a, plaintext_parse Real V3 Public b with
  | Ok x, Ok y => negb (bseqb a b) && key_eqb Real V3 Public x y && ok_is (plaintext_display Real V3 Public x) b
  | _, _ => false
  end.
Definition panics_seal (v : version) (secret paserk : bytes) : bool :=
  match seal_parse v paserk, parse_secret v secret with
  | Ok x, Ok sk => is_panic (unseal Real v x sk)
  | _, _ => false
  end.
Definition panics_pw (pw paserk : bytes) : bool :=
  match pw_parse V4 WLocal paserk with
  | Ok x => is_panic (pw_unwrap Real V4 WLocal x pw)
  | _ => false
  end.
Definition set_byte (i : nat) (b : byte) (s : bytes) : bytes := firstn i s ++ b :: skipn (i + 1) s.
(** wrap a key of 32 zeros, then change the text's memory field above 2^32: position 12 begins the
    data, whose byte 16 is the first of the field *)
Definition two_pw_texts : bool :=
  let st : argon2_state := {| mem := 8192; time := 1; para := 1 |} in
  match pw_wrap Real V4 WLocal (repeat x00 32) (str "password") st (fake_rng (str "salt and nonce")) with
  | (Ok x, _) =>
      match pw_display V4 WLocal x with
      | Ok s =>
          match decode_vec (skipn 12 s) with
          | Some data =>
              let s' := firstn 12 s ++ encode_string (set_byte 16 x2a data) in
              match pw_parse V4 WLocal s, pw_parse V4 WLocal s' with
              | Ok a, Ok b =>
                  negb (bseqb s s') &&
                  ok_is (pw_unwrap Real V4 WLocal a (str "password")) (repeat x00 32) &&
                  ok_is (pw_unwrap Real V4 WLocal b (str "password")) (repeat x00 32)
              | _, _ => false
              end
          | None => false
          end
      | _ => false
      end
  | _ => false
  end.
Definition opens_sealed_zero : bool :=
  let zeros := repeat x00 32 in
  match seal Real V4 0 (repeat x2a 32) (x01 :: repeat x00 31) (fake_rng (str "random")) with
  | Some (Ok x, _) =>
      match unseal_spec Real V4 zeros (sl_epk x) zeros (sl_tag x) (sl_edk x) with
      | Some key => bseqb key (repeat x2a 32)
      | None => false
      end
  | _ => false
  end.

(** C09: vector 4-E-1 with a dot appended decrypts as before *)
Definition dot_v4_local : bool := Eval vm_compute in
  opens_local V4 (hex "707172737475767778797a7b7c7d7e7f808182838485868788898a8b8c8d8e8f") (str "v4.local.AAAAAAAAAAAAAAAAAAAAAAAAAAAAAAAAAAAAAAAAAAAQAr68PS4AXe7If_ZgesdkUMvSwscFlAl1pk5HC0e8kApeaqMfGo_7OpBnwJOAbY9V7WU6abu74MmcUE8YWAiaArVI8XJ5hOb_4v9RmDkneN0S92dx0OW4pgy7omxgf3S8c3LlQg.") (str "{""data"":""this is a secret message"",""exp"":""2022-01-01T00:00:00+00:00""}") (str "").

(** C09: the same for 3-E-1 *)
Definition dot_v3_local : bool := Eval vm_compute in
  opens_local V3 (hex "707172737475767778797a7b7c7d7e7f808182838485868788898a8b8c8d8e8f") (str "v3.local.AAAAAAAAAAAAAAAAAAAAAAAAAAAAAAAAAAAAAAAAAADbfcIURX_0pVZVU1mAESUzrKZAsRm2EsD6yBoZYn6cpVZNzSJOhSDN-sRaWjfLU-yn9OJH1J_B8GKtOQ9gSQlb8yk9Iza7teRdkiR89ZFyvPPsVjjFiepFUVcMa-LP18zV77f_crJrVXWa5PDNRkCSeHfBBeg.") (str "{""data"":""this is a secret message"",""exp"":""2022-01-01T00:00:00+00:00""}") (str "").

(** C09: and for 4-S-1 *)
Definition dot_v4_public : bool := Eval vm_compute in
  opens_public V4 (hex "1eb9dbbbbc047c03fd70604e0071f0987e16b28b757225c11f00415d0e20b1a2") (str "v4.public.eyJkYXRhIjoidGhpcyBpcyBhIHNpZ25lZCBtZXNzYWdlIiwiZXhwIjoiMjAyMi0wMS0wMVQwMDowMDowMCswMDowMCJ9bg_XBBzds8lTZShVlwwKSgeKpLT3yukTw6JUz3W4h_ExsQV-P0V54zemZDcAxFaSeef1QlXEFtkqxT1ciiQEDA.") (str "{""data"":""this is a signed message"",""exp"":""2022-01-01T00:00:00+00:00""}") (str "").

(** C19: a v3.local token of 79 bytes makes decryption panic, one of 80 bytes does not *)
Definition short_v3_local : bool := Eval vm_compute in
  panics_local V3 (hex "707172737475767778797a7b7c7d7e7f808182838485868788898a8b8c8d8e8f") (str "v3.local.AAAAAAAAAAAAAAAAAAAAAAAAAAAAAAAAAAAAAAAAAAAAAAAAAAAAAAAAAAAAAAAAAAAAAAAAAAAAAAAAAAAAAAAAAAAAAAAAAAAAAAAAAA") &&
  negb (panics_local V3 (hex "707172737475767778797a7b7c7d7e7f808182838485868788898a8b8c8d8e8f") (str "v3.local.AAAAAAAAAAAAAAAAAAAAAAAAAAAAAAAAAAAAAAAAAAAAAAAAAAAAAAAAAAAAAAAAAAAAAAAAAAAAAAAAAAAAAAAAAAAAAAAAAAAAAAAAAAA")).

(** C19: the same at 63 and 64 bytes for v4 *)
Definition short_v4_local : bool := Eval vm_compute in
  panics_local V4 (hex "707172737475767778797a7b7c7d7e7f808182838485868788898a8b8c8d8e8f") (str "v4.local.AAAAAAAAAAAAAAAAAAAAAAAAAAAAAAAAAAAAAAAAAAAAAAAAAAAAAAAAAAAAAAAAAAAAAAAAAAAAAAAAAAAA") &&
  negb (panics_local V4 (hex "707172737475767778797a7b7c7d7e7f808182838485868788898a8b8c8d8e8f") (str "v4.local.AAAAAAAAAAAAAAAAAAAAAAAAAAAAAAAAAAAAAAAAAAAAAAAAAAAAAAAAAAAAAAAAAAAAAAAAAAAAAAAAAAAAAA")).

(** C26: a v3.public token of 95 bytes makes verification panic; so does a signature of zeros, but not one of 96 bytes 01 *)
Definition short_v3_public : bool := Eval vm_compute in
  panics_public V3 (hex "02fbcb7c69ee1c60579be7a334134878d9c5c5bf35d552dab63c0140397ed14cef637d7720925c44699ea30e72874c72fb") (str "v3.public.AAAAAAAAAAAAAAAAAAAAAAAAAAAAAAAAAAAAAAAAAAAAAAAAAAAAAAAAAAAAAAAAAAAAAAAAAAAAAAAAAAAAAAAAAAAAAAAAAAAAAAAAAAAAAAAAAAAAAAAAAAAAAAA") &&
  panics_public V3 (hex "02fbcb7c69ee1c60579be7a334134878d9c5c5bf35d552dab63c0140397ed14cef637d7720925c44699ea30e72874c72fb") (str "v3.public.AAAAAAAAAAAAAAAAAAAAAAAAAAAAAAAAAAAAAAAAAAAAAAAAAAAAAAAAAAAAAAAAAAAAAAAAAAAAAAAAAAAAAAAAAAAAAAAAAAAAAAAAAAAAAAAAAAAAAAAAAAAAAAAA") &&
  negb (panics_public V3 (hex "02fbcb7c69ee1c60579be7a334134878d9c5c5bf35d552dab63c0140397ed14cef637d7720925c44699ea30e72874c72fb") (str "v3.public.AQEBAQEBAQEBAQEBAQEBAQEBAQEBAQEBAQEBAQEBAQEBAQEBAQEBAQEBAQEBAQEBAQEBAQEBAQEBAQEBAQEBAQEBAQEBAQEBAQEBAQEBAQEBAQEBAQEBAQEBAQEBAQEB")).

(** C26: for v4 only the length matters *)
Definition short_v4_public : bool := Eval vm_compute in
  panics_public V4 (hex "1eb9dbbbbc047c03fd70604e0071f0987e16b28b757225c11f00415d0e20b1a2") (str "v4.public.AAAAAAAAAAAAAAAAAAAAAAAAAAAAAAAAAAAAAAAAAAAAAAAAAAAAAAAAAAAAAAAAAAAAAAAAAAAAAAAAAAAA") &&
  negb (panics_public V4 (hex "1eb9dbbbbc047c03fd70604e0071f0987e16b28b757225c11f00415d0e20b1a2") (str "v4.public.AAAAAAAAAAAAAAAAAAAAAAAAAAAAAAAAAAAAAAAAAAAAAAAAAAAAAAAAAAAAAAAAAAAAAAAAAAAAAAAAAAAAAA")).

(** C59: vector 3-S-1 with n - s in place of s is another text and verifies *)
Definition other_v3_signature : bool := Eval vm_compute in
  opens_public V3 (hex "02fbcb7c69ee1c60579be7a334134878d9c5c5bf35d552dab63c0140397ed14cef637d7720925c44699ea30e72874c72fb") (str "v3.public.eyJkYXRhIjoidGhpcyBpcyBhIHNpZ25lZCBtZXNzYWdlIiwiZXhwIjoiMjAyMi0wMS0wMVQwMDowMDowMCswMDowMCJ9qqEwwrKHKi5lJ7b9MBKc0G4MGZy0ptUiMv3lAUAaz-JY_zjoqBSIxMxhfAoeNYiSNQgr7UcEF1xwpZKxhyY-wbsthTWhto85XytcCWlRUCrs3ct_Wd23Tuq_0i-1My8S") (str "{""data"":""this is a signed message"",""exp"":""2022-01-01T00:00:00+00:00""}") (str "").

(** C61: the 05 form of a k3 public key is read as the same key as one of its 02 and 03 forms *)
Definition compact_v3_key : bool := Eval vm_compute in
  same_v3_key (str "k3.public.BfvLfGnuHGBXm-ejNBNIeNnFxb811VLatjwBQDl-0UzvY313IJJcRGmeow5yh0xy-w")
    (str "k3.public.AvvLfGnuHGBXm-ejNBNIeNnFxb811VLatjwBQDl-0UzvY313IJJcRGmeow5yh0xy-w").

(** C48: unsealing a k3.seal text of zeros panics *)
Definition unseal_v3_panic : bool := Eval vm_compute in
  panics_seal V3 (hex "20347609607477aca8fbfbc5e6218455f3199669792ef8b466faa87bdc67798144c848dd03661eed5ac62461340cea96") (str "k3.seal.AAAAAAAAAAAAAAAAAAAAAAAAAAAAAAAAAAAAAAAAAAAAAAAAAAAAAAAAAAAAAAAAAAAAAAAAAAAAAAAAAAAAAAAAAAAAAAAAAAAAAAAAAAAAAAAAAAAAAAAAAAAAAAAAAAAAAAAAAAAAAAAAAAAAAAAAAAAAAAAAAAAAAAAAAAAA").

(** C48: a k4.seal text of zeros gives an error *)
Definition unseal_v4_no_panic : bool := Eval vm_compute in
  negb (panics_seal V4 (hex "b4cbfb43df4ce210727d953e4a713307fa19bb7d9f85041438d9e11b942a37741eb9dbbbbc047c03fd70604e0071f0987e16b28b757225c11f00415d0e20b1a2") (str "k4.seal.AAAAAAAAAAAAAAAAAAAAAAAAAAAAAAAAAAAAAAAAAAAAAAAAAAAAAAAAAAAAAAAAAAAAAAAAAAAAAAAAAAAAAAAAAAAAAAAAAAAAAAAAAAAAAAAAAAAAAAAAAAAAAAAA")).

(** C43: a k4 password-wrapped key that asks for no memory makes unwrapping panic *)
Definition pw_v4_panic : bool := Eval vm_compute in
  panics_pw (str "password") (str "k4.local-pw.AAAAAAAAAAAAAAAAAAAAAAAAAAAAAAAAAAAAAQAAAAEAAAAAAAAAAAAAAAAAAAAAAAAAAAAAAAAAAAAAAAAAAAAAAAAAAAAAAAAAAAAAAAAAAAAAAAAAAAAAAAAAAAAAAAAAAAAAAAAAAAAAAAAAAAAAAAAAAAAA").

(** C44: a k4 password-wrapped key (8 KiB of memory), and the text with another upper half of the memory field, open alike *)
Definition pw_v4_two_texts : bool := Eval vm_compute in
  two_pw_texts.

(** C81: the neutral element as a key; a token and a sealed key anyone can make and open *)
Definition weak_v4_key : bool := Eval vm_compute in
  opens_public V4 (hex "0100000000000000000000000000000000000000000000000000000000000000") (str "v4.public.aGkBAAAAAAAAAAAAAAAAAAAAAAAAAAAAAAAAAAAAAAAAAAAAAAAAAAAAAAAAAAAAAAAAAAAAAAAAAAAAAAAAAAAA.Zm9vdGVy") (str "hi") (str "assertion") &&
  opens_sealed_zero.

Example VectorsFindings_pass :
  forallb (fun b => b)
    [dot_v4_local;
     dot_v3_local;
     dot_v4_public;
     short_v3_local;
     short_v4_local;
     short_v3_public;
     short_v4_public;
     other_v3_signature;
     compact_v3_key;
     unseal_v3_panic;
     unseal_v4_no_panic;
     pw_v4_panic;
     pw_v4_two_texts;
     weak_v4_key] = true.
Proof. reflexivity. Qed.
