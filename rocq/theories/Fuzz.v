(** * Fuzz: the crate's own fuzz harness.

    /repo/src/key/arbitrary.rs, /repo/src/lib.rs:598-742 ([fuzzing]),
    /repo/src/paserk/wrap.rs:470-509, /repo/src/paserk/pke.rs:455-507 and
    /repo/fuzz/fuzz_targets.  A target is a function that must not panic. *)
From Verif Require Import Bytes Outcome Prims Version Key Token Local Public Wrap Pke Json.

(** arbitrary 1.3.0 [Unstructured] holds the remaining input; [<[u8; N]>::arbitrary]
    takes [N] bytes from its front, padding with zeros at the end of the input. *)
Definition arb_array (n : nat) (u : bytes) : bytes * bytes :=
  (firstn n u ++ repeat x00 (n - length u), skipn n u).

(** [Arbitrary for Key], key/arbitrary.rs:10-50; [None] is [Error::IncorrectFormat].
    There is no implementation for public keys. *)
Definition arb_key (P : Prims) (v : version) (w : wtype) (u : bytes) : option bytes * bytes :=
  match v, w with
  | _, WLocal => let '(b, u') := arb_array 32 u in (Some b, u')
  | V3, WSecret => let '(b, u') := arb_array 48 u in (p_sk_slice P b, u')
  | V4, WSecret => let '(b, u') := arb_array 32 u in (Some b, u')
  end.

(** [FakeRng<N>], lib.rs:612-657: [bytes] and a cursor; asking for more than remains
    panics.  Since [fill_bytes] only moves the cursor forward, running past the end is
    the same as ending with the cursor past the end. *)
Definition fake (b : bytes) : rng := {| tape := fun i => nth i b x00; pos := 0 |}.
Definition run_fake {A} (b : bytes) (f : rng -> outcome A * rng) : outcome A :=
  let '(x, r) := f (fake b) in
  if pos r <=? length b then x else Panic.

(** [Result::unwrap] *)
Definition runwrap {A} (x : outcome A) : outcome A :=
  match x with Ok a => Ok a | _ => Panic end.
(** [assert!] *)
Definition rassert (b : bool) : outcome unit := if b then Ok tt else Panic.

(** [FuzzInput], lib.rs:659-681: [ephemeral] has 32 bytes; the strings are UTF-8. *)
Record FuzzInput := { fz_key : bytes; fz_eph : bytes; fz_data1 : bytes; fz_data2 : bytes; fz_data3 : bytes }.

Definition data_enc : Encoding unit bytes := json_encoding data_json.
Definition data_footer : FooterCodec bytes := json_footer data_json.

(** [FuzzInput<V, Local>::run], lib.rs:688-705 *)
Definition fuzz_local (P : Prims) (v : version) (x : FuzzInput) : outcome unit :=
  let t := with_footer (token_new (fz_data1 x)) (fz_data2 x) in
  let? tok := runwrap (run_fake (fz_eph x)
                (encrypt_with_rng P v data_enc data_footer t (fz_key x) (fz_data3 x))) in
  let? tok := runwrap (token_parse v PLocal (suffix data_enc) (e_default data_enc) data_footer
                (token_display v PLocal (suffix data_enc) tok)) in
  let? _ := rassert (bseqb (unverified_footer tok) (fz_data2 x)) in
  let? t' := runwrap (decrypt_with_assertions P v data_enc tok (fz_key x) (fz_data3 x)) in
  rassert (bseqb (vt_message t') (fz_data1 x)).

(** [FuzzInput<V3, Secret>::run], [FuzzInput<V4, Secret>::run], lib.rs:706-741 *)
Definition fuzz_public (P : Prims) (v : version) (x : FuzzInput) : outcome unit :=
  let t := with_footer (token_new (fz_data1 x)) (fz_data2 x) in
  let? tok := runwrap (sign_with_assertions P v data_enc data_footer t (fz_key x) (fz_data3 x)) in
  let? tok := runwrap (token_parse v PPublic (suffix data_enc) (e_default data_enc) data_footer
                (token_display v PPublic (suffix data_enc) tok)) in
  let? _ := rassert (bseqb (unverified_footer tok) (fz_data2 x)) in
  let? t' := runwrap (verify_with_assertions P v data_enc tok (public_key P v (fz_key x)) (fz_data3 x)) in
  rassert (bseqb (vt_message t') (fz_data1 x)).

(** wrap.rs [fuzz_tests::FuzzInput::run], wrap.rs:498-509 *)
Definition fuzz_wrap (P : Prims) (v : version) (w : wtype) (wrapping_key key eph : bytes) : outcome unit :=
  let? x := run_fake eph (wrap_pie P v w key wrapping_key) in
  let? s := pie_display v w x in
  let? x := runwrap (pie_parse v w s) in
  let? key2 := runwrap (unwrap_pie P v w x wrapping_key) in
  rassert (key_eqb P v (wtype_key w) key key2).

(** [V3SealInput::run], pke.rs:471-487, [V4SealInput::run], pke.rs:497-506.  A [FakeRng]
    holding one scalar makes [NonZeroScalar::random] stop after one draw or panic, so
    the fuel is 2. *)
Definition fuzz_seal (P : Prims) (v : version) (key sk eph : bytes) : outcome unit :=
  let go :=
    let? x := run_fake eph (fun r =>
                match seal P v 2 key (public_key P v sk) r with
                | Some y => y
                | None => (Panic, r)
                end) in
    let? key2 := runwrap (unseal P v x sk) in
    rassert (key_eqb P v Local key key2) in
  match v with
  | V3 => if p_scalar_ok eph then go else Ok tt
  | V4 => go
  end.

(** The [*_parse] targets: parse and drop the result.  The footer type of the token
    targets is [Json<Footer>] with [kid: String]. *)
Definition ignore {A} (x : outcome A) : outcome unit :=
  match x with Panic => Panic | _ => Ok tt end.
Definition fuzz_token_parse (v : version) (p : purpose) (s : bytes) : outcome unit :=
  ignore (token_parse v p (suffix data_enc) tt (json_footer kid_string_json) s).
Definition fuzz_wrap_parse (v : version) (w : wtype) (s : bytes) : outcome unit :=
  ignore (pie_parse v w s).
