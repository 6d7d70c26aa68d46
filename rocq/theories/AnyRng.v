(** * AnyRng: the operations over an arbitrary random generator.

    The other model files use a generator that is an infinite tape of bytes with a position
    ([Prims.rng]).  Callers may pass any [RngCore]: one with its own state, whose output
    depends on the sizes requested, or whose [fill_bytes] panics (as [OsRng] does when the
    operating system fails).  Here the operations are written over any of these. *)
From Verif Require Import Bytes Outcome Prims Version Key Token Local Public Wrap Pbkw Pke
  SpecBase64 SpecPaseto SpecPaserk SpecText SpecKey Observe History.

(** [fill_bytes] on a buffer of [n] bytes; [None]: it panicked. *)
Definition gen (S : Type) : Type := S -> nat -> option (bytes * S).
(** It fills the whole buffer. *)
Definition fills {S} (g : gen S) : Prop := forall s n b s', g s n = Some (b, s') -> length b = n.

(** The result of an operation; [Fuel]: P-384 rejection sampling did not finish within the
    given number of draws; [Unwound]: the generator's panic passed through. *)
Inductive grun (S A : Type) :=
| Done (x : A) (s : S)
| Fuel
| Unwound.
Arguments Done {S A}. Arguments Fuel {S A}. Arguments Unwound {S A}.

(** [rng.fill_bytes(&mut buf); k] *)
Definition gfill {S A} (g : gen S) (n : nat) (s : S) (k : bytes -> S -> grun S A) : grun S A :=
  match g s n with Some (b, s') => k b s' | None => Unwound end.

(** [NonZeroScalar::random] *)
Fixpoint gp384_random {S} (fuel : nat) (g : gen S) (s : S) : grun S bytes :=
  match fuel with
  | O => Fuel
  | Datatypes.S f =>
      gfill g 48 s (fun b s' => if p_scalar_ok b then Done b s' else gp384_random f g s')
  end.

(** [encrypt_with_assertions_and_rng], local/mod.rs:274-283 *)
Definition gencrypt {S M F E} (P : Prims) (v : version) (EN : Encoding E M) (FC : FooterCodec F)
           (t : ValidatedToken M F E) (key implicit : bytes) (g : gen S) (s : S)
  : grun S (outcome (SecuredToken F E)) :=
  gfill g NONCE_LEN s (fun nonce s' => Done (encrypt_inner P v EN FC t key nonce implicit) s').

(** [wrap_pie_with_rng], wrap.rs:150-201 *)
Definition gwrap_pie {S} (P : Prims) (v : version) (w : wtype) (key wk : bytes) (g : gen S) (s : S)
  : grun S (outcome PieWrapped) :=
  gfill g 32 s (fun n s' =>
  let ek := pie_enc_key_mac P v wk ([x80] ++ n) in
  let '(ek, n2) := (firstn 32 ek, skipn 32 ek) in
  let ak := pie_auth_key_mac P v wk ([x81] ++ n) in
  Done (let? c := apply_keystream P v ek n2 (key_to_bytes P v (wtype_key w) key) in
        let? '(ak, _) := split_at 32 ak in
        let tag := pie_tag_mac P v ak (pie_tag_message v w n c) in
        Ok {| pie_tag := tag; pie_nonce := n; pie_key := c |}) s').

(** [pw_wrap_with_settings_and_rng], pbkw.rs:153-202 *)
Definition gpw_wrap {S} (P : Prims) (v : version) (w : wtype) (key pw : bytes) (st : kdf_state v)
           (g : gen S) (s : S) : grun S (outcome (PwWrapped v)) :=
  gfill g (salt_len v) s (fun salt s1 =>
  match pw_kdf P v pw salt st with
  | Ok k =>
      let ek := split_ek v (pw_key_hash P v ([xff] ++ k)) in
      let ak := pw_key_hash P v ([xfe] ++ k) in
      gfill g (iv_len v) s1 (fun n s2 =>
      Done (let? edk := apply_keystream P v ek n (key_to_bytes P v (wtype_key w) key) in
            let tag := pw_tag_mac P v ak (pw_tag_message v w salt st n edk) in
            Ok {| pw_salt := salt; pw_state := st; pw_nonce := n; pw_edk := edk; pw_tag := tag |}) s2)
  | Err e => Done (Err e) s1
  | Panic => Done Panic s1
  end).

(** [seal_with_rng], pke.rs:101-107, 168-222, 305-369 *)
Definition gseal {S} (P : Prims) (v : version) (fuel : nat) (pdk pk : bytes) (g : gen S) (s : S)
  : grun S (outcome Sealed) :=
  match v with
  | V3 => match gp384_random fuel g s with
          | Done esk s' => Done (seal_v3 P pdk pk esk) s'
          | Fuel => Fuel
          | Unwound => Unwound
          end
  | V4 => gfill g 32 s (fun eb s' => Done (seal_v4 P pdk pk eb) s')
  end.

(** [new_random], convert.rs:179-183, 194-200, 211-215 *)
Definition glocal_new_random {S} (g : gen S) (s : S) : grun S bytes := gfill g 32 s Done.
Definition gv4_secret_new_random {S} (g : gen S) (s : S) : grun S bytes := gfill g 32 s Done.
Definition gv3_secret_new_random {S} (fuel : nat) (g : gen S) (s : S) : grun S bytes :=
  gp384_random fuel g s.

Definition grun_map {S A B} (f : A -> B) (x : grun S A) : grun S B :=
  match x with Done a s => Done (f a) s | Fuel => Fuel | Unwound => Unwound end.

(** The operations of [Observe.run_op] *)
Definition grun_op {S} (P : Prims) (fuel : nat) (op : rand_op) (g : gen S) (s : S) : grun S rand_result :=
  match op with
  | OpEncrypt q =>
      grun_map (fun x => RToken (omap st_payload x))
        (gencrypt P (rq_version q) (rq_encoding q) (rq_footer q) (rq_token q) (rq_key q) (rq_implicit q) g s)
  | OpPie v w key wk => grun_map RPie (gwrap_pie P v w key wk g s)
  | OpPw v w key pw st => grun_map (RPw v) (gpw_wrap P v w key pw st g s)
  | OpSeal v pdk pk => grun_map RSeal (gseal P v fuel pdk pk g s)
  | OpNewLocal => grun_map RKey (glocal_new_random g s)
  | OpNewSecret V4 => grun_map RKey (gv4_secret_new_random g s)
  | OpNewSecret V3 => grun_map RKey (gv3_secret_new_random fuel g s)
  end.

Definition gperform {S} (P : Prims) (fuel : nat) (a : action) (g : gen S) (s : S) : grun S event :=
  match a with
  | ARand o => grun_map (ERand o) (grun_op P fuel o g s)
  | ASign q =>
      Done (ESign q (omap st_payload (sign_with_assertions P (sq_version q) (sq_encoding q) (sq_footer q)
                                        (sq_token q) (sq_sk q) (sq_implicit q)))) s
  end.

(** A history on one generator.  A panic of the generator may be caught by the caller, who
    continues with the generator in whatever state [s'] the panic left it. *)
Inductive ghistory {S} (P : Prims) (fuel : nat) (g : gen S) : list action -> S -> list event -> S -> Prop :=
| gh_nil s : ghistory P fuel g [] s [] s
| gh_done a l s e s1 h s2 :
    gperform P fuel a g s = Done e s1 -> ghistory P fuel g l s1 h s2 -> ghistory P fuel g (a :: l) s (e :: h) s2
| gh_unwound a l s s1 h s2 :
    gperform P fuel a g s = Unwound -> ghistory P fuel g l s1 h s2 -> ghistory P fuel g (a :: l) s h s2.
