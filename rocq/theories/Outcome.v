(** * Outcome: results, errors and panics. *)
From Verif Require Import Bytes.

(** [PasetoError], /repo/src/lib.rs:559-573.  [PayloadError] carries a boxed
    [dyn Error]; it is represented by its display text. *)
Inductive paseto_error :=
| Base64DecodeError
| InvalidKey
| InvalidToken
| CryptoError
| PayloadError (e : bytes).

(** The result of calling a Rust function: it returns [Ok], returns [Err], or
    unwinds.  Functions of the crate that do not return [Result] only use
    [Ok]/[Panic]. *)
Inductive outcome (A : Type) :=
| Ok (a : A)
| Err (e : paseto_error)
| Panic.
Arguments Ok {A} a.
Arguments Err {A} e.
Arguments Panic {A}.

Definition obind {A B} (x : outcome A) (f : A -> outcome B) : outcome B :=
  match x with
  | Ok a => f a
  | Err e => Err e
  | Panic => Panic
  end.

Definition omap {A B} (f : A -> B) (x : outcome A) : outcome B :=
  obind x (fun a => Ok (f a)).

(** [e?] *)
Notation "'let?' x ':=' e 'in' k" := (obind e (fun x => k))
  (at level 200, x name, e at level 200, k at level 200, right associativity).
Notation "'let?' ' p ':=' e 'in' k" := (obind e (fun p => k))
  (at level 200, p strict pattern, e at level 200, k at level 200, right associativity).

(** [Option::ok_or(e)] *)
Definition ok_or {A} (o : option A) (e : paseto_error) : outcome A :=
  match o with Some a => Ok a | None => Err e end.

(** [Option::unwrap], [Result::unwrap] *)
Definition unwrap {A} (o : option A) : outcome A :=
  match o with Some a => Ok a | None => Panic end.

(** [Result<A, Box<dyn Error + Send + Sync>>]: what the codec traits of
    /repo/src/lib.rs:239-293 return. *)
Inductive codec_result (A : Type) :=
| COk (a : A)
| CErr (e : bytes).
Arguments COk {A} a.
Arguments CErr {A} e.

(** [.map_err(PasetoError::PayloadError)] *)
Definition payload_err {A} (r : codec_result A) : outcome A :=
  match r with COk a => Ok a | CErr e => Err (PayloadError e) end.

Definition is_ok {A} (x : outcome A) : bool :=
  match x with Ok _ => true | _ => false end.

(** [str::strip_prefix] *)
Fixpoint strip_prefix (p s : bytes) : option bytes :=
  match p, s with
  | [], _ => Some s
  | x :: p', y :: s' => if beqb x y then strip_prefix p' s' else None
  | _ :: _, [] => None
  end.

(** [str::split_once(char)]: split at the first occurrence. *)
Fixpoint split_once (c : byte) (s : bytes) : option (bytes * bytes) :=
  match s with
  | [] => None
  | x :: r =>
      if beqb x c then Some ([], r)
      else match split_once c r with
           | Some (a, b) => Some (x :: a, b)
           | None => None
           end
  end.

Definition dot : bytes := str ".".

(** [slice.split_at(n)]: panics if [n > len]. *)
Definition split_at (n : nat) (l : bytes) : outcome (bytes * bytes) :=
  if length l <? n then Panic else Ok (firstn n l, skipn n l).

(** [usize] subtraction [a - b]: overflow panics (debug); in release the wrapped
    value is then passed to [split_at], which panics (see call sites). *)
Definition usize_sub (a b : nat) : outcome nat :=
  if a <? b then Panic else Ok (a - b).
