(** * SpecEffects: sinks and generators, for the statements about [Fmt] and [AnyRng] *)
From Verif Require Import Bytes Prims Version Observe Fmt AnyRng.

(** ** Sinks *)

(** A list of pieces handed to a sink until it refuses one. *)
Fixpoint feed {S} (w : writer S) (ps : list bytes) (s : S) : S * bool :=
  match ps with
  | [] => (s, true)
  | p :: rest => let '(s', ok) := w s p in if ok then feed w rest s' else (s', false)
  end.

(** [fmt] writes [text], in pieces that do not depend on the sink, and stops with an error at
    the first refusal; it does not panic. *)
Definition displays (fmt : forall S, writer S -> S -> S * fmt_result) (text : bytes) : Prop :=
  exists ps, concat ps = text /\
    forall S (w : writer S) s,
      fmt S w s = (fst (feed w ps s), if snd (feed w ps s) then FOk else FErr).

(** [impl Write for String] *)
Definition string_sink : writer bytes := fun s b => (s ++ b, true).
(** A buffer of [n] bytes that takes what fits and refuses when it is full. *)
Definition buffer_sink (n : nat) : writer bytes :=
  fun s b => (firstn n (s ++ b), length s + length b <=? n).
(** A sink that refuses a piece unless it fits entirely. *)
Definition all_or_nothing_sink (n : nat) : writer bytes :=
  fun s b => if length s + length b <=? n then (s ++ b, true) else (s, false).

(** ** Generators *)

(** The tape as a generator. *)
Definition tape_gen : gen rng := fun r n => Some (fill n r).

(** The generator [g] with a log of the sizes requested of it. *)
Definition logged {S} (g : gen S) : gen (S * list nat) :=
  fun s n => match g (fst s) n with Some (b, s') => Some (b, (s', snd s ++ [n])) | None => None end.

(** The requests an operation makes when it completes: one buffer, or for P-384 scalars
    48-byte buffers until one holds a scalar; in all of them nothing else. *)
Definition requests (op : rand_op) (sizes : list nat) : Prop :=
  match op with
  | OpEncrypt _ | OpPie _ _ _ _ | OpNewLocal | OpNewSecret V4 | OpSeal V4 _ _ => sizes = [32]
  | OpPw v _ _ _ _ => sizes = [pw_salt_size v; pw_nonce_size v]
  | OpSeal V3 _ _ | OpNewSecret V3 => exists k, sizes = repeat 48 (Datatypes.S k)
  end.

(** Which actions of a list gave the events (those that did not unwind). *)
Fixpoint sublist {A} (l m : list A) : Prop :=
  match m with
  | [] => l = []
  | b :: m' => sublist l m' \/ match l with a :: l' => a = b /\ sublist l' m' | [] => False end
  end.
