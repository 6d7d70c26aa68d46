(** Theorems of the property list; statements only, proofs are in [ProofsEffects]. *)
From Coq Require Import ZArith ZifyBool ZifyNat ZifyN.
From Verif Require Import Bytes Outcome Base64 Prims Version Key Token Local Public KeyId Plaintext Wrap Pbkw Pke
  SpecBase64 SpecPaseto SpecPaserk SpecText SpecKey Observe History Fmt AnyRng SpecEffects.
From Verif Require Import ProofsEffects Samples.

(** Every [Display] implementation writes its text, piece by piece, into any sink; it stops
    at the first refusal with an error, and never panics. *)
Theorem C76_display_into_any_sink :
  forall (P : Prims) (v : version),
  (forall F E p sfx (t : SecuredToken F E),
     displays (fun S => @token_fmt F E S v p sfx t) (token_display v p sfx t)) /\
  (forall k id, exists text, id_display v k id = Ok text /\ displays (fun S => @id_fmt S v k id) text) /\
  (forall k key, exists text,
     plaintext_display P v k key = Ok text /\ displays (fun S => @plaintext_fmt S P v k key) text) /\
  (forall w x, exists text, pie_display v w x = Ok text /\ displays (fun S => @pie_fmt S v w x) text) /\
  (forall w x, exists text, pw_display v w x = Ok text /\ displays (fun S => @pw_fmt S v w x) text) /\
  (forall x, exists text, seal_display v x = Ok text /\ displays (fun S => @seal_fmt S v x) text).
Proof. exact c76_display_into_any_sink. Qed.
Print Assumptions C76_display_into_any_sink.

Example C76_display_example : forall v : version,
  let t := sealed_tok Mini v ia in
  let text := token_display v PLocal (suffix num_encoding) t in
  token_fmt v PLocal (suffix num_encoding) t string_sink (str "> ") = (str "> " ++ text, FOk) /\
  token_fmt v PLocal (suffix num_encoding) t (buffer_sink 12) [] = (firstn 12 text, FErr) /\
  token_fmt v PLocal (suffix num_encoding) t (all_or_nothing_sink 12) [] = (firstn 10 text, FErr) /\
  seal_fmt v (seal0 Mini v) (buffer_sink 80) [] =
    (firstn 80 (get_text (seal_display v (seal0 Mini v))), FErr) /\
  pie_fmt v WSecret (pie0 Mini v WSecret) string_sink [] =
    (get_text (pie_display v WSecret (pie0 Mini v WSecret)), FOk).
Proof. evaluate. Qed.

(** What that means for three sinks: a string receives exactly the text; a full buffer holds
    exactly the part of the text that fits; a sink that refuses pieces whole holds a prefix;
    and success is reported exactly if the text fits. *)
Theorem C76_sinks :
  forall fmt (text : bytes), displays fmt text ->
  (forall s, fmt bytes string_sink s = (s ++ text, FOk)) /\
  (forall n s, length s <= n ->
     fmt bytes (buffer_sink n) s =
       (firstn n (s ++ text), if length s + length text <=? n then FOk else FErr)) /\
  (forall n s, length s <= n -> exists k,
     fmt bytes (all_or_nothing_sink n) s =
       (s ++ firstn k text, if length s + length text <=? n then FOk else FErr)) /\
  (forall S (w : writer S) s, snd (fmt S w s) <> FPanic).
Proof. exact c76_sinks. Qed.
Print Assumptions C76_sinks.

Example C76_sinks_example :
  displays (fun S => @id_fmt S V4 Public (firstn 33 key48)) (get_text (id_display V4 Public (firstn 33 key48))) /\
  id_fmt V4 Public (firstn 33 key48) (buffer_sink 51) [] =
    (get_text (id_display V4 Public (firstn 33 key48)), FOk) /\
  snd (id_fmt V4 Public (firstn 33 key48) (buffer_sink 50) []) = FErr.
Proof.
  split; [|vm_compute; auto].
  destruct (proj1 (proj2 (C76_display_into_any_sink Mini V4)) Public (firstn 33 key48)) as (t & Ht & Hd).
  rewrite Ht. exact Hd.
Qed.

(** A piece refused with nothing taken is never followed by another one: a sink that records
    every attempt sees at most one refusal, and it is the last attempt. *)
Theorem C76_stops_at_first_refusal :
  forall fmt (text : bytes) (accept : bytes -> bool), displays fmt text ->
  exists ps qs, concat (ps ++ qs) = text /\ (forall p, In p ps -> accept p = true) /\
    fmt (list bytes) (fun l b => (l ++ [b], accept b)) [] =
      match qs with
      | [] => (ps, FOk)
      | q :: _ => (ps ++ [q], FErr)
      end /\
    match qs with [] => True | q :: _ => accept q = false end.
Proof. exact c76_stops_at_first_refusal. Qed.
Print Assumptions C76_stops_at_first_refusal.

(** A sink refusing pieces longer than 16 bytes sees the first block of data as its last piece. *)
Example C76_stops_example :
  let accept := fun b : bytes => length b <=? 16 in
  snd (id_fmt V4 Public (firstn 33 key48) (fun l b => (l ++ [b], accept b)) []) = FErr /\
  map (@length byte) (fst (id_fmt V4 Public (firstn 33 key48) (fun l b => (l ++ [b], accept b)) [])) = [2; 1; 4; 44].
Proof. vm_compute. auto. Qed.

(** Whatever generator is passed (with any state, and even if it panics at times and the caller
    catches the panic and goes on using it), the results of a history are those
    of the same operations on some infinite tape of bytes; only operations whose generator
    panicked yield nothing.  So C21 and C68-C70, stated for tapes, hold for every generator. *)
Theorem C77_any_generator_is_a_tape :
  forall S (P : Prims) fuel (g : gen S) l s h s',
  fills g -> ghistory P fuel g l s h s' ->
  exists l' r n, sublist l' l /\ length l' = length h /\ perform_all P fuel l' r = Some (h, advance r n).
Proof. exact c77_any_generator_is_a_tape. Qed.
Print Assumptions C77_any_generator_is_a_tape.

(** A generator whose bytes depend on the number of calls and on the size requested, and whose
    third call panics. *)
Definition odd_gen : gen nat := fun s n =>
  if s =? 2 then None else Some (map (fun i => n2b (N.of_nat (s * n + i))) (seq 0 n), Datatypes.S s).
Lemma odd_gen_fills : fills odd_gen.
Proof.
  intros s n b s' H. unfold odd_gen in H. destruct (s =? 2); [discriminate|].
  injection H as <- _. rewrite map_length, seq_length. reflexivity.
Qed.
Definition odd_actions (v : version) : list action :=
  [ARand OpNewLocal; ARand (OpPw v WLocal other32 key32 (settings0 v)); ARand (OpPie v WSecret (sk1 v) key32)].
(** The second operation unwinds after its salt; the caller reseeds to 7 and goes on. *)
Example C77_history_example : forall v : version,
  fills odd_gen /\
  exists h, length h = 2 /\ ghistory Mini 3 odd_gen (odd_actions v) 0 h 8.
Proof.
  intros v. split; [exact odd_gen_fills|]. unfold odd_actions.
  destruct v; (eexists; split; cycle 1;
    [eapply gh_done; [reflexivity|]; eapply gh_unwound; [reflexivity|];
     eapply (gh_done _ _ _ _ _ 7); [reflexivity|apply gh_nil]|reflexivity]).
Qed.

(** Conversely a tape is a generator, and gives the results of the tape model. *)
Theorem C77_tapes_are_generators :
  forall (P : Prims) fuel op r,
  grun_op P fuel op tape_gen r =
    match run_op P fuel op r with Some (x, r') => Done x r' | None => Fuel end.
Proof. exact c77_tapes_are_generators. Qed.
Print Assumptions C77_tapes_are_generators.

Example C77_tape_example : forall v : version,
  match grun_op Mini 3 (OpSeal v other32 (public_key Mini v (sk0 v))) tape_gen rng0 with
  | Done (RSeal (Ok x)) r' => x = seal0 Mini v /\ pos r' = pos rng0 + match v with V3 => 48 | V4 => 32 end
  | _ => False
  end.
Proof. evaluate. Qed.

(** Exactly which buffers are requested of the generator, in which order.  An operation makes
    no request beyond these, and signing makes none. *)
Theorem C77_requests :
  forall S (P : Prims) fuel op (g : gen S) s l x s' l',
  op_runs op -> fills g ->
  grun_op P fuel op (logged g) (s, l) = Done x (s', l') ->
  exists sizes, l' = l ++ sizes /\ requests op sizes.
Proof. exact c77_requests. Qed.
Print Assumptions C77_requests.

Example C77_requests_example : forall v : version,
  op_runs (OpPw v WLocal other32 key32 (settings0 v)) /\
  match grun_op Mini 3 (OpPw v WLocal other32 key32 (settings0 v)) (logged odd_gen) (5, []) with
  | Done (RPw _ (Ok _)) (s, l) => s = 7 /\ l = [pw_salt_size v; pw_nonce_size v]
  | _ => False
  end /\
  match grun_op Mini 3 (OpNewSecret V3) (logged (fun s n => Some (repeat (if s =? 2 then x01 else xff) n, Datatypes.S s))) (0, []) with
  | Done (RKey k) (s, l) => k = repeat x01 48 /\ l = [48; 48; 48]
  | _ => False
  end.
Proof. evaluate. Qed.

(** An operation whose generator fails unwinds: nothing is produced with missing random
    bytes.  With a generator that never fails no operation unwinds. *)
Theorem C77_generator_failure :
  forall S (P : Prims) (g : gen S),
  (forall fuel q s, grun_op P fuel (OpEncrypt q) g s = Unwound <-> g s 32 = None) /\
  (forall fuel v w key wk s, grun_op P fuel (OpPie v w key wk) g s = Unwound <-> g s 32 = None) /\
  (forall fuel pdk pk s, grun_op P fuel (OpSeal V4 pdk pk) g s = Unwound <-> g s 32 = None) /\
  (forall fuel v w key pw st s, kdf_accepts v pw st ->
     (grun_op P fuel (OpPw v w key pw st) g s = Unwound <->
      match g s (pw_salt_size v) with
      | None => True
      | Some (_, s1) => g s1 (pw_nonce_size v) = None
      end)) /\
  (forall fuel s, grun_op P fuel OpNewLocal g s = Unwound <-> g s 32 = None) /\
  (forall fuel s, grun_op P fuel (OpNewSecret V4) g s = Unwound <-> g s 32 = None) /\
  (forall fuel op s, (forall s n, g s n = None) -> grun_op P (Datatypes.S fuel) op g s = Unwound) /\
  (forall fuel op s, (forall s n, g s n <> None) -> grun_op P fuel op g s <> Unwound).
Proof. exact c77_generator_failure. Qed.
Print Assumptions C77_generator_failure.

Example C77_failure_example : forall v : version,
  kdf_accepts v key32 (settings0 v) /\
  odd_gen 1 (pw_salt_size v) <> None /\ odd_gen 2 (pw_nonce_size v) = None /\
  grun_op Mini 3 (OpPw v WLocal other32 key32 (settings0 v)) odd_gen 1 = Unwound.
Proof. evaluate. Qed.
