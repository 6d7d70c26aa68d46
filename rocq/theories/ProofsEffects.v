(** Proofs for C76 (texts written into any sink) and C77 (any random generator). *)
From Coq Require Import ZArith ZifyBool ZifyNat ZifyN.
From Verif Require Import Bytes Outcome Base64 Prims Version Key Token Local Public KeyId Plaintext Wrap Pbkw Pke
  SpecBase64 SpecPaseto SpecPaserk SpecText SpecKey Observe History Fmt AnyRng SpecEffects.
From Verif Require Import BytesLemmas Base64Lemmas CipherLemmas ProofsWrap.
Ltac Zify.zify_post_hook ::= Z.div_mod_to_equations.

(** ** C76 *)

(** A continuation that feeds fixed pieces. *)
Definition feeds (k : forall S, writer S -> S -> S * fmt_result) (ps : list bytes) : Prop :=
  forall S (w : writer S) s, k S w s = (fst (feed w ps s), if snd (feed w ps s) then FOk else FErr).

Lemma feeds_cons k ps b : feeds k ps -> feeds (fun S w => write_str w b (k S w)) (b :: ps).
Proof.
  intros H S w s. unfold write_str. cbn [feed]. destruct (w s b) as [s' [|]]; [apply H|reflexivity].
Qed.
Lemma feeds_done : feeds (fun S _ => fmt_done) [].
Proof. intros S w s. reflexivity. Qed.

Lemma write_chunks_feeds cs : forall t, write_chunks cs = Ok t ->
  exists ps, concat ps = t /\ feeds (fun S w => fmt_chunks w cs) ps.
Proof.
  induction cs as [|c cs IH]; cbn [write_chunks]; intros t H.
  - exists []. split; [|apply feeds_done]. change ([] = t). congruence.
  - unfold fmt_chunks. fold (@fmt_chunks).
    destruct (encode_buf 64 c) as [e|]; cbn [unwrap obind] in H; [|discriminate].
    destruct (write_chunks cs) as [u| |]; cbn [obind] in H; try discriminate.
    destruct (IH _ eq_refl) as (ps & Hc & Hf). exists (e :: ps). split.
    + cbn [concat]. rewrite Hc. congruence.
    + apply (feeds_cons (fun S w => fmt_chunks w cs)), Hf.
Qed.
Lemma fmt_b64_feeds b : exists ps, concat ps = encode_string b /\ feeds (fun S w => fmt_b64 w b) ps.
Proof. apply write_chunks_feeds, write_b64_ok. Qed.

(** Every [Display] implementation writes its text, piece by piece, into any sink; it stops
    at the first refusal with an error, and never panics. *)
Lemma c76_display_into_any_sink :
  forall (P : Prims) (v : version),
  (forall F E p sfx (t : SecuredToken F E),
     displays (fun S => @token_fmt F E S v p sfx t) (token_display v p sfx t)) /\
  (forall k id, exists text, id_display v k id = Ok text /\ displays (fun S => @id_fmt S v k id) text) /\
  (forall k key, exists text,
     plaintext_display P v k key = Ok text /\ displays (fun S => @plaintext_fmt S P v k key) text) /\
  (forall w x, exists text, pie_display v w x = Ok text /\ displays (fun S => @pie_fmt S v w x) text) /\
  (forall w x, exists text, pw_display v w x = Ok text /\ displays (fun S => @pw_fmt S v w x) text) /\
  (forall x, exists text, seal_display v x = Ok text /\ displays (fun S => @seal_fmt S v x) text).
Proof.
  intros P v.
  split; [|split; [|split; [|split; [|split]]]].
  - intros F E p sfx t. unfold token_display, token_fmt, displays.
    destruct (length (st_encoded_footer t) =? 0).
    + eexists. split; [|repeat (apply (feeds_cons (fun S w => _))); apply feeds_done].
      cbn [concat]. rewrite ?app_nil_r. reflexivity.
    + eexists. split; [|repeat (apply (feeds_cons (fun S w => _))); apply feeds_done].
      cbn [concat]. rewrite ?app_nil_r. reflexivity.
  - intros k id. unfold id_display. rewrite write_b64_ok. eexists. split; [reflexivity|].
    destruct (fmt_b64_feeds id) as (ps & Hc & Hf). unfold id_fmt, displays.
    eexists. split; [|repeat (apply (feeds_cons (fun S w => _))); exact Hf].
    cbn [concat]. rewrite Hc. reflexivity.
  - intros k key. unfold plaintext_display. rewrite write_b64_ok. eexists. split; [reflexivity|].
    destruct (fmt_b64_feeds (key_to_bytes P v k key)) as (ps & Hc & Hf). unfold plaintext_fmt, displays.
    eexists. split; [|repeat (apply (feeds_cons (fun S w => _))); exact Hf].
    cbn [concat]. rewrite Hc. reflexivity.
  - intros k x. unfold pie_display. rewrite write_b64_ok. eexists. split; [reflexivity|].
    unfold pie_fmt, displays. rewrite <- app_assoc.
    destruct (fmt_b64_feeds (pie_tag x ++ pie_nonce x ++ pie_key x)) as (ps & Hc & Hf).
    eexists. split; [|repeat (apply (feeds_cons (fun S w => _))); exact Hf].
    cbn [concat]. rewrite Hc. reflexivity.
  - intros k x. unfold pw_display. rewrite write_b64_ok. eexists. split; [reflexivity|].
    unfold pw_fmt, displays. rewrite <- !app_assoc.
    destruct (fmt_b64_feeds (pw_salt x ++ encode_state v (pw_state x) ++ pw_nonce x ++ pw_edk x ++ pw_tag x))
      as (ps & Hc & Hf).
    eexists. split; [|repeat (apply (feeds_cons (fun S w => _))); exact Hf].
    cbn [concat]. rewrite Hc. reflexivity.
  - intros x. unfold seal_display. rewrite write_b64_ok. eexists. split; [reflexivity|].
    unfold seal_fmt, displays. rewrite <- !app_assoc.
    destruct (fmt_b64_feeds (sl_tag x ++ sl_epk x ++ sl_edk x)) as (ps & Hc & Hf).
    eexists. split; [|repeat (apply (feeds_cons (fun S w => _))); exact Hf].
    cbn [concat]. rewrite Hc. reflexivity.
Qed.

Lemma feed_string ps : forall s, feed string_sink ps s = (s ++ concat ps, true).
Proof.
  induction ps as [|p ps IH]; intros s; cbn [feed concat string_sink].
  - rewrite app_nil_r. reflexivity.
  - rewrite IH, app_assoc. reflexivity.
Qed.
Lemma firstn_over n (a b : bytes) : n <= length a -> firstn n (a ++ b) = firstn n a.
Proof. intros H. rewrite firstn_app. replace (n - length a) with 0 by lia. cbn [firstn]. apply app_nil_r. Qed.

Lemma feed_buffer n ps : forall s, length s <= n ->
  feed (buffer_sink n) ps s = (firstn n (s ++ concat ps), length s + length (concat ps) <=? n).
Proof.
  induction ps as [|p ps IH]; intros s Ls; cbn [feed concat buffer_sink].
  - rewrite app_nil_r, firstn_all2 by exact Ls. cbn [length]. f_equal. lia.
  - unfold buffer_sink at 1. destruct (length s + length p <=? n) eqn:C.
    + rewrite (firstn_all2 (s ++ p)) by (rewrite app_length; lia).
      rewrite IH by (rewrite app_length; lia). rewrite <- app_assoc, !app_length. f_equal. f_equal. lia.
    + rewrite app_assoc, (firstn_over n (s ++ p)) by (rewrite app_length; lia).
      rewrite app_length. f_equal. lia.
Qed.

Lemma feed_whole n ps : forall s, length s <= n ->
  exists k, feed (all_or_nothing_sink n) ps s = (s ++ firstn k (concat ps), length s + length (concat ps) <=? n).
Proof.
  induction ps as [|p ps IH]; intros s Ls; cbn [feed concat].
  - exists 0. rewrite app_nil_r. cbn [length]. f_equal. lia.
  - unfold all_or_nothing_sink at 1. destruct (length s + length p <=? n) eqn:C.
    + destruct (IH (s ++ p)) as (k & Hk); [rewrite app_length; lia|]. exists (length p + k).
      rewrite Hk. rewrite <- app_assoc, firstn_app_2, !app_length. f_equal. f_equal. lia.
    + exists 0. cbn [firstn]. rewrite app_nil_r, app_length. f_equal. lia.
Qed.

(** What that means for three sinks: a string receives exactly the text; a full buffer holds
    exactly the part of the text that fits; a sink that refuses pieces whole holds a prefix;
    and success is reported exactly if the text fits. *)
Lemma c76_sinks :
  forall fmt (text : bytes), displays fmt text ->
  (forall s, fmt bytes string_sink s = (s ++ text, FOk)) /\
  (forall n s, length s <= n ->
     fmt bytes (buffer_sink n) s =
       (firstn n (s ++ text), if length s + length text <=? n then FOk else FErr)) /\
  (forall n s, length s <= n -> exists k,
     fmt bytes (all_or_nothing_sink n) s =
       (s ++ firstn k text, if length s + length text <=? n then FOk else FErr)) /\
  (forall S (w : writer S) s, snd (fmt S w s) <> FPanic).
Proof.
  intros fmt text (ps & Hc & H). repeat split.
  - intros s. rewrite H, feed_string, Hc. reflexivity.
  - intros n s Ls. rewrite H, feed_buffer, Hc by exact Ls. reflexivity.
  - intros n s Ls. destruct (feed_whole n ps s Ls) as (k & Hk). exists k. rewrite H, Hk, Hc. reflexivity.
  - intros S w s. rewrite H. cbn [snd]. destruct (snd (feed w ps s)); discriminate.
Qed.

(** A piece refused with nothing taken is never followed by another one: a sink that records
    every attempt sees at most one refusal, and it is the last attempt. *)
Lemma c76_stops_at_first_refusal :
  forall fmt (text : bytes) (accept : bytes -> bool), displays fmt text ->
  exists ps qs, concat (ps ++ qs) = text /\ (forall p, In p ps -> accept p = true) /\
    fmt (list bytes) (fun l b => (l ++ [b], accept b)) [] =
      match qs with
      | [] => (ps, FOk)
      | q :: _ => (ps ++ [q], FErr)
      end /\
    match qs with [] => True | q :: _ => accept q = false end.
Proof.
  intros fmt text accept (all & Hc & H). rewrite <- Hc. rewrite H. clear.
  set (w := fun (l : list bytes) b => (l ++ [b], accept b)).
  assert (G : forall l, exists ps qs, all = ps ++ qs /\ (forall p, In p ps -> accept p = true) /\
            (fst (feed w all l), if snd (feed w all l) then FOk else FErr) =
              match qs with [] => (l ++ ps, FOk) | q :: _ => (l ++ ps ++ [q], FErr) end /\
            match qs with [] => True | q :: _ => accept q = false end).
  { induction all as [|a all IH]; intros l.
    - exists [], []. cbn. rewrite app_nil_r. repeat split. intros p [].
    - cbn [feed]. replace (w l a) with (l ++ [a], accept a) by reflexivity. destruct (accept a) eqn:A.
      + destruct (IH (l ++ [a])) as (ps & qs & -> & Hp & He & Hq). exists (a :: ps), qs.
        repeat split; [intros p [<-|I]; auto| |exact Hq].
        rewrite He. destruct qs; rewrite <- app_assoc; reflexivity.
      + exists [], (a :: all). cbn. repeat split; [intros p []|exact A]. }
  destruct (G []) as (ps & qs & -> & Hp & He & Hq). exists ps, qs. repeat split; assumption.
Qed.

(** ** C77 *)

(** [f] behaves on every tape beginning with some bytes [d] as on the generator. *)
Definition tape_like {A S} (x : grun S A) (f : rng -> option (A * rng)) : Prop :=
  match x with
  | Done a _ => exists d, forall r, draw r 0 (length d) = d -> f r = Some (a, advance r (length d))
  | _ => True
  end.

Lemma draw_app r d1 d2 : draw r 0 (length (d1 ++ d2)) = d1 ++ d2 ->
  draw r 0 (length d1) = d1 /\ draw (advance r (length d1)) 0 (length d2) = d2.
Proof.
  intros H. rewrite app_length in H. rewrite draw_advance.
  assert (E : draw r 0 (length d1 + length d2) = draw r 0 (length d1) ++ draw r (length d1 + 0) (length d2)).
  { unfold draw. rewrite seq_app, map_app. rewrite !Nat.add_0_r. reflexivity. }
  rewrite E in H. apply app_inj_len in H; [exact H|apply draw_length].
Qed.

Lemma tape_fill {A S} (g : gen S) n s (k : bytes -> S -> grun S A) (f : bytes -> rng -> option (A * rng)) :
  fills g -> (forall b s', length b = n -> tape_like (k b s') (f b)) ->
  tape_like (gfill g n s k) (fun r => let '(b, r') := fill n r in f b r').
Proof.
  intros Hg H. unfold gfill. destruct (g s n) as [[b s']|] eqn:G; [|exact I].
  pose proof (Hg _ _ _ _ G) as Lb. specialize (H b s' Lb). unfold tape_like in *.
  destruct (k b s'); try exact I. destruct H as (d & Hd). exists (b ++ d). intros r Hr.
  apply draw_app in Hr. destruct Hr as [H1 H2]. rewrite fill_eq, <- Lb, H1, Hd by exact H2.
  rewrite advance_advance, app_length. reflexivity.
Qed.
Lemma tape_done {A S} (a : A) (s : S) : tape_like (Done a s) (fun r => Some (a, r)).
Proof. exists []. intros r _. cbn [length]. unfold advance. rewrite Nat.add_0_r. destruct r. reflexivity. Qed.
Lemma tape_fill1 {A S} (g : gen S) n s (h : bytes -> A) :
  fills g -> tape_like (gfill g n s (fun b s' => Done (h b) s')) (fun r => let '(b, r') := fill n r in Some (h b, r')).
Proof. intros Hg. apply (tape_fill g n s _ (fun b r' => Some (h b, r')) Hg). intros b s' _. apply tape_done. Qed.
Lemma tape_map {A B S} (h : A -> B) (x : grun S A) f :
  tape_like x f ->
  tape_like (grun_map h x) (fun r => match f r with Some (a, r') => Some (h a, r') | None => None end).
Proof.
  destruct x; cbn; try (intros; exact I). intros (d & H). exists d. intros r Hr. rewrite (H r Hr). reflexivity.
Qed.
Lemma tape_ext {A S} (x : grun S A) f f' : (forall r, f r = f' r) -> tape_like x f -> tape_like x f'.
Proof. intros E H. destruct x; try exact I. destruct H as (d & H). exists d. intros r Hr. rewrite <- E. auto. Qed.

Lemma p384_tape {S} (g : gen S) fuel s : fills g -> tape_like (gp384_random fuel g s) (p384_random fuel).
Proof.
  intros Hg. revert s. induction fuel as [|f IH]; intros s; [exact I|].
  cbn [gp384_random p384_random].
  apply (tape_fill g 48 s _ (fun b r' => if p_scalar_ok b then Some (b, r') else p384_random f r') Hg).
  intros b s' Lb. destruct (p_scalar_ok b); [apply tape_done|apply IH].
Qed.

Lemma pw_tape {S} P v w key pw st (g : gen S) s : fills g ->
  tape_like (gpw_wrap P v w key pw st g s) (fun r => Some (pw_wrap P v w key pw st r)).
Proof.
  intros Hg. unfold gpw_wrap, pw_wrap.
  eapply tape_ext; cycle 1.
  - apply (tape_fill g (salt_len v) s _ (fun salt r1 =>
      match pw_kdf P v pw salt st with
      | Ok k =>
          let ek := split_ek v (pw_key_hash P v ([xff] ++ k)) in
          let ak := pw_key_hash P v ([xfe] ++ k) in
          let '(n, r2) := fill (iv_len v) r1 in
          Some (let? edk := apply_keystream P v ek n (key_to_bytes P v (wtype_key w) key) in
           let tag := pw_tag_mac P v ak (pw_tag_message v w salt st n edk) in
           Ok {| pw_salt := salt; pw_state := st; pw_nonce := n; pw_edk := edk; pw_tag := tag |}, r2)
      | Err e => Some (Err e, r1)
      | Panic => Some (Panic, r1)
      end) Hg).
    intros salt s1 Ls. destruct (pw_kdf P v pw salt st) as [k|e|]; try apply tape_done.
    cbv zeta. apply tape_fill1, Hg.
  - intros r. cbv beta. destruct (fill (salt_len v) r) as [salt r1].
    destruct (pw_kdf P v pw salt st); reflexivity.
Qed.

Lemma op_tape {S} P fuel op (g : gen S) s : fills g -> tape_like (grun_op P fuel op g s) (run_op P fuel op).
Proof.
  intros Hg. destruct op as [q|v w key wk|v w key pw st|v pdk pk| |v]; cbn [grun_op].
  - eapply tape_ext; cycle 1.
    + apply tape_map. unfold gencrypt. apply tape_fill1, Hg.
    + intros r. cbn [run_op]. unfold encrypt_with_rng. destruct (fill NONCE_LEN r). reflexivity.
  - eapply tape_ext; cycle 1.
    + apply tape_map. unfold gwrap_pie. cbv zeta. apply tape_fill1, Hg.
    + intros r. cbn [run_op]. unfold wrap_pie. destruct (fill 32 r). reflexivity.
  - eapply tape_ext; cycle 1.
    + apply tape_map, pw_tape, Hg.
    + intros r. cbn [run_op]. destruct (pw_wrap P v w key pw st r). reflexivity.
  - destruct v; cbn [gseal].
    + eapply tape_ext; cycle 1.
      * apply tape_map.
        assert (H : tape_like (grun_map (seal_v3 P pdk pk) (gp384_random fuel g s))
                      (fun r => match p384_random fuel r with Some (a, r') => Some (seal_v3 P pdk pk a, r') | None => None end))
          by (apply tape_map, p384_tape, Hg).
        unfold grun_map in H. destruct (gp384_random fuel g s); exact H.
      * intros r. cbn [run_op seal]. destruct (p384_random fuel r) as [[? ?]|]; reflexivity.
    + eapply tape_ext; cycle 1.
      * apply tape_map, tape_fill1, Hg.
      * intros r. cbn [run_op seal]. destruct (fill 32 r). reflexivity.
  - eapply tape_ext; cycle 1.
    + apply tape_map. unfold glocal_new_random. apply (tape_fill1 g 32 s (fun b => b)), Hg.
    + intros r. cbn [run_op]. unfold local_new_random. destruct (fill 32 r). reflexivity.
  - destruct v.
    + eapply tape_ext; cycle 1.
      * apply tape_map. unfold gv3_secret_new_random. apply p384_tape, Hg.
      * intros r. cbn [run_op]. unfold v3_secret_new_random. reflexivity.
    + eapply tape_ext; cycle 1.
      * apply tape_map. unfold gv4_secret_new_random. apply (tape_fill1 g 32 s (fun b => b)), Hg.
      * intros r. cbn [run_op]. unfold v4_secret_new_random. destruct (fill 32 r). reflexivity.
Qed.

Lemma perform_tape {S} P fuel a (g : gen S) s : fills g -> tape_like (gperform P fuel a g s) (perform P fuel a).
Proof.
  intros Hg. destruct a as [o|q]; cbn [gperform perform]; [|apply tape_done].
  apply (tape_map (ERand o)), op_tape, Hg.
Qed.

Definition tape_of (d : bytes) : rng := {| tape := fun i => nth i d x00; pos := 0 |}.
Lemma tape_of_draw d : draw (tape_of d) 0 (length d) = d.
Proof.
  unfold draw, tape_of. cbn [tape pos]. change (0 + 0) with 0. apply (nth_ext _ _ x00 x00).
  - rewrite map_length, seq_length. reflexivity.
  - intros i Hi. rewrite map_length, seq_length in Hi.
    rewrite (nth_indep _ x00 (nth 0 d x00)) by (rewrite map_length, seq_length; exact Hi).
    rewrite (map_nth (fun i => nth i d x00) (seq 0 (length d)) 0 i), seq_nth by exact Hi. reflexivity.
Qed.

(** Whatever generator is passed (with any state, and even if it panics at times and the caller
    catches the panic and goes on using it), the results of a history are those
    of the same operations on some infinite tape of bytes; only operations whose generator
    panicked yield nothing.  So C21 and C68-C70, stated for tapes, hold for every generator. *)
Lemma c77_any_generator_is_a_tape :
  forall S (P : Prims) fuel (g : gen S) l s h s',
  fills g -> ghistory P fuel g l s h s' ->
  exists l' r n, sublist l' l /\ length l' = length h /\ perform_all P fuel l' r = Some (h, advance r n).
Proof.
  intros S P fuel g l s h s' Hg H.
  assert (G : exists l' d, sublist l' l /\ length l' = length h /\
            forall r, draw r 0 (length d) = d -> perform_all P fuel l' r = Some (h, advance r (length d))).
  { induction H as [s|a l s e s1 h s2 Ha H IH|a l s s1 h s2 Ha H IH].
    - exists [], []. repeat split. intros r _. cbn [perform_all length]. unfold advance.
      rewrite Nat.add_0_r. destruct r. reflexivity.
    - destruct IH as (l' & d & Hs & Hl & Hd).
      pose proof (perform_tape P fuel a g s Hg) as T. rewrite Ha in T. destruct T as (d1 & T).
      exists (a :: l'), (d1 ++ d). split; [right; split; [reflexivity|exact Hs]|].
      split; [cbn [length]; congruence|]. intros r Hr. apply draw_app in Hr. destruct Hr as [H1 H2].
      cbn [perform_all]. rewrite (T r H1), (Hd _ H2), advance_advance, app_length. reflexivity.
    - destruct IH as (l' & d & Hs & Hl & Hd). exists l', d. split; [left; exact Hs|]. split; assumption. }
  destruct G as (l' & d & Hs & Hl & Hd). exists l', (tape_of d), (length d).
  split; [exact Hs|split; [exact Hl|]]. apply Hd, tape_of_draw.
Qed.

Lemma c77_kdf_runs P v pw salt st : kdf_accepts v pw st -> exists k, pw_kdf P v pw salt st = Ok k.
Proof. intros H. eexists. apply pw_kdf_ok, H. Qed.

Definition lift {A} (x : option (A * rng)) : grun rng A :=
  match x with Some (a, r) => Done a r | None => Fuel end.

Lemma gp384_lift fuel r : gp384_random fuel tape_gen r = lift (p384_random fuel r).
Proof.
  revert r. induction fuel as [|f IH]; intros r; [reflexivity|].
  cbn [gp384_random p384_random]. unfold gfill, tape_gen at 1. destruct (fill 48 r) as [b r'].
  destruct (p_scalar_ok b); [reflexivity|apply IH].
Qed.

(** Conversely a tape is a generator, and gives the results of the tape model. *)
Lemma c77_tapes_are_generators :
  forall (P : Prims) fuel op r,
  grun_op P fuel op tape_gen r =
    match run_op P fuel op r with Some (x, r') => Done x r' | None => Fuel end.
Proof.
  intros P fuel op r. destruct op as [q|v w key wk|v w key pw st|v pdk pk| |v]; cbn [grun_op run_op].
  - unfold gencrypt, encrypt_with_rng, gfill, tape_gen. destruct (fill NONCE_LEN r). reflexivity.
  - unfold gwrap_pie, wrap_pie, gfill, tape_gen. destruct (fill 32 r). reflexivity.
  - unfold gpw_wrap, pw_wrap, gfill, tape_gen. destruct (fill (salt_len v) r) as [salt r1].
    destruct (pw_kdf P v pw salt st); reflexivity.
  - destruct v; cbn [gseal seal].
    + rewrite gp384_lift. destruct (p384_random fuel r) as [[? ?]|]; reflexivity.
    + unfold gfill, tape_gen. destruct (fill 32 r). reflexivity.
  - unfold glocal_new_random, local_new_random, gfill, tape_gen. destruct (fill 32 r). reflexivity.
  - destruct v.
    + unfold gv3_secret_new_random, v3_secret_new_random. rewrite gp384_lift.
      destruct (p384_random fuel r) as [[? ?]|]; reflexivity.
    + unfold gv4_secret_new_random, v4_secret_new_random, gfill, tape_gen. destruct (fill 32 r). reflexivity.
Qed.

Lemma logged_fill {S A} (g : gen S) n s l (k : bytes -> S * list nat -> grun (S * list nat) A) :
  gfill (logged g) n (s, l) k =
    match g s n with Some (b, s') => k b (s', l ++ [n]) | None => Unwound end.
Proof. unfold gfill, logged. cbn [fst snd]. destruct (g s n) as [[b s']|]; reflexivity. Qed.

Lemma p384_logged {S} (g : gen S) fuel : forall s l b s' l',
  gp384_random fuel (logged g) (s, l) = Done b (s', l') -> exists k, l' = l ++ repeat 48 (Datatypes.S k).
Proof.
  induction fuel as [|f IH]; intros s l b s' l' H; [discriminate|].
  cbn [gp384_random] in H. rewrite logged_fill in H. destruct (g s 48) as [[b1 s1]|]; [|discriminate].
  destruct (p_scalar_ok b1).
  - exists 0. cbn [repeat]. congruence.
  - destruct (IH _ _ _ _ _ H) as (k & ->). exists (Datatypes.S k). rewrite <- app_assoc. reflexivity.
Qed.

(** Exactly which buffers are requested of the generator, in which order.  An operation makes
    no request beyond these, and signing makes none. *)
Lemma c77_requests :
  forall S (P : Prims) fuel op (g : gen S) s l x s' l',
  op_runs op -> fills g ->
  grun_op P fuel op (logged g) (s, l) = Done x (s', l') ->
  exists sizes, l' = l ++ sizes /\ requests op sizes.
Proof.
  intros S P fuel op g s l x s' l' Hr Hg H.
  destruct op as [q|v w key wk|v w key pw st|v pdk pk| |v]; cbn [grun_op requests] in *.
  - unfold gencrypt in H. rewrite logged_fill in H. destruct (g s NONCE_LEN) as [[b s1]|]; [|discriminate].
    exists [32]. split; [|reflexivity]. change NONCE_LEN with 32 in H. cbn [grun_map] in H. congruence.
  - unfold gwrap_pie in H. rewrite logged_fill in H. destruct (g s 32) as [[b s1]|]; [|discriminate].
    exists [32]. split; [|reflexivity]. cbn [grun_map] in H. congruence.
  - unfold gpw_wrap in H. rewrite logged_fill in H.
    destruct (g s (salt_len v)) as [[salt s1]|] eqn:G1; [|discriminate].
    destruct (c77_kdf_runs P v pw salt st Hr) as (k & Hk). rewrite Hk in H. cbv zeta in H.
    rewrite logged_fill in H. destruct (g s1 (iv_len v)) as [[n s2]|]; [|discriminate].
    exists [salt_len v; iv_len v]. split; [|destruct v; reflexivity].
    cbn [grun_map] in H. rewrite <- app_assoc in H. cbn [app] in H. congruence.
  - destruct v; cbn [gseal] in H.
    + destruct (gp384_random fuel (logged g) (s, l)) as [b [s1 l1]| |] eqn:E; cbn [grun_map] in H; try discriminate.
      destruct (p384_logged _ _ _ _ _ _ _ E) as (k & ->).
      exists (repeat 48 (Datatypes.S k)). split; [congruence|exists k; reflexivity].
    + rewrite logged_fill in H. destruct (g s 32) as [[b s1]|]; [|discriminate].
      exists [32]. split; [|reflexivity]. cbn [grun_map] in H. congruence.
  - unfold glocal_new_random in H. rewrite logged_fill in H. destruct (g s 32) as [[b s1]|]; [|discriminate].
    exists [32]. split; [|reflexivity]. cbn [grun_map] in H. congruence.
  - destruct v.
    + unfold gv3_secret_new_random in H.
      destruct (gp384_random fuel (logged g) (s, l)) as [b [s1 l1]| |] eqn:E; cbn [grun_map] in H; try discriminate.
      destruct (p384_logged _ _ _ _ _ _ _ E) as (k & ->).
      exists (repeat 48 (Datatypes.S k)). split; [congruence|exists k; reflexivity].
    + unfold gv4_secret_new_random in H. rewrite logged_fill in H. destruct (g s 32) as [[b s1]|]; [|discriminate].
      exists [32]. split; [|reflexivity]. cbn [grun_map] in H. congruence.
Qed.

(** An operation whose generator fails unwinds: nothing is produced with missing random
    bytes.  With a generator that never fails no operation unwinds. *)
Lemma c77_generator_failure :
  forall S (P : Prims) (g : gen S),
  (forall fuel q s, grun_op P fuel (OpEncrypt q) g s = Unwound <-> g s 32 = None) /\
  (forall fuel v w key wk s, grun_op P fuel (OpPie v w key wk) g s = Unwound <-> g s 32 = None) /\
  (forall fuel pdk pk s, grun_op P fuel (OpSeal V4 pdk pk) g s = Unwound <-> g s 32 = None) /\
  (forall fuel v w key pw st s, kdf_accepts v pw st ->
     (grun_op P fuel (OpPw v w key pw st) g s = Unwound <->
      match g s (pw_salt_size v) with
      | None => True
      | Some (_, s1) => g s1 (pw_nonce_size v) = None
      end)) /\
  (forall fuel s, grun_op P fuel OpNewLocal g s = Unwound <-> g s 32 = None) /\
  (forall fuel s, grun_op P fuel (OpNewSecret V4) g s = Unwound <-> g s 32 = None) /\
  (forall fuel op s, (forall s n, g s n = None) -> grun_op P (Datatypes.S fuel) op g s = Unwound) /\
  (forall fuel op s, (forall s n, g s n <> None) -> grun_op P fuel op g s <> Unwound).
Proof.
  intros S P g.
  assert (X : forall A s n (k : bytes -> S -> grun S A), (forall b s', k b s' <> Unwound) ->
            (gfill g n s k = Unwound <-> g s n = None)).
  { intros A s n k Hk. unfold gfill. destruct (g s n) as [[b s']|]; [|tauto].
    split; intros H; [destruct (Hk _ _ H)|discriminate]. }
  assert (Y : forall A B (f : A -> B) (x : grun S A), grun_map f x = Unwound <-> x = Unwound).
  { intros A B f x. destruct x; cbn; split; congruence. }
  assert (E : forall fuel q s, grun_op P fuel (OpEncrypt q) g s = Unwound <-> g s 32 = None).
  { intros. cbn [grun_op]. rewrite Y. unfold gencrypt. apply X. discriminate. }
  assert (W : forall fuel v w key wk s, grun_op P fuel (OpPie v w key wk) g s = Unwound <-> g s 32 = None).
  { intros. cbn [grun_op]. rewrite Y. unfold gwrap_pie. apply X. discriminate. }
  assert (L4 : forall fuel pdk pk s, grun_op P fuel (OpSeal V4 pdk pk) g s = Unwound <-> g s 32 = None).
  { intros. cbn [grun_op gseal]. rewrite Y. apply X. discriminate. }
  assert (K : forall fuel s, grun_op P fuel OpNewLocal g s = Unwound <-> g s 32 = None).
  { intros. cbn [grun_op]. rewrite Y. unfold glocal_new_random. apply X. discriminate. }
  assert (K4 : forall fuel s, grun_op P fuel (OpNewSecret V4) g s = Unwound <-> g s 32 = None).
  { intros. cbn [grun_op]. rewrite Y. unfold gv4_secret_new_random. apply X. discriminate. }
  assert (Z1 : forall fuel s, (forall s n, g s n = None) -> gp384_random (Datatypes.S fuel) g s = Unwound).
  { intros fuel s H. cbn [gp384_random]. unfold gfill. rewrite H. reflexivity. }
  assert (Z2 : forall fuel s, (forall s n, g s n <> None) -> gp384_random fuel g s <> Unwound).
  { intros fuel. induction fuel as [|f IH]; intros s H; [discriminate|]. cbn [gp384_random]. unfold gfill.
    destruct (g s 48) as [[b s']|] eqn:G; [|destruct (H _ _ G)].
    destruct (p_scalar_ok b); [discriminate|apply IH, H]. }
  repeat (split; [assumption|]). split.
  { intros fuel v w key pw st s Hr. cbn [grun_op]. rewrite Y. unfold gpw_wrap, gfill.
    replace (pw_salt_size v) with (salt_len v) by (destruct v; reflexivity).
    replace (pw_nonce_size v) with (iv_len v) by (destruct v; reflexivity).
    destruct (g s (salt_len v)) as [[salt s1]|]; [|tauto].
    destruct (c77_kdf_runs P v pw salt st Hr) as (k & ->). cbv zeta.
    destruct (g s1 (iv_len v)) as [[n s2]|]; [|tauto]. split; discriminate. }
  repeat (split; [assumption|]). split.
  - intros fuel op s H. destruct op as [q|v w key wk|v w key pw st|v pdk pk| |v].
    + apply E, H.
    + apply W, H.
    + cbn [grun_op]. rewrite Y. unfold gpw_wrap, gfill. rewrite H. reflexivity.
    + destruct v; [|apply L4, H]. cbn [grun_op gseal]. rewrite (Z1 _ _ H). reflexivity.
    + apply K, H.
    + destruct v; [|apply K4, H]. cbn [grun_op]. unfold gv3_secret_new_random. rewrite (Z1 _ _ H). reflexivity.
  - intros fuel op s H. destruct op as [q|v w key wk|v w key pw st|v pdk pk| |v].
    + rewrite E. apply H.
    + rewrite W. apply H.
    + cbn [grun_op]. rewrite Y. unfold gpw_wrap, gfill. destruct (g s (salt_len v)) as [[salt s1]|] eqn:G; [|destruct (H _ _ G)].
      destruct (pw_kdf P v pw salt st); try discriminate. cbv zeta.
      destruct (g s1 (iv_len v)) as [[n s2]|] eqn:G2; [discriminate|destruct (H _ _ G2)].
    + destruct v; [|rewrite L4; apply H]. cbn [grun_op gseal]. rewrite Y.
      pose proof (Z2 fuel s H) as Z. destruct (gp384_random fuel g s); congruence.
    + rewrite K. apply H.
    + destruct v; [|rewrite K4; apply H]. cbn [grun_op]. rewrite Y. unfold gv3_secret_new_random. apply Z2, H.
Qed.
