(** Proofs about the language of the JSON reader. *)
From Coq Require Import ZifyBool ZifyNat ZifyN.
From Verif Require Import Bytes Outcome Prims Version Key KeyId Token Json SpecBase64 SpecText SpecKey SpecJson SpecJsonDoc.
From Verif Require Import BytesLemmas TextLemmas JsonLemmas.

(** ** Bytes and blanks *)
Ltac flat := repeat (progress (cbn [app]; rewrite <- ?app_assoc)).
Lemma blank_nil : blank [].
Proof. constructor. Qed.
Lemma is_ws_iff b : is_ws b = true <-> In b [x20; x09; x0a; x0d].
Proof. unfold is_ws. rewrite !orb_true_iff, !beqb_eq. cbn [In]. split; intuition congruence. Qed.
Lemma ws_idem s : ws (ws s) = ws s.
Proof.
  induction s as [|b s IH]; [reflexivity|]. cbn [ws]. destruct (is_ws b) eqn:E; [exact IH|].
  cbn [ws]. rewrite E. reflexivity.
Qed.
Lemma ws_split s : exists b, s = b ++ ws s /\ blank b.
Proof.
  induction s as [|c s (b & E & B)]; [exists []; split; [reflexivity|constructor]|].
  cbn [ws]. destruct (is_ws c) eqn:W; [|exists []; split; [reflexivity|constructor]].
  exists (c :: b). split; [cbn; congruence|]. constructor; [apply is_ws_iff; exact W|exact B].
Qed.
Lemma ws_blank b s : blank b -> ws (b ++ s) = ws s.
Proof.
  induction 1 as [|c b W _ IH]; [reflexivity|]. cbn [app ws]. apply is_ws_iff in W. rewrite W. exact IH.
Qed.
Lemma ws_blank_all b : blank b -> ws b = [].
Proof. intros B. rewrite <- (app_nil_r b), ws_blank by exact B. reflexivity. Qed.
Lemma ws_head s c r : ws s = c :: r -> exists b, s = b ++ c :: r /\ blank b /\ is_ws c = false.
Proof.
  intros H. destruct (ws_split s) as (b & E & B). rewrite H in E. exists b. split; [exact E|]. split; [exact B|].
  pose proof (ws_idem s) as I. rewrite H in I. cbn [ws] in I. destruct (is_ws c) eqn:W; [|reflexivity].
  exfalso. assert (L : forall t, length (ws t) <= length t).
  { intros t. induction t as [|x t IH]; [cbn; lia|]. cbn [ws]. destruct (is_ws x); cbn [length]; lia. }
  specialize (L r). rewrite I in L. cbn [length] in L. lia.
Qed.
Lemma ws_not c s : is_ws c = false -> ws (c :: s) = c :: s.
Proof. intros W. cbn [ws]. rewrite W. reflexivity. Qed.

(** ** Digits and numbers *)
Lemma is_digit_iff b : is_digit b = true <-> digit b.
Proof. apply in_range_iff. Qed.
Lemma digits_split s : exists ds, s = ds ++ digits s /\ Forall digit ds.
Proof.
  induction s as [|c s (b & E & B)]; [exists []; split; [reflexivity|constructor]|].
  cbn [digits]. destruct (is_digit c) eqn:W; [|exists []; split; [reflexivity|constructor]].
  exists (c :: b). split; [cbn; congruence|]. constructor; [apply is_digit_iff; exact W|exact B].
Qed.

(** What may follow a number. *)
Definition number_end (r : bytes) : bool :=
  match r with
  | [] => true
  | c :: _ => negb (is_digit c) && negb (beqb c x2e) && negb (is_e c)
  end.
Definition no_digit (r : bytes) : bool := match r with [] => true | c :: _ => negb (is_digit c) end.
Lemma digits_all ds r : Forall digit ds -> no_digit r = true -> digits (ds ++ r) = r.
Proof.
  intros D N. induction D as [|c ds H _ IH].
  - destruct r as [|c r]; [reflexivity|]. cbn in *. destruct (is_digit c); [discriminate|reflexivity].
  - cbn [app digits]. apply is_digit_iff in H. rewrite H. exact IH.
Qed.
Lemma number_end_no_digit r : number_end r = true -> no_digit r = true.
Proof. destruct r as [|c r]; [reflexivity|]. cbn. rewrite !andb_true_iff. tauto. Qed.

Lemma skip_exponent_sound s r e : is_e e = true -> skip_exponent s = Some r ->
  exists t, e :: s = t ++ r /\ exp_part t.
Proof.
  intros He. unfold skip_exponent.
  assert (Ee : In e (str "eE")).
  { unfold is_e in He. apply orb_true_iff in He as [H|H]; apply beqb_eq in H; subst e; cbn; auto. }
  set (s' := match s with b :: r => if beqb b x2b || beqb b x2d then r else s | [] => s end).
  assert (S : exists sign, s = sign ++ s' /\ In sign [[]; str "+"; str "-"]).
  { unfold s'. destruct s as [|b s]; [exists []; cbn; auto|].
    destruct (beqb b x2b || beqb b x2d) eqn:E; [|exists []; cbn; auto].
    exists [b]. split; [reflexivity|]. apply orb_true_iff in E as [E|E]; apply beqb_eq in E; subst b; cbn; auto. }
  destruct S as (sign & Es & Hs). clearbody s'. destruct s' as [|d q]; [discriminate|].
  destruct (is_digit d) eqn:D; [|discriminate]. intros H. injection H as <-.
  destruct (digits_split q) as (ds & Eq & Hd).
  exists ([e] ++ sign ++ d :: ds). split.
  { rewrite Es. cbn [app]. rewrite <- app_assoc. cbn [app]. rewrite <- Eq. reflexivity. }
  exists e, sign, (d :: ds). split; [reflexivity|]. split; [exact Ee|]. split; [exact Hs|].
  split; [discriminate|]. constructor; [apply is_digit_iff; exact D|exact Hd].
Qed.

Lemma digit_facts d : digit d -> beqb d x2b || beqb d x2d = false.
Proof.
  intros D. destruct (beqb d x2b) eqn:E; [apply beqb_eq in E; subst d; exfalso; unfold digit in D; cbn in D; lia|].
  destruct (beqb d x2d) eqn:E'; [apply beqb_eq in E'; subst d; exfalso; unfold digit in D; cbn in D; lia|]. reflexivity.
Qed.

Lemma skip_exponent_complete t r : exp_part t -> no_digit r = true ->
  exists e t', t = e :: t' /\ is_e e = true /\ skip_exponent (t' ++ r) = Some r.
Proof.
  intros (e & sign & ds & -> & He & Hs & Hne & Hd) N. exists e, (sign ++ ds). split; [reflexivity|]. split.
  { unfold is_e. cbn in He. destruct He as [<-|[<-|[]]]; reflexivity. }
  destruct ds as [|d ds]; [congruence|]. inversion_clear Hd as [|? ? D Ds].
  assert (K : forall s, s = (d :: ds) ++ r -> match s with b :: r => if is_digit b then Some (digits r) else None | [] => None end = Some r).
  { intros s ->. cbn [app]. rewrite (proj2 (is_digit_iff d) D), digits_all by assumption. reflexivity. }
  unfold skip_exponent. cbn in Hs. destruct Hs as [<-|[<-|[<-|[]]]].
  - cbn [app]. rewrite (digit_facts d D). apply (K (d :: ds ++ r)). reflexivity.
  - apply (K (d :: ds ++ r)). reflexivity.
  - apply (K (d :: ds ++ r)). reflexivity.
Qed.

Lemma skip_number_sound s r : skip_number s = Some r -> exists t, s = t ++ r /\ unsigned t.
Proof.
  unfold skip_number. destruct s as [|b s]; [discriminate|].
  match goal with |- match ?x with _ => _ end = _ -> _ => destruct x as [s1|] eqn:E1 end; [|discriminate].
  assert (I : exists i, b :: s = i ++ s1 /\ int_part i).
  { destruct (beqb b x30) eqn:Z.
    - apply beqb_eq in Z. subst b. exists (str "0"). split; [|left; reflexivity].
      destruct s as [|c s]; [injection E1 as <-; reflexivity|].
      destruct (is_digit c); [discriminate|]. injection E1 as <-. reflexivity.
    - destruct (is_digit b) eqn:D; [|discriminate]. injection E1 as <-.
      destruct (digits_split s) as (ds & Es & Hd). exists (b :: ds). split; [cbn; congruence|].
      right. exists b, ds. split; [reflexivity|]. split; [|exact Hd].
      apply is_digit_iff in D. unfold digit in D. apply beqb_neq in Z.
      assert (b2n b <> 48%N) by (intros F; apply Z, b2n_inj; exact F). lia. }
  destruct I as (i & Ei & Hi). clear E1. rewrite Ei. destruct s1 as [|c s1].
  { intros H. injection H as <-. exists i. split; [reflexivity|]. exists i, [], [].
    rewrite !app_nil_r. split; [reflexivity|]. split; [exact Hi|]. split; left; reflexivity. }
  destruct (beqb c x2e) eqn:Dot.
  - apply beqb_eq in Dot. subst c. destruct s1 as [|d s2]; [discriminate|].
    destruct (is_digit d) eqn:D; [|discriminate]. destruct (digits_split s2) as (ds & Es & Hd).
    assert (F : frac_part (x2e :: d :: ds)).
    { exists (d :: ds). split; [reflexivity|]. split; [discriminate|]. constructor; [apply is_digit_iff; exact D|exact Hd]. }
    destruct (digits s2) as [|e s3].
    + intros H. injection H as <-. exists (i ++ (x2e :: d :: ds) ++ []). split.
      { rewrite Es, !app_nil_r. reflexivity. }
      exists i, (x2e :: d :: ds), []. split; [reflexivity|]. split; [exact Hi|]. split; [right; exact F|left; reflexivity].
    + destruct (is_e e) eqn:He.
      * intros H. destruct (skip_exponent_sound _ _ _ He H) as (t & Et & Ht).
        exists (i ++ (x2e :: d :: ds) ++ t). split.
        { rewrite Es, Et. flat. reflexivity. }
        exists i, (x2e :: d :: ds), t. split; [reflexivity|]. split; [exact Hi|]. split; right; assumption.
      * intros H. injection H as <-. exists (i ++ (x2e :: d :: ds) ++ []). split.
        { rewrite Es, !app_nil_r. flat. reflexivity. }
        exists i, (x2e :: d :: ds), []. split; [reflexivity|]. split; [exact Hi|]. split; [right; exact F|left; reflexivity].
  - destruct (is_e c) eqn:He.
    + intros H. destruct (skip_exponent_sound _ _ _ He H) as (t & Et & Ht).
      exists (i ++ [] ++ t). split; [rewrite Et, <- app_assoc; reflexivity|].
      exists i, [], t. split; [reflexivity|]. split; [exact Hi|]. split; [left; reflexivity|right; exact Ht].
    + intros H. injection H as <-. exists i. split; [reflexivity|]. exists i, [], [].
      rewrite !app_nil_r. split; [reflexivity|]. split; [exact Hi|]. split; left; reflexivity.
Qed.

Lemma e_facts e : is_e e = true -> is_digit e = false /\ beqb e x2e = false.
Proof. unfold is_e. intros H. apply orb_true_iff in H as [H|H]; apply beqb_eq in H; subst e; split; reflexivity. Qed.

(** The part of [skip_number] after the integer. *)
Definition after_int (s : bytes) : option bytes :=
  match s with
  | [] => Some []
  | c :: r =>
      if beqb c x2e then
        match r with
        | d :: r => if is_digit d then
                      match digits r with
                      | e :: r' => if is_e e then skip_exponent r' else Some (e :: r')
                      | [] => Some []
                      end
                    else None
        | [] => None
        end
      else if is_e c then skip_exponent r
      else Some (c :: r)
  end.
Lemma skip_number_after b r : skip_number (b :: r) =
  match (if beqb b x30 then match r with c :: _ => if is_digit c then None else Some r | [] => Some r end
         else if is_digit b then Some (digits r) else None) with
  | None => None
  | Some s => after_int s
  end.
Proof.
  unfold skip_number.
  match goal with |- match ?x with _ => _ end = _ => destruct x as [[|c s]|]; reflexivity end.
Qed.

Lemma after_int_complete f e r : optional frac_part f -> optional exp_part e -> number_end r = true ->
  after_int (f ++ e ++ r) = Some r /\ no_digit (f ++ e ++ r) = true.
Proof.
  intros Hf He N. pose proof (number_end_no_digit r N) as Nd.
  assert (X : exists c, no_digit (e ++ r) = true /\
              match e ++ r with c :: r' => if is_e c then skip_exponent r' else Some (c :: r') | [] => Some [] end = Some r /\
              (match e ++ r with c :: _ => beqb c x2e | [] => false end) = c /\ c = false).
  { eexists. split; [|split; [|split; [reflexivity|]]].
    - destruct He as [->|He]; [exact Nd|]. destruct (skip_exponent_complete e r He Nd) as (c & t & -> & Hc & _).
      cbn. destruct (e_facts c Hc) as [-> _]. reflexivity.
    - destruct He as [->|He].
      + cbn [app]. destruct r as [|c r]; [reflexivity|]. cbn in N. destruct (is_e c); [|reflexivity].
        rewrite andb_false_r in N. discriminate.
      + destruct (skip_exponent_complete e r He Nd) as (c & t & -> & Hc & K). cbn [app]. rewrite Hc. exact K.
    - destruct He as [->|He].
      + cbn [app]. destruct r as [|c r]; [reflexivity|]. cbn in N. destruct (beqb c x2e); [|reflexivity].
        rewrite andb_false_r in N. discriminate.
      + destruct (skip_exponent_complete e r He Nd) as (c & t & -> & Hc & _). cbn [app]. apply (e_facts c Hc). }
  destruct X as (c0 & X1 & X2 & X3 & ->).
  destruct Hf as [->|(ds & -> & Hne & Hd)].
  - cbn [app]. split; [|exact X1]. unfold after_int. destruct (e ++ r) as [|c q]; [exact X2|]. rewrite X3. exact X2.
  - destruct ds as [|d ds]; [congruence|]. inversion_clear Hd as [|? ? D Ds]. split; [|reflexivity].
    change ((str "." ++ d :: ds) ++ e ++ r) with (x2e :: d :: ds ++ e ++ r). unfold after_int.
    change (beqb x2e x2e) with true. cbn iota. rewrite (proj2 (is_digit_iff d) D).
    rewrite (digits_all ds (e ++ r) Ds X1). destruct (e ++ r) as [|c q]; exact X2.
Qed.

Lemma skip_number_complete t r : unsigned t -> number_end r = true -> skip_number (t ++ r) = Some r.
Proof.
  intros (i & f & e & -> & Hi & Hf & He) N. rewrite <- !app_assoc.
  destruct (after_int_complete f e r Hf He N) as [A B].
  destruct Hi as [->|(d & ds & -> & D & Ds)].
  - change (str "0" ++ f ++ e ++ r) with (x30 :: f ++ e ++ r). rewrite skip_number_after.
    change (beqb x30 x30) with true. cbn iota. destruct (f ++ e ++ r) as [|c q] eqn:Q; [exact A|].
    cbn in B. destruct (is_digit c); [discriminate|exact A].
  - cbn [app]. rewrite skip_number_after.
    assert (Z : beqb d x30 = false) by (apply beqb_neq; intros ->; cbn in D; lia). rewrite Z.
    assert (D' : digit d) by (unfold digit; lia).
    rewrite (proj2 (is_digit_iff d) D'), digits_all by assumption. exact A.
Qed.

(** ** Skipped strings *)
Lemma simple_escape_iff e : (exists c, simple_escape e = Some c) <-> In e (str """\/bfnrt").
Proof.
  split.
  - unfold simple_escape. intros [c H]. revert H.
    repeat match goal with
    | |- context [beqb e ?x] => let Q := fresh in
        destruct (beqb e x) eqn:Q; [apply beqb_eq in Q; subst e; intros _; cbn; tauto|clear Q]
    end. discriminate.
  - intros H. cbn in H.
    repeat (destruct H as [<-|H]; [eexists; reflexivity|]). destruct H.
Qed.

Lemma skip_str_sound f s r : skip_str f s = Some r -> exists t, s = t ++ x22 :: r /\ lchars t.
Proof.
  revert s r. induction f as [|f IH]; intros s r H; [discriminate|].
  destruct s as [|b s]; [discriminate|]. cbn [skip_str] in H.
  destruct (beqb b x22) eqn:E1.
  { apply beqb_eq in E1. subst b. injection H as <-. exists []. split; [reflexivity|constructor]. }
  destruct (beqb b x5c) eqn:E2.
  { apply beqb_eq in E2. subst b. destruct s as [|e s]; [discriminate|].
    destruct (beqb e x75) eqn:E3.
    - apply beqb_eq in E3. subst e. destruct (hex4 s) as [[n r2]|] eqn:E4; [|discriminate].
      apply hex4_iff in E4 as (h & -> & _ & U). destruct (IH _ _ H) as (t & -> & J).
      exists ((str "\u" ++ h) ++ t). split; [rewrite <- !app_assoc; reflexivity|].
      constructor; [eapply lc_u; exact U|exact J].
    - destruct (simple_escape e) as [c|] eqn:E4; [|discriminate]. destruct (IH _ _ H) as (t & -> & J).
      exists ((str "\" ++ [e]) ++ t). split; [reflexivity|]. constructor; [|exact J].
      apply lc_escape, simple_escape_iff. eauto. }
  destruct (b2n b <? 32)%N eqn:E3; [discriminate|]. destruct (IH _ _ H) as (t & -> & J).
  exists ([b] ++ t). split; [reflexivity|]. constructor; [|exact J]. apply lc_raw; [lia| |].
  - apply beqb_neq in E1. intros K. apply E1. change (str """") with [x22] in K. congruence.
  - apply beqb_neq in E2. intros K. apply E2. change (str "\") with [x5c] in K. congruence.
Qed.

Lemma skip_str_step t f s : lchar t -> skip_str (S f) (t ++ s) = skip_str f s.
Proof.
  destruct 1 as [b H H0 H1|c H|t n U].
  - cbn [app skip_str].
    destruct (beqb b x22) eqn:E1; [apply beqb_eq in E1; subst b; exfalso; apply H0; reflexivity|].
    destruct (beqb b x5c) eqn:E2; [apply beqb_eq in E2; subst b; exfalso; apply H1; reflexivity|].
    destruct (N.ltb_spec (b2n b) 32); [lia|]. reflexivity.
  - change ((str "\" ++ [c]) ++ s) with (x5c :: c :: s). cbn [skip_str].
    change (beqb x5c x22) with false. change (beqb x5c x5c) with true. cbn iota.
    destruct (beqb c x75) eqn:E.
    + apply beqb_eq in E. subst c. exfalso. cbn in H. repeat (destruct H as [H|H]; [discriminate|]). exact H.
    + apply simple_escape_iff in H as [d ->]. reflexivity.
  - inversion U; subst. set (h := [a; b; c; d]) in *.
    assert (K : hex4 (h ++ s) = Some (((na * 16 + nb) * 16 + nc) * 16 + nd, s)%N).
    { apply hex4_iff. exists h. split; [reflexivity|]. split; [reflexivity|exact U]. }
    rewrite <- app_assoc. change (str "\u" ++ h ++ s) with (x5c :: x75 :: h ++ s).
    cbn [skip_str]. change (beqb x5c x22) with false. change (beqb x5c x5c) with true.
    change (beqb x75 x75) with true. cbn iota. rewrite K. reflexivity.
Qed.

Lemma lchar_nonempty t : lchar t -> 1 <= length t.
Proof. destruct 1 as [| |t n U]; cbn; try lia. inversion U; subst. cbn. lia. Qed.

Lemma skip_str_complete t r f : lchars t -> length t < f -> skip_str f (t ++ x22 :: r) = Some r.
Proof.
  intros J. revert f. induction J as [|t ts Jt _ IH]; intros f Hf.
  - destruct f as [|f]; [lia|]. reflexivity.
  - rewrite app_length in Hf. pose proof (lchar_nonempty _ Jt). destruct f as [|f]; [lia|].
    rewrite <- app_assoc, (skip_str_step t f _ Jt). apply IH. lia.
Qed.

(** After the opening quote. *)
Lemma skip_string_sound s r : skip_str (length s) s = Some r -> exists t, x22 :: s = t ++ r /\ lstring t.
Proof.
  intros H. destruct (skip_str_sound _ _ _ H) as (t & -> & J). exists (str """" ++ t ++ str """").
  split; [cbn [app]; change (str """") with [x22]; cbn [app]; rewrite <- app_assoc; reflexivity|]. exists t. auto.
Qed.
Lemma skip_string_complete t r : lstring t ->
  exists q, t ++ r = x22 :: q /\ skip_str (length q) q = Some r.
Proof.
  intros (cs & -> & J). exists (cs ++ x22 :: r). split.
  - change (str """") with [x22]. cbn [app]. rewrite <- app_assoc. reflexivity.
  - apply skip_str_complete; [exact J|]. rewrite app_length. cbn. lia.
Qed.

Lemma text_token_sound s v r : parse_str s = Some (v, r) -> exists t, x22 :: s = t ++ r /\ text_token t v.
Proof.
  intros H. apply parse_str_iff in H as (t & -> & J & U). exists (str """" ++ t ++ str """"). split.
  - change (str """") with [x22]. cbn [app]. rewrite <- app_assoc. reflexivity.
  - split; [exists t; auto|exact U].
Qed.
Lemma text_token_complete t v r : text_token t v -> exists q, t ++ r = x22 :: q /\ parse_str q = Some (v, r).
Proof.
  intros [(cs & -> & J) U]. exists (cs ++ x22 :: r). split.
  - change (str """") with [x22]. cbn [app]. rewrite <- app_assoc. reflexivity.
  - apply parse_str_iff. exists cs. auto.
Qed.

(** ** Skipped values: soundness *)
Lemma skip_scalar_sound s r : skip_scalar s = Some r -> exists t, s = t ++ r /\ jvalue t.
Proof.
  unfold skip_scalar. destruct s as [|b s]; [discriminate|].
  destruct (beqb b x6e) eqn:E; [apply beqb_eq in E; subst b; intros H; apply strip_prefix_iff in H; subst s; exists (str "null");
    split; [reflexivity|apply jv_literal; cbn; auto]|clear E].
  destruct (beqb b x74) eqn:E; [apply beqb_eq in E; subst b; intros H; apply strip_prefix_iff in H; subst s; exists (str "true");
    split; [reflexivity|apply jv_literal; cbn; auto]|clear E].
  destruct (beqb b x66) eqn:E; [apply beqb_eq in E; subst b; intros H; apply strip_prefix_iff in H; subst s; exists (str "false");
    split; [reflexivity|apply jv_literal; cbn; auto]|clear E].
  destruct (beqb b x2d) eqn:E; [apply beqb_eq in E; subst b; intros H; apply skip_number_sound in H as (t & -> & U)|clear E].
  { exists (x2d :: t). split; [reflexivity|]. apply jv_number. right. exists t. auto. }
  destruct (is_digit b) eqn:E; [intros H; apply skip_number_sound in H as (t & -> & U)|clear E].
  { exists t. split; [reflexivity|]. apply jv_number. left. exact U. }
  destruct (beqb b x22) eqn:E; [|discriminate]. apply beqb_eq in E. subst b. intros H.
  apply skip_string_sound in H as (t & -> & U). exists t. split; [reflexivity|]. apply jv_string, U.
Qed.

Definition contents (frame : bool) (t : bytes) : Prop := if frame then jmembers t else jelements t.
Definition close (frame : bool) : byte := if frame then x7d else x5d.

(** [closes st s r]: with the brackets [st] open and a value just read, [s] closes them all and
    [r] remains. *)
Inductive closes : list bool -> bytes -> bytes -> Prop :=
| cl_nil r : closes [] r r
| cl_end frame st b s r : blank b -> closes st s r -> closes (frame :: st) (b ++ close frame :: s) r
| cl_more frame st b t s r : blank b -> contents frame t -> closes st s r ->
    closes (frame :: st) (b ++ x2c :: t ++ close frame :: s) r.

Lemma skip_sound f :
  (forall st s r, skip_value f st s = Some r ->
     exists b v s', s = b ++ v ++ s' /\ blank b /\ jvalue v /\ closes st s' r) /\
  (forall frame st s r, skip_after f true frame st s = Some r -> closes (frame :: st) s r) /\
  (forall frame st s r, skip_after f false frame st s = Some r ->
     exists t s', s = t ++ close frame :: s' /\ (blank t \/ contents frame t) /\ closes st s' r) /\
  (forall frame st s r, skip_next f frame st s = Some r ->
     exists t s', s = t ++ close frame :: s' /\ contents frame t /\ closes st s' r).
Proof.
  induction f as [|f (IHv & IHt & IHf & IHn)];
    [refine (conj _ (conj _ (conj _ _))); intros; discriminate|].
  assert (Cl : forall st (r q : bytes),
            match st with [] => Some q | fr :: st => skip_after f true fr st q end = Some r -> closes st q r).
  { intros [|fr st] r q H; [injection H as <-; constructor|]. apply IHt. exact H. }
  refine (conj _ (conj _ (conj _ _))).
  - intros st s r. cbn [skip_value]. destruct (ws s) as [|c q] eqn:W; [discriminate|].
    apply ws_head in W as (b & -> & B & _).
    destruct (beqb c x5b) eqn:E1; [apply beqb_eq in E1; subst c|].
    { intros H. apply IHf in H as (t & s' & -> & Ht & C). exists b, (str "[" ++ t ++ str "]"), s'.
      split; [change (str "[") with [x5b]; change (str "]") with [x5d]; flat; reflexivity|].
      split; [exact B|]. split; [|exact C]. destruct Ht as [Ht|Ht]; [apply jv_array0|apply jv_array]; exact Ht. }
    destruct (beqb c x7b) eqn:E2; [apply beqb_eq in E2; subst c|].
    { intros H. apply IHf in H as (t & s' & -> & Ht & C). exists b, (str "{" ++ t ++ str "}"), s'.
      split; [change (str "{") with [x7b]; change (str "}") with [x7d]; flat; reflexivity|].
      split; [exact B|]. split; [|exact C]. destruct Ht as [Ht|Ht]; [apply jv_object0|apply jv_object]; exact Ht. }
    destruct (skip_scalar (c :: q)) as [q'|] eqn:E; [|discriminate]. intros H.
    apply skip_scalar_sound in E as (t & E & V). rewrite E. exists b, t, q'.
    split; [reflexivity|]. split; [exact B|]. split; [exact V|]. apply Cl. exact H.
  - intros frame st s r. cbn [skip_after]. destruct (ws s) as [|c q] eqn:W; [discriminate|].
    apply ws_head in W as (b & -> & B & _). cbn [andb].
    destruct (beqb c x2c) eqn:E1; [apply beqb_eq in E1; subst c|].
    { intros H. apply IHn in H as (t & s' & -> & Ht & C). apply cl_more; assumption. }
    destruct (beqb c (if frame then x7d else x5d)) eqn:E2; [|discriminate].
    apply beqb_eq in E2. intros H. apply Cl in H. subst c. apply cl_end; assumption.
  - intros frame st s r. cbn [skip_after]. destruct (ws s) as [|c q] eqn:W; [discriminate|].
    apply ws_head in W as (b & -> & B & _). cbn [andb].
    destruct (beqb c (if frame then x7d else x5d)) eqn:E2.
    { apply beqb_eq in E2. intros H. apply Cl in H. subst c. exists b, q. auto. }
    intros H. apply IHn in H as (t & s' & -> & Ht & C). exists (b ++ t), s'.
    split; [flat; reflexivity|]. split; [right|exact C].
    destruct frame; cbn [contents] in *; inversion Ht; subst;
      rewrite app_assoc; constructor; try assumption; apply Forall_app; split; assumption.
  - intros frame st s r. cbn [skip_next].
    assert (X : forall b q v s', closes (frame :: st) s' r -> blank b -> jvalue v -> q = b ++ v ++ s' ->
              exists t2 s2, s' = t2 ++ close frame :: s2 /\ closes st s2 r /\
                (blank t2 \/ exists b' t3, t2 = b' ++ x2c :: t3 /\ blank b' /\ contents frame t3)).
    { intros b q v s' C B V Eq. inversion C; subst.
      - exists b0, s0. auto.
      - exists (b0 ++ x2c :: t), s0. split; [flat; reflexivity|]. split; [assumption|]. right. exists b0, t. auto. }
    destruct frame.
    + destruct (ws s) as [|c q] eqn:W; [discriminate|]. apply ws_head in W as (b & -> & B & _).
      destruct (beqb c x22) eqn:E; [|discriminate]. apply beqb_eq in E. subst c.
      destruct (skip_str (length q) q) as [q1|] eqn:K; [|discriminate].
      apply skip_string_sound in K as (k & Ek & K). rewrite Ek. clear Ek q.
      destruct (ws q1) as [|c q] eqn:W; [discriminate|]. apply ws_head in W as (b1 & -> & B1 & _).
      destruct (beqb c x3a) eqn:E; [|discriminate]. apply beqb_eq in E. subst c. intros H.
      apply IHv in H as (b2 & v & s' & -> & B2 & V & C).
      destruct (X _ _ v s' C B2 V eq_refl) as (t2 & s2 & -> & C2 & Ht). cbn [contents close] in *.
      change x3a with (hd x00 (str ":")).
      destruct Ht as [Ht|(b' & t3 & -> & B' & Ht)].
      * exists (b ++ k ++ b1 ++ str ":" ++ b2 ++ v ++ t2), s2. split; [flat; reflexivity|].
        split; [|exact C2]. constructor; assumption.
      * exists (b ++ k ++ b1 ++ str ":" ++ b2 ++ v ++ b' ++ str "," ++ t3), s2. split; [flat; reflexivity|].
        split; [|exact C2]. constructor; assumption.
    + intros H. apply IHv in H as (b2 & v & s' & -> & B2 & V & C).
      destruct (X _ _ v s' C B2 V eq_refl) as (t2 & s2 & -> & C2 & Ht). cbn [contents close] in *.
      destruct Ht as [Ht|(b' & t3 & -> & B' & Ht)].
      * exists (b2 ++ v ++ t2), s2. split; [flat; reflexivity|]. split; [|exact C2]. constructor; assumption.
      * exists (b2 ++ v ++ b' ++ str "," ++ t3), s2. split; [flat; reflexivity|]. split; [|exact C2]. constructor; assumption.
Qed.

Lemma ignore_value_sound s r : ignore_value s = Some r ->
  exists b v, s = b ++ v ++ r /\ blank b /\ jvalue v.
Proof.
  intros H. destruct (skip_sound (3 * length s + 3)) as (S & _).
  destruct (S _ _ _ H) as (b & v & s' & E & B & V & C). inversion C; subst. eauto.
Qed.

(** ** Skipped values: completeness *)

(** What follows a value inside a document. *)
Definition delimited (r : bytes) : bool :=
  match r with
  | [] => true
  | c :: _ => is_ws c || beqb c x2c || beqb c x5d || beqb c x7d
  end.
Lemma delimited_number_end r : delimited r = true -> number_end r = true.
Proof.
  destruct r as [|c r]; [reflexivity|]. cbn [delimited number_end]. unfold is_ws.
  rewrite !orb_true_iff. intros H.
  repeat match goal with K : _ \/ _ |- _ => destruct K end;
    match goal with K : beqb _ _ = true |- _ => apply beqb_eq in K; subst c end; reflexivity.
Qed.
Lemma delimited_blank b r : blank b -> delimited r = true -> delimited (b ++ r) = true.
Proof.
  intros B D. destruct B as [|c b W _]; [exact D|]. cbn [app delimited]. apply is_ws_iff in W. rewrite W. reflexivity.
Qed.

(** First bytes of values. *)
Definition starts (c : byte) : bool :=
  negb (is_ws c) && negb (beqb c x5d) && negb (beqb c x7d) && negb (beqb c x2c).
Lemma digit_starts d : digit d -> starts d = true.
Proof.
  unfold digit, starts, is_ws. intros D.
  repeat match goal with |- context [beqb d ?x] =>
    replace (beqb d x) with false by (symmetry; apply beqb_neq; intros ->; cbn in D; lia) end. reflexivity.
Qed.
Lemma unsigned_head t : unsigned t -> exists d t', t = d :: t' /\ digit d.
Proof.
  intros (i & f & e & -> & [->|(d & ds & -> & D & _)] & _).
  - exists x30, (f ++ e). split; [reflexivity|]. unfold digit. cbn. lia.
  - exists d, (ds ++ f ++ e). split; [reflexivity|]. unfold digit. lia.
Qed.
Lemma jvalue_head v : jvalue v -> exists c v', v = c :: v' /\ starts c = true.
Proof.
  destruct 1 as [t H|t [U|(u & -> & _)]|t (cs & -> & _)|t|b|t|b].
  - cbn in H. destruct H as [<-|[<-|[<-|[]]]]; eexists _, _; split; reflexivity.
  - destruct (unsigned_head t U) as (d & t' & -> & D). exists d, t'. split; [reflexivity|apply digit_starts, D].
  - exists x2d, u. split; reflexivity.
  - eexists x22, _. split; reflexivity.
  - eexists x5b, _. split; reflexivity.
  - eexists x5b, _. split; reflexivity.
  - eexists x7b, _. split; reflexivity.
  - eexists x7b, _. split; reflexivity.
Qed.
Lemma starts_ws c : starts c = true -> is_ws c = false.
Proof. unfold starts. destruct (is_ws c); [discriminate|reflexivity]. Qed.
Lemma starts_close c frame : starts c = true -> beqb c (close frame) = false.
Proof.
  unfold starts, close. rewrite !andb_true_iff, !negb_true_iff. destruct frame; tauto.
Qed.

Definition resume (f : nat) (st : list bool) (r : bytes) : option bytes :=
  match st with [] => Some r | fr :: st => skip_after f true fr st r end.

Lemma skip_scalar_value t r f st :
  (exists c t', t = c :: t' /\ is_ws c = false /\ beqb c x5b = false /\ beqb c x7b = false) ->
  skip_scalar (t ++ r) = Some r ->
  forall b, blank b -> skip_value (S f) st (b ++ t ++ r) = resume f st r.
Proof.
  intros (c & t' & -> & W & E1 & E2) H b B. cbn [skip_value]. rewrite ws_blank by exact B.
  cbn [app] in *. rewrite ws_not by exact W. rewrite E1, E2, H. reflexivity.
Qed.

Lemma skip_next_ws f frame st s : skip_next f frame st (ws s) = skip_next f frame st s.
Proof.
  destruct f as [|f]; [reflexivity|]. cbn [skip_next]. rewrite ws_idem. destruct frame; [reflexivity|].
  destruct f as [|f]; [reflexivity|]. cbn [skip_value]. rewrite ws_idem. reflexivity.
Qed.

Lemma skip_open f frame st b c s : blank b -> starts c = true ->
  skip_after (S f) false frame st (b ++ c :: s) = skip_next f frame st (b ++ c :: s).
Proof.
  intros B C. rewrite <- (skip_next_ws f frame st (b ++ c :: s)). cbn [skip_after].
  rewrite ws_blank, ws_not by (try exact B; apply starts_ws, C). cbn [andb].
  change (if frame then x7d else x5d) with (close frame). rewrite starts_close by exact C. reflexivity.
Qed.
Lemma skip_close f comma frame st b s : blank b ->
  skip_after (S f) comma frame st (b ++ close frame :: s) = resume f st s.
Proof.
  intros B. cbn [skip_after]. rewrite ws_blank by exact B.
  rewrite ws_not by (destruct frame; reflexivity).
  replace (comma && beqb (close frame) x2c) with false by (destruct comma, frame; reflexivity).
  change (if frame then x7d else x5d) with (close frame). rewrite beqb_refl. reflexivity.
Qed.
Lemma skip_comma f frame st b s : blank b ->
  skip_after (S f) true frame st (b ++ x2c :: s) = skip_next f frame st s.
Proof. intros B. cbn [skip_after]. rewrite ws_blank by exact B. reflexivity. Qed.

Scheme jvalue_rect' := Induction for jvalue Sort Prop
  with jelements_rect' := Induction for jelements Sort Prop
  with jmembers_rect' := Induction for jmembers Sort Prop.
Combined Scheme json_ind from jvalue_rect', jelements_rect', jmembers_rect'.

Definition skips (v : bytes) : Prop := forall b st r, blank b -> delimited r = true ->
  exists k, k <= 3 * length v /\ forall f, skip_value (k + f) st (b ++ v ++ r) = resume f st r.
Definition nexts (frame : bool) (t : bytes) : Prop := forall st r,
  exists k, k <= 3 * length t + 2 /\ forall f, skip_next (k + f) frame st (t ++ close frame :: r) = resume f st r.

Lemma skip_key f st b k b1 s : blank b -> lstring k -> blank b1 ->
  skip_next (S f) true st (b ++ k ++ b1 ++ x3a :: s) = skip_value f (true :: st) s.
Proof.
  intros B K B1. destruct (skip_string_complete k (b1 ++ x3a :: s) K) as (q & Eq & Sq).
  rewrite Eq. cbn [skip_next]. rewrite ws_blank by exact B. rewrite ws_not by reflexivity.
  change (beqb x22 x22) with true. cbn iota. rewrite Sq, ws_blank by exact B1. reflexivity.
Qed.

Lemma skip_complete :
  (forall v, jvalue v -> skips v) /\ (forall t, jelements t -> nexts false t) /\ (forall t, jmembers t -> nexts true t).
Proof.
  apply json_ind.
  - intros t H b st r B D. exists 1. split.
    { cbn in H. destruct H as [<-|[<-|[<-|[]]]]; cbn; lia. }
    intros f. apply skip_scalar_value; [| |exact B];
      cbn in H; destruct H as [<-|[<-|[<-|[]]]]; try reflexivity; eexists _, _; repeat split.
  - intros t H b st r B D. pose proof (delimited_number_end r D) as N. exists 1.
    destruct H as [U|(u & -> & U)].
    + destruct (unsigned_head t U) as (d & t' & E & Dd). split; [subst t; cbn; lia|]. intros f.
      pose proof (skip_number_complete t r U N) as S. subst t.
      assert (X : forall x, (b2n x < 48 \/ 57 < b2n x)%N -> beqb d x = false).
      { intros x Hx. apply beqb_neq. intros ->. unfold digit in Dd. lia. }
      apply skip_scalar_value; [| |exact B].
      * exists d, t'. split; [reflexivity|]. split; [apply starts_ws, digit_starts, Dd|].
        split; apply X; cbn; lia.
      * cbn [app] in *. unfold skip_scalar. rewrite !X by (cbn; lia).
        rewrite (proj2 (is_digit_iff d) Dd). exact S.
    + split; [cbn; lia|]. intros f. apply skip_scalar_value; [| |exact B].
      * exists x2d, u. repeat split.
      * change ((str "-" ++ u) ++ r) with (x2d :: u ++ r). unfold skip_scalar.
        change (beqb x2d x6e) with false. change (beqb x2d x74) with false. change (beqb x2d x66) with false.
        change (beqb x2d x2d) with true. cbn iota. apply skip_number_complete; assumption.
  - intros t H b st r B D. exists 1. split.
    { destruct H as (cs & -> & _). rewrite !app_length. cbn. lia. }
    intros f. destruct (skip_string_complete t r H) as (q & Eq & Sq).
    apply skip_scalar_value; [| |exact B].
    + destruct H as (cs & -> & _). eexists x22, _. repeat split.
    + rewrite Eq. unfold skip_scalar. exact Sq.
  - intros t T IH b st r B D. destruct (IH st r) as (k & Hk & K). exists (S (S k)). split.
    { rewrite !app_length. cbn [length str]. change (length (str "[")) with 1. change (length (str "]")) with 1. lia. }
    intros f. cbn [plus]. change (str "[") with [x5b]. change (str "]") with [close false]. flat.
    cbn [skip_value]. rewrite ws_blank, ws_not by (try exact B; reflexivity).
    change (beqb x5b x5b) with true. cbn iota.
    assert (O : exists b0 c s, t ++ close false :: r = b0 ++ c :: s /\ blank b0 /\ starts c = true).
    { inversion T; subst; destruct (jvalue_head _ H0) as (c & v' & -> & C); exists b0, c;
        eexists; (split; [flat; reflexivity|auto]). }
    destruct O as (b0 & c & s & E & B0 & C). rewrite E in *. rewrite skip_open by assumption. apply K.
  - intros b0 B0 b st r B D. exists 2. split.
    { rewrite !app_length. change (length (str "[")) with 1. change (length (str "]")) with 1. lia. }
    intros f. cbn [plus]. change (str "[") with [x5b]. change (str "]") with [close false]. flat.
    cbn [skip_value]. rewrite ws_blank, ws_not by (try exact B; reflexivity).
    change (beqb x5b x5b) with true. cbn iota. apply skip_close. exact B0.
  - intros t T IH b st r B D. destruct (IH st r) as (k & Hk & K). exists (S (S k)). split.
    { rewrite !app_length. change (length (str "{")) with 1. change (length (str "}")) with 1. lia. }
    intros f. cbn [plus]. change (str "{") with [x7b]. change (str "}") with [close true]. flat.
    cbn [skip_value]. rewrite ws_blank, ws_not by (try exact B; reflexivity).
    change (beqb x7b x5b) with false. change (beqb x7b x7b) with true. cbn iota.
    assert (O : exists b0 c s, t ++ close true :: r = b0 ++ c :: s /\ blank b0 /\ starts c = true).
    { inversion T; subst; match goal with L : lstring _ |- _ => destruct L as (cs & -> & _) end;
        exists b0, x22; eexists; (split; [change (str """") with [x22]; flat; reflexivity|auto]). }
    destruct O as (b0 & c & s & E & B0 & C). rewrite E in *. rewrite skip_open by assumption. apply K.
  - intros b0 B0 b st r B D. exists 2. split.
    { rewrite !app_length. change (length (str "{")) with 1. change (length (str "}")) with 1. lia. }
    intros f. cbn [plus]. change (str "{") with [x7b]. change (str "}") with [close true]. flat.
    cbn [skip_value]. rewrite ws_blank, ws_not by (try exact B; reflexivity).
    change (beqb x7b x5b) with false. change (beqb x7b x7b) with true. cbn iota. apply skip_close. exact B0.
  - intros b v b' B V IH B' st r.
    destruct (IH b (false :: st) (b' ++ close false :: r) B) as (k & Hk & K).
    { apply delimited_blank; [exact B'|reflexivity]. }
    exists (S (k + 1)). split; [rewrite !app_length; lia|]. intros f. cbn [plus]. rewrite <- Nat.add_assoc. cbn [plus]. flat.
    cbn [skip_next]. rewrite K. cbn [resume]. apply skip_close. exact B'.
  - intros b v b' t B V IH B' T IHt st r.
    destruct (IH b (false :: st) (b' ++ x2c :: t ++ close false :: r) B) as (k & Hk & K).
    { apply delimited_blank; [exact B'|reflexivity]. }
    destruct (IHt st r) as (k' & Hk' & K').
    exists (S (k + S k')). split; [rewrite !app_length; change (length (str ",")) with 1; lia|].
    intros f. cbn [plus]. rewrite <- Nat.add_assoc. cbn [plus]. change (str ",") with [x2c]. flat.
    cbn [skip_next]. rewrite K. cbn [resume]. rewrite skip_comma by exact B'. apply K'.
  - intros b k0 b1 b2 v b' B L B1 B2 V IH B' st r.
    destruct (IH b2 (true :: st) (b' ++ close true :: r) B2) as (k & Hk & K).
    { apply delimited_blank; [exact B'|reflexivity]. }
    exists (S (k + 1)). split; [rewrite !app_length; lia|]. intros f. cbn [plus]. rewrite <- Nat.add_assoc. cbn [plus].
    change (str ":") with [x3a]. flat. rewrite skip_key by assumption. rewrite K. cbn [resume]. apply skip_close. exact B'.
  - intros b k0 b1 b2 v b' t B L B1 B2 V IH B' T IHt st r.
    destruct (IH b2 (true :: st) (b' ++ x2c :: t ++ close true :: r) B2) as (k & Hk & K).
    { apply delimited_blank; [exact B'|reflexivity]. }
    destruct (IHt st r) as (k' & Hk' & K').
    exists (S (k + S k')). split; [rewrite !app_length; change (length (str ",")) with 1; lia|].
    intros f. cbn [plus]. rewrite <- Nat.add_assoc. cbn [plus]. change (str ":") with [x3a]. change (str ",") with [x2c]. flat.
    rewrite skip_key by assumption. rewrite K. cbn [resume]. rewrite skip_comma by exact B'. apply K'.
Qed.

Lemma ignore_value_complete b v r : blank b -> jvalue v -> delimited r = true ->
  ignore_value (b ++ v ++ r) = Some r.
Proof.
  intros B V D. destruct (proj1 skip_complete v V b [] r B D) as (k & Hk & K). unfold ignore_value.
  set (n := 3 * length (b ++ v ++ r) + 3).
  assert (Hn : n = k + (n - k)) by (unfold n; rewrite !app_length; lia).
  rewrite Hn. apply K.
Qed.

(** ** The outer object *)
Lemma parse_str_value_sound s v r : parse_str_value s = Some (v, r) ->
  exists b t, s = b ++ t ++ r /\ blank b /\ text_token t v.
Proof.
  unfold parse_str_value. destruct (ws s) as [|c q] eqn:W; [discriminate|].
  apply ws_head in W as (b & -> & B & _). destruct (beqb c x22) eqn:E; [|discriminate]. apply beqb_eq in E. subst c.
  intros H. apply text_token_sound in H as (t & -> & T). exists b, t. auto.
Qed.
Lemma parse_str_value_complete b t v r : blank b -> text_token t v -> parse_str_value (b ++ t ++ r) = Some (v, r).
Proof.
  intros B T. destruct (text_token_complete t v r T) as (q & -> & H). unfold parse_str_value.
  rewrite ws_blank by exact B. rewrite ws_not by reflexivity. exact H.
Qed.

Definition optl (o : option bytes) : list bytes := match o with Some v => [v] | None => [] end.

Lemma field_members_blank field b t vs : blank b -> field_members field t vs -> field_members field (b ++ t) vs.
Proof.
  assert (M : forall b t vs, blank b -> field_member field t vs -> field_member field (b ++ t) vs).
  { intros b0 t0 vs0 B0 (b1 & k & c1 & c2 & v & b' & name & -> & Hb & R).
    exists (b0 ++ b1), k, c1, c2, v, b', name. split; [flat; reflexivity|]. split; [|exact R]. apply Forall_app; auto. }
  intros B H. destruct H as [t vs H|t vs t' vs' H H']; [apply fm_one; auto|].
  rewrite app_assoc. apply fm_more; auto.
Qed.

(** What may follow a member: the closing brace, or a comma and members. *)
Definition members_rest (field s : bytes) (vs : list bytes) (r : bytes) : Prop :=
  (exists b, s = b ++ x7d :: r /\ blank b /\ vs = []) \/
  (exists b t, s = b ++ x2c :: t ++ x7d :: r /\ blank b /\ field_members field t vs).

Lemma members_sound f field : forall first seen s v r,
  members f field first seen s = Some (v, r) ->
  exists vs, optl seen ++ vs = [v] /\
    if first then (exists t, s = t ++ x7d :: r /\ ((blank t /\ vs = []) \/ field_members field t vs))
    else members_rest field s vs r.
Proof.
  induction f as [|f IH]; intros first seen s v r; [discriminate|]. cbn [members].
  destruct (ws s) as [|c q] eqn:W; [discriminate|]. apply ws_head in W as (b & -> & B & _).
  destruct (beqb c x7d) eqn:E.
  { apply beqb_eq in E. subst c. destruct seen as [v'|]; [|discriminate]. intros H.
    assert (v' = v) by congruence. assert (q = r) by congruence. subst v' q.
    exists []. split; [reflexivity|]. destruct first; [exists b; auto|left; exists b; auto]. }
  clear E.
  match goal with |- match ?x with _ => _ end = _ -> _ => destruct x as [[|c' q']|] eqn:X end; try discriminate.
  destruct (beqb c' x22) eqn:E; [|discriminate]. apply beqb_eq in E. subst c'.
  destruct (parse_str q') as [[key q1]|] eqn:Pk; [|discriminate].
  apply text_token_sound in Pk as (k & Ek & Tk).
  destruct (ws q1) as [|c1 q2] eqn:W; [discriminate|]. apply ws_head in W as (b1 & -> & B1 & _).
  destruct (beqb c1 x3a) eqn:E; [|discriminate]. apply beqb_eq in E. subst c1.
  intros H.
  assert (Y : exists b2 v2 q3 vs0 seen', q2 = b2 ++ v2 ++ q3 /\ blank b2 /\
            ((key = field /\ exists text, text_token v2 text /\ vs0 = [text]) \/ (key <> field /\ jvalue v2 /\ vs0 = [])) /\
            members f field false seen' q3 = Some (v, r) /\ optl seen' = optl seen ++ vs0).
  { destruct (bseqb key field) eqn:Kf.
    - apply bseqb_eq in Kf. destruct seen; [discriminate|].
      destruct (parse_str_value q2) as [[v2 q3]|] eqn:Pv; [|discriminate].
      apply parse_str_value_sound in Pv as (b2 & t & -> & B2 & T).
      exists b2, t, q3, [v2], (Some v2). split; [reflexivity|]. split; [exact B2|]. split; [left; eauto|].
      split; [exact H|reflexivity].
    - destruct (ignore_value q2) as [q3|] eqn:Iv; [|discriminate].
      apply ignore_value_sound in Iv as (b2 & t & -> & B2 & T).
      exists b2, t, q3, [], seen. split; [reflexivity|]. split; [exact B2|]. split.
      { right. split; [|auto]. intros K. apply bseqb_eq in K. congruence. }
      split; [exact H|rewrite app_nil_r; reflexivity]. }
  destruct Y as (b2 & v2 & q3 & vs0 & seen' & -> & B2 & Hv & H' & Es). clear H.
  apply IH in H' as (vs' & Ev & R). rewrite Es, <- app_assoc in Ev. exists (vs0 ++ vs'). split; [exact Ev|].
  (* the member just read, up to the rest *)
  assert (Z : exists t, k ++ b1 ++ x3a :: b2 ++ v2 ++ q3 = t ++ x7d :: r /\ field_members field t (vs0 ++ vs')).
  { destruct R as [(b' & -> & B' & ->)|(b' & t' & -> & B' & Ht)].
    - exists ([] ++ k ++ b1 ++ str ":" ++ b2 ++ v2 ++ b'). split; [change (str ":") with [x3a]; flat; reflexivity|].
      rewrite app_nil_r. apply fm_one. exists [], k, b1, b2, v2, b', key.
      split; [reflexivity|]. split; [apply blank_nil|]. repeat (split; [assumption|]). exact Hv.
    - exists (([] ++ k ++ b1 ++ str ":" ++ b2 ++ v2 ++ b') ++ str "," ++ t').
      split; [change (str ":") with [x3a]; change (str ",") with [x2c]; flat; reflexivity|].
      apply fm_more; [|exact Ht]. exists [], k, b1, b2, v2, b', key.
      split; [reflexivity|]. split; [apply blank_nil|]. repeat (split; [assumption|]). exact Hv. }
  destruct Z as (t & Et & Ft). rewrite Et in Ek. clear Et.
  destruct first; cbn [negb andb] in X.
  - assert (E : c :: q = x22 :: q') by congruence. rewrite E, Ek. exists (b ++ t).
    split; [flat; reflexivity|]. right. apply field_members_blank; assumption.
  - destruct (beqb c x2c) eqn:Ec; [|discriminate]. apply beqb_eq in Ec. subst c.
    assert (Wq : ws q = x22 :: q') by congruence. apply ws_head in Wq as (b0 & -> & B0 & _). rewrite Ek.
    right. exists b, (b0 ++ t). split; [flat; reflexivity|]. split; [exact B|].
    apply field_members_blank; assumption.
Qed.

Lemma member_step f field first seen b k b1 b2 v b' name vs q o :
  blank b -> blank b1 -> blank b2 -> blank b' -> text_token k name -> delimited (b' ++ q) = true ->
  ((name = field /\ exists text, text_token v text /\ vs = [text]) \/ (name <> field /\ jvalue v /\ vs = [])) ->
  optl seen ++ vs = optl o ->
  members (S f) field first seen ((if first then [] else [x2c]) ++ b ++ k ++ b1 ++ x3a :: b2 ++ v ++ b' ++ q) =
  members f field false o (b' ++ q).
Proof.
  intros B B1 B2 B' K D H Ho.
  destruct (text_token_complete k name (b1 ++ x3a :: b2 ++ v ++ b' ++ q) K) as (p & Ek & Pk). rewrite Ek.
  assert (G : match parse_str p with
                  | Some (key, r) =>
                      match ws r with
                      | c :: r =>
                          if beqb c x3a then
                            if bseqb key field then
                              match seen with
                              | Some _ => None
                              | None =>
                                  match parse_str_value r with
                                  | Some (v, r) => members f field false (Some v) r
                                  | None => None
                                  end
                              end
                            else
                              match ignore_value r with
                              | Some r => members f field false seen r
                              | None => None
                              end
                          else None
                      | [] => None
                      end
                  | None => None
                  end = members f field false o (b' ++ q)).
  { rewrite Pk, ws_blank by exact B1. rewrite ws_not by reflexivity. change (beqb x3a x3a) with true. cbn iota.
    destruct H as [(-> & text & Tv & ->)|(Nf & Jv & ->)].
    - rewrite bseqb_refl. destruct seen as [x|]; [destruct o; discriminate|].
      rewrite (parse_str_value_complete b2 v text (b' ++ q) B2 Tv).
      destruct o as [x|]; [|discriminate]. cbn in Ho. injection Ho as ->. reflexivity.
    - destruct (bseqb name field) eqn:E; [apply bseqb_eq in E; congruence|].
      rewrite (ignore_value_complete b2 v (b' ++ q) B2 Jv D). rewrite app_nil_r in Ho.
      destruct seen, o; try discriminate; [|reflexivity]. cbn in Ho. injection Ho as ->. reflexivity. }
  destruct first; cbn [app members].
  - rewrite ws_blank by exact B. rewrite ws_not by reflexivity. exact G.
  - rewrite ws_not by reflexivity. change (beqb x2c x7d) with false. change (negb false && beqb x2c x2c) with true.
    cbn iota. rewrite ws_blank by exact B. rewrite ws_not by reflexivity. exact G.
Qed.

Lemma members_end f field first b v r : blank b -> members (S f) field first (Some v) (b ++ x7d :: r) = Some (v, r).
Proof. intros B. cbn [members]. rewrite ws_blank by exact B. reflexivity. Qed.

Lemma members_ws f field first seen s : members f field first seen (ws s) = members f field first seen s.
Proof. destruct f as [|f]; [reflexivity|]. cbn [members]. rewrite ws_idem. reflexivity. Qed.

Lemma members_blank f field first seen b s : blank b -> members f field first seen (b ++ s) = members f field first seen s.
Proof. intros B. rewrite <- members_ws, ws_blank, members_ws by exact B. reflexivity. Qed.

Lemma members_complete field t vs : field_members field t vs -> forall f first seen r v,
  length t < f -> optl seen ++ vs = [v] ->
  members (S f) field first seen ((if first then [] else [x2c]) ++ t ++ x7d :: r) = Some (v, r).
Proof.
  induction 1 as [t vs M|t vs t' vs' M M' IH]; intros f first seen r v Hf Ho;
    destruct M as (b & k & b1 & b2 & x & b' & name & -> & B & B1 & B2 & B' & K & H).
  - change (str ":") with [x3a]. flat.
    assert (Eo : optl seen ++ vs = optl (Some v)) by exact Ho.
    rewrite (member_step f field first seen b k b1 b2 x b' name vs (x7d :: r) (Some v)); try assumption.
    + destruct f as [|f]; [lia|]. apply members_end. exact B'.
    + apply delimited_blank; [exact B'|reflexivity].
  - change (str ":") with [x3a]. change (str ",") with [x2c] in *. flat.
    assert (Eo : exists o, optl seen ++ vs = optl o).
    { destruct seen as [s0|].
      - assert (vs = []) by (destruct vs; [reflexivity|destruct vs, vs'; discriminate]). subst vs. exists (Some s0). reflexivity.
      - destruct vs as [|y [|z vs]]; [exists None; reflexivity|exists (Some y); reflexivity|discriminate]. }
    destruct Eo as (o & Eo).
    rewrite (member_step f field first seen b k b1 b2 x b' name vs (x2c :: t' ++ x7d :: r) o); try assumption.
    + rewrite members_blank by exact B'. rewrite !app_length in Hf. cbn [length] in Hf.
      destruct f as [|f]; [lia|]. apply (IH f false o r v); [lia|]. rewrite <- Eo, <- app_assoc. exact Ho.
    + apply delimited_blank; [exact B'|reflexivity].
Qed.

(** ** C73 *)
(** C73: the documents the JSON reader accepts for a struct with one string field are exactly
    those of the RFC 8259 grammar in which the field occurs once (members of other names are
    skipped), and one-element arrays; the text read is the decoded string. *)
Lemma c73_document_language :
  forall field s v : bytes, parse_object1 field s = Some v <-> document field s v.
Proof.
  intros field s v. unfold parse_object1, document. split.
  - destruct (ws s) as [|c q] eqn:W; [discriminate|]. apply ws_head in W as (b & -> & B & _).
    destruct (beqb c x7b) eqn:E1; [apply beqb_eq in E1; subst c|].
    + destruct (members (S (length q)) field true None q) as [[v' r]|] eqn:M; [|discriminate].
      destruct (ws r) as [|c r'] eqn:W; [|discriminate]. intros H. injection H as ->.
      destruct (ws_split r) as (b' & Eb & B'). rewrite W, app_nil_r in Eb. subst b'.
      apply members_sound in M as (vs & Ev & t & -> & Ht). cbn [optl app] in Ev. subst vs.
      destruct Ht as [[_ Ht]|Ht]; [discriminate|].
      exists b, (str "{" ++ t ++ str "}"), r. split; [change (str "{") with [x7b]; change (str "}") with [x7d]; flat; reflexivity|].
      split; [exact B|]. split; [exact B'|]. left. exists t. auto.
    + destruct (beqb c x5b) eqn:E2; [|discriminate]. apply beqb_eq in E2. subst c.
      unfold seq1. destruct (parse_str_value q) as [[v' r]|] eqn:M; [|discriminate].
      apply parse_str_value_sound in M as (b1 & t & -> & B1 & T).
      destruct (ws r) as [|c r1] eqn:W; [discriminate|]. apply ws_head in W as (b2 & -> & B2 & _).
      destruct (beqb c x5d) eqn:E; [|discriminate]. apply beqb_eq in E. subst c.
      destruct (ws r1) as [|c r'] eqn:W; [|discriminate]. intros H. injection H as ->.
      destruct (ws_split r1) as (b' & Eb & B'). rewrite W, app_nil_r in Eb. subst b'.
      exists b, (str "[" ++ b1 ++ t ++ b2 ++ str "]"), r1.
      split; [change (str "[") with [x5b]; change (str "]") with [x5d]; flat; reflexivity|].
      split; [exact B|]. split; [exact B'|]. right. exists b1, t, b2. auto.
  - intros (b & body & b' & -> & B & B' & [(t & -> & Ht)|(b1 & t & b2 & -> & B1 & B2 & T)]).
    + change (str "{") with [x7b]. change (str "}") with [x7d]. flat.
      rewrite ws_blank by exact B. rewrite ws_not by reflexivity. change (beqb x7b x7b) with true. cbn iota.
      pose proof (members_complete field t [v] Ht (length (t ++ x7d :: b')) true None b' v) as M. cbn [app optl] in M.
      rewrite M; [|rewrite app_length; cbn; lia|reflexivity]. rewrite ws_blank_all by exact B'. reflexivity.
    + change (str "[") with [x5b]. change (str "]") with [x5d]. flat.
      rewrite ws_blank by exact B. rewrite ws_not by reflexivity.
      change (beqb x5b x7b) with false. change (beqb x5b x5b) with true. cbn iota. unfold seq1.
      rewrite (parse_str_value_complete b1 t v _ B1 T). rewrite ws_blank by exact B2. rewrite ws_not by reflexivity.
      change (beqb x5d x5d) with true. cbn iota. rewrite ws_blank_all by exact B'. reflexivity.
Qed.

(** C73: the grammar never reads two texts from the same document. *)
Lemma c73_document_deterministic :
  forall field s v v' : bytes, document field s v -> document field s v' -> v = v'.
Proof.
  intros field s v v' H H'. apply c73_document_language in H, H'. congruence.
Qed.

(** C73: what the three codecs in use accept.  Payloads with a [data] string, footers with a [kid]
    string, and footers whose [kid] must also be the text of a key id. *)
Lemma c73_codecs :
  forall (v : version) (k : ktype) (b x : bytes),
  (json_from_slice data_json b = COk x <-> document (str "data") b x) /\
  (json_from_slice kid_string_json b = COk x <-> document (str "kid") b x) /\
  (json_from_slice (kid_json v k) b = COk x <->
   exists text, document (str "kid") b text /\ id_parse v k text = Ok x) /\
  (forall text, document (str "data") b text -> utf8_text text).
Proof.
  intros v k b x. split; [|split; [|split]].
  - cbn [json_from_slice data_json json_struct1]. rewrite <- c73_document_language.
    destruct (parse_object1 (str "data") b); split; congruence.
  - cbn [json_from_slice kid_string_json json_struct1]. rewrite <- c73_document_language.
    destruct (parse_object1 (str "kid") b); split; congruence.
  - cbn [json_from_slice kid_json json_struct1]. split.
    + destruct (parse_object1 (str "kid") b) as [t|] eqn:E; [|discriminate]. intros H. exists t.
      split; [apply c73_document_language; exact E|]. destruct (id_parse v k t); congruence.
    + intros (t & D & H). apply c73_document_language in D. rewrite D, H. reflexivity.
  - intros text (b0 & body & b' & _ & _ & _ & [(t & _ & Ht)|(b1 & t & b2 & _ & _ & _ & T)]); [|apply T].
    remember [text] as vs eqn:Ev. revert text Ev. induction Ht as [t vs M|t vs t' vs' M M' IH]; intros text Ev.
    + destruct M as (? & ? & ? & ? & ? & ? & ? & _ & _ & _ & _ & _ & _ & [(_ & u & Tu & E)|(_ & _ & E)]); [|congruence].
      rewrite E in Ev. injection Ev as <-. apply Tu.
    + destruct M as (? & ? & ? & ? & ? & ? & ? & _ & _ & _ & _ & _ & _ & [(_ & u & Tu & E)|(_ & _ & E)]); rewrite E in Ev.
      * injection Ev as <- _. apply Tu.
      * apply IH. exact Ev.
Qed.

(** ** The written strings *)
Local Open Scope N_scope.
Definition no_better (t e : bytes) : Prop :=
  (t = e \/ length e < length t \/ length e = length t /\ before t e)%nat.
Lemma before_app a b c d : before a b -> before (a ++ c) (b ++ d).
Proof.
  intros (p & x & y & r & s & -> & -> & L). exists p, x, y, (r ++ c), (s ++ d).
  rewrite <- !app_assoc. split; [reflexivity|]. split; [reflexivity|exact L].
Qed.
Lemma before_prefix p a b : before a b -> before (p ++ a) (p ++ b).
Proof.
  intros (q & x & y & r & s & -> & -> & L). exists (p ++ q), x, y, r, s.
  rewrite <- !app_assoc. split; [reflexivity|]. split; [reflexivity|exact L].
Qed.
Lemma no_better_app t e ts es : no_better t e -> no_better ts es -> no_better (t ++ ts) (e ++ es).
Proof.
  unfold no_better. rewrite !app_length. intros [->|[H|[H B]]] [->|[K|[K C]]].
  - left; reflexivity.
  - right; left; lia.
  - right; right. split; [lia|]. apply before_prefix. exact C.
  - right; left; lia.
  - right; left; lia.
  - right; left; lia.
  - right; right. split; [lia|]. apply before_app. exact B.
  - right; left; lia.
  - right; right. split; [lia|]. apply before_app. exact B.
Qed.

Lemma u_escape_length t n : u_escape t n -> length t = 6%nat.
Proof. intros []. reflexivity. Qed.
Lemma escape_raw b : 32 <= b2n b -> [b] <> str """" -> [b] <> str "\" -> escape_byte b = [b].
Proof.
  intros L A B. destruct b;
    first [reflexivity | exfalso; apply A; reflexivity | exfalso; apply B; reflexivity
          | exfalso; apply L; reflexivity].
Qed.
Lemma escape_high b : 128 <= b2n b -> escape_byte b = [b].
Proof.
  intros H. apply escape_raw; [lia| |]; intros K; injection K as ->; apply H; reflexivity.
Qed.
Lemma escape_short b : 32 <= b2n b -> (length (escape_byte b) <= 2)%nat.
Proof. destruct b; intros L; cbn; first [lia | exfalso; apply L; reflexivity]. Qed.

(** The escape of one control character: only the case of the last digit is free. *)
Lemma hexdig_zero a : hexdig a 0 -> a = x30.
Proof.
  intros H. inversion H as [b L E|b L E|b L E]; subst.
  - apply b2n_inj. change (b2n x30) with 48. lia.
  - lia.
  - lia.
Qed.
Lemma hexdig_case a n : hexdig a n -> a = hex_digit n \/ b2n a < b2n (hex_digit n).
Proof.
  intros H. pose proof (hexdig_lt a n H) as Ln. unfold hex_digit.
  assert (V : forall m, m < 256 -> b2n (n2b m) = m) by (intros m Hm; rewrite b2n_n2b; apply N.mod_small; exact Hm).
  inversion H as [b L E|b L E|b L E]; subst.
  - left. destruct (N.ltb_spec (b2n a - 48) 10); [|lia]. apply b2n_inj. rewrite V by lia. lia.
  - left. destruct (N.ltb_spec (b2n a - 97 + 10) 10); [lia|]. apply b2n_inj. rewrite V by lia. lia.
  - right. destruct (N.ltb_spec (b2n a - 65 + 10) 10); [lia|]. rewrite V by lia. lia.
Qed.
Lemma control_escape t b : u_escape t (b2n b) -> b2n b < 32 -> no_better t (escape_byte b).
Proof.
  intros U L.
  destruct (Nat.eq_dec (length (escape_byte b)) 6) as [E6|N6].
  2: { right; left. rewrite (u_escape_length _ _ U).
       assert (length (escape_byte b) <= 6)%nat by (clear; destruct b; cbn; lia). lia. }
  assert (E : escape_byte b = [x5c; x75; x30; x30; hex_digit (b2n b / 16); hex_digit (b2n b mod 16)]).
  { clear U. destruct b; first [discriminate E6 | reflexivity | discriminate L]. }
  rewrite E. clear E E6. revert U L. generalize (b2n b) as n. clear b. intros n U L.
  inversion U as [a b c d na nb nc nd Ha Hb Hc Hd Et En]; subst t.
  pose proof (hexdig_lt _ _ Ha). pose proof (hexdig_lt _ _ Hb). pose proof (hexdig_lt _ _ Hc).
  pose proof (hexdig_lt _ _ Hd).
  assert (na = 0) by lia. assert (nb = 0) by lia. subst na nb.
  apply hexdig_zero in Ha, Hb. subst a b.
  match goal with |- context [hex_digit (?x / 16)] =>
    replace (x / 16) with nc by (apply (N.div_unique x 16 nc nd); lia);
    replace (x mod 16) with nd by (apply (N.mod_unique x 16 nc nd); lia)
  end.
  assert (c = hex_digit nc).
  { destruct (hexdig_case c nc Hc) as [K|K]; [exact K|].
    exfalso. assert (nc = 0 \/ nc = 1) as [-> | ->] by lia.
    - apply hexdig_zero in Hc. subst c. vm_compute in K. discriminate.
    - inversion Hc; subst; [|lia|lia]. unfold hex_digit in K. cbn [N.ltb N.compare Pos.compare Pos.compare_cont] in K.
      change (b2n (n2b (48 + 1))) with 49 in K. lia. }
  subst c. destruct (hexdig_case d nd Hd) as [-> |K]; [left; reflexivity|].
  right; right. split; [reflexivity|].
  exists [x5c; x75; x30; x30; hex_digit nc], d, (hex_digit nd), [], [].
  split; [reflexivity|]. split; [reflexivity|exact K].
Qed.

Lemma utf8_escaped c v : utf8 c v -> 32 <= c -> (length (flat_map escape_byte v) <= 4)%nat.
Proof.
  intros U L. inversion U as [a A|a b c' A B|a b d c' A B D|a b d e c' A B D F]; subst;
    cbn [flat_map]; rewrite ?app_nil_r.
  - pose proof (escape_short a L). lia.
  - rewrite (escape_high a), (escape_high b) by (unfold tail_byte in *; lia). cbn; lia.
  - rewrite (escape_high a), (escape_high b), (escape_high d) by (unfold tail_byte in *; lia). cbn; lia.
  - rewrite (escape_high a), (escape_high b), (escape_high d), (escape_high e) by (unfold tail_byte in *; lia).
    cbn; lia.
Qed.

Lemma jchar_no_better t v : jchar t v -> no_better t (flat_map escape_byte v).
Proof.
  intros J. inversion J as [b L A B| | | | | | | | |t' c v' U N8 V|t1 t2 hi lo c v' U1 U2 H1 H2 Ec V]; subst;
    try (left; reflexivity).
  - cbn [flat_map]. rewrite (escape_raw b L A B). left; reflexivity.
  - right; left. cbn. lia.
  - destruct (N.lt_ge_cases c 32) as [L|L].
    + inversion V as [a A|a b c' A B|a b d c' A B D|a b d e c' A B D F]; subst; unfold tail_byte in *; try lia.
      cbn [flat_map]. rewrite app_nil_r. apply control_escape; assumption.
    + right; left. rewrite (u_escape_length _ _ U). pose proof (utf8_escaped _ _ V L). lia.
  - right; left. rewrite app_length, (u_escape_length _ _ U1).
    assert (32 <= 65536 + (hi - 55296) * 1024 + (lo - 56320)) as L by lia.
    pose proof (utf8_escaped _ _ V L). lia.
Qed.
Lemma jchars_no_better t v : jchars t v -> no_better t (flat_map escape_byte v).
Proof.
  induction 1 as [|t v ts vs J _ IH]; [left; reflexivity|].
  rewrite flat_map_app. apply no_better_app; [apply jchar_no_better; exact J|exact IH].
Qed.

(** C66: strings are written in exactly one way: the shortest string token denoting the text, and
    of several shortest ones (upper- or lower-case digits of an escape) the last. *)
Lemma c66_written_text_shortest :
  forall text lit : bytes,
  json_to_vec data_json text = COk (str "{""data"":" ++ lit ++ str "}") \/
  json_to_vec kid_string_json text = COk (str "{""kid"":" ++ lit ++ str "}") ->
  jstring lit text /\
  forall other, jstring other text -> other <> lit ->
    (length lit < length other \/ length lit = length other /\ before other lit)%nat.
Proof.
  intros text lit H.
  assert (E : lit = json_string text).
  { assert (K : forall f g, json_object1 f text = g ++ lit ++ str "}" ->
                str "{" ++ json_string f ++ str ":" = g -> lit = json_string text).
    { intros f g K <-. unfold json_object1 in K. rewrite <- !app_assoc in K.
      apply app_inv_head, app_inv_head, app_inv_head, app_inv_tail in K. symmetry. exact K. }
    destruct H as [H|H]; cbn [json_to_vec data_json kid_string_json json_struct1] in H.
    - apply (K (str "data") (str "{""data"":")); [|reflexivity].
      assert (I : forall a b : bytes, COk a = COk b :> codec_result bytes -> a = b) by congruence.
      exact (I _ _ H).
    - apply (K (str "kid") (str "{""kid"":")); [|reflexivity].
      assert (I : forall a b : bytes, COk a = COk b :> codec_result bytes -> a = b) by congruence.
      exact (I _ _ H). }
  subst lit. unfold json_string. split.
  - exists (flat_map escape_byte text). split; [reflexivity|apply escape_jchars].
  - intros other (cs & -> & J) D.
    assert (Q : no_better ([x22] ++ cs ++ [x22]) ([x22] ++ flat_map escape_byte text ++ [x22])).
    { apply no_better_app; [left; reflexivity|]. apply no_better_app; [apply jchars_no_better; exact J|left; reflexivity]. }
    destruct Q as [Q|Q]; [exfalso; exact (D Q)|exact Q].
Qed.
