(** * Weierstrass: the group of a curve [y^2 = x^3 + a x + b] over any field of odd characteristic.

    Points, addition, associativity, Jacobian coordinates.  Used for P-384 in [CurveGroup384.v].

    Chords and tangents are treated alike: [line x1 y1 x2 y2 l] says that the line of slope [l]
    through the second point meets the curve in the two points, counted with multiplicity, and a
    third one.  If [l] and [r] are the slopes of two such lines through a common point, the
    coefficient [a] and the ordinates are rational in [l], [r] and the abscissas, so that
    associativity is an identity of rational functions. *)
From Coq Require Import NArith Ring Field Setoid NsatzTactic Eqdep_dec Bool Lia.

Record wfield := {
  wcar :> Type;
  w0 : wcar; w1 : wcar;
  wadd : wcar -> wcar -> wcar; wmul : wcar -> wcar -> wcar; wsub : wcar -> wcar -> wcar; wopp : wcar -> wcar;
  wdiv : wcar -> wcar -> wcar; winv : wcar -> wcar;
  wth : field_theory w0 w1 wadd wmul wsub wopp wdiv winv eq;
  wdec : forall x y : wcar, {x = y} + {x <> y};
  wa : wcar; wb : wcar;
  wtwo : wadd w1 w1 <> w0;
  wdisc : let two := wadd w1 w1 in let three := wadd w1 two in
    wadd (wmul (wmul two two) (wmul (wmul wa wa) wa)) (wmul (wmul (wmul three three) three) (wmul wb wb)) <> w0;
}.

Section Weierstrass.
Variable K : wfield.
Local Notation F := (wcar K).
Let Fth := wth K.
Let Fdec := wdec K.
Local Notation f0 := (w0 K). Local Notation f1 := (w1 K).
Local Notation add := (wadd K). Local Notation mul := (wmul K). Local Notation sub := (wsub K).
Local Notation opp := (wopp K). Local Notation div := (wdiv K). Local Notation inv := (winv K).
Local Notation a := (wa K). Local Notation b := (wb K).

Declare Scope w_scope.
Local Open Scope w_scope.
Local Notation "0" := f0 : w_scope. Local Notation "1" := f1 : w_scope.
Local Infix "+" := add : w_scope. Local Infix "*" := mul : w_scope. Local Infix "-" := sub : w_scope.
Local Notation "- x" := (opp x) : w_scope. Local Infix "/" := div : w_scope.
Local Notation "2" := (1 + 1) : w_scope. Local Notation "3" := (1 + (1 + 1)) : w_scope.
Let two : 2 <> 0 := wtwo K.
Add Field Wf : Fth.

Lemma mul_0 x y : x * y = 0 -> x = 0 \/ y = 0.
Proof.
  intros H. destruct (Fdec x 0) as [|N]; [left; assumption|right].
  replace y with (x * y / x) by (field; exact N). rewrite H. field. exact N.
Qed.
Lemma mul_n0 x y : x <> 0 -> y <> 0 -> x * y <> 0.
Proof. intros Hx Hy H. destruct (mul_0 _ _ H); contradiction. Qed.
Lemma sub_0 x y : x - y = 0 -> x = y.
Proof. intros H. replace x with (x - y + y) by ring. rewrite H. ring. Qed.
Lemma sub_n0 x y : x <> y -> x - y <> 0.
Proof. intros H E. apply H, sub_0, E. Qed.
Lemma cancel_l z x y : z <> 0 -> z * x = z * y -> x = y.
Proof.
  intros Hz H. apply sub_0. destruct (mul_0 z (x - y)) as [|]; [|contradiction|assumption].
  replace (z * (x - y)) with (z * x - z * y) by ring. rewrite H. ring.
Qed.
Lemma square_eq x y : x * x = y * y -> x = y \/ x = - y.
Proof.
  intros H. destruct (mul_0 (x - y) (x + y)) as [E|E].
  - replace ((x - y) * (x + y)) with (x * x - y * y) by ring. rewrite H. ring.
  - left. apply sub_0, E.
  - right. apply sub_0. rewrite <- E. ring.
Qed.

#[local] Instance Fops : @Ring_ops F 0 1 add mul sub opp eq := {}.
#[local] Instance Fri : @Ring F 0 1 add mul sub opp eq Fops.
Proof.
  split; unfold equality, eq_notation, addition, add_notation, multiplication, mul_notation, subtraction,
    sub_notation, opposite, opp_notation, zero, zero_notation, one, one_notation; try (intros; ring); try exact _.
  all: try (repeat (intros ? ? ?); subst; reflexivity).
Qed.
#[local] Instance Fcri : @Cring F 0 1 add mul sub opp eq Fops Fri.
Proof. intros x y. unfold equality, eq_notation, multiplication, mul_notation. ring. Qed.
#[local] Instance Fid : @Integral_domain F 0 1 add mul sub opp eq Fops Fri Fcri.
Proof. split; [intros x y H; apply mul_0; exact H| intros H; exact (F_1_neq_0 Fth H)]. Qed.


(** ** Lines *)
Definition onc (x y : F) : Prop := y * y = x * x * x + a * x + b.
Definition onb (x y : F) : bool := if Fdec (y * y) (x * x * x + a * x + b) then true else false.
Lemma onb_onc x y : onb x y = true <-> onc x y.
Proof. unfold onb, onc. destruct (Fdec _ _); split; congruence. Qed.
Lemma nonsing x : onc x 0 -> 3 * (x * x) + a <> 0.
Proof.
  unfold onc. intros H E. apply (wdisc K). cbv zeta.
  assert (Ea : a = - (3 * (x * x))) by (apply sub_0; rewrite <- E; ring).
  assert (Eb : b = 2 * (x * x * x)).
  { transitivity (b - 0 * 0); [ring|]. rewrite H, Ea. ring. }
  rewrite Ea, Eb. ring.
Qed.

Definition inverse (x1 y1 x2 y2 : F) : Prop := x1 = x2 /\ y1 = - y2.
Lemma inverse_dec x1 y1 x2 y2 : {inverse x1 y1 x2 y2} + {~ inverse x1 y1 x2 y2}.
Proof.
  destruct (Fdec x1 x2) as [E|N]; [|right; intros [E _]; exact (N E)].
  destruct (Fdec y1 (- y2)) as [E'|N]; [left; split; assumption|right; intros [_ E']; exact (N E')].
Defined.
Lemma inverse_sym x1 y1 x2 y2 : inverse x1 y1 x2 y2 -> inverse x2 y2 x1 y1.
Proof. intros [-> ->]. split; [reflexivity|ring]. Qed.
Lemma opp_self y : y = - y -> y = 0.
Proof. intros H. apply (cancel_l 2); [exact two|]. transitivity (y - - y); [ring|]. rewrite <- H. ring. Qed.
Lemma same_x x y1 y2 : onc x y1 -> onc x y2 -> ~ inverse x y1 x y2 -> y1 = y2.
Proof.
  intros H1 H2 N. destruct (square_eq y1 y2) as [E|E]; [unfold onc in *; congruence|exact E|].
  exfalso. apply N. split; [reflexivity|exact E].
Qed.

Definition line (x1 y1 x2 y2 l : F) : Prop :=
  y1 = y2 + l * (x1 - x2) /\
  x1 * x2 + (x1 + x2) * (l * l - x1 - x2) = a - 2 * l * (y2 - l * x2).
Definition slope (x1 y1 x2 y2 : F) : F :=
  if Fdec x1 x2 then (3 * (x1 * x1) + a) / (2 * y1) else (y2 - y1) / (x2 - x1).
Lemma slope_line x1 y1 x2 y2 : onc x1 y1 -> onc x2 y2 -> ~ inverse x1 y1 x2 y2 -> line x1 y1 x2 y2 (slope x1 y1 x2 y2).
Proof.
  intros H1 H2 N. unfold slope, line. destruct (Fdec x1 x2) as [<-|Nx].
  - assert (E : y1 = y2) by (apply (same_x x1); assumption). subst y2.
    assert (Ny : y1 <> 0) by (intros ->; apply N; split; [reflexivity|ring]).
    split; [field; split; assumption|]. field; split; assumption.
  - assert (D : x2 - x1 <> 0) by (apply sub_n0; congruence). split; [field; exact D|].
    remember ((y2 - y1) / (x2 - x1)) as l eqn:El.
    assert (E : l * (x2 - x1) = y2 - y1) by (rewrite El; field; exact D). clear El.
    apply (cancel_l _ _ _ D). unfold onc in *. clear - H1 H2 E Fth Fdec. nsatz.
Qed.
Lemma line_uniq x1 y1 x2 y2 l l' : ~ inverse x1 y1 x2 y2 -> line x1 y1 x2 y2 l -> line x1 y1 x2 y2 l' -> l = l'.
Proof.
  intros N [A1 A2] [B1 B2]. destruct (Fdec x1 x2) as [<-|Nx].
  - assert (E : y1 = y2) by (rewrite A1; ring). subst y2.
    assert (Ny : y1 <> 0) by (intros ->; apply N; split; [reflexivity|ring]).
    apply (cancel_l (2 * y1)); [apply mul_n0; assumption|]. clear - A2 B2 Fth Fdec. nsatz.
  - apply (cancel_l (x1 - x2)); [apply sub_n0, Nx|]. rewrite A1 in B1. clear - B1 Fth Fdec. nsatz.
Qed.
Lemma line_sym x1 y1 x2 y2 l : line x1 y1 x2 y2 l -> line x2 y2 x1 y1 l.
Proof.
  intros [A1 A2]. split; [rewrite A1; ring|]. subst y1. clear - A2 Fth Fdec. nsatz.
Qed.
Lemma line_opp x1 y1 x2 y2 l : line x1 y1 x2 y2 l -> line x1 (- y1) x2 (- y2) (- l).
Proof. intros [A1 A2]. split; [rewrite A1; ring|]. clear - A2 Fth Fdec. nsatz. Qed.
(** The third point. *)
Lemma line_third x1 y1 x2 y2 l x3 y3 : line x1 y1 x2 y2 l -> x3 = l * l - x1 - x2 -> y3 = y2 + l * (x3 - x2) ->
  line x3 y3 x2 y2 l.
Proof. intros [A1 A2] -> ->. split; [ring|]. clear - A2 Fth Fdec. nsatz. Qed.
Lemma third_on x1 y1 x2 y2 l x3 y3 : onc x2 y2 -> line x1 y1 x2 y2 l -> x3 = l * l - x1 - x2 -> y3 = y2 + l * (x3 - x2) ->
  onc x3 y3.
Proof. unfold onc. intros H [A1 A2] -> ->. clear - H A2 Fth Fdec. nsatz. Qed.

(** ** Points *)
Inductive wpt := WO | WA (x y : F) (H : onb x y = true).
Definition is (P : wpt) (x y : F) : Prop := match P with WO => False | WA x' y' _ => x = x' /\ y = y' end.
Lemma is_ext P Q x y : is P x y -> is Q x y -> P = Q.
Proof.
  destruct P as [|x1 y1 H1], Q as [|x2 y2 H2]; cbn; try contradiction. intros [<- <-] [E1 E2]. subst x2 y2.
  f_equal. apply UIP_dec, bool_dec.
Qed.
Lemma is_on P x y : is P x y -> onc x y.
Proof. destruct P as [|x1 y1 H1]; cbn; [contradiction|]. intros [-> ->]. apply onb_onc, H1. Qed.
Lemma is_mk x y : onc x y -> exists P, is P x y.
Proof. intros H. exists (WA x y (proj2 (onb_onc x y) H)). split; reflexivity. Qed.
Lemma is_fun P x y x' y' : is P x y -> is P x' y' -> x = x' /\ y = y'.
Proof. destruct P; cbn; [contradiction|]. intros [-> ->] [-> ->]. split; reflexivity. Qed.

Lemma sum_on x1 y1 x2 y2 : onc x1 y1 -> onc x2 y2 -> ~ inverse x1 y1 x2 y2 ->
  let l := slope x1 y1 x2 y2 in let x3 := l * l - x1 - x2 in onc x3 (- (y2 + l * (x3 - x2))).
Proof.
  intros H1 H2 N l x3. pose proof (slope_line _ _ _ _ H1 H2 N) as L.
  pose proof (third_on _ _ _ _ _ _ _ H2 L eq_refl eq_refl) as T. fold l x3 in T. unfold onc in *.
  rewrite <- T. ring.
Qed.
Definition padd (P Q : wpt) : wpt :=
  match P, Q with
  | WO, _ => Q
  | _, WO => P
  | WA x1 y1 H1, WA x2 y2 H2 =>
      match inverse_dec x1 y1 x2 y2 with
      | left _ => WO
      | right N => WA _ _ (proj2 (onb_onc _ _) (sum_on x1 y1 x2 y2 (proj1 (onb_onc _ _) H1) (proj1 (onb_onc _ _) H2) N))
      end
  end.
Lemma neg_on x y : onc x y -> onc x (- y).
Proof. unfold onc. intros <-. ring. Qed.
Definition pneg (P : wpt) : wpt :=
  match P with WO => WO | WA x y H => WA x (- y) (proj2 (onb_onc _ _) (neg_on _ _ (proj1 (onb_onc _ _) H))) end.

Lemma add_line P Q x1 y1 x2 y2 l : is P x1 y1 -> is Q x2 y2 -> ~ inverse x1 y1 x2 y2 -> line x1 y1 x2 y2 l ->
  is (padd P Q) (l * l - x1 - x2) (- (y2 + l * (l * l - x1 - x2 - x2))).
Proof.
  intros HP HQ N L. destruct P as [|x1' y1' H1], Q as [|x2' y2' H2]; cbn in HP, HQ; try contradiction.
  destruct HP as [<- <-], HQ as [<- <-]. cbn [padd]. destruct (inverse_dec x1 y1 x2 y2) as [I|N']; [contradiction|].
  rewrite (line_uniq _ _ _ _ _ _ N L (slope_line _ _ _ _ (proj1 (onb_onc _ _) H1) (proj1 (onb_onc _ _) H2) N)).
  split; reflexivity.
Qed.
Lemma add_inverse P Q x1 y1 x2 y2 : is P x1 y1 -> is Q x2 y2 -> inverse x1 y1 x2 y2 -> padd P Q = WO.
Proof.
  intros HP HQ I. destruct P as [|x1' y1' H1], Q as [|x2' y2' H2]; cbn in HP, HQ; try contradiction.
  destruct HP as [<- <-], HQ as [<- <-]. cbn [padd]. destruct (inverse_dec x1 y1 x2 y2) as [I'|N]; [reflexivity|contradiction].
Qed.
Lemma line_ex P Q x1 y1 x2 y2 : is P x1 y1 -> is Q x2 y2 -> ~ inverse x1 y1 x2 y2 -> exists l, line x1 y1 x2 y2 l.
Proof.
  intros HP HQ N. exists (slope x1 y1 x2 y2). apply slope_line; [exact (is_on _ _ _ HP)|exact (is_on _ _ _ HQ)|exact N].
Qed.
Lemma is_neg P x y : is P x y -> is (pneg P) x (- y).
Proof. destruct P; cbn; [contradiction|]. intros [-> ->]. split; reflexivity. Qed.
Lemma aff P : P = WO \/ exists x y, is P x y.
Proof. destruct P as [|x y H]; [left; reflexivity|right; exists x, y; split; reflexivity]. Qed.

Lemma padd_0_l P : padd WO P = P. Proof. reflexivity. Qed.
Lemma padd_0_r P : padd P WO = P. Proof. destruct P; reflexivity. Qed.
Lemma padd_comm P Q : padd P Q = padd Q P.
Proof.
  destruct (aff P) as [-> |(x1 & y1 & HP)]; [rewrite padd_0_r; reflexivity|].
  destruct (aff Q) as [-> |(x2 & y2 & HQ)]; [rewrite padd_0_r; reflexivity|].
  destruct (inverse_dec x1 y1 x2 y2) as [I|N].
  - rewrite (add_inverse _ _ _ _ _ _ HP HQ I), (add_inverse _ _ _ _ _ _ HQ HP (inverse_sym _ _ _ _ I)). reflexivity.
  - destruct (line_ex _ _ _ _ _ _ HP HQ N) as [l L].
    assert (N' : ~ inverse x2 y2 x1 y1) by (intros I; apply N, inverse_sym, I).
    apply (is_ext _ _ (l * l - x1 - x2) (- (y2 + l * (l * l - x1 - x2 - x2)))); [exact (add_line _ _ _ _ _ _ _ HP HQ N L)|].
    pose proof (add_line _ _ _ _ _ _ _ HQ HP N' (line_sym _ _ _ _ _ L)) as E.
    destruct L as [-> _].
    replace (l * l - x1 - x2) with (l * l - x2 - x1) by ring.
    replace (- (y2 + l * (l * l - x2 - x1 - x2))) with (- (y2 + l * (x1 - x2) + l * (l * l - x2 - x1 - x1))) by ring. exact E.
Qed.
Lemma padd_neg P : padd P (pneg P) = WO.
Proof.
  destruct (aff P) as [-> |(x & y & HP)]; [reflexivity|].
  apply (add_inverse _ _ _ _ _ _ HP (is_neg _ _ _ HP)). split; [reflexivity|ring].
Qed.
(** [- A + (A + C) = C]. *)
Lemma cancel A C : padd (pneg A) (padd A C) = C.
Proof.
  destruct (aff A) as [-> |(x1 & y1 & HA)]; [reflexivity|].
  destruct (aff C) as [-> |(x3 & y3 & HC)]; [rewrite padd_0_r, padd_comm; apply padd_neg|].
  destruct (inverse_dec x1 y1 x3 y3) as [I|N].
  - rewrite (add_inverse _ _ _ _ _ _ HA HC I), padd_0_r. destruct I as [-> ->].
    apply (is_ext _ _ x3 y3); [|exact HC]. apply is_neg in HA. replace (- - y3) with y3 in HA by ring. exact HA.
  - destruct (line_ex _ _ _ _ _ _ HA HC N) as [l L]. pose proof (add_line _ _ _ _ _ _ _ HA HC N L) as HS.
    remember (l * l - x1 - x3) as x13 eqn:E13. remember (y3 + l * (x13 - x3)) as yd eqn:Ed.
    assert (L' : line x13 yd x1 y1 l).
    { apply (line_third _ _ _ _ _ _ _ (line_sym _ _ _ _ _ L)); [rewrite E13; ring|]. destruct L as [-> _]. rewrite Ed. ring. }
    apply line_sym, line_opp in L'.
    assert (N' : ~ inverse x1 (- y1) x13 (- yd)).
    { intros [Ex Ey]. assert (Eyd : yd = y1) by (destruct L as [-> _]; rewrite Ed, <- Ex; ring).
      assert (Y0 : y1 = 0) by (apply opp_self; rewrite Ey, Eyd; ring).
      apply (nonsing x1); [rewrite <- Y0; exact (is_on _ _ _ HA)|].
      destruct L as [L1 L2]. clear - E13 Ex Y0 L1 L2 Fth Fdec. subst y1.
      assert (y3 = l * (x3 - x1)) by nsatz. nsatz. }
    pose proof (add_line _ _ _ _ _ _ _ (is_neg _ _ _ HA) HS N' L') as E.
    apply (is_ext _ _ x3 y3); [|exact HC].
    replace x3 with (- l * - l - x1 - x13) at 1 by (rewrite E13; ring).
    replace y3 with (- (- yd + - l * (- l * - l - x1 - x13 - x13))); [exact E|].
    rewrite Ed, E13. ring.
Qed.

(** ** Associativity *)
Section Identity.
Variables x1 x2 x3 l r : F.
Hypothesis N : l - r <> 0.
Let x12 := l * l - x1 - x2.
Let x23 := r * r - x2 - x3.
Let s := x3 * x2 + (x3 + x2) * (r * r - x3 - x2) - 2 * r * r * x2 - x1 * x2 - (x1 + x2) * (l * l - x1 - x2) + 2 * l * l * x2.
Let y2 := s / (2 * (l - r)).
Let y1 := y2 + l * (x1 - x2).
Let y3 := y2 + r * (x3 - x2).
Let y12 := - (y2 + l * (x12 - x2)).
Let y23 := - (y2 + r * (x23 - x2)).
Let L := (y3 - y12) / (x3 - x12).
Let R := (y23 - y1) / (x23 - x1).
Lemma generic_x : x3 - x12 <> 0 -> x23 - x1 <> 0 -> L * L - x12 - x3 = R * R - x1 - x23.
Proof.
  intros N1 N2. unfold L, R, y3, y12, y23, y1, y2, s. subst x12 x23. field. repeat split; assumption.
Qed.
Lemma generic_y : x3 - x12 <> 0 -> x23 - x1 <> 0 ->
  y3 + L * (L * L - x12 - x3 - x3) = y23 + R * (L * L - x12 - x3 - x23).
Proof.
  intros N1 N2. unfold L, R, y3, y12, y23, y1, y2, s. subst x12 x23. field. repeat split; assumption.
Qed.
End Identity.

(** The third point is the sum of the first two. *)
Section Tangent.
Variables x1 x2 y2 l : F.
Let A := x1 * x2 + (x1 + x2) * (l * l - x1 - x2) + 2 * l * (y2 - l * x2).
Let x3 := l * l - x1 - x2.
Let y3 := - (y2 + l * (x3 - x2)).
Let y1 := y2 + l * (x1 - x2).
Let r := (y3 - y2) / (x3 - x2).
Let x23 := r * r - x2 - x3.
Let y23 := - (y2 + r * (x23 - x2)).
Let L := (3 * (x3 * x3) + A) / (2 * y3).
Let R := (y23 - y1) / (x23 - x1).
Hypothesis N1 : y3 <> 0.
Hypothesis N2 : x3 - x2 <> 0.
Lemma tangent_n3 : x23 - x1 <> 0 ->
  (y3 - y2) * (y3 - y2) - x2 * ((x3 - x2) * (x3 - x2)) - x3 * ((x3 - x2) * (x3 - x2)) - x1 * ((x3 - x2) * (x3 - x2)) <> 0.
Proof.
  intros N3 E.
  assert (N3' : (x3 - x2) * (x3 - x2) * (x23 - x1) <> 0) by (repeat apply mul_n0; assumption).
  apply N3'. rewrite <- E. unfold x23, r. field. exact N2.
Qed.
Lemma tangent_x : x23 - x1 <> 0 -> L * L - x3 - x3 = R * R - x1 - x23.
Proof.
  intros N3. apply tangent_n3 in N3.
  unfold L, R, y23, x23, r, A, y1. subst y3 x3. field. repeat split; assumption.
Qed.
Lemma tangent_y : x23 - x1 <> 0 -> y3 + L * (L * L - x3 - x3 - x3) = y23 + R * (L * L - x3 - x3 - x23).
Proof.
  intros N3. apply tangent_n3 in N3.
  unfold L, R, y23, x23, r, A, y1. subst y3 x3. field. repeat split; assumption.
Qed.
End Tangent.
Section Both.
Variables x1 x2 l : F.
Let A := x1 * x2 + (x1 + x2) * (l * l - x1 - x2) + 2 * l * (0 - l * x2).
Let x3 := l * l - x1 - x2.
Let y3 := - (0 + l * (x3 - x2)).
Let y1 := 0 + l * (x1 - x2).
Let L := (3 * (x3 * x3) + A) / (2 * y3).
Let R := (3 * (x1 * x1) + A) / (2 * y1).
Hypothesis N1 : y3 <> 0.
Hypothesis N2 : y1 <> 0.
Lemma both_x : L * L - x3 - x3 = R * R - x1 - x1.
Proof.
  assert (M1 : - (l * (x3 - x2)) <> 0) by (intros E; apply N1; rewrite <- E; unfold y3; ring).
  assert (M2 : l <> 0) by (intros E; apply N2; unfold y1; rewrite E; ring).
  assert (M3 : x1 - x2 <> 0) by (intros E; apply N2; unfold y1; rewrite E; ring).
  unfold L, R, A. subst y3 x3 y1. field. repeat split; assumption.
Qed.
Lemma both_y : y3 + L * (L * L - x3 - x3 - x3) = y1 + R * (L * L - x3 - x3 - x1).
Proof.
  assert (M1 : - (l * (x3 - x2)) <> 0) by (intros E; apply N1; rewrite <- E; unfold y3; ring).
  assert (M2 : l <> 0) by (intros E; apply N2; unfold y1; rewrite E; ring).
  assert (M3 : x1 - x2 <> 0) by (intros E; apply N2; unfold y1; rewrite E; ring).
  unfold L, R, A. subst y3 x3 y1. field. repeat split; assumption.
Qed.
End Both.

Lemma chord x1 y1 x2 y2 l : line x1 y1 x2 y2 l -> x2 - x1 <> 0 -> l = (y2 - y1) / (x2 - x1).
Proof. intros [-> _] N. field. exact N. Qed.
Lemma tangent x y l : line x y x y l -> y <> 0 -> l = (3 * (x * x) + a) / (2 * y).
Proof.
  intros [_ L] N. apply (cancel_l (2 * y)); [apply mul_n0; [exact two|exact N]|].
  replace (2 * y * ((3 * (x * x) + a) / (2 * y))) with (3 * (x * x) + a) by (field; split; [exact N|exact two]).
  clear - L Fth Fdec. nsatz.
Qed.
Lemma line_a x1 y1 x2 y2 l : line x1 y1 x2 y2 l ->
  a = x1 * x2 + (x1 + x2) * (l * l - x1 - x2) + 2 * l * (y2 - l * x2).
Proof. intros [_ ->]. ring. Qed.
Lemma not_self x y : ~ inverse x y x y -> y <> 0.
Proof. intros N ->. apply N. split; [reflexivity|ring]. Qed.

(** Two sums with the same coordinates. *)
Lemma sum_eq P Q P' Q' x1 y1 x2 y2 L x1' y1' x2' y2' R :
  is P x1 y1 -> is Q x2 y2 -> ~ inverse x1 y1 x2 y2 -> line x1 y1 x2 y2 L ->
  is P' x1' y1' -> is Q' x2' y2' -> ~ inverse x1' y1' x2' y2' -> line x1' y1' x2' y2' R ->
  L * L - x1 - x2 = R * R - x1' - x2' ->
  y2 + L * (L * L - x1 - x2 - x2) = y2' + R * (L * L - x1 - x2 - x2') ->
  padd P Q = padd P' Q'.
Proof.
  intros HP HQ N HL HP' HQ' N' HR Ex Ey.
  pose proof (add_line _ _ _ _ _ _ _ HP HQ N HL) as H. pose proof (add_line _ _ _ _ _ _ _ HP' HQ' N' HR) as H'.
  rewrite Ey, Ex in H. exact (is_ext _ _ _ _ H H').
Qed.

Section Assoc.
Variables (A B C : wpt) (x1 y1 x2 y2 x3 y3 l r : F).
Hypothesis HA : is A x1 y1.
Hypothesis HB : is B x2 y2.
Hypothesis HC : is C x3 y3.
Hypothesis NAB : ~ inverse x1 y1 x2 y2.
Hypothesis NBC : ~ inverse x3 y3 x2 y2.
Hypothesis Ll : line x1 y1 x2 y2 l.
Hypothesis Lr : line x3 y3 x2 y2 r.
Hypothesis Nlr : l <> r.
Let x12 := l * l - x1 - x2.
Let y12 := - (y2 + l * (x12 - x2)).
Let x23 := r * r - x3 - x2.
Let y23 := - (y2 + r * (x23 - x2)).
Lemma HAB : is (padd A B) x12 y12. Proof. exact (add_line _ _ _ _ _ _ _ HA HB NAB Ll). Qed.
Lemma HBC : is (padd C B) x23 y23. Proof. exact (add_line _ _ _ _ _ _ _ HC HB NBC Lr). Qed.
Hypothesis NL : ~ inverse x12 y12 x3 y3.
Hypothesis NR : ~ inverse x1 y1 x23 y23.

Lemma assoc_generic : x3 - x12 <> 0 -> x23 - x1 <> 0 -> padd (padd A B) C = padd A (padd C B).
Proof.
  intros N1 N2. pose proof HAB as HAB. pose proof HBC as HBC. destruct (line_ex _ _ _ _ _ _ HAB HC NL) as [L HL]. destruct (line_ex _ _ _ _ _ _ HA HBC NR) as [R HR].
  apply (sum_eq _ _ _ _ _ _ _ _ L _ _ _ _ R HAB HC NL HL HA HBC NR HR).
  - rewrite (chord _ _ _ _ _ HL N1), (chord _ _ _ _ _ HR N2).
    pose proof (generic_x x1 x2 x3 l r (sub_n0 _ _ Nlr)) as G. cbv zeta in G.
    pose proof (line_a _ _ _ _ _ Ll) as E1. pose proof (line_a _ _ _ _ _ Lr) as E2.
    assert (Ey : (x3 * x2 + (x3 + x2) * (r * r - x3 - x2) - 2 * r * r * x2 - x1 * x2 - (x1 + x2) * (l * l - x1 - x2) + 2 * l * l * x2) / (2 * (l - r)) = y2).
    { apply (cancel_l (2 * (l - r))); [apply mul_n0; [exact two|apply sub_n0, Nlr]|].
      match goal with |- ?d * (?n / _) = _ => transitivity n end; [field; split; [apply sub_n0, Nlr|exact two]|].
      rewrite E1 in E2. clear - E2 Fth Fdec. nsatz. }
    rewrite Ey, <- (proj1 Ll), <- (proj1 Lr) in G.
    replace (r * r - x2 - x3) with x23 in G by (unfold x23; ring).
    exact (G N1 N2).
  - rewrite (chord _ _ _ _ _ HL N1), (chord _ _ _ _ _ HR N2).
    pose proof (generic_y x1 x2 x3 l r (sub_n0 _ _ Nlr)) as G. cbv zeta in G.
    pose proof (line_a _ _ _ _ _ Ll) as E1. pose proof (line_a _ _ _ _ _ Lr) as E2.
    assert (Ey : (x3 * x2 + (x3 + x2) * (r * r - x3 - x2) - 2 * r * r * x2 - x1 * x2 - (x1 + x2) * (l * l - x1 - x2) + 2 * l * l * x2) / (2 * (l - r)) = y2).
    { apply (cancel_l (2 * (l - r))); [apply mul_n0; [exact two|apply sub_n0, Nlr]|].
      match goal with |- ?d * (?n / _) = _ => transitivity n end; [field; split; [apply sub_n0, Nlr|exact two]|].
      rewrite E1 in E2. clear - E2 Fth Fdec. nsatz. }
    rewrite Ey, <- (proj1 Ll), <- (proj1 Lr) in G.
    replace (r * r - x2 - x3) with x23 in G by (unfold x23; ring).
    exact (G N1 N2).
Qed.

Lemma assoc_tangent : x3 = x12 -> y3 = y12 -> padd (padd A B) C = padd A (padd C B).
Proof.
  intros Ex Ey. pose proof HAB as HAB. pose proof HBC as HBC. destruct (line_ex _ _ _ _ _ _ HAB HC NL) as [L HL]. destruct (line_ex _ _ _ _ _ _ HA HBC NR) as [R HR].
  assert (N2 : x3 - x2 <> 0).
  { apply sub_n0. intros E. pose proof (same_x x3 y3 y2 (is_on _ _ _ HC)) as S. rewrite E in S.
    specialize (S (is_on _ _ _ HB)). pose proof NBC as NBC'. rewrite E in NBC'. specialize (S NBC').
    assert (EBC : padd B A = B).
    { rewrite padd_comm. apply (is_ext _ _ x2 y2); [|exact HB]. rewrite <- E, <- S, Ex, Ey. exact HAB. }
    pose proof (cancel B A) as G. rewrite EBC, padd_comm, padd_neg in G. rewrite <- G in HA. exact HA. }
  pose proof (line_a _ _ _ _ _ Ll) as Ea.
  assert (N1 : y12 <> 0) by (rewrite Ex, Ey in NL; exact (not_self _ _ NL)).
  assert (EL : L = (3 * (x12 * x12) + a) / (2 * y12)).
  { rewrite Ex, Ey in HL. exact (tangent _ _ _ HL N1). }
  assert (N2' : x2 - x3 <> 0) by (intros E; apply N2; transitivity (- (x2 - x3)); [ring|rewrite E; ring]).
  assert (Er : r = (y12 - y2) / (x12 - x2)).
  { rewrite (chord _ _ _ _ _ Lr N2'), Ex, Ey. field. rewrite <- Ex. split; assumption. }
  destruct (Fdec x23 x1) as [E|N3].
  - assert (Y : y1 = y23) by (apply (same_x x1); [exact (is_on _ _ _ HA)|rewrite <- E; exact (is_on _ _ _ HBC)|rewrite E in NR; exact NR]).
    assert (Err : r = - l).
    { destruct (square_eq r l) as [E'|E']; [|congruence|exact E'].
      unfold x23 in E. rewrite Ex in E. unfold x12 in E. clear - E Fth Fdec. nsatz. }
    assert (Y2 : y2 = 0).
    { apply (cancel_l 2 _ _ two). destruct Lr as [Lr1 _]. rewrite Err, Ey in Lr1. unfold y12 in Lr1. rewrite <- Ex in Lr1.
      clear - Lr1 Fth Fdec. nsatz. }
    assert (N1' : y1 <> 0) by (rewrite E, <- Y in NR; exact (not_self _ _ NR)).
    assert (ER : R = (3 * (x1 * x1) + a) / (2 * y1)).
    { rewrite E, <- Y in HR. exact (tangent _ _ _ HR N1'). }
    destruct Ll as [Ll1 _].
    pose proof (both_x x1 x2 l) as Gx. pose proof (both_y x1 x2 l) as Gy. cbv zeta in Gx, Gy.
    unfold y12, x12 in *. rewrite Y2 in *. rewrite <- Ea, <- Ll1, <- EL, <- ER in Gx, Gy.
    apply (sum_eq _ _ _ _ _ _ _ _ L _ _ _ _ R HAB HC NL HL HA HBC NR HR); rewrite <- ?Y, E, Ex, ?Ey; auto.
  - apply sub_n0 in N3.
    assert (ER : R = (y23 - y1) / (x23 - x1)) by exact (chord _ _ _ _ _ HR N3).
    pose proof (tangent_x x1 x2 y2 l) as Gx. pose proof (tangent_y x1 x2 y2 l) as Gy. cbv zeta in Gx, Gy.
    fold x12 in Gx, Gy. fold y12 in Gx, Gy. rewrite <- Er in Gx, Gy.
    replace (r * r - x2 - x12) with x23 in Gx, Gy by (unfold x23; rewrite Ex; ring). fold y23 in Gx, Gy.
    destruct Ll as [Ll1 _]. rewrite Ex in N2.
    fold x12 in Ea. rewrite <- Ea, <- Ll1, <- ER, <- EL in Gx, Gy.
    apply (sum_eq _ _ _ _ _ _ _ _ L _ _ _ _ R HAB HC NL HL HA HBC NR HR); rewrite Ex, ?Ey; auto.
Qed.
End Assoc.

Theorem padd_assoc A B C : padd (padd A B) C = padd A (padd B C).
Proof.
  destruct (aff A) as [-> |(x1 & y1 & HA)]; [reflexivity|].
  destruct (aff B) as [-> |(x2 & y2 & HB)]; [rewrite padd_0_r; reflexivity|].
  destruct (aff C) as [-> |(x3 & y3 & HC)]; [rewrite !padd_0_r; reflexivity|].
  destruct (inverse_dec x1 y1 x2 y2) as [I|NAB].
  { rewrite (add_inverse _ _ _ _ _ _ HA HB I). replace A with (pneg B); [rewrite cancel; reflexivity|].
    destruct I as [-> ->]. exact (is_ext _ _ _ _ (is_neg _ _ _ HB) HA). }
  destruct (inverse_dec x3 y3 x2 y2) as [I|NBC].
  { rewrite (padd_comm B C), (add_inverse _ _ _ _ _ _ HC HB I), padd_0_r.
    replace C with (pneg B); [rewrite padd_comm, (padd_comm A); apply cancel|].
    destruct I as [-> ->]. exact (is_ext _ _ _ _ (is_neg _ _ _ HB) HC). }
  destruct (line_ex _ _ _ _ _ _ HA HB NAB) as [l Ll]. destruct (line_ex _ _ _ _ _ _ HC HB NBC) as [r Lr].
  rewrite (padd_comm B C).
  pose proof (add_line _ _ _ _ _ _ _ HA HB NAB Ll) as HAB. pose proof (add_line _ _ _ _ _ _ _ HC HB NBC Lr) as HCB.
  destruct (Fdec l r) as [<-|Nlr].
  - assert (E : (x1 - x3) * (l * l - x2 - x1 - x3) = 0).
    { destruct Ll as [_ E1], Lr as [_ E2]. clear - E1 E2 Fth Fdec. nsatz. }
    destruct (mul_0 _ _ E) as [E'|E'].
    + apply sub_0 in E'. subst x3. replace C with A; [apply padd_comm|].
      apply (is_ext _ _ x1 y1); [exact HA|]. destruct Ll as [-> _], Lr as [-> _]. exact HC.
    + rewrite (add_inverse _ _ _ _ _ _ HAB HC), (add_inverse _ _ _ _ _ _ HA HCB); [reflexivity| |].
      * destruct Ll as [L1 _]. split; [clear - E' Fth Fdec; nsatz|]. rewrite L1. clear - E' Fth Fdec. nsatz.
      * destruct Lr as [L1 _]. split; [clear - E' Fth Fdec; nsatz|]. rewrite L1. clear - E' Fth Fdec. nsatz.
  - remember (l * l - x1 - x2) as x12 eqn:E12. remember (r * r - x3 - x2) as x23 eqn:E23.
    assert (NL : ~ inverse x12 (- (y2 + l * (x12 - x2))) x3 y3).
    { intros [Ix Iy]. apply Nlr. apply (line_uniq x3 y3 x2 y2); [exact NBC| |exact Lr].
      rewrite <- Ix. apply (line_third x1 y1); [exact Ll|exact E12|].
      transitivity (- - y3); [ring|]. rewrite <- Iy. ring. }
    assert (NR : ~ inverse x1 y1 x23 (- (y2 + r * (x23 - x2)))).
    { intros [Ix Iy]. apply Nlr. apply (line_uniq x1 y1 x2 y2); [exact NAB|exact Ll|].
      rewrite Ix. apply (line_third x3 y3); [exact Lr|exact E23|]. rewrite Iy. ring. }
    subst x12 x23.
    destruct (Fdec x3 (l * l - x1 - x2)) as [E|N1].
    + apply (assoc_tangent A B C x1 y1 x2 y2 x3 y3 l r); try assumption.
      symmetry. apply (same_x (l * l - x1 - x2)); [exact (is_on _ _ _ HAB)|rewrite <- E; exact (is_on _ _ _ HC)|].
      intros [_ I]. apply NL. split; [symmetry; exact E|exact I].
    + destruct (Fdec (r * r - x3 - x2) x1) as [E|N2].
      * rewrite (padd_comm A (padd C B)), (padd_comm (padd A B) C). symmetry.
        apply (assoc_tangent C B A x3 y3 x2 y2 x1 y1 r l); try assumption; try congruence.
        -- intros I. apply NR, inverse_sym, I.
        -- intros I. apply NL, inverse_sym, I.
        -- apply (same_x (r * r - x3 - x2)); [rewrite E; exact (is_on _ _ _ HA)|exact (is_on _ _ _ HCB)|].
           intros [_ I]. apply NR. split; [symmetry; exact E|exact I].
      * apply (assoc_generic A B C x1 y1 x2 y2 x3 y3 l r); try assumption; apply sub_n0; assumption.
Qed.

Lemma pneg_add P Q : pneg (padd P Q) = padd (pneg P) (pneg Q).
Proof.
  transitivity (padd (pneg (padd P Q)) (padd (padd P Q) (padd (pneg P) (pneg Q)))); [|apply cancel].
  replace (padd (padd P Q) (padd (pneg P) (pneg Q))) with WO; [rewrite padd_0_r; reflexivity|].
  rewrite (padd_comm P Q), padd_assoc, <- (padd_assoc P), padd_neg, padd_0_l, padd_neg. reflexivity.
Qed.

(** ** Multiples *)
Definition smul (n : N) (P : wpt) : wpt := N.iter n (padd P) WO.
Lemma smul_0 P : smul 0 P = WO. Proof. reflexivity. Qed.
Lemma smul_succ n P : smul (N.succ n) P = padd P (smul n P).
Proof. unfold smul. rewrite N.iter_succ. reflexivity. Qed.
Lemma smul_1 P : smul 1 P = P.
Proof. change 1%N with (N.succ 0). rewrite smul_succ, smul_0. apply padd_0_r. Qed.
Lemma smul_add m n P : smul (m + n) P = padd (smul m P) (smul n P).
Proof.
  induction m as [|m IH] using N.peano_ind; [rewrite smul_0, padd_0_l; reflexivity|].
  rewrite N.add_succ_l, !smul_succ, IH, padd_assoc. reflexivity.
Qed.
Lemma smul_mul m n P : smul (m * n) P = smul m (smul n P).
Proof.
  induction m as [|m IH] using N.peano_ind; [reflexivity|].
  rewrite N.mul_succ_l, N.add_comm, smul_add, smul_succ, IH. reflexivity.
Qed.
Lemma smul_WO n : smul n WO = WO.
Proof. induction n as [|n IH] using N.peano_ind; [reflexivity|]. rewrite smul_succ, IH. reflexivity. Qed.
Lemma smul_mod l n P : l <> 0%N -> smul l P = WO -> smul (n mod l) P = smul n P.
Proof.
  intros Hl H. rewrite (N.div_mod n l Hl) at 2. rewrite smul_add, N.mul_comm, smul_mul, H, smul_WO. reflexivity.
Qed.

(** ** Jacobian coordinates, for [a = -3] *)
Definition jac (P : wpt) (x y z : F) : Prop :=
  (z = 0 /\ P = WO) \/ (z <> 0 /\ exists px py, is P px py /\ x = px * (z * z) /\ y = py * (z * (z * z))).
Definition dbl_x x y z := let al := 3 * ((x - z * z) * (x + z * z)) in al * al - 2 * (2 * (2 * (x * (y * y)))).
Definition dbl_y x y z := let al := 3 * ((x - z * z) * (x + z * z)) in
  al * (2 * (2 * (x * (y * y))) - dbl_x x y z) - 2 * (2 * (2 * (y * y * (y * y)))).
Definition dbl_z (x y z : F) := (y + z) * (y + z) - y * y - z * z.
Lemma jac_dbl P x y z : a = - (3) -> jac P x y z -> jac (padd P P) (dbl_x x y z) (dbl_y x y z) (dbl_z x y z).
Proof.
  intros Ea [[-> ->]|(Nz & px & py & HP & -> & ->)].
  - left. split; [unfold dbl_z; ring|reflexivity].
  - destruct (Fdec py 0) as [->|Ny].
    + left. split; [unfold dbl_z; ring|]. apply (add_inverse _ _ _ _ _ _ HP HP). split; [reflexivity|ring].
    + assert (N : ~ inverse px py px py) by (intros [_ E]; apply Ny, opp_self, E).
      destruct (line_ex _ _ _ _ _ _ HP HP N) as [l L]. pose proof (add_line _ _ _ _ _ _ _ HP HP N L) as HS.
      apply tangent in L; [|exact Ny]. rewrite Ea in L.
      right. split.
      * intros E. apply (mul_n0 _ _ (mul_n0 _ _ two Ny) (mul_n0 _ _ (mul_n0 _ _ Nz Nz) (mul_n0 _ _ Nz Nz))). rewrite <- E.
        unfold dbl_z. ring.
      * eexists _, _. split; [exact HS|]. rewrite L. unfold dbl_y, dbl_x, dbl_z. split; field; split; assumption.
Qed.

Definition add_h (x1 z1 x2 z2 : F) := x2 * (z1 * z1) - x1 * (z2 * z2).
Definition add_r (y1 z1 y2 z2 : F) := y2 * z1 * (z1 * z1) - y1 * z2 * (z2 * z2).
Definition add_x x1 y1 z1 x2 y2 z2 := let h := add_h x1 z1 x2 z2 in let r := add_r y1 z1 y2 z2 in
  r * r - h * (h * h) - 2 * (x1 * (z2 * z2) * (h * h)).
Definition add_y x1 y1 z1 x2 y2 z2 := let h := add_h x1 z1 x2 z2 in let r := add_r y1 z1 y2 z2 in
  r * (x1 * (z2 * z2) * (h * h) - add_x x1 y1 z1 x2 y2 z2) - y1 * z2 * (z2 * z2) * (h * (h * h)).
Definition add_z (x1 z1 x2 z2 : F) := z1 * z2 * add_h x1 z1 x2 z2.
Lemma jac_add P Q x1 y1 z1 x2 y2 z2 : jac P x1 y1 z1 -> jac Q x2 y2 z2 -> z1 <> 0 -> z2 <> 0 ->
  (add_h x1 z1 x2 z2 <> 0 ->
    jac (padd P Q) (add_x x1 y1 z1 x2 y2 z2) (add_y x1 y1 z1 x2 y2 z2) (add_z x1 z1 x2 z2)) /\
  (add_h x1 z1 x2 z2 = 0 -> add_r y1 z1 y2 z2 = 0 -> P = Q) /\
  (add_h x1 z1 x2 z2 = 0 -> add_r y1 z1 y2 z2 <> 0 -> padd P Q = WO).
Proof.
  intros [[Z _]|(_ & px & py & HP & -> & ->)] [[Z' _]|(_ & qx & qy & HQ & -> & ->)] N1 N2; try contradiction.
  assert (Eh : add_h (px * (z1 * z1)) z1 (qx * (z2 * z2)) z2 = z1 * z1 * (z2 * z2) * (qx - px)) by (unfold add_h; ring).
  assert (Er : add_r (py * (z1 * (z1 * z1))) z1 (qy * (z2 * (z2 * z2))) z2 = z1 * z1 * z1 * (z2 * z2 * z2) * (qy - py))
    by (unfold add_r; ring).
  assert (Eh0 : add_h (px * (z1 * z1)) z1 (qx * (z2 * z2)) z2 = 0 -> qx = px).
  { rewrite Eh. intros E. apply sub_0. destruct (mul_0 _ _ E) as [E'|E']; [|exact E'].
    exfalso. revert E'. repeat apply mul_n0; assumption. }
  split; [|split].
  - intros Nh. assert (Nx : qx - px <> 0) by (intros E; apply Nh; rewrite Eh, E; ring).
    assert (N : ~ inverse px py qx qy) by (intros [E _]; apply Nx; rewrite E; ring).
    destruct (line_ex _ _ _ _ _ _ HP HQ N) as [l L]. pose proof (add_line _ _ _ _ _ _ _ HP HQ N L) as HS.
    apply chord in L; [|exact Nx].
    right. split; [unfold add_z; repeat apply mul_n0; assumption|].
    eexists _, _. split; [exact HS|]. rewrite L. unfold add_y, add_x, add_z. rewrite Er, Eh. split; field; exact Nx.
  - intros H R. apply Eh0 in H. subst qx. rewrite Er in R.
    assert (E : qy = py).
    { apply sub_0. destruct (mul_0 _ _ R) as [E'|E']; [|exact E']. exfalso. revert E'. repeat apply mul_n0; assumption. }
    subst qy. exact (is_ext _ _ _ _ HP HQ).
  - intros H R. apply Eh0 in H. subst qx. destruct (inverse_dec px py px qy) as [I|NI]; [exact (add_inverse _ _ _ _ _ _ HP HQ I)|].
    exfalso. apply R. rewrite Er, (same_x _ _ _ (is_on _ _ _ HP) (is_on _ _ _ HQ) NI). ring.
Qed.
End Weierstrass.
