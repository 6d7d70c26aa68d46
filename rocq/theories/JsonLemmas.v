(** Lemmas about [Json].  No model content. *)
From Coq Require Import ZifyBool ZifyNat ZifyN.
From Verif Require Import Bytes BytesLemmas Outcome Token Json SpecJson.
Local Open Scope N_scope.

Lemma in_range_iff lo hi b : in_range lo hi b = true <-> lo <= b2n b <= hi.
Proof. unfold in_range. rewrite andb_true_iff, N.leb_le, N.leb_le. tauto. Qed.

Lemma cont_iff b : cont b = true <-> tail_byte b.
Proof. apply in_range_iff. Qed.

(** ** UTF-8 *)

Lemma n2b_val n b : n < 256 -> b2n b = n -> n2b n = b.
Proof. intros _ <-. apply n2b_b2n. Qed.

Lemma utf8_encode_spec c :
  c <= 1114111 -> ~ (55296 <= c <= 57343) -> utf8 c (utf8_encode c).
Proof.
  intros Hc Hs. unfold utf8_encode.
  assert (V : forall n, n < 256 -> b2n (n2b n) = n)
    by (intros n Hn; rewrite b2n_n2b; apply N.mod_small; exact Hn).
  destruct (N.ltb_spec c 128).
  - assert (b2n (n2b c) = c) by (apply V; lia).
    rewrite <- H0 at 1. apply utf8_1. lia.
  - destruct (N.ltb_spec c 2048).
    + pose proof (N.div_mod c 64). pose proof (N.mod_lt c 64).
      apply utf8_2; unfold tail_byte; rewrite ?V; try lia.
    + destruct (N.ltb_spec c 65536).
      * pose proof (N.div_mod c 64). pose proof (N.mod_lt c 64).
        pose proof (N.div_mod (c / 64) 64). pose proof (N.mod_lt (c / 64) 64).
        assert (D : c / 4096 = c / 64 / 64) by (rewrite N.div_div by lia; reflexivity).
        rewrite D.
        apply utf8_3; unfold tail_byte; rewrite ?V; try lia.
      * pose proof (N.div_mod c 64). pose proof (N.mod_lt c 64).
        pose proof (N.div_mod (c / 64) 64). pose proof (N.mod_lt (c / 64) 64).
        pose proof (N.div_mod (c / 64 / 64) 64). pose proof (N.mod_lt (c / 64 / 64) 64).
        assert (D : c / 4096 = c / 64 / 64) by (rewrite N.div_div by lia; reflexivity).
        assert (D2 : c / 262144 = c / 64 / 64 / 64) by (rewrite !N.div_div by lia; reflexivity).
        rewrite D, D2.
        apply utf8_4; unfold tail_byte; rewrite ?V; try lia.
Qed.

Lemma utf8_fun c l l' : utf8 c l -> utf8 c l' -> l = l'.
Proof.
  intros H H'.
  destruct H; inversion H'; subst; unfold tail_byte in *; try lia;
    repeat match goal with
           | |- _ :: _ = _ :: _ => f_equal
           | |- [] = [] => reflexivity
           end; apply b2n_inj; lia.
Qed.

Lemma utf8_scalar c l : utf8 c l -> c <= 1114111 /\ ~ (55296 <= c <= 57343).
Proof. destruct 1; unfold tail_byte in *; lia. Qed.

Lemma valid_utf8_app1 c l r : utf8 c l -> valid_utf8 (l ++ r) = valid_utf8 r.
Proof.
  destruct 1; cbn [app valid_utf8]; unfold tail_byte in *.
  - destruct (N.ltb_spec (b2n a) 128); [reflexivity|lia].
  - destruct (N.ltb_spec (b2n a) 128); [lia|].
    replace (in_range 194 223 a) with true by (symmetry; apply in_range_iff; lia).
    replace (cont b) with true by (symmetry; apply cont_iff; unfold tail_byte; lia). reflexivity.
  - destruct (N.ltb_spec (b2n a) 128); [lia|].
    replace (in_range 194 223 a) with false by (unfold in_range; lia).
    assert (C1 : cont b = true) by (apply cont_iff; unfold tail_byte; lia).
    assert (C2 : cont d = true) by (apply cont_iff; unfold tail_byte; lia).
    destruct (beqb a xe0) eqn:E1.
    { apply beqb_eq in E1. subst a. change (b2n xe0) with 224 in *.
      replace (in_range 160 191 b) with true by (symmetry; apply in_range_iff; lia).
      rewrite C2. reflexivity. }
    destruct (beqb a xed) eqn:E2.
    { apply beqb_eq in E2. subst a. change (b2n xed) with 237 in *.
      replace (in_range 128 159 b) with true by (symmetry; apply in_range_iff; lia).
      rewrite C2. reflexivity. }
    assert (b2n a <> 224) by (intros F; apply beqb_neq in E1; apply E1, b2n_inj; exact F).
    replace (in_range 225 239 a) with true by (symmetry; apply in_range_iff; lia).
    rewrite C1, C2. reflexivity.
  - destruct (N.ltb_spec (b2n a) 128); [lia|].
    replace (in_range 194 223 a) with false by (unfold in_range; lia).
    assert (C1 : cont b = true) by (apply cont_iff; unfold tail_byte; lia).
    assert (C2 : cont d = true) by (apply cont_iff; unfold tail_byte; lia).
    assert (C3 : cont e = true) by (apply cont_iff; unfold tail_byte; lia).
    destruct (beqb a xe0) eqn:E1; [apply beqb_eq in E1; subst a; change (b2n xe0) with 224 in *; lia|].
    destruct (beqb a xed) eqn:E2; [apply beqb_eq in E2; subst a; change (b2n xed) with 237 in *; lia|].
    replace (in_range 225 239 a) with false by (unfold in_range; lia).
    destruct (beqb a xf0) eqn:E3.
    { apply beqb_eq in E3. subst a. change (b2n xf0) with 240 in *.
      replace (in_range 144 191 b) with true by (symmetry; apply in_range_iff; lia).
      rewrite C2, C3. reflexivity. }
    destruct (beqb a xf4) eqn:E4.
    { apply beqb_eq in E4. subst a. change (b2n xf4) with 244 in *.
      replace (in_range 128 143 b) with true by (symmetry; apply in_range_iff; lia).
      rewrite C2, C3. reflexivity. }
    assert (b2n a <> 240) by (intros F; apply beqb_neq in E3; apply E3, b2n_inj; exact F).
    assert (b2n a <> 244) by (intros F; apply beqb_neq in E4; apply E4, b2n_inj; exact F).
    replace (in_range 241 243 a) with true by (symmetry; apply in_range_iff; lia).
    rewrite C1, C2, C3. reflexivity.
Qed.

Lemma valid_utf8_head s : s <> [] -> valid_utf8 s = true ->
  exists c l r, s = l ++ r /\ utf8 c l /\ (length r < length s)%nat.
Proof.
  destruct s as [|a s]; [congruence|]. intros _ H. cbn [valid_utf8] in H.
  destruct (N.ltb_spec (b2n a) 128).
  { exists (b2n a), [a], s. cbn [app length]. split; [reflexivity|]. split; [apply utf8_1; lia|lia]. }
  destruct s as [|b s]; [discriminate|].
  destruct (in_range 194 223 a) eqn:E1.
  { apply andb_true_iff in H as [Hb _]. apply cont_iff in Hb. apply in_range_iff in E1.
    eexists _, [a; b], s. split; [reflexivity|]. split; [eapply utf8_2; [exact E1|exact Hb|reflexivity]|cbn; lia]. }
  destruct s as [|c s]; [discriminate|].
  destruct (beqb a xe0) eqn:E2.
  { apply beqb_eq in E2. subst a. rewrite !andb_true_iff in H. destruct H as [[Hb Hc] _].
    apply in_range_iff in Hb. apply cont_iff in Hc.
    eexists _, [xe0; b; c], s. split; [reflexivity|].
    split; [eapply utf8_3; [| |exact Hc|reflexivity| |]; change (b2n xe0) with 224; unfold tail_byte in *; lia|cbn; lia]. }
  destruct (beqb a xed) eqn:E3.
  { apply beqb_eq in E3. subst a. rewrite !andb_true_iff in H. destruct H as [[Hb Hc] _].
    apply in_range_iff in Hb. apply cont_iff in Hc.
    eexists _, [xed; b; c], s. split; [reflexivity|].
    split; [eapply utf8_3; [| |exact Hc|reflexivity| |]; change (b2n xed) with 237; unfold tail_byte in *; lia|cbn; lia]. }
  assert (N2 : b2n a <> 224) by (intros F; apply beqb_neq in E2; apply E2, b2n_inj; exact F).
  assert (N3 : b2n a <> 237) by (intros F; apply beqb_neq in E3; apply E3, b2n_inj; exact F).
  destruct (in_range 225 239 a) eqn:E4.
  { apply in_range_iff in E4. rewrite !andb_true_iff in H. destruct H as [[Hb Hc] _].
    apply cont_iff in Hb. apply cont_iff in Hc.
    eexists _, [a; b; c], s. split; [reflexivity|].
    split; [eapply utf8_3; [|exact Hb|exact Hc|reflexivity| |]; unfold tail_byte in *; lia|cbn; lia]. }
  destruct s as [|d s]; [discriminate|].
  destruct (beqb a xf0) eqn:E5.
  { apply beqb_eq in E5. subst a. rewrite !andb_true_iff in H. destruct H as [[[Hb Hc] Hd] _].
    apply in_range_iff in Hb. apply cont_iff in Hc. apply cont_iff in Hd.
    eexists _, [xf0; b; c; d], s. split; [reflexivity|].
    split; [eapply utf8_4; [| |exact Hc|exact Hd|reflexivity|]; change (b2n xf0) with 240; unfold tail_byte in *; lia|cbn; lia]. }
  destruct (beqb a xf4) eqn:E6.
  { apply beqb_eq in E6. subst a. rewrite !andb_true_iff in H. destruct H as [[[Hb Hc] Hd] _].
    apply in_range_iff in Hb. apply cont_iff in Hc. apply cont_iff in Hd.
    eexists _, [xf4; b; c; d], s. split; [reflexivity|].
    split; [eapply utf8_4; [| |exact Hc|exact Hd|reflexivity|]; change (b2n xf4) with 244; unfold tail_byte in *; lia|cbn; lia]. }
  destruct (in_range 241 243 a) eqn:E7; [|discriminate].
  apply in_range_iff in E7. rewrite !andb_true_iff in H. destruct H as [[[Hb Hc] Hd] _].
  apply cont_iff in Hb. apply cont_iff in Hc. apply cont_iff in Hd.
  eexists _, [a; b; c; d], s. split; [reflexivity|].
  split; [eapply utf8_4; [|exact Hb|exact Hc|exact Hd|reflexivity|]; unfold tail_byte in *; lia|cbn; lia].
Qed.

Lemma valid_utf8_iff s : valid_utf8 s = true <-> utf8_text s.
Proof.
  split.
  - remember (length s) as n eqn:L. revert s L.
    induction n as [n IH] using lt_wf_ind. intros s -> H.
    destruct s as [|a s']; [constructor|].
    destruct (valid_utf8_head (a :: s') ltac:(discriminate) H) as (c & l & r & Es & U & Hr).
    rewrite Es. econstructor; [exact U|]. apply (IH (length r) Hr r eq_refl).
    rewrite Es in H. rewrite (valid_utf8_app1 c l r U) in H. exact H.
  - induction 1 as [|c l r U _ IH]; [reflexivity|]. rewrite (valid_utf8_app1 c l r U). exact IH.
Qed.

(** ** Strings *)

Lemma hex_val_iff b n : hex_val b = Some n <-> hexdig b n.
Proof.
  unfold hex_val. split.
  - intros H.
    destruct ((48 <=? b2n b) && (b2n b <=? 57)) eqn:E1.
    { injection H as <-. apply hd_num. lia. }
    destruct ((97 <=? b2n b) && (b2n b <=? 102)) eqn:E2.
    { injection H as <-. replace (b2n b - 87) with (b2n b - 97 + 10) by lia. apply hd_low. lia. }
    destruct ((65 <=? b2n b) && (b2n b <=? 70)) eqn:E3; [|discriminate].
    injection H as <-. replace (b2n b - 55) with (b2n b - 65 + 10) by lia. apply hd_up. lia.
  - destruct 1.
    + replace ((48 <=? b2n b) && (b2n b <=? 57)) with true by lia. reflexivity.
    + replace ((48 <=? b2n b) && (b2n b <=? 57)) with false by lia.
      replace ((97 <=? b2n b) && (b2n b <=? 102)) with true by lia. f_equal. lia.
    + replace ((48 <=? b2n b) && (b2n b <=? 57)) with false by lia.
      replace ((97 <=? b2n b) && (b2n b <=? 102)) with false by lia.
      replace ((65 <=? b2n b) && (b2n b <=? 70)) with true by lia. f_equal. lia.
Qed.

Lemma hexdig_lt b n : hexdig b n -> n < 16.
Proof. destruct 1; lia. Qed.

Lemma hex4_iff s n r : hex4 s = Some (n, r) <-> exists h, s = h ++ r /\ length h = 4%nat /\ u_escape (str "\u" ++ h) n.
Proof.
  split.
  - destruct s as [|a [|b [|c [|d s]]]]; try discriminate. cbn [hex4].
    destruct (hex_val a) as [na|] eqn:Ha; [|discriminate].
    destruct (hex_val b) as [nb|] eqn:Hb; [|discriminate].
    destruct (hex_val c) as [nc|] eqn:Hc; [|discriminate].
    destruct (hex_val d) as [nd|] eqn:Hd; [|discriminate].
    intros H. assert (n = na * 4096 + nb * 256 + nc * 16 + nd) by congruence.
    assert (r = s) by congruence. subst. exists [a; b; c; d]. split; [reflexivity|]. split; [reflexivity|].
    apply hex_val_iff in Ha, Hb, Hc, Hd.
    replace (na * 4096 + nb * 256 + nc * 16 + nd) with (((na * 16 + nb) * 16 + nc) * 16 + nd) by lia.
    constructor; assumption.
  - intros (h & -> & L & U).
    destruct h as [|a [|b [|c [|d [|? ?]]]]]; try discriminate L.
    inversion U; subst. cbn [hex4 app].
    repeat match goal with K : hexdig _ _ |- _ => apply hex_val_iff in K; rewrite K; clear K end.
    f_equal. f_equal. lia.
Qed.

Lemma u_escape_lt t n : u_escape t n -> n < 65536.
Proof. destruct 1 as [a b c d na nb nc nd H1 H2 H3 H4]. apply hexdig_lt in H1, H2, H3, H4. lia. Qed.

Lemma simple_escape_jchar e c : simple_escape e = Some c -> jchar [x5c; e] [c].
Proof.
  unfold simple_escape.
  repeat match goal with
  | |- context [beqb e ?x] => let Q := fresh in
      destruct (beqb e x) eqn:Q;
      [apply beqb_eq in Q; subst e; intros K; injection K as <-; constructor|clear Q]
  end. discriminate.
Qed.

Lemma unicode_escape_sound s d r : unicode_escape s = Some (d, r) ->
  exists t, x5c :: x75 :: s = t ++ r /\ jchar t d /\ (6 <= length t)%nat.
Proof.
  unfold unicode_escape. destruct (hex4 s) as [[n r1]|] eqn:E; [|discriminate].
  apply hex4_iff in E as (h & -> & Lh & U). pose proof (u_escape_lt _ _ U) as Ln.
  destruct ((56320 <=? n) && (n <=? 57343)) eqn:E1; [discriminate|].
  destruct ((55296 <=? n) && (n <=? 56319)) eqn:E2.
  - destruct r1 as [|e [|u r2]]; try discriminate.
    destruct (beqb e x5c && beqb u x75) eqn:E3; [|discriminate].
    apply andb_true_iff in E3 as [Ee Eu]. apply beqb_eq in Ee, Eu. subst e u.
    destruct (hex4 r2) as [[m r3]|] eqn:E4; [|discriminate].
    apply hex4_iff in E4 as (h' & -> & Lh' & U').
    destruct ((56320 <=? m) && (m <=? 57343)) eqn:E5; [|discriminate].
    intros K. assert (d = utf8_encode ((n - 55296) * 1024 + (m - 56320) + 65536)) by congruence.
    assert (r = r3) by congruence. subst d r.
    exists ((str "\u" ++ h) ++ (str "\u" ++ h')). split.
    { rewrite <- !app_assoc. reflexivity. }
    split.
    + eapply jc_uu; [exact U|exact U'|lia|lia|reflexivity|].
      replace (65536 + (n - 55296) * 1024 + (m - 56320)) with ((n - 55296) * 1024 + (m - 56320) + 65536) by lia.
      apply utf8_encode_spec; lia.
    + rewrite !app_length, Lh. cbn. lia.
  - intros K. assert (d = utf8_encode n) by congruence. assert (r = r1) by congruence. subst d r.
    exists (str "\u" ++ h). split; [rewrite <- app_assoc; reflexivity|]. split.
    + eapply jc_u; [exact U|lia|apply utf8_encode_spec; lia].
    + rewrite app_length, Lh. cbn. lia.
Qed.

Lemma str_chars_sound f s v r : str_chars f s = Some (v, r) ->
  exists t, s = t ++ x22 :: r /\ jchars t v.
Proof.
  revert s v r. induction f as [|f IH]; intros s v r H; [discriminate|].
  destruct s as [|b s]; [discriminate|]. cbn [str_chars] in H.
  destruct (beqb b x22) eqn:E1.
  { apply beqb_eq in E1. subst b. injection H as <- <-. exists []. split; [reflexivity|constructor]. }
  destruct (beqb b x5c) eqn:E2.
  { apply beqb_eq in E2. subst b. destruct s as [|e s]; [discriminate|].
    destruct (if beqb e x75 then unicode_escape s
              else match simple_escape e with Some c => Some ([c], s) | None => None end) as [[d r2]|] eqn:E3;
      [|discriminate].
    destruct (str_chars f r2) as [[ds r3]|] eqn:E4; [|discriminate].
    assert (v = d ++ ds) by congruence. assert (r = r3) by congruence. subst v r.
    destruct (IH r2 ds r3 E4) as (t & -> & J).
    destruct (beqb e x75) eqn:E5.
    - apply beqb_eq in E5. subst e.
      destruct (unicode_escape_sound _ _ _ E3) as (t0 & E6 & J0 & _).
      exists (t0 ++ t). rewrite <- app_assoc, <- E6. split; [reflexivity|constructor; assumption].
    - destruct (simple_escape e) as [c|] eqn:E6; [|discriminate].
      assert (d = [c]) by congruence. assert (s = t ++ x22 :: r3) by congruence. subst d s.
      exists ([x5c; e] ++ t). split; [reflexivity|].
      constructor; [apply simple_escape_jchar; exact E6|exact J]. }
  destruct (b2n b <? 32) eqn:E3; [discriminate|].
  destruct (str_chars f s) as [[ds r3]|] eqn:E4; [|discriminate].
  assert (v = [b] ++ ds) by (cbn; congruence). assert (r = r3) by congruence. subst v r.
  destruct (IH s ds r3 E4) as (t & -> & J).
  exists ([b] ++ t). split; [reflexivity|]. constructor; [|exact J].
  apply jc_raw; [lia| |].
  - apply beqb_neq in E1. intros K. apply E1. change (str """") with [x22] in K. congruence.
  - apply beqb_neq in E2. intros K. apply E2. change (str "\") with [x5c] in K. congruence.
Qed.

(** What [str_chars] does on one character. *)
Lemma str_chars_step t d f s : jchar t d ->
  str_chars (S f) (t ++ s) =
  match str_chars f s with Some (ds, r) => Some (d ++ ds, r) | None => None end.
Proof.
  intros J. destruct J; try reflexivity.
  - cbn [app str_chars].
    destruct (beqb b x22) eqn:E1; [apply beqb_eq in E1; subst b; exfalso; apply H0; reflexivity|].
    destruct (beqb b x5c) eqn:E2; [apply beqb_eq in E2; subst b; exfalso; apply H1; reflexivity|].
    destruct (N.ltb_spec (b2n b) 32); [lia|]. reflexivity.
  - inversion H; subst.
    set (h := [a; b; c0; d]) in *.
    assert (K : hex4 (h ++ s) = Some (((na * 16 + nb) * 16 + nc) * 16 + nd, s)).
    { apply hex4_iff. exists h. split; [reflexivity|]. split; [reflexivity|exact H]. }
    rewrite <- app_assoc. change (str "\u" ++ h ++ s) with (x5c :: x75 :: h ++ s).
    cbn [str_chars]. change (beqb x5c x22) with false. change (beqb x5c x5c) with true.
    change (beqb x75 x75) with true. cbn iota. unfold unicode_escape. rewrite K.
    set (n := ((na * 16 + nb) * 16 + nc) * 16 + nd) in *.
    replace ((56320 <=? n) && (n <=? 57343)) with false by lia.
    replace ((55296 <=? n) && (n <=? 56319)) with false by lia.
    pose proof (utf8_scalar _ _ H1) as [U1 U2].
    rewrite (utf8_fun n v (utf8_encode n) H1 (utf8_encode_spec n U1 U2)). reflexivity.
  - inversion H; subst. inversion H0; subst.
    set (h := [a; b; c0; d]) in *. set (h' := [a0; b0; c; d0]) in *.
    set (n := ((na * 16 + nb) * 16 + nc) * 16 + nd) in *.
    set (m := ((na0 * 16 + nb0) * 16 + nc0) * 16 + nd0) in *.
    assert (K : hex4 (h ++ str "\u" ++ h' ++ s) = Some (n, str "\u" ++ h' ++ s)).
    { apply hex4_iff. exists h. split; [reflexivity|]. split; [reflexivity|exact H]. }
    assert (K' : hex4 (h' ++ s) = Some (m, s)).
    { apply hex4_iff. exists h'. split; [reflexivity|]. split; [reflexivity|exact H0]. }
    replace (((str "\u" ++ h) ++ str "\u" ++ h') ++ s) with (x5c :: x75 :: h ++ str "\u" ++ h' ++ s)
      by (rewrite <- !app_assoc; reflexivity).
    cbn [str_chars]. change (beqb x5c x22) with false. change (beqb x5c x5c) with true.
    change (beqb x75 x75) with true. cbn iota. unfold unicode_escape. rewrite K.
    replace ((56320 <=? n) && (n <=? 57343)) with false by lia.
    replace ((55296 <=? n) && (n <=? 56319)) with true by lia.
    change (str "\u" ++ h' ++ s) with (x5c :: x75 :: h' ++ s).
    change (beqb x5c x5c && beqb x75 x75) with true. cbn iota. rewrite K'.
    replace ((56320 <=? m) && (m <=? 57343)) with true by lia.
    pose proof (utf8_scalar _ _ H4) as [U1 U2].
    replace ((n - 55296) * 1024 + (m - 56320) + 65536) with (65536 + (n - 55296) * 1024 + (m - 56320)) by lia.
    rewrite (utf8_fun _ v _ H4 (utf8_encode_spec _ U1 U2)). reflexivity.
Qed.

Lemma jchar_nonempty t v : jchar t v -> (1 <= length t)%nat.
Proof.
  destruct 1; cbn; try lia.
  - inversion H; subst. cbn. lia.
  - inversion H; subst. cbn. lia.
Qed.

Lemma str_chars_complete t v r f : jchars t v -> (length t < f)%nat ->
  str_chars f (t ++ x22 :: r) = Some (v, r).
Proof.
  intros J. revert f. induction J as [|t v ts vs Jt _ IH]; intros f Hf.
  - destruct f as [|f]; [lia|]. reflexivity.
  - rewrite app_length in Hf. pose proof (jchar_nonempty _ _ Jt).
    destruct f as [|f]; [lia|].
    rewrite <- app_assoc, (str_chars_step t v f _ Jt), IH by lia. reflexivity.
Qed.

Lemma parse_str_iff s v r : parse_str s = Some (v, r) <->
  exists t, s = t ++ x22 :: r /\ jchars t v /\ utf8_text v.
Proof.
  unfold parse_str. split.
  - destruct (str_chars (length s) s) as [[d r']|] eqn:E; [|discriminate].
    destruct (valid_utf8 d) eqn:V; [|discriminate]. intros K. injection K as <- <-.
    destruct (str_chars_sound _ _ _ _ E) as (t & Es & J). exists t.
    split; [exact Es|]. split; [exact J|]. apply valid_utf8_iff. exact V.
  - intros (t & -> & J & U). rewrite (str_chars_complete t v r _ J).
    + apply valid_utf8_iff in U. rewrite U. reflexivity.
    + rewrite app_length. cbn. lia.
Qed.

Lemma escape_byte_jchar b : jchar (escape_byte b) [b].
Proof.
  destruct b;
    first [ apply jc_quote | apply jc_backslash | apply jc_b | apply jc_f | apply jc_n | apply jc_r | apply jc_t
          | apply jc_raw; [vm_compute; discriminate| discriminate | discriminate]
          | idtac ].
  all: match goal with |- jchar _ [?b] =>
         eapply (jc_u (escape_byte b) (b2n b) [b]);
           [ change (b2n b) with (((0 * 16 + 0) * 16 + b2n b / 16) * 16 + b2n b mod 16);
             apply (ue x30 x30 (hex_digit (b2n b / 16)) (hex_digit (b2n b mod 16)));
             apply hex_val_iff; reflexivity
           | vm_compute; intros [K _]; apply K; reflexivity
           | apply utf8_1; vm_compute; discriminate ]
       end.
Qed.

Lemma escape_jchars s : jchars (flat_map escape_byte s) s.
Proof.
  induction s as [|b s IH]; [constructor|]. cbn [flat_map].
  change (b :: s) with ([b] ++ s). constructor; [apply escape_byte_jchar|exact IH].
Qed.

Lemma parse_escaped s r : valid_utf8 s = true ->
  parse_str (flat_map escape_byte s ++ x22 :: r) = Some (s, r).
Proof.
  intros V. apply parse_str_iff. exists (flat_map escape_byte s).
  split; [reflexivity|]. split; [apply escape_jchars|apply valid_utf8_iff; exact V].
Qed.

Lemma json_object1_shape field value :
  json_object1 field value =
  x7b :: x22 :: flat_map escape_byte field ++ x22 :: x3a :: x22 :: flat_map escape_byte value ++ [x22; x7d].
Proof.
  unfold json_object1, json_string. rewrite <- !app_assoc. reflexivity.
Qed.

Lemma parse_object1_written field value :
  valid_utf8 field = true -> valid_utf8 value = true ->
  parse_object1 field (json_object1 field value) = Some value.
Proof.
  intros Vf Vv. rewrite json_object1_shape. unfold parse_object1.
  set (body := x22 :: _ ++ _).
  change (ws (x7b :: body)) with (x7b :: body). cbn iota.
  change (beqb x7b x7b) with true. cbn iota.
  assert (M : forall n, members (S (S n)) field true None body = Some (value, [])).
  { intros n. unfold body. cbn [members].
    change (ws (x22 :: ?x)) with (x22 :: x).
    cbn iota. change (beqb x22 x7d) with false. change (beqb x22 x2c) with false.
    cbn [negb andb]. cbn iota. change (beqb x22 x22) with true. cbn iota.
    rewrite (parse_escaped field _ Vf).
    match goal with |- context [ws (x3a :: ?x)] => change (ws (x3a :: x)) with (x3a :: x) end.
    cbn iota. change (beqb x3a x3a) with true. cbn iota. rewrite bseqb_refl.
    unfold parse_str_value.
    match goal with |- context [ws (x22 :: ?x)] => change (ws (x22 :: x)) with (x22 :: x) end.
    cbn iota. change (beqb x22 x22) with true. cbn iota.
    change [x22; x7d] with (x22 :: [x7d]). rewrite (parse_escaped value _ Vv).
    reflexivity. }
  unfold body at 1. cbn [length]. fold body. rewrite M. reflexivity.
Qed.
