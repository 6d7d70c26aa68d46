(** * Samples: concrete values for the examples beside the theorems.

    [Mini] is a small instance of the primitives that satisfies all the laws and evaluates
    quickly: 32-bit mixing instead of the hashes, the toy groups of [ToyAsym] instead of the
    curves.  It keeps every size and makes every output depend on every input.  (The laws also
    hold with the real hashes and ciphers: [ConcreteLemmas].) *)
From Coq Require Import ZifyBool ZifyNat ZifyN.
From Verif Require Import Bytes BytesLemmas Outcome Prims Version Key Token Wrap Pbkw Pke
  SpecPaseto SpecPaserk SpecText SpecKey Observe ToyAsym ToyLemmas.

(** ** Symmetric primitives by mixing *)
Definition mix (h x : N) : N := N.land (h * 16777619 + x + 1) 4294967295.
Definition absorb (h : N) (b : bytes) : N := fold_left (fun h c => mix h (b2n c)) b h.
Fixpoint squeeze (n : nat) (h : N) : bytes :=
  match n with
  | O => []
  | S n' => n2b (N.shiftr h 13) :: squeeze n' (mix (N.lxor h (N.shiftr h 15)) 5)
  end.
(** domain, numbers, strings (with their lengths), output length *)
Definition mini (dom : N) (nums : list N) (strs : list bytes) (out : nat) : bytes :=
  let h := fold_left mix nums (mix dom 7) in
  squeeze out (fold_left (fun h s => absorb (mix h (nlen s)) s) strs h).

Definition MiniSym : Sym := {|
  sha384 := fun m => mini 1 [] [m] 48;
  hmac_sha384 := fun k m => mini 2 [] [k; m] 48;
  hkdf_sha384 := fun k i n => mini 3 [] [k; i] n;
  aes256 := fun k b => bsxor (firstn 16 (b ++ repeat x00 16)) (mini 4 [] [k] 16);
  pbkdf2_sha384_32 := fun pw s n => mini 5 [n] [pw; s] 32;
  blake2b := fun o m => mini 6 [N.of_nat o] [m] o;
  blake2b_mac := fun o k m => mini 7 [N.of_nat o] [k; m] o;
  xchacha20_ks := fun k iv n => mini 8 [] [k; iv] n;
  argon2id_32 := fun m t p pw s => mini 9 [m; t; p] [pw; s] 32;
|}.

Definition Mini : Prims := with_toy MiniSym.

Lemma squeeze_length n h : length (squeeze n h) = n.
Proof. revert h. induction n as [|n IH]; intros h; cbn [squeeze length]; [reflexivity|]. rewrite IH. reflexivity. Qed.
Lemma mini_length d l s n : length (mini d l s n) = n.
Proof. apply squeeze_length. Qed.

Lemma mini_sym_laws : SymLaws MiniSym.
Proof.
  constructor; cbn [sha384 hmac_sha384 hkdf_sha384 aes256 pbkdf2_sha384_32 blake2b blake2b_mac
                    xchacha20_ks argon2id_32 MiniSym]; intros; try apply mini_length.
  rewrite bsxor_length, mini_length, firstn_length, app_length, repeat_length. lia.
Qed.

Theorem mini_laws : Laws Mini.
Proof. exact (toy_laws MiniSym mini_sym_laws). Qed.

Lemma mini_aes_injective key a b :
  length a = 16 -> length b = 16 -> aes256 Mini key a = aes256 Mini key b -> a = b.
Proof.
  cbn [aes256 Mini MiniSym with_toy sym]. intros Ha Hb H.
  rewrite !(firstn_app_exact _ _ _) in H by assumption.
  rewrite <- (bsxor_involutive a (mini 4 [] [key] 16)) by (rewrite mini_length; lia).
  rewrite H, bsxor_involutive by (rewrite mini_length; lia). reflexivity.
Qed.

(** ** Values *)
Definition rng0 : rng := {| tape := fun i => n2b (N.of_nat (7 * i + 3)); pos := 5 |}.
Definition key32 : bytes := map (fun i => n2b (N.of_nat (11 * i + 1))) (seq 0 32).
Definition other32 : bytes := map (fun i => n2b (N.of_nat (5 * i + 9))) (seq 0 32).
Definition key48 : bytes := map (fun i => n2b (N.of_nat (3 * i + 2))) (seq 0 48).
Definition other48 : bytes := map (fun i => n2b (N.of_nat (9 * i + 4))) (seq 0 48).
(** a secret key of the version *)
Definition sk0 (v : version) : bytes := match v with V3 => key48 | V4 => key32 end.
Definition sk1 (v : version) : bytes := match v with V3 => other48 | V4 => other32 end.

(** A message type with an encoding that has a value (a tag byte), a suffix, and failures in
    both directions: numbers below 256. *)
Definition num_encoding : Encoding byte N := {|
  suffix := str "x";
  e_default := x07;
  e_encode := fun e m => if (m <? 256)%N then COk [e; n2b m] else CErr (str "too big");
  e_decode := fun e b =>
    match b with
    | [c; d] => if Byte.eqb c e then COk (b2n d) else CErr (str "bad tag")
    | _ => CErr (str "bad length")
    end;
|}.
(** A footer type: text written between braces; empty texts cannot be written. *)
Definition braces : JsonCodec bytes := {|
  json_to_vec := fun b => match b with [] => CErr (str "empty") | _ => COk (str "{" ++ b ++ str "}") end;
  json_from_slice := fun b =>
    match strip_prefix (str "{") b with
    | Some r => COk (removelast r)
    | None => CErr (str "no brace")
    end;
|}.
Definition tok0 : ValidatedToken N bytes byte :=
  {| vt_encoding := x07; vt_message := 42%N; vt_footer := str "kid" |}.
(** what [tok0] encodes to *)
Definition m0 : bytes := [x07; x2a].
Definition f0 : bytes := str "{kid}".

Definition ia : bytes := str "assertion".
Definition n0 : bytes := draw rng0 0 32.
(** the local and the public token of [tok0] under [key32], resp. [sk0 v], as the standard has them *)
Definition sealed_tok (P : Prims) (v : version) (i : bytes) : SecuredToken bytes byte :=
  {| st_encoding := x07; st_payload := local_encrypt P v (str "x") key32 n0 m0 f0 i;
     st_encoded_footer := f0; st_footer := str "kid" |}.
Definition signature (P : Prims) (v : version) (sfx m f i : bytes) : bytes :=
  let m2 := public_m2 v sfx (public_key P v (sk0 v)) m f i in
  match v with
  | V3 => match p_sign P (sk0 v) (sha384 P m2) with Some s => s | None => [] end
  | V4 => ed_sign P (sk0 v) m2
  end.
Definition signed_tok (P : Prims) (v : version) (i : bytes) : SecuredToken bytes byte :=
  {| st_encoding := x07; st_payload := m0 ++ signature P v (str "x") m0 f0 i;
     st_encoded_footer := f0; st_footer := str "kid" |}.
(** the same payload under another footer *)
Definition refoot {E} (t : SecuredToken bytes E) (raw f : bytes) : SecuredToken bytes E :=
  {| st_encoding := st_encoding t; st_payload := st_payload t; st_encoded_footer := raw; st_footer := f |}.

(** Wrapped keys: [wrapped_key w v] wrapped under [key32], a password, a public key. *)
Definition wrapped_key (v : version) (w : wtype) : bytes :=
  match w with WLocal => other32 | WSecret => sk1 v end.
Definition pie0 (P : Prims) (v : version) (w : wtype) : PieWrapped :=
  match fst (wrap_pie P v w (wrapped_key v w) key32 rng0) with
  | Ok x => x | _ => {| pie_tag := []; pie_nonce := []; pie_key := [] |}
  end.
Definition settings0 (v : version) : kdf_state v :=
  match v return kdf_state v with
  | V3 => {| iterations := 1000%N |}
  | V4 => {| mem := 65536%N; time := 3%N; para := 2%N |}
  end.
Definition pw0 (P : Prims) (v : version) (w : wtype) : PwWrapped v :=
  match fst (pw_wrap P v w (wrapped_key v w) (str "password") (settings0 v) rng0) with
  | Ok x => x
  | _ => {| pw_salt := []; pw_state := settings0 v; pw_nonce := []; pw_edk := []; pw_tag := [] |}
  end.
Definition seal0 (P : Prims) (v : version) : Sealed :=
  match seal P v 1 other32 (public_key P v (sk0 v)) rng0 with
  | Some (Ok x, _) => x | _ => {| sl_tag := []; sl_epk := []; sl_edk := [] |}
  end.
Definition get_text (x : outcome bytes) : bytes := match x with Ok s => s | _ => [] end.

(** ** A broken instance: MACs and hashes are constant, so forgeries exist.  It shows that the
    "or there is a collision" alternatives of the tamper-detection theorems do occur. *)
Definition WeakSym : Sym := {|
  sha384 := fun _ => repeat x00 48;
  hmac_sha384 := fun _ _ => repeat x00 48;
  hkdf_sha384 := hkdf_sha384 MiniSym;
  aes256 := aes256 MiniSym;
  pbkdf2_sha384_32 := pbkdf2_sha384_32 MiniSym;
  blake2b := fun o _ => repeat x00 o;
  blake2b_mac := fun o _ _ => repeat x00 o;
  xchacha20_ks := xchacha20_ks MiniSym;
  argon2id_32 := argon2id_32 MiniSym;
|}.
Definition Weak : Prims := with_toy WeakSym.
Lemma weak_sym_laws : SymLaws WeakSym.
Proof.
  constructor; cbn [sha384 hmac_sha384 hkdf_sha384 aes256 pbkdf2_sha384_32 blake2b blake2b_mac
                    xchacha20_ks argon2id_32 WeakSym MiniSym]; intros;
    try apply repeat_length; try apply mini_length.
  rewrite bsxor_length, mini_length, firstn_length, app_length, repeat_length. lia.
Qed.
Theorem weak_laws : Laws Weak.
Proof. exact (toy_laws WeakSym weak_sym_laws). Qed.

(** Evaluates conjunctions of closed facts. *)
Ltac evaluate :=
  lazymatch goal with
  | |- _ /\ _ => split; evaluate
  | |- forall v : version, _ => let v := fresh in intros v; destruct v; evaluate
  | |- forall w : wtype, _ => let w := fresh in intros w; destruct w; evaluate
  | |- forall k : ktype, _ => let k := fresh in intros k; destruct k; evaluate
  | |- forall p : purpose, _ => let p := fresh in intros p; destruct p; evaluate
  | |- let _ := _ in _ => cbv zeta; evaluate
  | |- SymLaws Weak => exact (sym_laws _ weak_laws)
  | |- Sizes Weak => exact (sizes _ weak_laws)
  | |- Laws Weak => exact weak_laws
  | |- SymLaws _ => exact mini_sym_laws
  | |- Sizes _ => exact (sizes _ mini_laws)
  | |- Laws _ => exact mini_laws
  | |- P384Sizes _ => exact (p384_sizes _ (sizes _ mini_laws))
  | |- local_sizes _ _ _ _ _ => unfold local_sizes; evaluate
  | |- public_sizes _ _ _ _ _ => unfold public_sizes; evaluate
  | |- pie_wf _ _ _ => unfold pie_wf; evaluate
  | |- pw_wf _ _ _ => unfold pw_wf; evaluate
  | |- seal_wf _ _ => unfold seal_wf; evaluate
  | |- ~ (_ /\ _) => let H := fresh in intros [_ H]; vm_compute in H; discriminate H
  | |- _ <> _ => let H := fresh in intros H; vm_compute in H; discriminate H
  | |- _ <= _ => apply Nat.leb_le; vm_compute; reflexivity
  | |- _ < _ => apply Nat.leb_le; vm_compute; reflexivity
  | |- _ => vm_compute; first [reflexivity | discriminate | exact I | repeat split; first [reflexivity|discriminate]]
  end.
