(** Theorems of the property list; statements only, proofs are in [ProofsSystem]. *)
From Coq Require Import ZArith ZifyBool ZifyNat ZifyN.
From Verif Require Import Bytes Outcome Base64 Prims Version Key Token Local Public KeyId Plaintext Wrap Pbkw Pke
  SpecBase64 SpecPaseto SpecPaserk SpecText SpecKey Observe History Fmt AnyRng SpecEffects SpecSystem.
From Verif Require Import ProofsSystem Samples.

(** The published texts are what displaying the returned values gives. *)
Theorem C78_published_is_display :
  forall (P : Prims) fuel,
  (forall q r t r', encrypt_with_rng P (rq_version q) (rq_encoding q) (rq_footer q) (rq_token q) (rq_key q)
                      (rq_implicit q) r = (Ok t, r') ->
     run_op P fuel (OpEncrypt q) r = Some (RToken (Ok (st_payload t)), r') /\
     published (ERand (OpEncrypt q) (RToken (Ok (st_payload t)))) =
       Some (token_display (rq_version q) PLocal (suffix (rq_encoding q)) t)) /\
  (forall q r t, sign_with_assertions P (sq_version q) (sq_encoding q) (sq_footer q) (sq_token q) (sq_sk q)
                      (sq_implicit q) = Ok t ->
     perform P fuel (ASign q) r = Some (ESign q (Ok (st_payload t)), r) /\
     published (ESign q (Ok (st_payload t))) =
       Some (token_display (sq_version q) PPublic (suffix (sq_encoding q)) t)) /\
  (forall v w key wk x s, pie_display v w x = Ok s -> published (ERand (OpPie v w key wk) (RPie (Ok x))) = Some s) /\
  (forall v w key pw st x s, state_u32 v (pw_state x) = true -> pw_display v w x = Ok s ->
     published (ERand (OpPw v w key pw st) (RPw v (Ok x))) = Some s) /\
  (forall v pdk pk x s, seal_display v x = Ok s -> published (ERand (OpSeal v pdk pk) (RSeal (Ok x))) = Some s).
Proof. exact c78_published_is_display. Qed.
Print Assumptions C78_published_is_display.

(** A history that uses one key for a token, a wrapped key and a password, and signs. *)
Definition enc1 (v : version) : enc_request :=
  {| rq_version := v; rq_encoding := num_encoding; rq_footer := json_footer braces; rq_token := tok0;
     rq_key := key32; rq_implicit := ia |}.
Definition sign1 (v : version) : sign_request :=
  {| sq_version := v; sq_encoding := num_encoding; sq_footer := json_footer braces; sq_token := tok0;
     sq_sk := sk0 v; sq_implicit := ia |}.
Definition actions1 (v : version) : list action :=
  [ASign (sign1 v); ARand (OpEncrypt (enc1 v)); ARand (OpPie v WSecret (sk1 v) key32);
   ARand (OpPw v WLocal other32 key32 (settings0 v)); ARand (OpSeal v other32 (public_key Mini v (sk0 v)))].
Definition history1 (v : version) : list event :=
  match perform_all Mini 3 (actions1 v) rng0 with Some (h, _) => h | None => [] end.
Definition text1 (v : version) (n : nat) : bytes :=
  match nth_error (history1 v) n with
  | Some e => match published e with Some s => s | None => [] end
  | None => []
  end.
Example C78_published_example : forall v : version,
  text1 v 0 = token_display v PPublic (str "x") (signed_tok Mini v ia) /\
  text1 v 1 = token_display v PLocal (str "x") (sealed_tok Mini v ia) /\
  firstn 3 (text1 v 2) = kver v ++ str "." /\ firstn 3 (text1 v 3) = kver v ++ str "." /\
  firstn 8 (text1 v 4) = seal_h v.
Proof. evaluate. Qed.

(** C78: a system that issued texts with any generator and reads an arbitrary text [s]: if [s]
    is parsed and decrypted, [s] is the text of a token issued under that key with that
    assertion (possibly with a final dot added to a token without footer), and the message
    obtained is the decoding of the bytes encoded there; otherwise [s] carries a valid MAC on a
    message the history never authenticated from that key. *)
Theorem C78_local_text :
  forall S (P : Prims) fuel (g : gen S) actions s0 h s1 (M F E : Type) (v : version) (EN : Encoding E M)
         (FC : FooterCodec F) e0 (s key i : bytes) (t : SecuredToken F E) x,
  SymLaws P -> fills g -> ghistory P fuel g actions s0 h s1 -> Forall event_sizes h ->
  rust_slice s -> rust_slice i ->
  token_parse v PLocal (suffix EN) e0 FC s = Ok t -> decrypt_with_assertions P v EN t key i = Ok x ->
  (exists q b m text, In (ERand (OpEncrypt q) (RToken (Ok b))) h /\ rq_key q = key /\ rq_implicit q = i /\
     published (ERand (OpEncrypt q) (RToken (Ok b))) = Some text /\
     (s = text \/ (st_encoded_footer t = [] /\ s = text ++ str ".")) /\
     e_encode (rq_encoding q) (vt_encoding (rq_token q)) (vt_message (rq_token q)) = COk m /\
     e_decode EN e0 m = COk (vt_message x)) \/
  (let b := st_payload t in
   let a := PAE [local_header v (suffix EN); body_nonce b; body_cipher v b; st_encoded_footer t; i] in
   mac P v (local_ak P v key (body_nonce b)) a = body_tag v b /\ ~ authenticated h key a).
Proof. exact c78_local_text. Qed.
Print Assumptions C78_local_text.

Example C78_local_example : forall v : version,
  (exists r', ghistory Mini 3 tape_gen (actions1 v) rng0 (history1 v) r') /\ fills tape_gen /\
  Forall event_sizes (history1 v) /\ rust_slice (text1 v 1) /\ rust_slice ia /\
  obind (token_parse v PLocal (suffix num_encoding) x07 (json_footer braces) (text1 v 1))
        (fun t => decrypt_with_assertions Mini v num_encoding t key32 ia) = Ok tok0.
Proof.
  intros v. split; [destruct v; eexists; apply tape_ghistory; vm_compute; reflexivity|].
  split; [exact tape_gen_fills|].
  split; [destruct v; repeat (constructor; [evaluate|]); constructor|]. destruct v; evaluate.
Qed.

(** C78: the same for public tokens: an accepted text carries message bytes, footer and
    encoding of a published text signed with that key and assertion.  (The signature itself may
    be another valid one, see C59.) *)
Theorem C78_public_text :
  forall S (P : Prims) fuel (g : gen S) actions s0 h s1 (M F E : Type) (v : version) (EN : Encoding E M)
         (FC : FooterCodec F) e0 (s sk i : bytes) (t : SecuredToken F E) x,
  Sizes P -> fills g -> ghistory P fuel g actions s0 h s1 -> Forall event_sizes h ->
  rust_slice s -> rust_slice i -> valid_key P v Secret sk = true ->
  token_parse v PPublic (suffix EN) e0 FC s = Ok t ->
  verify_with_assertions P v EN t (public_key P v sk) i = Ok x ->
  let m := body_message v (st_payload t) in
  let f := st_encoded_footer t in
  (exists q b', In (ESign q (Ok b')) h /\ sq_sk q = sk /\ sq_implicit q = i /\
     body_message v b' = m /\
     published (ESign q (Ok b')) = Some (token_text (public_header v (suffix EN)) b' f) /\
     (s = token_text (public_header v (suffix EN)) (st_payload t) f \/
      (f = [] /\ s = token_text (public_header v (suffix EN)) (st_payload t) f ++ str ".")) /\
     e_encode (sq_encoding q) (vt_encoding (sq_token q)) (vt_message (sq_token q)) = COk m /\
     e_decode EN e0 m = COk (vt_message x)) \/
  (let a := public_m2 v (suffix EN) (public_key P v sk) m f i in
   valid_sig P v (public_key P v sk) a (body_sig v (st_payload t)) = true /\ ~ signed P h sk a).
Proof. exact c78_public_text. Qed.
Print Assumptions C78_public_text.

Example C78_public_example : forall v : version,
  valid_key Mini v Secret (sk0 v) = true /\ rust_slice (text1 v 0) /\
  obind (token_parse v PPublic (suffix num_encoding) x07 (json_footer braces) (text1 v 0))
        (fun t => verify_with_assertions Mini v num_encoding t (public_key Mini v (sk0 v)) ia) = Ok tok0.
Proof. evaluate. Qed.

(** C78: PIE-wrapped keys: an accepted text is a published text, or carries a forged MAC. *)
Theorem C78_pie_text :
  forall S (P : Prims) fuel (g : gen S) actions s0 h s1 (v : version) (w : wtype) (s wk key : bytes) (x : PieWrapped),
  Sizes P -> fills g -> ghistory P fuel g actions s0 h s1 ->
  pie_parse v w s = Ok x -> unwrap_pie P v w x wk = Ok key ->
  (exists key', In (ERand (OpPie v w key' wk) (RPie (Ok x))) h /\
     published (ERand (OpPie v w key' wk) (RPie (Ok x))) = Some s /\
     (valid_key P v (wtype_key w) key' = true -> key = key')) \/
  (let a := pie_h v w ++ pie_nonce x ++ pie_key x in
   mac P v (pie_ak P v wk (pie_nonce x)) a = pie_tag x /\ ~ authenticated h wk a).
Proof. exact c78_pie_text. Qed.
Print Assumptions C78_pie_text.

Example C78_pie_example : forall v : version,
  obind (pie_parse v WSecret (text1 v 2)) (fun x => unwrap_pie Mini v WSecret x key32) = Ok (sk1 v) /\
  valid_key Mini v Secret (sk1 v) = true.
Proof. evaluate. Qed.

(** C78: password-wrapped keys: an accepted text is read as the same value as a published text
    (for k3 it is that text; for k4 see C44), or carries a forged MAC. *)
Theorem C78_pw_text :
  forall S (P : Prims) fuel (g : gen S) actions s0 h s1 (v : version) (w : wtype) (s pw key : bytes) (x : PwWrapped v),
  Sizes P -> fills g -> ghistory P fuel g actions s0 h s1 -> Forall event_sizes h ->
  pw_parse v w s = Ok x -> pw_unwrap P v w x pw = Ok key ->
  (exists key' text, In (ERand (OpPw v w key' pw (pw_state x)) (RPw v (Ok x))) h /\
     published (ERand (OpPw v w key' pw (pw_state x)) (RPw v (Ok x))) = Some text /\
     pw_parse v w text = Ok x /\ (v = V3 -> s = text) /\
     (valid_key P v (wtype_key w) key' = true -> key = key')) \/
  (let st := pw_state x in
   let a := pw_h v w ++ pw_salt x ++ pw_params_bytes v (st_mem v st) (st_time v st) (st_para v st) (st_iters v st)
              ++ pw_nonce x ++ pw_edk x in
   mac P v (pw_auth_key P v pw (pw_salt x) st) a = pw_tag x /\ ~ authenticated h pw a).
Proof. exact c78_pw_text. Qed.
Print Assumptions C78_pw_text.

Example C78_pw_example : forall v : version,
  obind (pw_parse v WLocal (text1 v 3)) (fun x => pw_unwrap Mini v WLocal x key32) = Ok other32.
Proof. evaluate. Qed.

(** C79: a key id, which may be put into a footer in the clear, fits every key of its type: with
    two inputs of the hash exchanged, the other key has this id.  So the id depends on the key
    only through one hash value.  (The other two types marked [SafeForFooter], PIE-wrapped and
    sealed keys, are covered by C75.) *)
Theorem C79_id_fits_any_key :
  forall (P : Prims) (v : version) (k : ktype) (key key' id : bytes),
  Sizes P -> valid_key P v k key = true -> valid_key P v k key' = true ->
  to_id P v k key = Ok id ->
  exists a b, let Q := rehash P (exchange a b (sha384 P)) (fun o => exchange a b (blake2b P o)) in
    SymLaws Q /\ to_id Q v k key' = Ok id /\ valid_key Q v k key' = true.
Proof. exact c79_id_fits_any_key. Qed.
Print Assumptions C79_id_fits_any_key.

Example C79_example : forall (v : version) (k : ktype),
  let key := match k with Local => key32 | Secret => sk0 v | Public => public_key Mini v (sk0 v) end in
  let key' := match k with Local => other32 | Secret => sk1 v | Public => public_key Mini v (sk1 v) end in
  valid_key Mini v k key = true /\ valid_key Mini v k key' = true /\
  is_ok (to_id Mini v k key) = true /\ to_id Mini v k key' <> to_id Mini v k key.
Proof. evaluate. Qed.
