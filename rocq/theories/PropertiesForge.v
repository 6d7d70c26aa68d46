(** Theorems of the property list; statements only, proofs are in [ProofsForge]. *)
From Coq Require Import ZArith ZifyBool ZifyNat ZifyN.
From Verif Require Import Bytes Outcome Base64 Pae Prims Version Key Token Local Public Plaintext KeyId
  Wrap Pbkw Pke SpecBase64 SpecPaseto SpecPaserk SpecText SpecKey Observe History.
From Verif Require Import ProofsForge Samples.

(** C68: authenticity of local tokens over any history of use.  Take any sequence of
    encryptions, signatures, wrappings, sealings and key generations, with any inputs, keys and
    generator.  A token accepted under [key] has the payload, encoding, footer and assertion of
    a token encrypted under [key] in that history, and its message is the decoding of the bytes
    encoded there.  Otherwise its tag is a valid MAC on a message never authenticated from
    [key] by any operation of the history. *)
Theorem C68_local_history :
  forall (P : Prims) fuel actions r h r' (M F E : Type) (v : version) (EN : Encoding E M)
         (t : SecuredToken F E) (key i : bytes) x,
  SymLaws P -> perform_all P fuel actions r = Some (h, r') -> Forall event_sizes h ->
  let b := st_payload t in
  let f := st_encoded_footer t in
  local_sizes v (suffix EN) (body_cipher v b) f i ->
  decrypt_with_assertions P v EN t key i = Ok x ->
  (exists q m, In (ERand (OpEncrypt q) (RToken (Ok b))) h /\
     rq_version q = v /\ rq_key q = key /\ rq_implicit q = i /\ suffix (rq_encoding q) = suffix EN /\
     f_encode (rq_footer q) (vt_footer (rq_token q)) = Some f /\
     e_encode (rq_encoding q) (vt_encoding (rq_token q)) (vt_message (rq_token q)) = COk m /\
     e_decode EN (st_encoding t) m = COk (vt_message x)) \/
  (let a := PAE [local_header v (suffix EN); body_nonce b; body_cipher v b; f; i] in
   mac P v (local_ak P v key (body_nonce b)) a = body_tag v b /\ ~ authenticated h key a).
Proof. exact c68_local_history. Qed.
Print Assumptions C68_local_history.

(** A history that uses one key for a token, a wrapped key and a password, and signs. *)
Definition enc0 (v : version) : enc_request :=
  {| rq_version := v; rq_encoding := num_encoding; rq_footer := json_footer braces; rq_token := tok0;
     rq_key := key32; rq_implicit := ia |}.
Definition sign0 (v : version) : sign_request :=
  {| sq_version := v; sq_encoding := num_encoding; sq_footer := json_footer braces; sq_token := tok0;
     sq_sk := sk0 v; sq_implicit := ia |}.
Definition actions0 (v : version) : list action :=
  [ASign (sign0 v); ARand (OpEncrypt (enc0 v)); ARand (OpPie v WSecret (sk1 v) key32);
   ARand (OpPw v WLocal other32 key32 (settings0 v)); ARand (OpSeal v other32 (public_key Mini v (sk0 v)));
   ARand OpNewLocal].
Definition history0 (P : Prims) (v : version) : list event :=
  match perform_all P 3 (actions0 v) rng0 with Some (h, _) => h | None => [] end.

Example C68_history_example : forall v : version,
  (exists r', perform_all Mini 3 (actions0 v) rng0 = Some (history0 Mini v, r')) /\
  Forall event_sizes (history0 Mini v) /\
  length (history0 Mini v) = 6 /\
  In (ERand (OpEncrypt (enc0 v)) (RToken (Ok (st_payload (sealed_tok Mini v ia))))) (history0 Mini v) /\
  is_ok (decrypt_with_assertions Mini v num_encoding (sealed_tok Mini v ia) key32 ia) = true.
Proof.
  intros v. split; [destruct v; eexists; vm_compute; reflexivity|].
  split; [destruct v; repeat (constructor; [evaluate|]); constructor|].
  split; [destruct v; vm_compute; reflexivity|].
  split; [destruct v; vm_compute; right; left; reflexivity|]. destruct v; vm_compute; reflexivity.
Qed.
(** With a broken MAC the second alternative occurs: a token of another message is accepted,
    and its authenticated message does not occur in the history. *)
Definition forged0 (v : version) : SecuredToken bytes byte :=
  {| st_encoding := x07; st_payload := local_encrypt Weak v (str "x") key32 n0 [x07; x01] f0 ia;
     st_encoded_footer := f0; st_footer := str "kid" |}.
Example C68_forgery_example : forall v : version,
  is_ok (decrypt_with_assertions Weak v num_encoding (forged0 v) key32 ia) = true /\
  existsb (fun e => match tag_query e with
                    | Some (k, m) =>
                        bseqb k key32 &&
                        bseqb m (PAE [local_header v (str "x"); body_nonce (st_payload (forged0 v));
                                      body_cipher v (st_payload (forged0 v)); f0; ia])
                    | None => false end) (history0 Weak v) = false.
Proof. evaluate. Qed.

(** C69: authenticity of public tokens over any history of use.  A token accepted under the
    public key of [sk] carries the message bytes, encoding, footer and assertion of a token
    signed with [sk] in the history (not necessarily its signature, C59).  Otherwise its
    signature is valid for a byte string that [sk] never signed. *)
Theorem C69_public_history :
  forall (P : Prims) fuel actions r h r' (M F E : Type) (v : version) (EN : Encoding E M)
         (t : SecuredToken F E) (sk i : bytes) x,
  Sizes P -> perform_all P fuel actions r = Some (h, r') -> Forall event_sizes h ->
  valid_key P v Secret sk = true ->
  let pk := public_key P v sk in
  let m := body_message v (st_payload t) in
  let f := st_encoded_footer t in
  public_sizes v (suffix EN) m f i ->
  verify_with_assertions P v EN t pk i = Ok x ->
  (exists q b, In (ESign q (Ok b)) h /\ body_message v b = m /\
     sq_version q = v /\ sq_sk q = sk /\ sq_implicit q = i /\ suffix (sq_encoding q) = suffix EN /\
     f_encode (sq_footer q) (vt_footer (sq_token q)) = Some f /\
     e_encode (sq_encoding q) (vt_encoding (sq_token q)) (vt_message (sq_token q)) = COk m /\
     e_decode EN (st_encoding t) m = COk (vt_message x)) \/
  (let a := public_m2 v (suffix EN) pk m f i in
   valid_sig P v pk a (body_sig v (st_payload t)) = true /\ ~ signed P h sk a).
Proof. exact c69_public_history. Qed.
Print Assumptions C69_public_history.

Example C69_history_example : forall v : version,
  Forall event_sizes (history0 Mini v) /\
  In (ESign (sign0 v) (Ok (st_payload (signed_tok Mini v ia)))) (history0 Mini v) /\
  valid_key Mini v Secret (sk0 v) = true /\
  public_sizes v (suffix num_encoding) (body_message v (st_payload (signed_tok Mini v ia))) f0 ia /\
  is_ok (verify_with_assertions Mini v num_encoding (signed_tok Mini v ia) (public_key Mini v (sk0 v)) ia) = true.
Proof.
  intros v. split; [apply C68_history_example|].
  split; [destruct v; vm_compute; left; reflexivity|].
  destruct v; evaluate.
Qed.

(** C70: authenticity of PIE-wrapped keys over any history of use.  Every wrapped key accepted
    under [wk] was produced by wrapping with [wk] in that history, and unwraps to the key
    wrapped there; or its tag is a MAC on a message never authenticated from [wk]. *)
Theorem C70_pie_history :
  forall (P : Prims) fuel actions r h r' (v : version) (w : wtype) (x : PieWrapped) (wk key : bytes),
  Sizes P -> perform_all P fuel actions r = Some (h, r') ->
  pie_wf v w x -> unwrap_pie P v w x wk = Ok key ->
  (exists key', In (ERand (OpPie v w key' wk) (RPie (Ok x))) h /\
     (valid_key P v (wtype_key w) key' = true -> key = key')) \/
  (let a := pie_h v w ++ pie_nonce x ++ pie_key x in
   mac P v (pie_ak P v wk (pie_nonce x)) a = pie_tag x /\ ~ authenticated h wk a).
Proof. exact c70_pie_history. Qed.
Print Assumptions C70_pie_history.

Definition issued_pie (v : version) : PieWrapped :=
  match nth_error (history0 Mini v) 2 with
  | Some (ERand _ (RPie (Ok x))) => x
  | _ => {| pie_tag := []; pie_nonce := []; pie_key := [] |}
  end.
Example C70_pie_history_example : forall v : version,
  pie_wf v WSecret (issued_pie v) /\
  unwrap_pie Mini v WSecret (issued_pie v) key32 = Ok (sk1 v) /\
  valid_key Mini v Secret (sk1 v) = true.
Proof. evaluate. Qed.

(** C70: the same for password-wrapped keys. *)
Theorem C70_pw_history :
  forall (P : Prims) fuel actions r h r' (v : version) (w : wtype) (x : PwWrapped v) (pw key : bytes),
  Sizes P -> perform_all P fuel actions r = Some (h, r') -> Forall event_sizes h ->
  pw_wf v w x -> pw_unwrap P v w x pw = Ok key ->
  (exists key', In (ERand (OpPw v w key' pw (pw_state x)) (RPw v (Ok x))) h /\
     (valid_key P v (wtype_key w) key' = true -> key = key')) \/
  (let st := pw_state x in
   let a := pw_h v w ++ pw_salt x ++ pw_params_bytes v (st_mem v st) (st_time v st) (st_para v st) (st_iters v st)
              ++ pw_nonce x ++ pw_edk x in
   mac P v (pw_auth_key P v pw (pw_salt x) st) a = pw_tag x /\ ~ authenticated h pw a).
Proof. exact c70_pw_history. Qed.
Print Assumptions C70_pw_history.

Definition issued_pw (v : version) : option (PwWrapped v) :=
  match v, nth_error (history0 Mini v) 3 with
  | V3, Some (ERand _ (RPw V3 (Ok x))) => Some x
  | V4, Some (ERand _ (RPw V4 (Ok x))) => Some x
  | _, _ => None
  end.
Example C70_pw_history_example : forall v : version,
  match issued_pw v with
  | Some x => pw_wf v WLocal x /\ pw_unwrap Mini v WLocal x key32 = Ok other32
  | None => False
  end.
Proof.
  intros v. destruct v; cbv delta [issued_pw]; vm_compute; repeat split; reflexivity.
Qed.
