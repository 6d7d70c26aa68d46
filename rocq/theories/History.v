(** * History: arbitrary histories of use of the library.

    An adversary who chooses messages, footers, assertions, keys to wrap, ... adaptively
    produces some list of actions; a theorem about all lists covers all of them.  All actions
    share one random generator. *)
From Verif Require Import Bytes Outcome Prims Version Key Token Local Public Wrap Pbkw Pke
  SpecBase64 SpecPaseto SpecPaserk SpecText SpecKey Observe.

(** One call to [sign_with_assertions], of any types. *)
Record sign_request := {
  sq_M : Type; sq_F : Type; sq_E : Type;
  sq_version : version;
  sq_encoding : Encoding sq_E sq_M;
  sq_footer : FooterCodec sq_F;
  sq_token : ValidatedToken sq_M sq_F sq_E;
  sq_sk : bytes;
  sq_implicit : bytes;
}.

Inductive action := ARand (o : rand_op) | ASign (q : sign_request).
Inductive event :=
| ERand (o : rand_op) (x : rand_result)
| ESign (q : sign_request) (payload : outcome bytes).

Definition perform (P : Prims) (fuel : nat) (a : action) (r : rng) : option (event * rng) :=
  match a with
  | ARand o => match run_op P fuel o r with Some (x, r') => Some (ERand o x, r') | None => None end
  | ASign q =>
      Some (ESign q (omap st_payload (sign_with_assertions P (sq_version q) (sq_encoding q) (sq_footer q)
                                        (sq_token q) (sq_sk q) (sq_implicit q))), r)
  end.

Fixpoint perform_all (P : Prims) (fuel : nat) (l : list action) (r : rng) : option (list event * rng) :=
  match l with
  | [] => Some ([], r)
  | a :: rest =>
      match perform P fuel a r with
      | None => None
      | Some (e, r1) =>
          match perform_all P fuel rest r1 with
          | None => None
          | Some (es, r2) => Some (e :: es, r2)
          end
      end
  end.

(** The bytes of a footer, for footers that were encoded. *)
Definition footer_bytes {F} (FC : FooterCodec F) (f : F) : bytes :=
  match f_encode FC f with Some b => b | None => [] end.

(** The tag computation behind a result, according to the standards: the secret it is keyed
    from, and the authenticated message. *)
Definition tag_query (e : event) : option (bytes * bytes) :=
  match e with
  | ERand (OpEncrypt q) (RToken (Ok b)) =>
      let v := rq_version q in
      Some (rq_key q, PAE [local_header v (suffix (rq_encoding q)); body_nonce b; body_cipher v b;
                           footer_bytes (rq_footer q) (vt_footer (rq_token q)); rq_implicit q])
  | ERand (OpPie v w _ wk) (RPie (Ok x)) => Some (wk, pie_h v w ++ pie_nonce x ++ pie_key x)
  | ERand (OpPw v w _ pw _) (RPw v' (Ok x)) =>
      let st := pw_state x in
      Some (pw, pw_h v w ++ pw_salt x ++
                pw_params_bytes v' (st_mem v' st) (st_time v' st) (st_para v' st) (st_iters v' st) ++
                pw_nonce x ++ pw_edk x)
  | _ => None
  end.

(** The signature behind a result: signing key and signed bytes. *)
Definition sign_query (P : Prims) (e : event) : option (bytes * bytes) :=
  match e with
  | ESign q (Ok b) =>
      let v := sq_version q in
      Some (sq_sk q, public_m2 v (suffix (sq_encoding q)) (public_key P v (sq_sk q)) (body_message v b)
                       (footer_bytes (sq_footer q) (vt_footer (sq_token q))) (sq_implicit q))
  | _ => None
  end.

(** The authenticated pieces are Rust slices and the settings 32-bit integers (they always
    are). *)
Definition event_sizes (e : event) : Prop :=
  match e with
  | ERand (OpEncrypt q) (RToken (Ok b)) =>
      local_sizes (rq_version q) (suffix (rq_encoding q)) (body_cipher (rq_version q) b)
                  (footer_bytes (rq_footer q) (vt_footer (rq_token q))) (rq_implicit q)
  | ERand (OpPw v _ _ _ st) _ => state_u32 v st = true
  | ESign q (Ok b) =>
      public_sizes (sq_version q) (suffix (sq_encoding q)) (body_message (sq_version q) b)
                   (footer_bytes (sq_footer q) (vt_footer (sq_token q))) (sq_implicit q)
  | _ => True
  end.

(** Has the secret been used, in this history, to authenticate (sign) this message? *)
Definition authenticated (h : list event) (secret m : bytes) : Prop :=
  exists e, In e h /\ tag_query e = Some (secret, m).
Definition signed (P : Prims) (h : list event) (sk m : bytes) : Prop :=
  exists e, In e h /\ sign_query P e = Some (sk, m).
