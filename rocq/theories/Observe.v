(** * Observe: uniform views of the parsers, used to state properties. *)
From Verif Require Import Bytes Outcome Prims Version Key Token Plaintext KeyId Wrap Pbkw Pke Local
  SpecBase64 SpecPaseto SpecPaserk SpecText.

(** Some parser of this kind accepts the text. *)
Inductive accepts (P : Prims) : text_kind -> bytes -> Prop :=
| acc_token F E v p sfx (e0 : E) (FC : FooterCodec F) s t :
    token_parse v p sfx e0 FC s = Ok t -> accepts P (KToken v p sfx) s
| acc_plain v k s key : plaintext_parse P v k s = Ok key -> accepts P (KPlain v k) s
| acc_id v k s id : id_parse v k s = Ok id -> accepts P (KId v k) s
| acc_pie v w s x : pie_parse v w s = Ok x -> accepts P (KPie v w) s
| acc_pw v w s x : pw_parse v w s = Ok x -> accepts P (KPw v w) s
| acc_seal v s x : seal_parse v s = Ok x -> accepts P (KSeal v) s.

Definition is_paserk (k : text_kind) : bool := match k with KToken _ _ _ => false | _ => true end.

(** The outcome of parsing a PASERK of the given kind, without the value. *)
Definition paserk_result (P : Prims) (k : text_kind) (s : bytes) : outcome unit :=
  let forget {A} (x : outcome A) := omap (fun _ => tt) x in
  match k with
  | KToken _ _ _ => Ok tt
  | KPlain v k => forget (plaintext_parse P v k s)
  | KId v k => forget (id_parse v k s)
  | KPie v w => forget (pie_parse v w s)
  | KPw v w => forget (pw_parse v w s)
  | KSeal v => forget (seal_parse v s)
  end.


(** ** Conditions under which the version's stream cipher is usable *)
(** Message lengths the stream cipher accepts. *)
Definition within_limit (v : version) (n : N) : Prop :=
  match v with V3 => True | V4 => (n <= xchacha20_limit)%N end.

(** Number of 16-byte blocks of [n] bytes. *)
Definition blocks (n : nat) : nat := (n + 15) / 16.

(** The low half of the IV does not overflow 64 bits while processing [n] bytes. *)
Definition ctr_safe (iv : bytes) (n : nat) : Prop :=
  (be_val (skipn 8 iv) + N.of_nat (blocks n) <= two64)%N.

(** The implementation's cipher is the standard's. *)
Definition cipher_ok (v : version) (iv : bytes) (n : nat) : Prop :=
  match v with
  | V3 => length iv = 16 /\ ctr_safe iv n
  | V4 => (N.of_nat n <= xchacha20_limit)%N
  end.

(** ** The bytes a generator delivers *)

(** [n] bytes starting [off] bytes after the current position. *)
Definition draw (r : rng) (off n : nat) : bytes := map (tape r) (seq (pos r + off) n).
(** The generator after [n] more bytes. *)
Definition advance (r : rng) (n : nat) : rng := {| tape := tape r; pos := pos r + n |}.


(** ** Local tokens *)

(** The cipher nonce of the standard's key split. *)
Definition local_iv (S : Sym) (v : version) (key n : bytes) : bytes :=
  snd (fst (local_split S v key n)).
(** The authentication key of the standard's key split. *)
Definition local_ak (S : Sym) (v : version) (key n : bytes) : bytes :=
  snd (local_split S v key n).
(** The MAC of the version. *)
Definition mac (S : Sym) (v : version) (k m : bytes) : bytes :=
  match v with V3 => hmac_sha384 S k m | V4 => blake2b_mac S 32 k m end.

(** A message of [len] bytes is processed as the standard says: no 64-bit counter
    overflow (v3), within the XChaCha20 length limit (v4). *)
Definition local_safe (S : Sym) (v : version) (key n : bytes) (len : nat) : Prop :=
  match v with
  | V3 => ctr_safe (local_iv S V3 key n) len
  | V4 => (N.of_nat len <= xchacha20_limit)%N
  end.

(** All authenticated pieces are Rust slices. *)
Definition local_sizes (v : version) (sfx c f i : bytes) : Prop :=
  rust_slice (local_header v sfx) /\ rust_slice c /\ rust_slice f /\ rust_slice i.

(** Nonce, ciphertext and tag of a payload. *)
Definition body_nonce (b : bytes) : bytes := firstn 32 b.
Definition body_tag (v : version) (b : bytes) : bytes := skipn (length b - tag_len v) b.
Definition body_cipher (v : version) (b : bytes) : bytes :=
  firstn (length b - 32 - tag_len v) (skipn 32 b).

(** Message and signature of a signed payload. *)
Definition sig_len (v : version) : nat := match v with V3 => 96 | V4 => 64 end.
Definition body_message (v : version) (b : bytes) : bytes := firstn (length b - sig_len v) b.
Definition body_sig (v : version) (b : bytes) : bytes := skipn (length b - sig_len v) b.
Definition public_sizes (v : version) (sfx m f i : bytes) : Prop :=
  rust_slice (public_header v sfx) /\ rust_slice m /\ rust_slice f /\ rust_slice i.

(** ** Histories of encryptions *)

(** One call to [encrypt_with_assertions_and_rng], of any message, footer and
    encoding types. *)
Record enc_request := {
  rq_M : Type; rq_F : Type; rq_E : Type;
  rq_version : version;
  rq_encoding : Encoding rq_E rq_M;
  rq_footer : FooterCodec rq_F;
  rq_token : ValidatedToken rq_M rq_F rq_E;
  rq_key : bytes;
  rq_implicit : bytes;
}.

(** The payloads produced by a sequence of calls sharing one generator. *)
Fixpoint run_encryptions (P : Prims) (reqs : list enc_request) (r : rng) : list (outcome bytes) * rng :=
  match reqs with
  | [] => ([], r)
  | q :: rest =>
      let '(res, r1) := encrypt_with_rng P (rq_version q) (rq_encoding q) (rq_footer q) (rq_token q)
                                         (rq_key q) (rq_implicit q) r in
      let '(l, r2) := run_encryptions P rest r1 in
      (omap st_payload res :: l, r2)
  end.

(** ** Public tokens *)

(** Validity of a signature on a signed byte string. *)
Definition valid_sig (P : Prims) (v : version) (pk m2 sg : bytes) : bool :=
  match v with
  | V3 => p_verify P pk (sha384 P m2) sg
  | V4 => ed_verify P pk m2 sg
  end.

(** The byte string authenticated for a token: MACed for local tokens, signed for public
    tokens.  [pk] matters for v3.public only, [n] for local only. *)
Definition auth_data (v : version) (p : purpose) (pk sfx n m f i : bytes) : bytes :=
  match p with
  | PLocal => PAE [local_header v sfx; n; m; f; i]
  | PPublic => public_m2 v sfx pk m f i
  end.

(** Sizes of all its pieces, and well-formedness of the key entering it. *)
Definition auth_sizes (P : Prims) (v : version) (p : purpose) (pk sfx n m f i : bytes) : Prop :=
  rust_slice (token_header v p sfx) /\ rust_slice n /\ rust_slice m /\ rust_slice f /\ rust_slice i /\
  (v = V3 -> p = PPublic -> valid_key P V3 Public pk = true).

(** ** PASERK values: the sizes their Rust types enforce *)
Definition pie_wf (v : version) (w : wtype) (x : PieWrapped) : Prop :=
  length (pie_tag x) = tag_len v /\ length (pie_nonce x) = 32 /\
  length (pie_key x) = key_size v (wtype_key w).
Definition pw_salt_size (v : version) : nat := match v with V3 => 32 | V4 => 16 end.
Definition pw_nonce_size (v : version) : nat := match v with V3 => 16 | V4 => 24 end.
Definition pw_wf (v : version) (w : wtype) (x : PwWrapped v) : Prop :=
  length (pw_salt x) = pw_salt_size v /\ state_u32 v (pw_state x) = true /\
  length (pw_nonce x) = pw_nonce_size v /\
  length (pw_edk x) = key_size v (wtype_key w) /\ length (pw_tag x) = tag_len v.
Definition epk_size (v : version) : nat := match v with V3 => 49 | V4 => 32 end.
Definition seal_wf (v : version) (x : Sealed) : Prop :=
  length (sl_tag x) = tag_len v /\ length (sl_epk x) = epk_size v /\ length (sl_edk x) = 32.

(** Password settings as numbers: memory (bytes), time, parallelism, PBKDF2 iterations; those
    of the other version are 0. *)
Definition st_mem (v : version) : kdf_state v -> N := match v with V3 => fun _ => 0%N | V4 => mem end.
Definition st_time (v : version) : kdf_state v -> N := match v with V3 => fun _ => 0%N | V4 => time end.
Definition st_para (v : version) : kdf_state v -> N := match v with V3 => fun _ => 0%N | V4 => para end.
Definition st_iters (v : version) : kdf_state v -> N := match v with V3 => iterations | V4 => fun _ => 0%N end.

(** Settings and password the key derivation accepts (argon2's documented bounds: at least
    8 KiB and 8 KiB per lane, at least one pass, 1..2^24-1 lanes, password below 2^32 bytes;
    PBKDF2 accepts everything). *)
Definition kdf_accepts (v : version) (pw : bytes) (st : kdf_state v) : Prop :=
  match v return kdf_state v -> Prop with
  | V3 => fun _ => True
  | V4 => fun st =>
      (8 <= mem st / 1024 /\ 8 * para st <= mem st / 1024 /\ 1 <= time st /\
       1 <= para st <= 16777215 /\ nlen pw < two32)%N
  end st.

(** The authentication keys of wrapped keys. *)
Definition pw_auth_key (S : Sym) (v : version) (pw salt : bytes) (st : kdf_state v) : bytes :=
  pw_ak S v (pw_prekey S v pw salt (st_mem v st) (st_time v st) (st_para v st) (st_iters v st)).

(** ** Sealing *)

(** The ephemeral public key and shared secret of the sender, from the ephemeral randomness
    [e] (the P-384 scalar, the 32 bytes before clamping) and the recipient's public key. *)
Definition send_epk (P : Prims) (v : version) (e : bytes) : bytes :=
  match v with V3 => p_pub P e | V4 => x_base P (x_scalar P e) end.
Definition send_xk (P : Prims) (v : version) (e pk : bytes) : bytes :=
  match v with V3 => p_dh P e pk | V4 => x_mul P (x_scalar P e) (ed_to_mont P pk) end.
(** The recipient's public key as it enters the hashes. *)
Definition hashed_pk (P : Prims) (v : version) (pk : bytes) : bytes :=
  match v with V3 => pk | V4 => ed_to_mont P pk end.
(** The receiver's shared secret; [None]: not a curve point. *)
Definition recv_xk (P : Prims) (v : version) (sk epk : bytes) : option bytes :=
  match v with
  | V3 => match p_parse P epk with Some q => Some (p_dh P sk q) | None => None end
  | V4 => Some (x_mul P (ed_scalar P sk) epk)
  end.
(** The stream cipher of sealing is used inside the agreement range. *)
Definition seal_safe (S : Sym) (v : version) (xk epk pk : bytes) : Prop :=
  match v with V3 => ctr_safe (snd (seal_ek_n S V3 xk epk pk)) 32 | V4 => True end.
Definition pie_safe (S : Sym) (v : version) (w : wtype) (wk n : bytes) : Prop :=
  match v with V3 => ctr_safe (snd (pie_ek_n2 S V3 wk n)) (key_size V3 (wtype_key w)) | V4 => True end.
Definition pw_safe (v : version) (w : wtype) (n : bytes) : Prop :=
  match v with V3 => ctr_safe n (key_size V3 (wtype_key w)) | V4 => True end.

(** The ephemeral secret a sealing draws: 48-byte blocks until one is a valid P-384 scalar
    (k3), 32 bytes (k4). *)
Definition ephemeral (v : version) (fuel : nat) (r : rng) : option (bytes * rng) :=
  match v with V3 => p384_random fuel r | V4 => Some (draw r 0 32, advance r 32) end.

(** ** Key sets (README.md:55-66: a map from key ids to keys) *)

(** [keys[&id]]: [None] panics. *)
Fixpoint lookup (id : bytes) (l : list (bytes * bytes)) : option bytes :=
  match l with
  | [] => None
  | (i, k) :: l' => if id_eqb i id then Some k else lookup id l'
  end.
(** The map holds each key under its id. *)
Definition key_map (P : Prims) (v : version) (k : ktype) (l : list (bytes * bytes)) : Prop :=
  forall i key, In (i, key) l -> valid_key P v k key = true /\ to_id P v k key = Ok i.
(** A collision of the identifier hash on the identifier inputs of two different keys. *)
Definition id_collision (P : Prims) (v : version) (k : ktype) (a b : bytes) : Prop :=
  a <> b /\
  let s1 := id_h v k ++ plaintext_paserk v k (to_bytes P v k a) in
  let s2 := id_h v k ++ plaintext_paserk v k (to_bytes P v k b) in
  s1 <> s2 /\
  match v with
  | V3 => firstn 33 (sha384 P s1) = firstn 33 (sha384 P s2)
  | V4 => blake2b P 33 s1 = blake2b P 33 s2
  end.

(** ** Operations that consume randomness *)
Inductive rand_op :=
| OpEncrypt (q : enc_request)
| OpPie (v : version) (w : wtype) (key wk : bytes)
| OpPw (v : version) (w : wtype) (key pw : bytes) (st : kdf_state v)
| OpSeal (v : version) (pdk pk : bytes)
| OpNewLocal
| OpNewSecret (v : version).

Inductive rand_result :=
| RToken (payload : outcome bytes)
| RPie (x : outcome PieWrapped)
| RPw (v : version) (x : outcome (PwWrapped v))
| RSeal (x : outcome Sealed)
| RKey (k : bytes).

(** [None]: P-384 rejection sampling did not finish within [fuel] draws. *)
Definition run_op (P : Prims) (fuel : nat) (op : rand_op) (r : rng) : option (rand_result * rng) :=
  match op with
  | OpEncrypt q =>
      let '(res, r') := encrypt_with_rng P (rq_version q) (rq_encoding q) (rq_footer q) (rq_token q)
                                         (rq_key q) (rq_implicit q) r in
      Some (RToken (omap st_payload res), r')
  | OpPie v w key wk => let '(x, r') := wrap_pie P v w key wk r in Some (RPie x, r')
  | OpPw v w key pw st => let '(x, r') := pw_wrap P v w key pw st r in Some (RPw v x, r')
  | OpSeal v pdk pk =>
      match seal P v fuel pdk pk r with Some (x, r') => Some (RSeal x, r') | None => None end
  | OpNewLocal => let '(k, r') := local_new_random r in Some (RKey k, r')
  | OpNewSecret V4 => let '(k, r') := v4_secret_new_random r in Some (RKey k, r')
  | OpNewSecret V3 =>
      match v3_secret_new_random fuel r with Some (k, r') => Some (RKey k, r') | None => None end
  end.

(** A history of operations on one generator: each result with the generator it started
    from. *)
Fixpoint run_ops (P : Prims) (fuel : nat) (ops : list rand_op) (r : rng)
  : option (list (rng * rand_result) * rng) :=
  match ops with
  | [] => Some ([], r)
  | op :: rest =>
      match run_op P fuel op r with
      | None => None
      | Some (x, r1) =>
          match run_ops P fuel rest r1 with
          | None => None
          | Some (l, r2) => Some ((r, x) :: l, r2)
          end
      end
  end.

(** Number of random bytes an operation uses; [None] for the rejection-sampled ones. *)
Definition op_bytes (op : rand_op) : option nat :=
  match op with
  | OpEncrypt _ | OpPie _ _ _ _ | OpNewLocal | OpNewSecret V4 | OpSeal V4 _ _ => Some 32
  | OpPw v _ _ _ _ => Some (pw_salt_size v + pw_nonce_size v)
  | OpSeal V3 _ _ | OpNewSecret V3 => None
  end.
(** Password wrapping stops early if the key derivation refuses (C43). *)
Definition op_runs (op : rand_op) : Prop :=
  match op with OpPw v _ _ pw st => kdf_accepts v pw st | _ => True end.
(** The random bytes that are visible in a successful result. *)
Definition visible_random (x : rand_result) : option bytes :=
  match x with
  | RToken (Ok b) => Some (firstn 32 b)
  | RPie (Ok y) => Some (pie_nonce y)
  | RPw v (Ok y) => Some (pw_salt y ++ pw_nonce y)
  | RKey k => Some k
  | _ => None
  end.

(** Two generators at the same position that will deliver the same next [n] bytes. *)
Definition same_window (r1 r2 : rng) (n : nat) : Prop :=
  pos r1 = pos r2 /\ forall i, pos r1 <= i -> i < pos r1 + n -> tape r1 i = tape r2 i.
