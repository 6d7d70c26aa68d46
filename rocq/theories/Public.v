(** * Public: signing and verification of public tokens.
    /repo/src/purpose/public/{mod,v3,v4}.rs *)
From Verif Require Import Bytes Outcome Pae Prims Version Key Token.

(** [PublicVersion::Signature], v3.rs:64, v4.rs:61 *)
Definition sig_size (v : version) : nat := match v with V3 => 96 | V4 => 64 end.

(** [preauth], v4.rs:9-28 *)
Definition preauth_v4 (h m f i : bytes) : bytes :=
  pae [ [ paseto_header V4; h; dot; purpose_header PPublic; dot ]; [m]; [f]; [i] ].

(** [digest], v3.rs:14-33: the bytes fed to SHA-384 *)
Definition preauth_v3 (pk h m f i : bytes) : bytes :=
  pae [ [pk]; [ paseto_header V3; h; dot; purpose_header PPublic; dot ]; [m]; [f]; [i] ].

(** [PublicVersion::sign], v3.rs:66-80, v4.rs:63-75; [sk] is the inner secret key. *)
Definition sign_raw (P : Prims) (v : version) (sk h m f i : bytes) : outcome bytes :=
  match v with
  | V3 =>
      let pk := p_pub P sk in
      unwrap (p_sign P sk (sha384 P (preauth_v3 pk h m f i)))
  | V4 => Ok (ed_sign P sk (preauth_v4 h m f i))
  end.

(** [PublicVersion::verify], v3.rs:82-96, v4.rs:77-89: [Ok true] is [Ok(())],
    [Ok false] is [Err(signature::Error)].  In V3 [Signature::from_bytes(sig)
    .unwrap()] panics on an ill-formed signature. *)
Definition verify_raw (P : Prims) (v : version) (pk h m f i sig : bytes) : outcome bool :=
  match v with
  | V3 =>
      let d := sha384 P (preauth_v3 pk h m f i) in
      if p_sig_ok sig then Ok (p_verify P pk d sig) else Panic
  | V4 => Ok (ed_verify P pk (preauth_v4 h m f i) sig)
  end.

(** [sign_with_assertions], public/mod.rs:145-166 *)
Definition sign_with_assertions {M F E} (P : Prims) (v : version) (EN : Encoding E M)
           (FC : FooterCodec F) (t : ValidatedToken M F E) (sk implicit : bytes)
  : outcome (SecuredToken F E) :=
  let? m := payload_err (e_encode EN (vt_encoding t) (vt_message t)) in
  let? f := unwrap (f_encode FC (vt_footer t)) in
  let? sig := sign_raw P v sk (suffix EN) m f implicit in
  Ok {| st_encoding := vt_encoding t; st_payload := m ++ sig;
        st_encoded_footer := f; st_footer := vt_footer t |}.

(** [sign], public/mod.rs:131-133 *)
Definition sign {M F E} P v (EN : Encoding E M) (FC : FooterCodec F)
           (t : ValidatedToken M F E) sk :=
  sign_with_assertions P v EN FC t sk [].

(** [verify_with_assertions], public/mod.rs:195-228 *)
Definition verify_with_assertions {M F E} (P : Prims) (v : version) (EN : Encoding E M)
           (t : SecuredToken F E) (pk implicit : bytes) : outcome (ValidatedToken M F E) :=
  let? k := usize_sub (length (st_payload t)) (sig_size v) in
  let? '(m, sig) := split_at k (st_payload t) in
  let? b := verify_raw P v pk (suffix EN) m (st_encoded_footer t) implicit sig in
  if b then
    let? message := payload_err (e_decode EN (st_encoding t) m) in
    Ok {| vt_encoding := st_encoding t; vt_message := message; vt_footer := st_footer t |}
  else Err CryptoError.

(** [verify], public/mod.rs:178-183 *)
Definition verify {M F E} P v (EN : Encoding E M) (t : SecuredToken F E) pk :=
  verify_with_assertions P v EN t pk [].
