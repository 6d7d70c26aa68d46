(** * Token: generic tokens, codecs, text form.  /repo/src/lib.rs *)
From Verif Require Import Bytes Outcome Base64 Version.

(** ** Payload encodings, lib.rs:239-278 *)

(** A payload encoding type [E: Payload + MessageEncoding<M> + MessageDecoding<M>]:
    the [SUFFIX] constant, the [Default] value, and the two methods (which take
    [&self], hence the [E] argument). *)
Record Encoding (E M : Type) := {
  suffix : bytes;
  e_default : E;
  e_encode : E -> M -> codec_result bytes;
  e_decode : E -> bytes -> codec_result M;
}.
Arguments suffix {E M}. Arguments e_default {E M}.
Arguments e_encode {E M}. Arguments e_decode {E M}.

(** serde_json for a type [T]: [to_vec], [from_slice]. *)
Record JsonCodec (T : Type) := {
  json_to_vec : T -> codec_result bytes;
  json_from_slice : bytes -> codec_result T;
}.
Arguments json_to_vec {T}. Arguments json_from_slice {T}.

(** [impl Payload/MessageEncoding/MessageDecoding for Json<()>], lib.rs:262-277 *)
Definition json_encoding {M} (J : JsonCodec M) : Encoding unit M := {|
  suffix := str "";
  e_default := tt;
  e_encode := fun _ m => json_to_vec J m;
  e_decode := fun _ b => json_from_slice J b;
|}.

(** ** Footers, lib.rs:288-343 *)

(** [trait Footer], lib.rs:288-293.  [encode] returns a plain [Vec<u8>], so its
    only failure is a panic. *)
Record FooterCodec (F : Type) := {
  f_encode : F -> option bytes;          (* None: panics *)
  f_decode : bytes -> codec_result F;
}.
Arguments f_encode {F}. Arguments f_decode {F}.

(** [impl Footer for Json<T>], lib.rs:309-320 *)
Definition json_footer {T} (J : JsonCodec T) : FooterCodec T := {|
  f_encode := fun t => match json_to_vec J t with COk b => Some b | CErr _ => None end;
  f_decode := fun b =>
    match b with
    | [] => CErr (str "missing footer")
    | _ => json_from_slice J b
    end;
|}.

(** [impl Footer for Vec<u8>], lib.rs:322-330 *)
Definition vec_footer : FooterCodec bytes := {|
  f_encode := fun b => Some b;
  f_decode := fun b => COk b;
|}.

(** Decimal rendering of a byte and the [{x:?}] rendering of a slice
    ("[1, 2, 3]"), used in the unit footer's error message, lib.rs:340. *)
Definition dec_byte (b : byte) : bytes :=
  let n := b2n b in
  let d k := n2b (48 + k) in
  if (n <? 10)%N then [d n]
  else if (n <? 100)%N then [d (n / 10); d (n mod 10)]%N
  else [d (n / 100); d (n / 10 mod 10); d (n mod 10)]%N.
Fixpoint debug_list (l : bytes) : bytes :=
  match l with
  | [] => []
  | [b] => dec_byte b
  | b :: r => dec_byte b ++ str ", " ++ debug_list r
  end.
Definition debug_slice (l : bytes) : bytes := str "[" ++ debug_list l ++ str "]".

(** [impl Footer for ()], lib.rs:332-343 *)
Definition unit_footer : FooterCodec unit := {|
  f_encode := fun _ => Some [];
  f_decode := fun b =>
    match b with
    | [] => COk tt
    | _ => CErr (str "unexpected footer " ++ debug_slice b)
    end;
|}.

(** ** Token structures *)

(** [ValidatedToken] / [TokenBuilder], lib.rs:374-380,412-414.  Version and purpose
    are type-level in Rust; here they are parameters of the operations. *)
Record ValidatedToken (M F E : Type) := {
  vt_encoding : E;
  vt_message : M;
  vt_footer : F;
}.
Arguments vt_encoding {M F E}. Arguments vt_message {M F E}. Arguments vt_footer {M F E}.

(** [TokenBuilder::new], lib.rs:417-425: [TokenMetadata::default()], unit footer,
    default encoding [Json<()>]. *)
Definition token_new {M} (m : M) : ValidatedToken M unit unit :=
  {| vt_encoding := tt; vt_message := m; vt_footer := tt |}.

(** [with_footer], lib.rs:382-393 (only on builders with the unit footer) *)
Definition with_footer {M F E} (t : ValidatedToken M unit E) (f : F) : ValidatedToken M F E :=
  {| vt_encoding := vt_encoding t; vt_message := vt_message t; vt_footer := f |}.

(** [with_encoding], lib.rs:395-410 (only on builders with encoding [Json<()>]) *)
Definition with_encoding {M F E} (t : ValidatedToken M F unit) (e : E) : ValidatedToken M F E :=
  {| vt_encoding := e; vt_message := vt_message t; vt_footer := vt_footer t |}.

(** [SecuredToken], lib.rs:441-447 *)
Record SecuredToken (F E : Type) := {
  st_encoding : E;
  st_payload : bytes;
  st_encoded_footer : bytes;
  st_footer : F;
}.
Arguments st_encoding {F E}. Arguments st_payload {F E}.
Arguments st_encoded_footer {F E}. Arguments st_footer {F E}.

(** [unverified_footer], lib.rs:551-556 *)
Definition unverified_footer {F E} (t : SecuredToken F E) : F := st_footer t.

(** [Display for SecuredToken], lib.rs:449-469 *)
Definition token_display {F E} (v : version) (p : purpose) (sfx : bytes)
           (t : SecuredToken F E) : bytes :=
  paseto_header v ++ sfx ++ dot ++ purpose_header p ++ dot
  ++ encode_string (st_payload t)
  ++ (if (length (st_encoded_footer t) =? 0) then []
      else dot ++ encode_string (st_encoded_footer t)).

(** [FromStr for SecuredToken], lib.rs:514-549 *)
Definition token_parse {F E} (v : version) (p : purpose) (sfx : bytes) (e0 : E)
           (FC : FooterCodec F) (s : bytes) : outcome (SecuredToken F E) :=
  let? s := ok_or (strip_prefix (paseto_header v) s) InvalidToken in
  let? s := ok_or (strip_prefix sfx s) InvalidToken in
  let? s := ok_or (strip_prefix dot s) InvalidToken in
  let? s := ok_or (strip_prefix (purpose_header p) s) InvalidToken in
  let? s := ok_or (strip_prefix dot s) InvalidToken in
  let '(payload, footer) :=
    match split_once x2e s with
    | Some (payload, footer) => (payload, Some footer)
    | None => (s, None)
    end in
  let? payload := ok_or (decode_vec payload) Base64DecodeError in
  let? encoded_footer :=
    match footer with
    | Some f => ok_or (decode_vec f) Base64DecodeError
    | None => Ok []                                  (* unwrap_or_default *)
    end in
  let? footer := payload_err (f_decode FC encoded_footer) in
  Ok {| st_encoding := e0; st_payload := payload;
        st_encoded_footer := encoded_footer; st_footer := footer |}.

(** [Display for PasetoError], lib.rs:584-596 *)
Definition error_display (e : paseto_error) : bytes :=
  match e with
  | Base64DecodeError => str "The token could not be base64 decoded"
  | InvalidKey => str "Could not parse the key"
  | InvalidToken => str "Could not parse the token"
  | CryptoError => str "Token signature could not be validated"
  | PayloadError x => str "there was an error with the payload encoding: " ++ x
  end.

(** [Error::source for PasetoError], lib.rs:575-582 *)
Definition error_source (e : paseto_error) : option bytes :=
  match e with PayloadError x => Some x | _ => None end.
