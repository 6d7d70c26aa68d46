(** * Fmt: the [Display] implementations written into an arbitrary sink.

    The other model files give the text a [Display] implementation produces.  Here the same
    implementations are written over any [core::fmt::Write], which may refuse a piece
    (having taken any part of it), as in [write!(&mut w, "{token}")]. *)
From Verif Require Import Bytes Outcome Base64 Prims Version Key Token Wrap Pbkw Pke.

(** A sink: state after being handed a piece, and whether it returned [Ok(())]. *)
Definition writer (S : Type) : Type := S -> bytes -> S * bool.

(** What [fmt] returned: [Ok(())], [Err(fmt::Error)], or it panicked. *)
Inductive fmt_result := FOk | FErr | FPanic.

(** [f.write_str(b)?; k] *)
Definition write_str {S} (w : writer S) (b : bytes) (k : S -> S * fmt_result) (s : S) : S * fmt_result :=
  let '(s', ok) := w s b in
  if ok then k s' else (s', FErr).
(** [Ok(())] *)
Definition fmt_done {S} (s : S) : S * fmt_result := (s, FOk).

(** [write_b64], paserk/mod.rs:201-208 *)
Fixpoint fmt_chunks {S} (w : writer S) (cs : list bytes) (s : S) : S * fmt_result :=
  match cs with
  | [] => fmt_done s
  | c :: rest =>
      match encode_buf 64 c with
      | None => (s, FPanic)
      | Some t => write_str w t (fmt_chunks w rest) s
      end
  end.
Definition fmt_b64 {S} (w : writer S) (b : bytes) (s : S) : S * fmt_result :=
  fmt_chunks w (chunks 48 b) s.

(** [Display for SecuredToken], lib.rs:449-469 *)
Definition token_fmt {F E S} (v : version) (p : purpose) (sfx : bytes) (t : SecuredToken F E)
           (w : writer S) : S -> S * fmt_result :=
  write_str w (paseto_header v) (
  write_str w sfx (
  write_str w dot (
  write_str w (purpose_header p) (
  write_str w dot (
  write_str w (encode_string (st_payload t)) (fun s =>
  if length (st_encoded_footer t) =? 0 then fmt_done s
  else write_str w dot (
       write_str w (encode_string (st_encoded_footer t)) fmt_done) s)))))).

(** [Display for KeyId], id.rs:67-74 ([Debug] is the same, id.rs:62-66) *)
Definition id_fmt {S} (v : version) (k : ktype) (id : bytes) (w : writer S) : S -> S * fmt_result :=
  write_str w (paserk_header v) (write_str w dot (write_str w (id_header k) (fmt_b64 w id))).

(** [Display for PlaintextKey], plaintext.rs:22-29 *)
Definition plaintext_fmt {S} (P : Prims) (v : version) (k : ktype) (key : bytes) (w : writer S)
  : S -> S * fmt_result :=
  write_str w (paserk_header v) (write_str w dot (write_str w (key_header k)
    (fmt_b64 w (key_to_bytes P v k key)))).

(** [Display for PieWrappedKey], wrap.rs:334-346 *)
Definition pie_fmt {S} (v : version) (k : wtype) (x : PieWrapped) (w : writer S) : S -> S * fmt_result :=
  write_str w (paserk_header v) (write_str w dot (write_str w (wrap_header k) (write_str w (str "pie.")
    (fmt_b64 w ((pie_tag x ++ pie_nonce x) ++ pie_key x))))).

(** [Display for PwWrappedKey], pbkw.rs:283-299 *)
Definition pw_fmt {S} (v : version) (k : wtype) (x : PwWrapped v) (w : writer S) : S -> S * fmt_result :=
  write_str w (paserk_header v) (write_str w dot (write_str w (pw_header k)
    (fmt_b64 w ((((pw_salt x ++ encode_state v (pw_state x)) ++ pw_nonce x) ++ pw_edk x) ++ pw_tag x)))).

(** [Display for SealedKey], pke.rs:446-453 *)
Definition seal_fmt {S} (v : version) (x : Sealed) (w : writer S) : S -> S * fmt_result :=
  write_str w (paserk_header v) (write_str w seal_hdr (fmt_b64 w ((sl_tag x ++ sl_epk x) ++ sl_edk x))).
