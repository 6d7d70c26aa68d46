(** * SpecSystem: the texts a history of use makes public. *)
From Verif Require Import Bytes Outcome Prims Version Token Wrap Pbkw Pke SpecBase64 SpecPaseto SpecPaserk SpecText
  Observe History.

(** The text of the value a successful operation returned. *)
Definition published (e : event) : option bytes :=
  match e with
  | ERand (OpEncrypt q) (RToken (Ok b)) =>
      Some (token_text (local_header (rq_version q) (suffix (rq_encoding q))) b
                       (footer_bytes (rq_footer q) (vt_footer (rq_token q))))
  | ESign q (Ok b) =>
      Some (token_text (public_header (sq_version q) (suffix (sq_encoding q))) b
                       (footer_bytes (sq_footer q) (vt_footer (sq_token q))))
  | ERand (OpPie v w _ _) (RPie (Ok x)) => Some (pie_h v w ++ base64url (pie_tag x ++ pie_nonce x ++ pie_key x))
  | ERand (OpPw _ w _ _ _) (RPw v (Ok x)) =>
      let st := pw_state x in
      Some (pw_h v w ++ base64url (pw_salt x
              ++ pw_params_bytes v (st_mem v st) (st_time v st) (st_para v st) (st_iters v st)
              ++ pw_nonce x ++ pw_edk x ++ pw_tag x))
  | ERand (OpSeal v _ _) (RSeal (Ok x)) => Some (seal_h v ++ base64url (sl_tag x ++ sl_epk x ++ sl_edk x))
  | _ => None
  end.

(** A hash function with two inputs exchanged, and the primitives with other hash functions. *)
Definition exchange (a b : bytes) (f : bytes -> bytes) (m : bytes) : bytes :=
  if bseqb m a then f b else if bseqb m b then f a else f m.
Definition rehash (P : Prims) (sha : bytes -> bytes) (blake : nat -> bytes -> bytes) : Prims := {|
  sym := {| sha384 := sha; hmac_sha384 := hmac_sha384 P; hkdf_sha384 := hkdf_sha384 P; aes256 := aes256 P;
            pbkdf2_sha384_32 := pbkdf2_sha384_32 P; blake2b := blake; blake2b_mac := blake2b_mac P;
            xchacha20_ks := xchacha20_ks P; argon2id_32 := argon2id_32 P |};
  asym := asym P;
|}.
