(** * SpecText: the texts PASETO tokens and PASERKs consist of, as grammars.
    Written from the standards' "Token format"/"PASERK format" sections. *)
From Verif Require Import Bytes Prims Version SpecBase64 SpecPaseto SpecPaserk.

Definition token_header (v : version) (p : purpose) (sfx : bytes) : bytes :=
  match p with PLocal => local_header v sfx | PPublic => public_header v sfx end.

(** [token_grammar v p sfx s body footer]: [s] is a token text with this body and
    footer, the footer segment being optional when it is empty. *)
Inductive token_grammar (v : version) (p : purpose) (sfx : bytes) : bytes -> bytes -> bytes -> Prop :=
| tg_short body : token_grammar v p sfx (token_header v p sfx ++ base64url body) body []
| tg_long body footer :
    token_grammar v p sfx
      (token_header v p sfx ++ base64url body ++ str "." ++ base64url footer) body footer.

(** The kinds of texts the crate parses. *)
Inductive text_kind :=
| KToken (v : version) (p : purpose) (sfx : bytes)
| KPlain (v : version) (k : ktype)
| KId (v : version) (k : ktype)
| KPie (v : version) (w : wtype)
| KPw (v : version) (w : wtype)
| KSeal (v : version).

Definition kind_header (k : text_kind) : bytes :=
  match k with
  | KToken v p sfx => token_header v p sfx
  | KPlain v k => plain_h v k
  | KId v k => id_h v k
  | KPie v w => pie_h v w
  | KPw v w => pw_h v w
  | KSeal v => seal_h v
  end.

(** Number of bytes in a PASERK body (PASERK documents): sums of the fields. *)
Definition key_size (v : version) (k : ktype) : nat :=
  match v, k with
  | _, Local => 32
  | V3, Public => 49 | V3, Secret => 48
  | V4, Public => 32 | V4, Secret => 64
  end.
Definition tag_len (v : version) : nat := match v with V3 => 48 | V4 => 32 end.
Definition body_size (k : text_kind) : nat :=
  match k with
  | KToken _ _ _ => 0
  | KPlain v k => key_size v k
  | KId _ _ => 33
  | KPie v w => tag_len v + 32 + key_size v (wtype_key w)
  | KPw V3 w => 32 + 4 + 16 + key_size V3 (wtype_key w) + 48
  | KPw V4 w => 16 + 16 + 24 + key_size V4 (wtype_key w) + 32
  | KSeal V3 => 48 + 49 + 32
  | KSeal V4 => 32 + 32 + 32
  end.
