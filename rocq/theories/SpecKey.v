(** * SpecKey: which byte strings encode which keys (PASERK "plaintext" types), and what an
    identifier hashes.  Independent of the model's parsers. *)
From Verif Require Import Bytes Prims Version SpecBase64 SpecPaseto SpecPaserk SpecText.

(** [encodes P v k b key]: the bytes [b] stand for the key [key] (in the representation
    of the key documented in Key.v).  Only a k3.public key has several encodings.
    (A public key derived from a seed is a point; [Laws] says so, [Sizes] does not.) *)
Definition encodes (P : Prims) (v : version) (k : ktype) (b key : bytes) : Prop :=
  match v, k with
  | _, Local => length key = 32 /\ b = key
  | V4, Secret => length key = 32 /\ ed_pk_ok P (ed_pub P key) = true /\ b = key ++ ed_pub P key
  | V4, Public => length key = 32 /\ ed_pk_ok P key = true /\ b = key
  | V3, Secret => scalar384 key /\ b = key
  | V3, Public => length b = 49 /\ p_parse P b = Some key
  end.

(** The string an identifier hashes, given the canonical key bytes. *)
Definition id_input (v : version) (k : ktype) (kb : bytes) : bytes :=
  id_h v k ++ plaintext_paserk v k kb.

(** The identifier hash of the version. *)
Definition id_hash (S : Sym) (v : version) (m : bytes) : bytes :=
  match v with V3 => firstn 33 (sha384 S m) | V4 => blake2b S 33 m end.
