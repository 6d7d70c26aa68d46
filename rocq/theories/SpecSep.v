(** * SpecSep: which inputs each feature of the standards gives to the hash functions.

    Written from the PASETO and PASERK documents: every use of HMAC-SHA-384 / keyed BLAKE2b
    ([mac_use]) and of SHA-384 / BLAKE2b ([hash_use]) by the feature, as a set of messages. *)
From Verif Require Import Bytes Prims Version SpecBase64 SpecPaseto SpecPaserk.

Inductive feature :=
| FToken     (* local tokens *)
| FSign      (* public tokens *)
| FPie       (* wrapped keys *)
| FPw        (* password-wrapped keys *)
| FSeal      (* sealed keys *)
| FId.       (* key identifiers *)

Definition starts (p m : bytes) : Prop := exists r, m = p ++ r.

Definition mac_use (f : feature) (m : bytes) : Prop :=
  match f with
  | FToken => starts (str "paseto-encryption-key") m \/ starts (str "paseto-auth-key-for-aead") m \/
              starts (LE64 5) m
  | FPie => starts [x80] m \/ starts [x81] m \/ exists v w, starts (pie_h v w) m
  | FPw => exists v w, starts (pw_h v w) m
  | FSeal => exists v, starts (seal_h v) m
  | FSign | FId => False
  end.

(** [out]: the output size asked for (48 for SHA-384). *)
Definition hash_use (f : feature) (out : nat) (m : bytes) : Prop :=
  match f with
  | FSeal => out = 24 \/ starts [x01] m \/ starts [x02] m
  | FPw => out <> 24 /\ (starts [xfe] m \/ starts [xff] m)
  | FId => out <> 24 /\ exists v k, starts (id_h v k) m
  | FSign => out <> 24 /\ starts (LE64 5) m
  | FToken | FPie => False
  end.

(** Two families of symmetric primitives that agree where the feature uses them and may differ
    everywhere else: HKDF is for local tokens only, the password hashes for password wrapping
    only, the ciphers for everything but signatures and identifiers. *)
Record agree (f : feature) (S1 S2 : Sym) : Prop := {
  ag_hmac : forall k m, mac_use f m -> hmac_sha384 S1 k m = hmac_sha384 S2 k m;
  ag_bmac : forall o k m, mac_use f m -> blake2b_mac S1 o k m = blake2b_mac S2 o k m;
  ag_sha : forall m, hash_use f 48 m -> sha384 S1 m = sha384 S2 m;
  ag_blake : forall o m, hash_use f o m -> blake2b S1 o m = blake2b S2 o m;
  ag_hkdf : f = FToken -> forall k i n, hkdf_sha384 S1 k i n = hkdf_sha384 S2 k i n;
  ag_aes : f <> FSign -> f <> FId -> forall k b, aes256 S1 k b = aes256 S2 k b;
  ag_xchacha : f <> FSign -> f <> FId -> forall k iv n, xchacha20_ks S1 k iv n = xchacha20_ks S2 k iv n;
  ag_pbkdf2 : f = FPw -> forall pw s n, pbkdf2_sha384_32 S1 pw s n = pbkdf2_sha384_32 S2 pw s n;
  ag_argon2 : f = FPw -> forall m t p pw s, argon2id_32 S1 m t p pw s = argon2id_32 S2 m t p pw s;
}.
