(** * Version: the constants of versions, purposes and key types. *)
From Verif Require Import Bytes.

(** [version::V3], [version::V4], /repo/src/lib.rs:194-222 *)
Inductive version := V3 | V4.

(** [Version::PASETO_HEADER], /repo/src/lib.rs:214-222 *)
Definition paseto_header (v : version) : bytes :=
  match v with V3 => str "v3" | V4 => str "v4" end.

(** [Version::PASERK_HEADER], /repo/src/lib.rs:214-222 *)
Definition paserk_header (v : version) : bytes :=
  match v with V3 => str "k3" | V4 => str "k4" end.

(** [purpose::Local], [purpose::Public] as token purposes *)
Inductive purpose := PLocal | PPublic.

(** [Purpose::HEADER], /repo/src/purpose/local/mod.rs:42-44, public/mod.rs:34-36 *)
Definition purpose_header (p : purpose) : bytes :=
  match p with PLocal => str "local" | PPublic => str "public" end.

(** [Local], [Public], [Secret] as key types *)
Inductive ktype := Local | Public | Secret.

(** [KeyType::KEY_HEADER], local/mod.rs:54, public/mod.rs:56,70 *)
Definition key_header (k : ktype) : bytes :=
  match k with Local => str "local." | Public => str "public." | Secret => str "secret." end.

(** [KeyType::ID], local/mod.rs:55, public/mod.rs:57,71 *)
Definition id_header (k : ktype) : bytes :=
  match k with Local => str "lid." | Public => str "pid." | Secret => str "sid." end.

(** [KeyType::KeyLen], local/v3.rs:46, local/v4.rs:52, public/v3.rs:37-39,
    public/v4.rs:32-34 *)
Definition key_len (v : version) (k : ktype) : nat :=
  match v, k with
  | _, Local => 32
  | V3, Public => 49
  | V3, Secret => 48
  | V4, Public => 32
  | V4, Secret => 64
  end.

(** The two key types that can be wrapped: [WrapType]/[PwType] are implemented for
    [Local] and [Secret] only (paserk/wrap.rs:420-426, paserk/pbkw.rs:406-412). *)
Inductive wtype := WLocal | WSecret.
Definition wtype_key (w : wtype) : ktype :=
  match w with WLocal => Local | WSecret => Secret end.
