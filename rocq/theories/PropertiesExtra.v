(** Theorems of the property list; statements only, proofs are in [ProofsExtra]. *)
From Coq Require Import ZArith ZifyBool ZifyNat ZifyN.
From Verif Require Import Bytes Outcome Base64 Pae Prims Version Key Token Local Public Plaintext KeyId
  Wrap Pbkw Pke SpecBase64 SpecPaseto SpecPaserk SpecText SpecKey SpecSep Observe.
From Verif Require Import ProofsExtra Samples.

(** C59: v3.public tokens are malleable.  ECDSA verification accepts (r, n - s) whenever it
    accepts (r, s); then every accepted token has a different text that is accepted as the same
    token. *)
Theorem C59_v3_token_text_unique_refuted :
  forall (P : Prims) (M F E : Type) (EN : Encoding E M) (FC : FooterCodec F)
         (t : SecuredToken F E) (pk implicit : bytes) (out : ValidatedToken M F E),
  (forall k d r s s', length r = 48 -> p_scalar_ok s = true -> p_scalar_ok s' = true -> (be_val s + be_val s' = p384_n)%N ->
     p_verify P k d (r ++ s) = p_verify P k d (r ++ s')) ->
  f_decode FC (st_encoded_footer t) = COk (st_footer t) -> st_encoding t = e_default EN ->
  verify_with_assertions P V3 EN t pk implicit = Ok out ->
  exists text t',
    text <> token_display V3 PPublic (suffix EN) t /\
    token_parse V3 PPublic (suffix EN) (e_default EN) FC text = Ok t' /\
    st_encoded_footer t' = st_encoded_footer t /\
    body_message V3 (st_payload t') = body_message V3 (st_payload t) /\
    verify_with_assertions P V3 EN t' pk implicit = Ok out.
Proof. exact c59_v3_token_text_unique_refuted. Qed.
Print Assumptions C59_v3_token_text_unique_refuted.

Example C59_symmetry_example : forall k d r s s',
  length r = 48 -> p_scalar_ok s = true -> p_scalar_ok s' = true -> (be_val s + be_val s' = p384_n)%N ->
  p_verify Mini k d (r ++ s) = p_verify Mini k d (r ++ s').
Proof.
  intros k d r s s' Lr _ _ E. change (p_verify Mini) with (ToyAsym.toy_p_verify MiniSym). unfold ToyAsym.toy_p_verify.
  rewrite !(BytesLemmas.firstn_app_exact r), !(BytesLemmas.skipn_app_exact r) by exact Lr. cbv zeta. f_equal.
  assert (B : (ToyAsym.toy_p_s MiniSym k d < p384_n)%N).
  { unfold ToyAsym.toy_p_s, ToyAsym.toy_scalar_of.
    match goal with |- (1 + ?x mod _ < _)%N => pose proof (N.mod_lt x (p384_n - 1) ltac:(discriminate)) end.
    assert (1 < p384_n)%N by reflexivity. lia. }
  destruct (N.eqb_spec (be_val s) (ToyAsym.toy_p_s MiniSym k d));
    destruct (N.eqb_spec (be_val s) (p384_n - ToyAsym.toy_p_s MiniSym k d));
    destruct (N.eqb_spec (be_val s') (ToyAsym.toy_p_s MiniSym k d));
    destruct (N.eqb_spec (be_val s') (p384_n - ToyAsym.toy_p_s MiniSym k d)); cbn [orb]; try reflexivity; lia.
Qed.
Example C59_refuted_example :
  f_decode (json_footer braces) (st_encoded_footer (signed_tok Mini V3 ia)) = COk (st_footer (signed_tok Mini V3 ia)) /\
  st_encoding (signed_tok Mini V3 ia) = e_default num_encoding /\
  is_ok (verify_with_assertions Mini V3 num_encoding (signed_tok Mini V3 ia) (public_key Mini V3 (sk0 V3)) ia) = true.
Proof. evaluate. Qed.

(** C59: for local tokens and wrapped keys there is exactly one accepted tag: two accepted
    values that agree in everything but the tag are equal. *)
Theorem C59_tags_are_unique :
  forall (P : Prims) (v : version), Sizes P ->
  (forall (M F E : Type) (EN : Encoding E M) (t1 t2 : SecuredToken F E) key i x1 x2,
     decrypt_with_assertions P v EN t1 key i = Ok x1 -> decrypt_with_assertions P v EN t2 key i = Ok x2 ->
     body_nonce (st_payload t1) = body_nonce (st_payload t2) ->
     body_cipher v (st_payload t1) = body_cipher v (st_payload t2) ->
     st_encoded_footer t1 = st_encoded_footer t2 ->
     st_payload t1 = st_payload t2) /\
  (forall w x1 x2 wk k1 k2,
     unwrap_pie P v w x1 wk = Ok k1 -> unwrap_pie P v w x2 wk = Ok k2 ->
     pie_nonce x1 = pie_nonce x2 -> pie_key x1 = pie_key x2 -> x1 = x2) /\
  (forall w (x1 x2 : PwWrapped v) pw k1 k2,
     pw_unwrap P v w x1 pw = Ok k1 -> pw_unwrap P v w x2 pw = Ok k2 ->
     pw_salt x1 = pw_salt x2 -> pw_state x1 = pw_state x2 -> pw_nonce x1 = pw_nonce x2 -> pw_edk x1 = pw_edk x2 ->
     x1 = x2) /\
  (forall x1 x2 sk k1 k2, valid_key P v Secret sk = true ->
     unseal P v x1 sk = Ok k1 -> unseal P v x2 sk = Ok k2 ->
     sl_epk x1 = sl_epk x2 -> sl_edk x1 = sl_edk x2 -> x1 = x2).
Proof. exact c59_tags_are_unique. Qed.
Print Assumptions C59_tags_are_unique.

Example C59_unique_example : forall v : version,
  is_ok (decrypt_with_assertions Mini v num_encoding (sealed_tok Mini v ia) key32 ia) = true /\
  is_ok (unwrap_pie Mini v WSecret (pie0 Mini v WSecret) key32) = true /\
  is_ok (pw_unwrap Mini v WSecret (pw0 Mini v WSecret) (str "password")) = true /\
  valid_key Mini v Secret (sk0 v) = true /\ is_ok (unseal Mini v (seal0 Mini v) (sk0 v)) = true.
Proof. evaluate. Qed.

(** C63: a local token accepted under two pairs of key and assertion: the pairs are equal, or
    the key derivation collides, or the MAC collides on explicit inputs. *)
Theorem C63_token_commits_to_key :
  forall (P : Prims) (M1 M2 F E : Type) (v : version) (EN1 : Encoding E M1) (EN2 : Encoding E M2)
         (t : SecuredToken F E) (key1 key2 i1 i2 : bytes) x1 x2,
  let n := body_nonce (st_payload t) in
  let c := body_cipher v (st_payload t) in
  let f := st_encoded_footer t in
  local_sizes v (suffix EN1) c f i1 -> local_sizes v (suffix EN2) c f i2 ->
  decrypt_with_assertions P v EN1 t key1 i1 = Ok x1 ->
  decrypt_with_assertions P v EN2 t key2 i2 = Ok x2 ->
  let a1 := local_ak P v key1 n in
  let a2 := local_ak P v key2 n in
  let m1 := PAE [local_header v (suffix EN1); n; c; f; i1] in
  let m2 := PAE [local_header v (suffix EN2); n; c; f; i2] in
  (key1 = key2 /\ i1 = i2 /\ suffix EN1 = suffix EN2) \/
  (key1 <> key2 /\ a1 = a2) \/
  ((a1, m1) <> (a2, m2) /\ mac P v a1 m1 = mac P v a2 m2).
Proof. exact c63_token_commits_to_key. Qed.
Print Assumptions C63_token_commits_to_key.

(** With a broken key derivation the second alternative does occur; with the other instance the
    second key is refused. *)
Example C63_token_example :
  decrypt_with_assertions Weak V4 num_encoding (sealed_tok Weak V4 ia) key32 ia =
    decrypt_with_assertions Weak V4 num_encoding (sealed_tok Weak V4 ia) other32 ia /\
  is_ok (decrypt_with_assertions Weak V4 num_encoding (sealed_tok Weak V4 ia) key32 ia) = true /\
  decrypt_with_assertions Mini V4 num_encoding (sealed_tok Mini V4 ia) other32 ia = Err CryptoError.
Proof. evaluate. Qed.
Example C63_token_sizes : forall v : version,
  let b := st_payload (sealed_tok Mini v ia) in
  local_sizes v (suffix num_encoding) (body_cipher v b) f0 ia.
Proof. evaluate. Qed.

(** C63: a wrapped key accepted under two wrapping keys. *)
Theorem C63_pie_commits_to_key :
  forall (P : Prims) (v : version) (w1 w2 : wtype) (x : PieWrapped) (wk1 wk2 k1 k2 : bytes),
  Sizes P ->
  unwrap_pie P v w1 x wk1 = Ok k1 -> unwrap_pie P v w2 x wk2 = Ok k2 ->
  let a1 := pie_ak P v wk1 (pie_nonce x) in
  let a2 := pie_ak P v wk2 (pie_nonce x) in
  let m1 := pie_h v w1 ++ pie_nonce x ++ pie_key x in
  let m2 := pie_h v w2 ++ pie_nonce x ++ pie_key x in
  (wk1 = wk2 /\ w1 = w2 /\ k1 = k2) \/ (wk1 <> wk2 /\ a1 = a2) \/
  ((a1, m1) <> (a2, m2) /\ mac P v a1 m1 = mac P v a2 m2).
Proof. exact c63_pie_commits_to_key. Qed.
Print Assumptions C63_pie_commits_to_key.

Example C63_pie_example : forall w : wtype,
  is_ok (unwrap_pie Weak V4 w (pie0 Weak V4 w) key32) = true /\
  is_ok (unwrap_pie Weak V4 w (pie0 Weak V4 w) other32) = true /\
  unwrap_pie Mini V4 w (pie0 Mini V4 w) other32 = Err CryptoError.
Proof. evaluate. Qed.

(** C63: a password-wrapped key accepted under two passwords. *)
Theorem C63_pw_commits_to_password :
  forall (P : Prims) (v : version) (w : wtype) (x : PwWrapped v) (pw1 pw2 k1 k2 : bytes),
  Sizes P ->
  pw_unwrap P v w x pw1 = Ok k1 -> pw_unwrap P v w x pw2 = Ok k2 ->
  let st := pw_settings x in
  let pre pw := pw_prekey P v pw (pw_salt x) (st_mem v st) (st_time v st) (st_para v st) (st_iters v st) in
  let a1 := pw_ak P v (pre pw1) in
  let a2 := pw_ak P v (pre pw2) in
  pw1 = pw2 \/
  (pw1 <> pw2 /\ pre pw1 = pre pw2) \/
  (pre pw1 <> pre pw2 /\ a1 = a2) \/
  (a1 <> a2 /\ exists m, mac P v a1 m = mac P v a2 m /\ starts (pw_h v w) m).
Proof. exact c63_pw_commits_to_password. Qed.
Print Assumptions C63_pw_commits_to_password.

Example C63_pw_example : forall v : version,
  is_ok (pw_unwrap Weak v WLocal (pw0 Weak v WLocal) (str "password")) = true /\
  is_ok (pw_unwrap Weak v WLocal (pw0 Weak v WLocal) (str "guess")) = true /\
  pw_unwrap Mini v WLocal (pw0 Mini v WLocal) (str "guess") = Err CryptoError.
Proof. evaluate. Qed.

(** C63: a sealed key opened by two secret keys: same public key in the hashes and same shared
    secret, or a collision of the key-derivation hash or of the MAC. *)
Theorem C63_seal_commits_to_recipient :
  forall (P : Prims) (v : version) (s : bytes) (x : Sealed) (sk1 sk2 k1 k2 xk1 xk2 : bytes),
  Sizes P -> seal_parse v s = Ok x ->
  valid_key P v Secret sk1 = true -> valid_key P v Secret sk2 = true ->
  recv_xk P v sk1 (sl_epk x) = Some xk1 -> recv_xk P v sk2 (sl_epk x) = Some xk2 ->
  unseal P v x sk1 = Ok k1 -> unseal P v x sk2 = Ok k2 ->
  let h1 := hashed_pk P v (public_key P v sk1) in
  let h2 := hashed_pk P v (public_key P v sk2) in
  let a1 := seal_ak P v xk1 (sl_epk x) h1 in
  let a2 := seal_ak P v xk2 (sl_epk x) h2 in
  let m := seal_h v ++ sl_epk x ++ sl_edk x in
  (xk1 = xk2 /\ h1 = h2 /\ k1 = k2) \/
  ((xk1, h1) <> (xk2, h2) /\ a1 = a2) \/
  (a1 <> a2 /\ mac P v a1 m = mac P v a2 m).
Proof. exact c63_seal_commits_to_recipient. Qed.
Print Assumptions C63_seal_commits_to_recipient.

Example C63_seal_example : forall v : version,
  valid_key Weak v Secret (sk0 v) = true /\ valid_key Weak v Secret (sk1 v) = true /\
  is_ok (unseal Weak v (seal0 Weak v) (sk0 v)) = true /\ is_ok (unseal Weak v (seal0 Weak v) (sk1 v)) = true /\
  unseal Mini v (seal0 Mini v) (sk1 v) = Err CryptoError.
Proof. evaluate. Qed.

(** C60: no message is given to the MAC, or to the hash, by two different features, even when
    they share a key. *)
Theorem C60_features_disjoint :
  forall (f g : feature) (m : bytes),
  (mac_use f m -> mac_use g m -> f = g) /\
  (forall out, hash_use f out m -> hash_use g out m -> f = g).
Proof. exact c60_features_disjoint. Qed.
Print Assumptions C60_features_disjoint.

(** The sets are inhabited: here is a message of each. *)
Example C60_example :
  mac_use FToken (str "paseto-encryption-key" ++ n0) /\ mac_use FPie (x80 :: n0) /\
  mac_use FPie (pie_h V4 WLocal ++ n0) /\ mac_use FPw (pw_h V3 WSecret ++ n0) /\ mac_use FSeal (seal_h V4 ++ n0) /\
  hash_use FSeal 24 n0 /\ hash_use FSeal 48 (x01 :: n0) /\ hash_use FPw 32 (xff :: n0) /\
  hash_use FId 33 (id_h V4 Secret ++ n0) /\ hash_use FSign 48 (LE64 5 ++ n0).
Proof.
  repeat split; try discriminate; cbn [mac_use hash_use].
  - left; exists n0; reflexivity.
  - left; exists n0; reflexivity.
  - right; right; exists V4, WLocal, n0; reflexivity.
  - exists V3, WSecret, n0; reflexivity.
  - exists V4, n0; reflexivity.
  - left; reflexivity.
  - right; left; exists n0; reflexivity.
  - right; exists n0; reflexivity.
  - exists V4, Secret, n0; reflexivity.
  - exists n0; reflexivity.
Qed.

(** C60: inside the key-wrapping features, version and key type are separated too: a tag message
    carries the header of exactly one kind of PASERK. *)
Theorem C60_headers_disjoint :
  forall (a b : text_kind) (m : bytes),
  is_paserk a = true -> is_paserk b = true ->
  starts (kind_header a) m -> starts (kind_header b) m -> a = b.
Proof. exact c60_headers_disjoint. Qed.
Print Assumptions C60_headers_disjoint.

Example C60_headers_example :
  is_paserk (KPie V4 WLocal) = true /\ starts (kind_header (KPie V4 WLocal)) (pie_h V4 WLocal ++ n0) /\
  ~ starts (kind_header (KPie V4 WSecret)) (pie_h V4 WLocal ++ n0).
Proof.
  split; [reflexivity|]. split; [exists n0; reflexivity|]. intros (r & H). vm_compute in H. discriminate H.
Qed.

(** C60: each operation depends on the hash functions only at the inputs of its own feature:
    replacing them everywhere else (in particular at all inputs of every other feature) changes
    nothing. *)
Theorem C60_token_operations_confined :
  forall (A : Asym) (S1 S2 : Sym) (M F E : Type) (v : version) (EN : Encoding E M) (FC : FooterCodec F),
  let P1 := {| sym := S1; asym := A |} in
  let P2 := {| sym := S2; asym := A |} in
  (agree FToken S1 S2 ->
   (forall t key i r, encrypt_with_rng P1 v EN FC t key i r = encrypt_with_rng P2 v EN FC t key i r) /\
   (forall (t : SecuredToken F E) key i,
      decrypt_with_assertions P1 v EN t key i = decrypt_with_assertions P2 v EN t key i)) /\
  (agree FSign S1 S2 ->
   (forall t sk i, sign_with_assertions P1 v EN FC t sk i = sign_with_assertions P2 v EN FC t sk i) /\
   (forall (t : SecuredToken F E) pk i,
      verify_with_assertions P1 v EN t pk i = verify_with_assertions P2 v EN t pk i)).
Proof. exact c60_token_operations_confined. Qed.
Print Assumptions C60_token_operations_confined.

(** Two different families that agree for local tokens: one refuses to hash anything. *)
Definition C60_nohash : Sym := {|
  sha384 := fun _ => []; hmac_sha384 := hmac_sha384 MiniSym; hkdf_sha384 := hkdf_sha384 MiniSym;
  aes256 := aes256 MiniSym; pbkdf2_sha384_32 := fun _ _ _ => []; blake2b := fun _ _ => [];
  blake2b_mac := fun o k m => if bseqb (firstn 1 m) [x6b] then [] else blake2b_mac MiniSym o k m;
  xchacha20_ks := xchacha20_ks MiniSym; argon2id_32 := fun _ _ _ _ _ => [] |}.
Example C60_agree_example : agree FToken MiniSym C60_nohash.
Proof.
  constructor; cbn [sha384 hmac_sha384 hkdf_sha384 aes256 blake2b blake2b_mac xchacha20_ks C60_nohash];
    [reflexivity| |intros m []|intros o m []|reflexivity|reflexivity|reflexivity|discriminate|discriminate].
  intros o k m H.
  assert (E : bseqb (firstn 1 m) [x6b] = false) by (destruct H as [(r & ->)|[(r & ->)|(r & ->)]]; reflexivity).
  rewrite E. reflexivity.
Qed.
Example C60_differ_example :
  to_id {| sym := C60_nohash; asym := asym Mini |} V4 Local key32 <> to_id Mini V4 Local key32.
Proof. vm_compute. discriminate. Qed.

(** C60: the same for the PASERK operations. *)
Theorem C60_paserk_operations_confined :
  forall (A : Asym) (S1 S2 : Sym) (v : version),
  let P1 := {| sym := S1; asym := A |} in
  let P2 := {| sym := S2; asym := A |} in
  (agree FPie S1 S2 -> forall w,
   (forall key wk r, wrap_pie P1 v w key wk r = wrap_pie P2 v w key wk r) /\
   (forall x wk, unwrap_pie P1 v w x wk = unwrap_pie P2 v w x wk)) /\
  (agree FPw S1 S2 -> forall w,
   (forall key pw st r, pw_wrap P1 v w key pw st r = pw_wrap P2 v w key pw st r) /\
   (forall x pw, pw_unwrap P1 v w x pw = pw_unwrap P2 v w x pw)) /\
  (agree FSeal S1 S2 ->
   (forall fuel pdk pk r, seal P1 v fuel pdk pk r = seal P2 v fuel pdk pk r) /\
   (forall x sk, unseal P1 v x sk = unseal P2 v x sk)) /\
  (agree FId S1 S2 -> forall k key, to_id P1 v k key = to_id P2 v k key).
Proof. exact c60_paserk_operations_confined. Qed.
Print Assumptions C60_paserk_operations_confined.

Example C60_paserk_agree_example :
  agree FId MiniSym {|
    sha384 := sha384 MiniSym; hmac_sha384 := fun _ _ => []; hkdf_sha384 := fun _ _ _ => []; aes256 := fun _ _ => [];
    pbkdf2_sha384_32 := fun _ _ _ => []; blake2b := fun o m => if (o =? 24)%nat then [] else blake2b MiniSym o m;
    blake2b_mac := fun _ _ _ => []; xchacha20_ks := fun _ _ _ => []; argon2id_32 := fun _ _ _ _ _ => [] |}.
Proof.
  constructor; [intros k m []|intros o k m []|intros m _; cbn [sha384]; reflexivity| |discriminate
    |intros _ []; reflexivity|intros _ []; reflexivity|discriminate|discriminate].
  intros o m (H & _).
  change (blake2b MiniSym o m = if (o =? 24)%nat then [] else blake2b MiniSym o m). destruct (Nat.eqb_spec o 24); [contradiction|reflexivity].
Qed.

(** C61: k3.public texts are not unique: a point in SEC1 "compact" form (tag 05) is accepted for
    the key whose printed text starts differently; its identifier is that of the printed text. *)
Theorem C61_k3_public_text_unique_refuted :
  forall (P : Prims) (x key : bytes),
  Laws P -> length x = 48 -> p_parse P (x05 :: x) = Some key -> (forall r, key <> x05 :: r) ->
  let s := plaintext_paserk V3 Public (x05 :: x) in
  exists s', plaintext_parse P V3 Public s = Ok key /\ plaintext_display P V3 Public key = Ok s' /\
    s' <> s /\ plaintext_parse P V3 Public s' = Ok key /\
    to_id P V3 Public key = Ok (id_hash P V3 (id_h V3 Public ++ s')).
Proof. exact c61_k3_public_text_unique_refuted. Qed.
Print Assumptions C61_k3_public_text_unique_refuted.

Example C61_example :
  length (tl (public_key Mini V3 (sk0 V3))) = 48 /\
  p_parse Mini (x05 :: tl (public_key Mini V3 (sk0 V3))) = Some (x02 :: tl (public_key Mini V3 (sk0 V3))).
Proof. evaluate. Qed.

(** C62: everything the crate prints consists of the characters A-Z a-z 0-9 - _ and dots, so it
    can be placed in URLs and headers unescaped (tokens: if the encoding's suffix can). *)
Theorem C62_printed_texts_are_url_safe :
  let safe := Forall (fun b => In b alphabet \/ b = x2e) in
  (forall (F E : Type) v p sfx (t : SecuredToken F E), safe sfx -> safe (token_display v p sfx t)) /\
  (forall P v k key s, plaintext_display P v k key = Ok s -> safe s) /\
  (forall v k id s, id_display v k id = Ok s -> safe s) /\
  (forall v w x s, pie_display v w x = Ok s -> safe s) /\
  (forall v w x s, pw_display v w x = Ok s -> safe s) /\
  (forall v x s, seal_display v x = Ok s -> safe s) /\
  (forall P k s, (forall v p sfx, k = KToken v p sfx -> safe sfx) -> accepts P k s -> safe s).
Proof. exact c62_printed_texts_are_url_safe. Qed.
Print Assumptions C62_printed_texts_are_url_safe.

Example C62_example : forall v : version,
  is_ok (plaintext_display Mini v Secret (sk0 v)) = true /\ is_ok (pie_display v WLocal (pie0 Mini v WLocal)) = true /\
  is_ok (pw_display v WLocal (pw0 Mini v WLocal)) = true /\ is_ok (seal_display v (seal0 Mini v)) = true /\
  is_ok (id_display v Public n0) = true.
Proof. evaluate. Qed.
Example C62_alphabet : In x41 alphabet /\ ~ In x2b alphabet /\ ~ In x2f alphabet /\ ~ In x3d alphabet.
Proof.
  split; [left; reflexivity|]. repeat split; vm_compute; intros H;
    repeat (destruct H as [H|H]; [discriminate H|]); exact H.
Qed.
