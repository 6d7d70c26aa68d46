(** * CurveAsym: executable Ed25519, X25519 and ECDSA/ECDH over P-384.

    An instance of [Asym] written from RFC 8032, RFC 7748, FIPS 186-4, SEC 1 and RFC 6979
    (the crates ed25519-dalek, curve25519-dalek, p384 and ecdsa), used to replay the
    repository's test vectors through the model ([Vectors*.v]) and for C80-C82.
    [CurveLemmas.v] proves [Sizes] for it, [CurveGroup.v] and [CurveGroup384.v] prove [EdLaws]
    and [P384Laws].

    Simplifications: the PEM constructors read only documents with the usual DER layout (no
    general ASN.1); for the SEC1 "compact" tag 05 the even root is taken. *)
From Verif Require Import Bytes Base64 Outcome Prims ConcreteSym.
Local Open Scope N_scope.

(** ** The field of 2^255 - 19; representatives are below 2^255 + 400 *)
Definition p255 : N := 2 ^ 255 - 19.
Definition mask255 : N := 2 ^ 255 - 1.
Definition fold255 (x : N) : N := N.land x mask255 + 19 * N.shiftr x 255.
Definition red255 (x : N) : N := fold255 (fold255 x).
Definition f_add (a b : N) : N := red255 (a + b).
Definition f_sub (a b : N) : N := red255 (a + (2 * p255 - b)).
Definition f_mul (a b : N) : N := red255 (a * b).
Definition f_can (a : N) : N := a mod p255.
Definition f_eq (a b : N) : bool := f_can a =? f_can b.
Fixpoint f_pow (a : N) (e : positive) : N :=
  match e with
  | xH => a
  | xO e' => let r := f_pow a e' in f_mul r r
  | xI e' => let r := f_pow a e' in f_mul a (f_mul r r)
  end.
Definition f_inv (a : N) : N := f_pow a (N.succ_pos (p255 - 3)).

Definition ed_d : N := 37095705934669439343138083508754565189542113879843219016388785533085940283555.
Definition sqrt_m1 : N := 19681161376707505956807079304988542015446066515923890162744021073123829784752.

(** extended coordinates X, Y, Z, T *)
Definition ed_point : Type := N * N * N * N.
Definition ed_zero : ed_point := (0, 1, 1, 0).
Definition ed_base : ed_point :=
  let x := 15112221349535400772501151409588531511454012693041857206046113283949847762202 in
  let y := 46316835694926478169428394003475163141307993866256225615783033603165251855960 in
  (x, y, 1, f_mul x y).
Definition ed_add (p q : ed_point) : ed_point :=
  let '(x1, y1, z1, t1) := p in
  let '(x2, y2, z2, t2) := q in
  let a := f_mul (f_sub y1 x1) (f_sub y2 x2) in
  let b := f_mul (f_add y1 x1) (f_add y2 x2) in
  let c := f_mul (f_mul t1 (2 * ed_d)) t2 in
  let d := f_mul z1 (2 * z2) in
  let e := f_sub b a in let f := f_sub d c in let g := f_add d c in let h := f_add b a in
  (f_mul e f, f_mul g h, f_mul f g, f_mul e h).
Definition ed_dbl (p : ed_point) : ed_point :=
  let '(x, y, z, _) := p in
  let a := f_mul x x in let b := f_mul y y in let c := f_mul z (2 * z) in
  let h := f_add a b in
  let xy := f_add x y in
  let e := f_sub h (f_mul xy xy) in
  let g := f_sub a b in
  let f := f_add c g in
  (f_mul e f, f_mul g h, f_mul f g, f_mul e h).
Fixpoint ed_smul_pos (e : positive) (p : ed_point) : ed_point :=
  match e with
  | xH => p
  | xO e' => ed_dbl (ed_smul_pos e' p)
  | xI e' => ed_add p (ed_dbl (ed_smul_pos e' p))
  end.
Definition ed_smul (n : N) (p : ed_point) : ed_point :=
  match n with N0 => ed_zero | Npos e => ed_smul_pos e p end.
Definition ed_neg (p : ed_point) : ed_point :=
  let '(x, y, z, t) := p in (f_sub 0 x, y, z, f_sub 0 t).
Definition ed_compress (p : ed_point) : bytes :=
  let '(x, y, z, _) := p in
  let zi := f_inv z in
  let x := f_can (f_mul x zi) in
  let y := f_can (f_mul y zi) in
  le_bytes 32 (y + (if N.odd x then 2 ^ 255 else 0)).
Definition ed_decompress (b : bytes) : option ed_point :=
  let n := le_val b in
  let y := N.land n mask255 in
  let sign := N.testbit n 255 in
  let yy := f_mul y y in
  let u := f_sub yy 1 in
  let v := f_add (f_mul ed_d yy) 1 in
  let v3 := f_mul v (f_mul v v) in
  let v7 := f_mul v (f_mul v3 v3) in
  let x := f_mul (f_mul u v3) (f_pow (f_mul u v7) (N.succ_pos ((p255 - 5) / 8 - 1))) in
  let vxx := f_mul v (f_mul x x) in
  let x := if f_eq vxx u then Some x
           else if f_eq vxx (f_sub 0 u) then Some (f_mul x sqrt_m1) else None in
  match x with
  | Some x =>
      let x := f_can x in
      let x := if Bool.eqb (N.odd x) sign then x else f_sub 0 x in
      Some (x, y, 1, f_mul x y)
  | None => None
  end.

(** order of the base point *)
Definition ed_l : N := 7237005577332262213973186563042994240857116359379907606001950938285454250989.
Definition clamp (b : bytes) : N :=
  N.lor (2 ^ 254) (8 * (le_val b / 8 mod 2 ^ 251)).
Definition curve_ed_scalar (seed : bytes) : bytes :=
  le_bytes 32 (clamp (firstn 32 (c_sha512 seed)) mod ed_l).
Definition curve_ed_pub (seed : bytes) : bytes :=
  ed_compress (ed_smul (le_val (curve_ed_scalar seed)) ed_base).
Definition curve_ed_pk_ok (pk : bytes) : bool :=
  (length pk =? 32)%nat && match ed_decompress pk with Some _ => true | None => false end.
Definition curve_ed_sign (seed m : bytes) : bytes :=
  let s := le_val (curve_ed_scalar seed) in
  let pk := curve_ed_pub seed in
  let r := le_val (c_sha512 (skipn 32 (c_sha512 seed) ++ m)) mod ed_l in
  let rb := ed_compress (ed_smul r ed_base) in
  let k := le_val (c_sha512 (rb ++ pk ++ m)) mod ed_l in
  rb ++ le_bytes 32 ((r + k * s) mod ed_l).
Definition curve_ed_verify (pk m sg : bytes) : bool :=
  let rb := firstn 32 sg in
  let s := le_val (skipn 32 sg) in
  match ed_decompress pk with
  | Some a =>
      (s <? ed_l) &&
      let k := le_val (c_sha512 (rb ++ pk ++ m)) mod ed_l in
      bseqb rb (ed_compress (ed_add (ed_smul s ed_base) (ed_smul k (ed_neg a))))
  | None => false
  end.
Definition ed_point_to_mont (p : ed_point) : bytes :=
  let '(_, y, z, _) := p in
  le_bytes 32 (f_can (f_mul (f_add z y) (f_inv (f_sub z y)))).
Definition curve_ed_to_mont (pk : bytes) : bytes :=
  match ed_decompress pk with
  | Some p => ed_point_to_mont p
  | None => repeat x00 32
  end.
Definition curve_x_scalar (b : bytes) : bytes := le_bytes 32 (clamp b mod ed_l).
Definition curve_x_base (s : bytes) : bytes := ed_point_to_mont (ed_smul (le_val s) ed_base).

(** Montgomery ladder, RFC 7748 section 5; bit number [i - 1] next *)
Fixpoint ladder (i : nat) (k x1 x2 z2 x3 z3 : N) : N * N :=
  match i with
  | O => (x2, z2)
  | S i' =>
      let kt := N.testbit k (N.of_nat i') in
      let '(x2, x3) := if kt then (x3, x2) else (x2, x3) in
      let '(z2, z3) := if kt then (z3, z2) else (z2, z3) in
      let a := f_add x2 z2 in let aa := f_mul a a in
      let b := f_sub x2 z2 in let bb := f_mul b b in
      let e := f_sub aa bb in
      let c := f_add x3 z3 in let d := f_sub x3 z3 in
      let da := f_mul d a in let cb := f_mul c b in
      let s := f_add da cb in let t := f_sub da cb in
      let x3 := f_mul s s in
      let z3 := f_mul x1 (f_mul t t) in
      let x2 := f_mul aa bb in
      let z2 := f_mul e (f_add aa (f_mul 121665 e)) in
      let '(x2, x3) := if kt then (x3, x2) else (x2, x3) in
      let '(z2, z3) := if kt then (z3, z2) else (z2, z3) in
      ladder i' k x1 x2 z2 x3 z3
  end.
Definition curve_x_mul (s u : bytes) : bytes :=
  let x1 := N.land (le_val u) mask255 in
  let '(x, z) := ladder 255 (le_val s) x1 1 0 x1 1 in
  le_bytes 32 (f_can (f_mul x (f_inv z))).

(** ** The field of P-384; representatives are below 2^384 *)
Definition p384 : N := 2 ^ 384 - 2 ^ 128 - 2 ^ 96 + 2 ^ 32 - 1.
Definition mask384 : N := 2 ^ 384 - 1.
Definition fold384 (x : N) : N :=
  let h := N.shiftr x 384 in
  N.land x mask384 + (N.shiftl h 128 + N.shiftl h 96 + h - N.shiftl h 32).
Definition red384 (x : N) : N := fold384 (fold384 (fold384 x)).
Definition g_add (a b : N) : N := red384 (a + b).
Definition g_sub (a b : N) : N := red384 (a + (2 * p384 - b)).
Definition g_mul (a b : N) : N := red384 (a * b).
Definition g_can (a : N) : N := if a <? p384 then a else a - p384.
Definition g_is0 (a : N) : bool := g_can a =? 0.
Fixpoint g_pow (a : N) (e : positive) : N :=
  match e with
  | xH => a
  | xO e' => let r := g_pow a e' in g_mul r r
  | xI e' => let r := g_pow a e' in g_mul a (g_mul r r)
  end.
Definition g_inv (a : N) : N := g_pow a (N.succ_pos (p384 - 3)).
Definition p384_b : N := 27580193559959705877849011840389048093056905856361568521428707301988689241309860865136260764883745107765439761230575.

(** Jacobian coordinates; z = 0 is the neutral element *)
Definition j_point : Type := N * N * N.
Definition j_zero : j_point := (1, 1, 0).
Definition j_base : j_point :=
  (26247035095799689268623156744566981891852923491109213387815615900925518854738050089022388053975719786650872476732087,
   8325710961489029985546751289520108179287853048861315594709205902480503199884419224438643760392947333078086511627871, 1).
Definition j_dbl (p : j_point) : j_point :=
  let '(x, y, z) := p in
  let delta := g_mul z z in let gamma := g_mul y y in let beta := g_mul x gamma in
  let alpha := g_mul 3 (g_mul (g_sub x delta) (g_add x delta)) in
  let x3 := g_sub (g_mul alpha alpha) (red384 (8 * beta)) in
  let yz := g_add y z in
  let z3 := g_sub (g_sub (g_mul yz yz) gamma) delta in
  let y3 := g_sub (g_mul alpha (g_sub (red384 (4 * beta)) x3)) (red384 (8 * g_mul gamma gamma)) in
  (x3, y3, z3).
Definition j_add (p q : j_point) : j_point :=
  let '(x1, y1, z1) := p in
  let '(x2, y2, z2) := q in
  if g_is0 z1 then q else if g_is0 z2 then p else
  let z1z1 := g_mul z1 z1 in let z2z2 := g_mul z2 z2 in
  let u1 := g_mul x1 z2z2 in let u2 := g_mul x2 z1z1 in
  let s1 := g_mul (g_mul y1 z2) z2z2 in let s2 := g_mul (g_mul y2 z1) z1z1 in
  let h := g_sub u2 u1 in let r := g_sub s2 s1 in
  if g_is0 h then (if g_is0 r then j_dbl p else j_zero) else
  let hh := g_mul h h in let hhh := g_mul h hh in let v := g_mul u1 hh in
  let x3 := g_sub (g_sub (g_mul r r) hhh) (red384 (2 * v)) in
  let y3 := g_sub (g_mul r (g_sub v x3)) (g_mul s1 hhh) in
  (x3, y3, g_mul (g_mul z1 z2) h).
Fixpoint j_smul_pos (e : positive) (p : j_point) : j_point :=
  match e with
  | xH => p
  | xO e' => j_dbl (j_smul_pos e' p)
  | xI e' => j_add p (j_dbl (j_smul_pos e' p))
  end.
Definition j_smul (n : N) (p : j_point) : j_point :=
  match n with N0 => j_zero | Npos e => j_smul_pos e p end.
(** affine coordinates *)
Definition j_affine (p : j_point) : option (N * N) :=
  let '(x, y, z) := p in
  if g_is0 z then None else
  let zi := g_inv z in let zi2 := g_mul zi zi in
  Some (g_can (g_mul x zi2), g_can (g_mul y (g_mul zi zi2))).
Definition j_compress (p : j_point) : bytes :=
  match j_affine p with
  | Some (x, y) => (if N.odd y then x03 else x02) :: be_bytes 48 x
  | None => [x00]
  end.
Definition g_rhs (x : N) : N := g_add (g_sub (g_mul x (g_mul x x)) (g_mul 3 x)) p384_b.
Definition j_lift (odd : bool) (xb : bytes) : option j_point :=
  let x := be_val xb in
  if (length xb =? 48)%nat && (x <? p384) then
    let yy := g_rhs x in
    let y := g_can (g_pow yy (N.succ_pos ((p384 + 1) / 4 - 1))) in
    if g_is0 (g_sub (g_mul y y) yy)
    then Some (x, if Bool.eqb (N.odd y) odd then y else g_can (g_sub 0 y), 1) else None
  else None.
Definition j_decode (b : bytes) : option j_point :=
  match b with
  | x02 :: r => j_lift false r
  | x03 :: r => j_lift true r
  | x05 :: r => j_lift false r
  | x04 :: r =>
      let x := be_val (firstn 48 r) in
      let y := be_val (skipn 48 r) in
      if (length r =? 96)%nat && (x <? p384) && (y <? p384) && g_is0 (g_sub (g_mul y y) (g_rhs x))
      then Some (x, y, 1) else None
  | _ => None
  end.

(** arithmetic modulo the group order *)
Definition n_mul (a b : N) : N := a * b mod p384_n.
Fixpoint n_pow (a : N) (e : positive) : N :=
  match e with
  | xH => a
  | xO e' => let r := n_pow a e' in n_mul r r
  | xI e' => let r := n_pow a e' in n_mul a (n_mul r r)
  end.
Definition n_inv (a : N) : N := n_pow a (N.succ_pos (p384_n - 3)).

Definition curve_p_sk_slice (b : bytes) : option bytes :=
  let k := repeat x00 (48 - length b) ++ b in
  if (24 <=? length b)%nat && p_scalar_ok k then Some k else None.
Definition curve_p_pub (s : bytes) : bytes := j_compress (j_smul (be_val s) j_base).
Definition curve_p_parse (b : bytes) : option bytes :=
  match j_decode b with Some p => Some (j_compress p) | None => None end.
(** PEM: the text between the first line and the next dash, in the standard alphabet *)
Fixpoint pem_body (s : bytes) : bytes :=
  match s with
  | [] => []
  | x2d :: _ => []
  | x0a :: r | x0d :: r | x3d :: r => pem_body r
  | x2b :: r => x2d :: pem_body r
  | x2f :: r => x5f :: pem_body r
  | b :: r => b :: pem_body r
  end.
Definition pem_decode (label s : bytes) : option bytes :=
  match strip_prefix (str "-----BEGIN " ++ label ++ str "-----") s with
  | Some r => decode_vec (pem_body r)
  | None => None
  end.
(** SEC1 ECPrivateKey: SEQUENCE (long form), INTEGER 1, OCTET STRING of 48 bytes *)
Definition curve_p_sk_pem (s : bytes) : option bytes :=
  match pem_decode (str "EC PRIVATE KEY") s with
  | Some (x30 :: x81 :: _ :: x02 :: x01 :: x01 :: x04 :: x30 :: r) =>
      let k := firstn 48 r in if p_scalar_ok k then Some k else None
  | _ => None
  end.
(** SubjectPublicKeyInfo: 23 bytes of header, then the SEC1 point *)
Definition curve_p_pk_pem (s : bytes) : option bytes :=
  match pem_decode (str "PUBLIC KEY") s with
  | Some d => curve_p_parse (skipn 23 d)
  | None => None
  end.
(** RFC 6979 with HMAC-SHA-384 *)
Fixpoint rfc6979_loop (fuel : nat) (k v : bytes) : option N :=
  match fuel with
  | O => None
  | S f =>
      let v := c_hmac k v in
      if p_scalar_ok v then Some (be_val v)
      else let k := c_hmac k (v ++ [x00]) in rfc6979_loop f k (c_hmac k v)
  end.
Definition rfc6979 (x h : bytes) : option N :=
  let v := repeat x01 48 in
  let k := c_hmac (repeat x00 48) (v ++ [x00] ++ x ++ h) in
  let v := c_hmac k v in
  let k := c_hmac k (v ++ [x01] ++ x ++ h) in
  rfc6979_loop 16 k (c_hmac k v).
Definition curve_p_sign (s d : bytes) : option bytes :=
  let z := be_val d mod p384_n in
  match rfc6979 s (be_bytes 48 z) with
  | Some k =>
      match j_affine (j_smul k j_base) with
      | Some (x, _) =>
          let r := x mod p384_n in
          let sv := n_mul (n_inv k) ((z + n_mul r (be_val s)) mod p384_n) in
          if (r =? 0) || (sv =? 0) then None else Some (be_bytes 48 r ++ be_bytes 48 sv)
      | None => None
      end
  | None => None
  end.
Definition curve_p_verify (pk d sg : bytes) : bool :=
  let z := be_val d mod p384_n in
  let r := be_val (firstn 48 sg) in
  let w := n_inv (be_val (skipn 48 sg)) in
  match j_decode pk with
  | Some q =>
      match j_affine (j_add (j_smul (n_mul z w) j_base) (j_smul (n_mul r w) q)) with
      | Some (x, _) => x mod p384_n =? r
      | None => false
      end
  | None => false
  end.
Definition curve_p_dh (s k : bytes) : bytes :=
  match j_decode k with
  | Some q =>
      match j_affine (j_smul (be_val s) q) with
      | Some (x, _) => be_bytes 48 x
      | None => repeat x00 48
      end
  | None => repeat x00 48
  end.

Definition CurveAsym : Asym := {|
  ed_pub := curve_ed_pub;
  ed_pk_ok := curve_ed_pk_ok;
  ed_sign := curve_ed_sign;
  ed_verify := curve_ed_verify;
  ed_to_mont := curve_ed_to_mont;
  ed_scalar := curve_ed_scalar;
  x_scalar := curve_x_scalar;
  x_base := curve_x_base;
  x_mul := curve_x_mul;
  p_sk_slice := curve_p_sk_slice;
  p_sk_pem := curve_p_sk_pem;
  p_pk_pem := curve_p_pk_pem;
  p_pub := curve_p_pub;
  p_parse := curve_p_parse;
  p_sign := curve_p_sign;
  p_verify := curve_p_verify;
  p_dh := curve_p_dh;
|}.

(** Every primitive real: the instance for test vectors. *)
Definition Real : Prims := {| sym := ConcreteSym; asym := CurveAsym |}.
