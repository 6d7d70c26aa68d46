(** * ConcreteSym: executable symmetric primitives.

    An instance of [Sym] written from the public standards (FIPS 180-4, RFC 2104, RFC 5869,
    RFC 8018, FIPS 197, RFC 7693, RFC 8439 and draft-irtf-cfrg-xchacha, RFC 9106), for which
    [SymLaws] is proved in [ConcreteLemmas.v] and which is checked against the repository's
    test vectors in [Vectors*.v].  These are models of the dependency crates (sha2, hmac,
    hkdf, pbkdf2, aes, blake2, chacha20, argon2), not of code in /repo. *)
From Verif Require Import Bytes Prims.
Local Open Scope N_scope.

(** ** 64- and 32-bit words *)
Definition m64 : N := 18446744073709551615.
Definition w64 (x : N) : N := N.land x m64.
Definition add64 (x y : N) : N := w64 (x + y).
Definition ror64 (n x : N) : N := N.lor (N.shiftr x n) (w64 (N.shiftl x (64 - n))).
Definition m32 : N := 4294967295.
Definition w32 (x : N) : N := N.land x m32.
Definition add32 (x y : N) : N := w32 (x + y).
Definition rol32 (n x : N) : N := N.lor (w32 (N.shiftl x n)) (N.shiftr x (32 - n)).

(** Split in pieces of [n] bytes, the last possibly shorter. *)
Fixpoint pieces_fuel (fuel n : nat) (l : bytes) : list bytes :=
  match fuel with
  | O => []
  | S f => match l with [] => [] | _ => firstn n l :: pieces_fuel f n (skipn n l) end
  end.
Definition pieces (n : nat) (l : bytes) : list bytes := pieces_fuel (S (length l / n)) n l.

(** ** SHA-384 (FIPS 180-4) *)
Definition sha_k : list N :=
  [4794697086780616226; 8158064640168781261; 13096744586834688815;
   16840607885511220156; 4131703408338449720; 6480981068601479193;
   10538285296894168987; 12329834152419229976; 15566598209576043074;
   1334009975649890238; 2608012711638119052; 6128411473006802146;
   8268148722764581231; 9286055187155687089; 11230858885718282805;
   13951009754708518548; 16472876342353939154; 17275323862435702243;
   1135362057144423861; 2597628984639134821; 3308224258029322869;
   5365058923640841347; 6679025012923562964; 8573033837759648693;
   10970295158949994411; 12119686244451234320; 12683024718118986047;
   13788192230050041572; 14330467153632333762; 15395433587784984357;
   489312712824947311; 1452737877330783856; 2861767655752347644;
   3322285676063803686; 5560940570517711597; 5996557281743188959;
   7280758554555802590; 8532644243296465576; 9350256976987008742;
   10552545826968843579; 11727347734174303076; 12113106623233404929;
   14000437183269869457; 14369950271660146224; 15101387698204529176;
   15463397548674623760; 17586052441742319658; 1182934255886127544;
   1847814050463011016; 2177327727835720531; 2830643537854262169;
   3796741975233480872; 4115178125766777443; 5681478168544905931;
   6601373596472566643; 7507060721942968483; 8399075790359081724;
   8693463985226723168; 9568029438360202098; 10144078919501101548;
   10430055236837252648; 11840083180663258601; 13761210420658862357;
   14299343276471374635; 14566680578165727644; 15097957966210449927;
   16922976911328602910; 17689382322260857208; 500013540394364858;
   748580250866718886; 1242879168328830382; 1977374033974150939;
   2944078676154940804; 3659926193048069267; 4368137639120453308;
   4836135668995329356; 5532061633213252278; 6448918945643986474;
   6902733635092675308; 7801388544844847127]%N.

Definition sha_state : Type := N * N * N * N * N * N * N * N.
Definition sha384_iv : sha_state := (14680500436340154072, 7105036623409894663, 10473403895298186519, 1526699215303891257, 7436329637833083697, 10282925794625328401, 15784041429090275239, 5167115440072839076)%N.
Definition sha512_iv : sha_state := (7640891576956012808, 13503953896175478587, 4354685564936845355, 11912009170470909681, 5840696475078001361, 11170449401992604703, 2270897969802886507, 6620516959819538809)%N.

Definition sha_ch x y z := N.lxor (N.land x y) (N.land (N.lxor x m64) z).
Definition sha_maj x y z := N.lxor (N.lxor (N.land x y) (N.land x z)) (N.land y z).
Definition sha_S0 x := N.lxor (N.lxor (ror64 28 x) (ror64 34 x)) (ror64 39 x).
Definition sha_S1 x := N.lxor (N.lxor (ror64 14 x) (ror64 18 x)) (ror64 41 x).
Definition sha_s0 x := N.lxor (N.lxor (ror64 1 x) (ror64 8 x)) (N.shiftr x 7).
Definition sha_s1 x := N.lxor (N.lxor (ror64 19 x) (ror64 61 x)) (N.shiftr x 6).

(** One round per constant; [w] is the sliding window of 16 message words. *)
Fixpoint sha_rounds (ks : list N) (w : list N) (s : sha_state) : sha_state :=
  match ks with
  | [] => s
  | k :: ks' =>
      let '(a, b, c, d, e, f, g, h) := s in
      let w0 := nth 0 w 0 in
      let t1 := add64 (add64 (add64 (add64 h (sha_S1 e)) (sha_ch e f g)) k) w0 in
      let t2 := add64 (sha_S0 a) (sha_maj a b c) in
      let w16 := add64 (add64 (add64 (sha_s1 (nth 14 w 0)) (nth 9 w 0)) (sha_s0 (nth 1 w 0))) w0 in
      sha_rounds ks' (tl w ++ [w16]) (add64 t1 t2, a, b, c, add64 d t1, e, f, g)
  end.

Definition sha_block (s : sha_state) (block : bytes) : sha_state :=
  let '(a, b, c, d, e, f, g, h) := s in
  let '(a', b', c', d', e', f', g', h') := sha_rounds sha_k (map be_val (pieces 8 block)) s in
  (add64 a a', add64 b b', add64 c c', add64 d d', add64 e e', add64 f f', add64 g g', add64 h h').

Definition sha_pad (m : bytes) : bytes :=
  m ++ [x80] ++ repeat x00 ((128 - (length m + 17) mod 128) mod 128)%nat ++ be_bytes 16 (8 * nlen m).

Definition sha_out (s : sha_state) : bytes :=
  let '(a, b, c, d, e, f, g, h) := s in
  be_bytes 8 a ++ be_bytes 8 b ++ be_bytes 8 c ++ be_bytes 8 d ++
  be_bytes 8 e ++ be_bytes 8 f ++ be_bytes 8 g ++ be_bytes 8 h.

Definition sha2 (iv : sha_state) (m : bytes) : bytes :=
  sha_out (fold_left sha_block (pieces 128 (sha_pad m)) iv).
Definition c_sha384 (m : bytes) : bytes := firstn 48 (sha2 sha384_iv m).
Definition c_sha512 (m : bytes) : bytes := sha2 sha512_iv m.

(** ** HMAC-SHA-384 (RFC 2104) *)
Definition hmac_key (k : bytes) : bytes :=
  let k := if (128 <? length k)%nat then c_sha384 k else k in
  k ++ repeat x00 (128 - length k).
Definition c_hmac (k m : bytes) : bytes :=
  let k0 := hmac_key k in
  c_sha384 (map (bxor x5c) k0 ++ c_sha384 (map (bxor x36) k0 ++ m)).

(** ** HKDF-SHA-384 without salt (RFC 5869) *)
Fixpoint hkdf_expand (blocks : nat) (prk info prev : bytes) (i : N) : bytes :=
  match blocks with
  | O => []
  | S b =>
      let t := c_hmac prk (prev ++ info ++ [n2b i]) in
      t ++ hkdf_expand b prk info t (i + 1)
  end.
Definition c_hkdf (ikm info : bytes) (n : nat) : bytes :=
  firstn n (hkdf_expand ((n + 47) / 48) (c_hmac (repeat x00 48) ikm) info [] 1).

(** ** PBKDF2-HMAC-SHA-384, one 32-byte block (RFC 8018) *)
Definition c_pbkdf2 (pw salt : bytes) (iters : N) : bytes :=
  let u1 := c_hmac pw (salt ++ be_bytes 4 1) in
  firstn 32 (snd (N.iter (iters - 1)
                    (fun '(u, t) => let u' := c_hmac pw u in (u', bsxor t u')) (u1, u1))).

(** ** AES-256 (FIPS 197) *)
Definition sbox (b : byte) : byte :=
  match b with
  | x00 => x63 | x01 => x7c | x02 => x77 | x03 => x7b | x04 => xf2 | x05 => x6b | x06 => x6f | x07 => xc5
  | x08 => x30 | x09 => x01 | x0a => x67 | x0b => x2b | x0c => xfe | x0d => xd7 | x0e => xab | x0f => x76
  | x10 => xca | x11 => x82 | x12 => xc9 | x13 => x7d | x14 => xfa | x15 => x59 | x16 => x47 | x17 => xf0
  | x18 => xad | x19 => xd4 | x1a => xa2 | x1b => xaf | x1c => x9c | x1d => xa4 | x1e => x72 | x1f => xc0
  | x20 => xb7 | x21 => xfd | x22 => x93 | x23 => x26 | x24 => x36 | x25 => x3f | x26 => xf7 | x27 => xcc
  | x28 => x34 | x29 => xa5 | x2a => xe5 | x2b => xf1 | x2c => x71 | x2d => xd8 | x2e => x31 | x2f => x15
  | x30 => x04 | x31 => xc7 | x32 => x23 | x33 => xc3 | x34 => x18 | x35 => x96 | x36 => x05 | x37 => x9a
  | x38 => x07 | x39 => x12 | x3a => x80 | x3b => xe2 | x3c => xeb | x3d => x27 | x3e => xb2 | x3f => x75
  | x40 => x09 | x41 => x83 | x42 => x2c | x43 => x1a | x44 => x1b | x45 => x6e | x46 => x5a | x47 => xa0
  | x48 => x52 | x49 => x3b | x4a => xd6 | x4b => xb3 | x4c => x29 | x4d => xe3 | x4e => x2f | x4f => x84
  | x50 => x53 | x51 => xd1 | x52 => x00 | x53 => xed | x54 => x20 | x55 => xfc | x56 => xb1 | x57 => x5b
  | x58 => x6a | x59 => xcb | x5a => xbe | x5b => x39 | x5c => x4a | x5d => x4c | x5e => x58 | x5f => xcf
  | x60 => xd0 | x61 => xef | x62 => xaa | x63 => xfb | x64 => x43 | x65 => x4d | x66 => x33 | x67 => x85
  | x68 => x45 | x69 => xf9 | x6a => x02 | x6b => x7f | x6c => x50 | x6d => x3c | x6e => x9f | x6f => xa8
  | x70 => x51 | x71 => xa3 | x72 => x40 | x73 => x8f | x74 => x92 | x75 => x9d | x76 => x38 | x77 => xf5
  | x78 => xbc | x79 => xb6 | x7a => xda | x7b => x21 | x7c => x10 | x7d => xff | x7e => xf3 | x7f => xd2
  | x80 => xcd | x81 => x0c | x82 => x13 | x83 => xec | x84 => x5f | x85 => x97 | x86 => x44 | x87 => x17
  | x88 => xc4 | x89 => xa7 | x8a => x7e | x8b => x3d | x8c => x64 | x8d => x5d | x8e => x19 | x8f => x73
  | x90 => x60 | x91 => x81 | x92 => x4f | x93 => xdc | x94 => x22 | x95 => x2a | x96 => x90 | x97 => x88
  | x98 => x46 | x99 => xee | x9a => xb8 | x9b => x14 | x9c => xde | x9d => x5e | x9e => x0b | x9f => xdb
  | xa0 => xe0 | xa1 => x32 | xa2 => x3a | xa3 => x0a | xa4 => x49 | xa5 => x06 | xa6 => x24 | xa7 => x5c
  | xa8 => xc2 | xa9 => xd3 | xaa => xac | xab => x62 | xac => x91 | xad => x95 | xae => xe4 | xaf => x79
  | xb0 => xe7 | xb1 => xc8 | xb2 => x37 | xb3 => x6d | xb4 => x8d | xb5 => xd5 | xb6 => x4e | xb7 => xa9
  | xb8 => x6c | xb9 => x56 | xba => xf4 | xbb => xea | xbc => x65 | xbd => x7a | xbe => xae | xbf => x08
  | xc0 => xba | xc1 => x78 | xc2 => x25 | xc3 => x2e | xc4 => x1c | xc5 => xa6 | xc6 => xb4 | xc7 => xc6
  | xc8 => xe8 | xc9 => xdd | xca => x74 | xcb => x1f | xcc => x4b | xcd => xbd | xce => x8b | xcf => x8a
  | xd0 => x70 | xd1 => x3e | xd2 => xb5 | xd3 => x66 | xd4 => x48 | xd5 => x03 | xd6 => xf6 | xd7 => x0e
  | xd8 => x61 | xd9 => x35 | xda => x57 | xdb => xb9 | xdc => x86 | xdd => xc1 | xde => x1d | xdf => x9e
  | xe0 => xe1 | xe1 => xf8 | xe2 => x98 | xe3 => x11 | xe4 => x69 | xe5 => xd9 | xe6 => x8e | xe7 => x94
  | xe8 => x9b | xe9 => x1e | xea => x87 | xeb => xe9 | xec => xce | xed => x55 | xee => x28 | xef => xdf
  | xf0 => x8c | xf1 => xa1 | xf2 => x89 | xf3 => x0d | xf4 => xbf | xf5 => xe6 | xf6 => x42 | xf7 => x68
  | xf8 => x41 | xf9 => x99 | xfa => x2d | xfb => x0f | xfc => xb0 | xfd => x54 | xfe => xbb | xff => x16
  end.

(** multiplication by x in GF(2^8) *)
Definition xtime (b : byte) : byte :=
  let n := 2 * b2n b in
  if n <? 256 then n2b n else n2b (N.lxor n 283).

Definition nb (l : bytes) (i : nat) : byte := nth i l x00.

(** key schedule: [ws] holds the words produced so far, most recent first *)
Fixpoint aes_expand (count i : nat) (rcon : byte) (ws : list bytes) : list bytes :=
  match count with
  | O => ws
  | S c =>
      let temp := nth 0 ws [] in
      let old := nth 7 ws [] in
      let '(temp, rcon) :=
        if (i mod 8 =? 0)%nat then
          (bsxor (map sbox [nb temp 1; nb temp 2; nb temp 3; nb temp 0]) [rcon; x00; x00; x00], xtime rcon)
        else if (i mod 8 =? 4)%nat then (map sbox temp, rcon)
        else (temp, rcon) in
      aes_expand c (S i) rcon (bsxor old temp :: ws)
  end.
(** 15 round keys of 16 bytes *)
Definition aes_keys (key : bytes) : list bytes :=
  pieces 16 (concat (rev (aes_expand 52 8 x01 (rev (pieces 4 key))))).

Definition tab16 (f : nat -> byte) : bytes := map f (seq 0 16).
Definition add_round_key (k s : bytes) : bytes := tab16 (fun i => bxor (nb s i) (nb k i)).
Definition sub_shift (s : bytes) : bytes :=
  tab16 (fun i => sbox (nb s ((i + 4 * (i mod 4)) mod 16)%nat)).
Definition mix_columns (s : bytes) : bytes :=
  tab16 (fun i =>
    let c := (i / 4 * 4)%nat in
    let a := nb s (c + i mod 4) in
    let b := nb s (c + (i + 1) mod 4) in
    let d := nb s (c + (i + 2) mod 4) in
    let e := nb s (c + (i + 3) mod 4) in
    bxor (bxor (bxor (bxor (xtime a) (xtime b)) b) d) e).
Fixpoint aes_rounds (ks : list bytes) (s : bytes) : bytes :=
  match ks with
  | [] => s
  | [k] => add_round_key k (sub_shift s)
  | k :: ks' => aes_rounds ks' (add_round_key k (mix_columns (sub_shift s)))
  end.
Definition c_aes256 (key block : bytes) : bytes :=
  match aes_keys key with
  | [] => tab16 (nb block)
  | k :: ks => aes_rounds ks (add_round_key k block)
  end.

(** ** BLAKE2b (RFC 7693) *)
Definition sigma : list (list nat) :=
  [[0;1;2;3;4;5;6;7;8;9;10;11;12;13;14;15];
   [14;10;4;8;9;15;13;6;1;12;0;2;11;7;5;3];
   [11;8;12;0;5;2;15;13;10;14;3;6;7;1;9;4];
   [7;9;3;1;13;12;11;14;2;6;5;10;4;0;15;8];
   [9;0;5;7;2;4;10;15;14;1;11;12;6;8;3;13];
   [2;12;6;10;0;11;8;3;4;13;7;5;15;14;1;9];
   [12;5;1;15;14;13;4;10;0;7;6;3;9;2;8;11];
   [13;11;7;14;12;1;3;9;5;0;15;4;8;6;2;10];
   [6;15;14;9;11;3;0;8;12;2;13;7;1;4;10;5];
   [10;2;8;4;7;6;1;5;15;11;9;14;3;12;13;0]]%nat.

Definition set_nth (i : nat) (x : N) (l : list N) : list N := firstn i l ++ x :: skipn (S i) l.
Definition blake_g (v : list N) (a b c d : nat) (x y : N) : list N :=
  let va := nth a v 0 in let vb := nth b v 0 in let vc := nth c v 0 in let vd := nth d v 0 in
  let va := add64 (add64 va vb) x in
  let vd := ror64 32 (N.lxor vd va) in
  let vc := add64 vc vd in
  let vb := ror64 24 (N.lxor vb vc) in
  let va := add64 (add64 va vb) y in
  let vd := ror64 16 (N.lxor vd va) in
  let vc := add64 vc vd in
  let vb := ror64 63 (N.lxor vb vc) in
  set_nth a va (set_nth b vb (set_nth c vc (set_nth d vd v))).
Definition blake_round (m : list N) (v : list N) (s : list nat) : list N :=
  let x i := nth (nth i s O) m 0 in
  let v := blake_g v 0 4 8 12 (x 0%nat) (x 1%nat) in
  let v := blake_g v 1 5 9 13 (x 2%nat) (x 3%nat) in
  let v := blake_g v 2 6 10 14 (x 4%nat) (x 5%nat) in
  let v := blake_g v 3 7 11 15 (x 6%nat) (x 7%nat) in
  let v := blake_g v 0 5 10 15 (x 8%nat) (x 9%nat) in
  let v := blake_g v 1 6 11 12 (x 10%nat) (x 11%nat) in
  let v := blake_g v 2 7 8 13 (x 12%nat) (x 13%nat) in
  blake_g v 3 4 9 14 (x 14%nat) (x 15%nat).
Definition blake_iv : list N :=
  let '(a, b, c, d, e, f, g, h) := sha512_iv in [a; b; c; d; e; f; g; h].
Definition pad_to (n : nat) (l : bytes) : bytes := l ++ repeat x00 (n - length l).
(** [t]: bytes compressed so far including this block *)
Definition blake_f (h : list N) (block : bytes) (t : N) (final : bool) : list N :=
  let m := map le_val (pieces 8 (pad_to 128 block)) in
  let iv i := nth i blake_iv 0 in
  let v := h ++ [iv 0%nat; iv 1%nat; iv 2%nat; iv 3%nat;
                 N.lxor (iv 4%nat) (w64 t); N.lxor (iv 5%nat) (N.shiftr t 64);
                 if final then N.lxor (iv 6%nat) m64 else iv 6%nat; iv 7%nat] in
  let v := fold_left (blake_round m) (sigma ++ firstn 2 sigma) v in
  map (fun i => N.lxor (N.lxor (nth i h 0) (nth i v 0)) (nth (i + 8) v 0)) (seq 0 8).
Fixpoint blake_blocks (h : list N) (bs : list bytes) (t : N) : list N :=
  match bs with
  | [] => h
  | [b] => blake_f h b (t + nlen b) true
  | b :: bs' => blake_blocks (blake_f h b (t + 128) false) bs' (t + 128)
  end.
Definition blake_words (h : list N) : bytes := flat_map (fun i => le_bytes 8 (nth i h 0)) (seq 0 8).
Definition blake_init (o kk : N) : list N :=
  match blake_iv with
  | x :: r => N.lxor x (16842752 + 256 * kk + o) :: r
  | [] => []
  end.
Definition c_blake2b_mac (o : nat) (key m : bytes) : bytes :=
  let data := match key with [] => m | _ => pad_to 128 key ++ m end in
  let bs := match data with [] => [[]] | _ => pieces 128 data end in
  firstn o (blake_words (blake_blocks (blake_init (N.of_nat o) (nlen key)) bs 0)).
Definition c_blake2b (o : nat) (m : bytes) : bytes := c_blake2b_mac o [] m.

(** ** XChaCha20 (draft-irtf-cfrg-xchacha), 32-bit block counter *)
Definition chacha_qr (v : list N) (a b c d : nat) : list N :=
  let va := nth a v 0 in let vb := nth b v 0 in let vc := nth c v 0 in let vd := nth d v 0 in
  let va := add32 va vb in let vd := rol32 16 (N.lxor vd va) in
  let vc := add32 vc vd in let vb := rol32 12 (N.lxor vb vc) in
  let va := add32 va vb in let vd := rol32 8 (N.lxor vd va) in
  let vc := add32 vc vd in let vb := rol32 7 (N.lxor vb vc) in
  set_nth a va (set_nth b vb (set_nth c vc (set_nth d vd v))).
Definition chacha_double (v : list N) : list N :=
  let v := chacha_qr v 0 4 8 12 in let v := chacha_qr v 1 5 9 13 in
  let v := chacha_qr v 2 6 10 14 in let v := chacha_qr v 3 7 11 15 in
  let v := chacha_qr v 0 5 10 15 in let v := chacha_qr v 1 6 11 12 in
  let v := chacha_qr v 2 7 8 13 in chacha_qr v 3 4 9 14.
Definition chacha_20 (v : list N) : list N := Nat.iter 10 chacha_double v.
Definition chacha_const : list N := [1634760805; 857760878; 2036477234; 1797285236].
Definition words32 (b : bytes) : list N := map le_val (pieces 4 b).
Definition hchacha (key n16 : bytes) : bytes :=
  let v := chacha_20 (chacha_const ++ words32 key ++ words32 n16) in
  flat_map (fun i => le_bytes 4 (nth i v 0)) [0; 1; 2; 3; 12; 13; 14; 15]%nat.
Definition chacha_block (key n12 : bytes) (i : nat) : bytes :=
  let v := chacha_const ++ words32 key ++ [w32 (N.of_nat i)] ++ words32 n12 in
  let v' := chacha_20 v in
  flat_map (fun j => le_bytes 4 (add32 (nth j v 0) (nth j v' 0))) (seq 0 16).
Definition c_xchacha20 (key n24 : bytes) (n : nat) : bytes :=
  let k := hchacha key (firstn 16 n24) in
  let n12 := repeat x00 4 ++ skipn 16 n24 in
  firstn n (flat_map (chacha_block k n12) (seq 0 ((n + 63) / 64))).

(** ** Argon2id, version 0x13 (RFC 9106) *)
Definition le32 (n : N) : bytes := le_bytes 4 n.
(** variable-length hash H' *)
Fixpoint argon_v (n : nat) (v : bytes) : bytes :=
  match n with
  | O => v
  | S n' => firstn 32 v ++ argon_v n' (c_blake2b 64 v)
  end.
(** H'^1024: 31 links, of which the last contributes all of its 64 bytes *)
Definition argon_h1024 (m : bytes) : bytes := argon_v 30 (c_blake2b 64 (le32 1024 ++ m)).
Definition argon_h32 (m : bytes) : bytes := c_blake2b 32 (le32 32 ++ m).

Definition blamka (x y : N) : N := w64 (x + y + 2 * (w32 x * w32 y)).
Definition argon_gb (v : list N) (a b c d : nat) : list N :=
  let va := nth a v 0 in let vb := nth b v 0 in let vc := nth c v 0 in let vd := nth d v 0 in
  let va := blamka va vb in let vd := ror64 32 (N.lxor vd va) in
  let vc := blamka vc vd in let vb := ror64 24 (N.lxor vb vc) in
  let va := blamka va vb in let vd := ror64 16 (N.lxor vd va) in
  let vc := blamka vc vd in let vb := ror64 63 (N.lxor vb vc) in
  set_nth a va (set_nth b vb (set_nth c vc (set_nth d vd v))).
Definition argon_p (v : list N) : list N :=
  let v := argon_gb v 0 4 8 12 in let v := argon_gb v 1 5 9 13 in
  let v := argon_gb v 2 6 10 14 in let v := argon_gb v 3 7 11 15 in
  let v := argon_gb v 0 5 10 15 in let v := argon_gb v 1 6 11 12 in
  let v := argon_gb v 2 7 8 13 in argon_gb v 3 4 9 14.
Fixpoint xorw (a b : list N) : list N :=
  match a, b with x :: a', y :: b' => N.lxor x y :: xorw a' b' | _, _ => [] end.
(** compression function G on blocks of 128 words *)
Definition argon_g (x y : list N) : list N :=
  let r := xorw x y in
  let q := flat_map (fun i => argon_p (firstn 16 (skipn (16 * i) r))) (seq 0 8) in
  let cols := map (fun i => argon_p (flat_map (fun j => [nth (2 * i + 16 * j) q 0; nth (2 * i + 16 * j + 1) q 0])
                                              (seq 0 8))) (seq 0 8) in
  let z := flat_map (fun j => flat_map (fun i => let c := nth i cols [] in
                                                 [nth (2 * j) c 0; nth (2 * j + 1) c 0]) (seq 0 8)) (seq 0 8) in
  xorw z r.

(** memory: all blocks, lane after lane *)
Definition amem : Type := list (list N).
Definition aget (i : nat) (mem : amem) : list N := nth i mem [].
Definition aset (i : nat) (b : list N) (mem : amem) : amem := firstn i mem ++ b :: skipn (S i) mem.

(** passes t, lanes p, lane length q = 4 * sl *)
(** the 128 addresses of an input block of the data-independent mode *)
Definition argon_addr (t p sl : nat) (pass lane slice counter : nat) : list N :=
    let z := map N.of_nat [pass; lane; slice; (p * (4 * sl))%nat; t; 2%nat; counter] ++ repeat 0 121 in
    argon_g (repeat 0 128) (argon_g (repeat 0 128) z).
Definition argon_ref (p sl : nat) (pass slice lane idx : nat) (j : N) : nat :=
    let q := (4 * sl)%nat in
    let j1 := w32 j in
    let j2 := N.shiftr j 32 in
    let l := if ((pass =? 0) && (slice =? 0))%nat then lane else N.to_nat (j2 mod N.of_nat p) in
    let done := if (pass =? 0)%nat then (slice * sl)%nat else (q - sl)%nat in
    let w := if (l =? lane)%nat then (done + idx - 1)%nat
             else (done - (if (idx =? 0)%nat then 1 else 0))%nat in
    let x := N.shiftr (j1 * j1) 32 in
    let y := N.shiftr (N.of_nat w * x) 32 in
    let start := if (pass =? 0)%nat then 0%nat else ((slice + 1) * sl)%nat in
    (l * q + (start + (w - 1 - N.to_nat y)) mod q)%nat.
Fixpoint argon_segment (t p sl : nat) (n : nat) (pass slice lane idx : nat) (addr : list N) (mem : amem) : amem :=
    match n with
    | O => mem
    | S n' =>
        let q := (4 * sl)%nat in
        let independent := ((pass =? 0) && (slice <? 2))%nat in
        let addr := if independent && (idx mod 128 =? 0)%nat
                    then argon_addr t p sl pass lane slice (S (idx / 128)) else addr in
        let col := (slice * sl + idx)%nat in
        let cur := (lane * q + col)%nat in
        let mem :=
          if ((pass =? 0) && (col <? 2))%nat then mem else
          let prev := aget (lane * q + (col + q - 1) mod q) mem in
          let j := if independent then nth (idx mod 128) addr 0 else nth 0 prev 0 in
          let b := argon_g prev (aget (argon_ref p sl pass slice lane idx j) mem) in
          aset cur (if (pass =? 0)%nat then b else xorw (aget cur mem) b) mem in
        argon_segment t p sl n' pass slice lane (S idx) addr mem
    end.
Definition argon_fill (t p sl : nat) (mem : amem) : amem :=
    fold_left (fun mem pass =>
      fold_left (fun mem slice =>
        fold_left (fun mem lane => argon_segment t p sl sl pass slice lane 0 [] mem) (seq 0 p) mem)
        (seq 0 4) mem) (seq 0 t) mem.

Definition argon2id (m t p : N) (pw salt secret ad : bytes) : bytes :=
  let h0 := c_blake2b 64 (le32 p ++ le32 32 ++ le32 m ++ le32 t ++ le32 19 ++ le32 2 ++
                          le32 (nlen pw) ++ pw ++ le32 (nlen salt) ++ salt ++
                          le32 (nlen secret) ++ secret ++ le32 (nlen ad) ++ ad) in
  let sl := N.to_nat (m / (4 * p)) in
  let q := (4 * sl)%nat in
  let lanes := N.to_nat p in
  let first i k := map le_val (pieces 8 (argon_h1024 (h0 ++ le32 k ++ le32 (N.of_nat i)))) in
  let mem0 := flat_map (fun i => first i 0 :: first i 1 :: repeat [] (q - 2)) (seq 0 lanes) in
  let mem := argon_fill (N.to_nat t) lanes sl mem0 in
  let c := fold_left (fun acc i => xorw acc (aget (i * q + (q - 1)) mem)) (seq 1 (lanes - 1)) (aget (q - 1) mem) in
  argon_h32 (flat_map (le_bytes 8) c).
Definition c_argon2id (m t p : N) (pw salt : bytes) : bytes := argon2id m t p pw salt [] [].

Definition ConcreteSym : Sym := {|
  sha384 := c_sha384;
  hmac_sha384 := c_hmac;
  hkdf_sha384 := c_hkdf;
  aes256 := c_aes256;
  pbkdf2_sha384_32 := c_pbkdf2;
  blake2b := c_blake2b;
  blake2b_mac := c_blake2b_mac;
  xchacha20_ks := c_xchacha20;
  argon2id_32 := c_argon2id;
|}.
