(** Model of src/crypto/sha2/sha256.c and src/crypto/sha2/sha512.c, and of the
    wrappers src/backend/ref/hash-sha256.c and hash-sha512.c *)
From Verif Require Import Base MHash.

(** ** Code common to both files
    The update functions of the two files are the same text except for the
    block length; [block] is 64 in sha256.c and 128 in sha512.c, and
    [transform h m] is the effect of the transform function on the h array.
    sha256.c:129-153, sha512.c:142-166.  [fuel] bounds the number of rounds of
    the while loop; each round consumes at least one byte, so the length of the
    data suffices. *)
Section Update.
Variable block : Z.
Variable transform : list Z -> list Z -> list Z.

Fixpoint sha2_update_loop (fuel : nat) (c : hctx) (d : list Z) : hctx :=
  match fuel with
  | O => c
  | S fuel' =>
    match d with
    | [] => c
    | _ :: _ =>
      if (hc_posn c =? 0) && (block <=? zlen d) then
        sha2_update_loop fuel'
          (HCtx (transform (hc_h c) (take block d)) (hc_m c)
                ((hc_length c + block * 8) mod 2^64) (hc_posn c))
          (drop block d)
      else
        let temp := block - hc_posn c in
        let temp := if zlen d <? temp then zlen d else temp in
        let m := splice (hc_posn c) (take temp d) (hc_m c) in
        let posn := hc_posn c + temp in
        let '(h, posn) := if block <=? posn then (transform (hc_h c) m, 0)
                          else (hc_h c, posn) in
        sha2_update_loop fuel'
          (HCtx h m ((hc_length c + temp * 8) mod 2^64) posn) (drop temp d)
    end
  end.
Definition sha2_update (c : hctx) (d : list Z) : hctx := sha2_update_loop (length d) c d.
End Update.

(* Word number [i] of an array. *)
Definition word_at (l : list Z) (i : nat) : Z := nth i l 0.

(** ** SHA-256 *)

(** sha256.c:40 *)
Definition ror32 (v n : Z) : Z := Z.lor (Z.shiftr v n) (Z.shiftl v (32 - n) mod 2^32).

(** sha256.c:44-61 *)
Definition sha256_k : list Z :=
  [ 0x428a2f98; 0x71374491; 0xb5c0fbcf; 0xe9b5dba5;
    0x3956c25b; 0x59f111f1; 0x923f82a4; 0xab1c5ed5;
    0xd807aa98; 0x12835b01; 0x243185be; 0x550c7dc3;
    0x72be5d74; 0x80deb1fe; 0x9bdc06a7; 0xc19bf174;
    0xe49b69c1; 0xefbe4786; 0xfc19dc6; 0x240ca1cc;
    0x2de92c6f; 0x4a7484aa; 0x5cb0a9dc; 0x76f988da;
    0x983e5152; 0xa831c66d; 0xb00327c8; 0xbf597fc7;
    0xc6e00bf3; 0xd5a79147; 0x6ca6351; 0x14292967;
    0x27b70a85; 0x2e1b2138; 0x4d2c6dfc; 0x53380d13;
    0x650a7354; 0x766a0abb; 0x81c2c92e; 0x92722c85;
    0xa2bfe8a1; 0xa81a664b; 0xc24b8b70; 0xc76c51a3;
    0xd192e819; 0xd6990624; 0xf40e3585; 0x106aa070;
    0x19a4c116; 0x1e376c08; 0x2748774c; 0x34b0bcb5;
    0x391c0cb3; 0x4ed8aa4a; 0x5b9cca4f; 0x682e6ff3;
    0x748f82ee; 0x78a5636f; 0x84c87814; 0x8cc70208;
    0x90befffa; 0xa4506ceb; 0xbef9a3f7; 0xc67178f2 ].

(** sha256.c:26-38 *)
Definition sha256_h0 : list Z :=
  [ 0x6a09e667; 0xbb67ae85; 0x3c6ef372; 0xa54ff53a;
    0x510e527f; 0x9b05688c; 0x1f83d9ab; 0x5be0cd19 ].
Definition sha256_reset (c : hctx) : hctx := HCtx sha256_h0 (hc_m c) 0 0.

(** sha256.c:77-83: sixteen big endian words *)
Definition load_be32 (m : list Z) : Z :=
  Z.lor (Z.lor (Z.lor (Z.shiftl (byte_at m 0) 24) (Z.shiftl (byte_at m 1) 16))
               (Z.shiftl (byte_at m 2) 8)) (byte_at m 3).
Definition sha256_load (m : list Z) : list Z :=
  map (fun i => load_be32 (drop (4 * Z.of_nat i) m)) (seq 0 16).

(** sha256.c:86-94 *)
Definition sha256_extend_step (w : list Z) (index : nat) : list Z :=
  w ++ [ (word_at w (index - 16) + word_at w (index - 7) +
          Z.lxor (Z.lxor (ror32 (word_at w (index - 15)) 7) (ror32 (word_at w (index - 15)) 18))
                 (Z.shiftr (word_at w (index - 15)) 3) +
          Z.lxor (Z.lxor (ror32 (word_at w (index - 2)) 17) (ror32 (word_at w (index - 2)) 19))
                 (Z.shiftr (word_at w (index - 2)) 10)) mod 2^32 ].
Definition sha256_schedule (m : list Z) : list Z :=
  fold_left sha256_extend_step (seq 16 48) (sha256_load m).

(** sha256.c:97-104: the SHA256_ROUND macro; returns the new (d, h) *)
Definition sha256_round (a b c d e f g h k w : Z) : Z * Z :=
  let temp1 := (h + k + w +
      Z.lxor (Z.lxor (ror32 e 6) (ror32 e 11)) (ror32 e 25) +
      Z.lxor (Z.land e f) (Z.land (Z.lxor e (2^32 - 1)) g)) mod 2^32 in
  let temp2 := (Z.lxor (Z.lxor (ror32 a 2) (ror32 a 13)) (ror32 a 22) +
      Z.lxor (Z.lxor (Z.land a b) (Z.land a c)) (Z.land b c)) mod 2^32 in
  ((d + temp1) mod 2^32, (temp1 + temp2) mod 2^32).

(** sha256.c:107-116: one pass of the main loop *)
Definition sha256_loop_body (W : list Z) (st : Z * Z * Z * Z * Z * Z * Z * Z) (index : nat) :=
  let '(a, b, c, d, e, f, g, h) := st in
  let k n := word_at sha256_k (index + n) in
  let w n := word_at W (index + n) in
  let '(d, h) := sha256_round a b c d e f g h (k 0%nat) (w 0%nat) in
  let '(c, g) := sha256_round h a b c d e f g (k 1%nat) (w 1%nat) in
  let '(b, f) := sha256_round g h a b c d e f (k 2%nat) (w 2%nat) in
  let '(a, e) := sha256_round f g h a b c d e (k 3%nat) (w 3%nat) in
  let '(h, d) := sha256_round e f g h a b c d (k 4%nat) (w 4%nat) in
  let '(g, c) := sha256_round d e f g h a b c (k 5%nat) (w 5%nat) in
  let '(f, b) := sha256_round c d e f g h a b (k 6%nat) (w 6%nat) in
  let '(e, a) := sha256_round b c d e f g h a (k 7%nat) (w 7%nat) in
  (a, b, c, d, e, f, g, h).

(** sha256.c:42-127 *)
Definition sha256_transform (hh m : list Z) : list Z :=
  let W := sha256_schedule m in
  let '(a, b, c, d, e, f, g, h) :=
    fold_left (sha256_loop_body W) [0; 8; 16; 24; 32; 40; 48; 56]%nat
      (word_at hh 0, word_at hh 1, word_at hh 2, word_at hh 3,
       word_at hh 4, word_at hh 5, word_at hh 6, word_at hh 7) in
  [ (word_at hh 0 + a) mod 2^32; (word_at hh 1 + b) mod 2^32; (word_at hh 2 + c) mod 2^32;
    (word_at hh 3 + d) mod 2^32; (word_at hh 4 + e) mod 2^32; (word_at hh 5 + f) mod 2^32;
    (word_at hh 6 + g) mod 2^32; (word_at hh 7 + h) mod 2^32 ].

(** sha256.c:129-153 *)
Definition sha256_update : hctx -> list Z -> hctx := sha2_update 64 sha256_transform.

(** sha256.c:155-161 *)
Definition write_be32 (v : Z) : list Z :=
  [Z.shiftr v 24 mod 256; Z.shiftr v 16 mod 256; Z.shiftr v 8 mod 256; v mod 256].

(** sha256.c:163-181 *)
Definition sha256_finish (c : hctx) : hctx * list Z :=
  let posn := hc_posn c in
  let m := splice posn [128] (hc_m c) in
  let '(h, m) :=
    if posn <=? 64 - 9 then (hc_h c, splice (posn + 1) (zeros (64 - 8 - (posn + 1))) m)
    else
      let m := splice (posn + 1) (zeros (64 - (posn + 1))) m in
      (sha256_transform (hc_h c) m, splice 0 (zeros (64 - 8)) m) in
  let m := splice (64 - 8) (write_be32 (Z.shiftr (hc_length c) 32 mod 2^32)) m in
  let m := splice (64 - 4) (write_be32 (hc_length c mod 2^32)) m in
  let h := sha256_transform h m in
  (HCtx h m (hc_length c) 0, concat (map (fun i => write_be32 (word_at h i)) (seq 0 8))).

(** src/backend/ref/hash-sha256.c:33-63 *)
Definition sha256_alg : hash_alg := {|
  ha_id := NOISE_ID 72 3;
  ha_hash_len := 32;
  ha_block_len := 64;
  ha_reset := sha256_reset;
  ha_update := sha256_update;
  ha_final := sha256_finish
|}.
(* A new object is zeroed: src/protocol/util.c:135-142 *)
Definition sha256_new : hctx := HCtx (zeros 8) (zeros 64) 0 0.

(** ** SHA-512 *)

(** sha512.c:38 *)
Definition ror64 (v n : Z) : Z := Z.lor (Z.shiftr v n) (Z.shiftl v (64 - n) mod 2^64).

(** sha512.c:42-70 *)
Definition sha512_k : list Z :=
  [ 0x428a2f98d728ae22; 0x7137449123ef65cd; 0xb5c0fbcfec4d3b2f;
    0xe9b5dba58189dbbc; 0x3956c25bf348b538; 0x59f111f1b605d019;
    0x923f82a4af194f9b; 0xab1c5ed5da6d8118; 0xd807aa98a3030242;
    0x12835b0145706fbe; 0x243185be4ee4b28c; 0x550c7dc3d5ffb4e2;
    0x72be5d74f27b896f; 0x80deb1fe3b1696b1; 0x9bdc06a725c71235;
    0xc19bf174cf692694; 0xe49b69c19ef14ad2; 0xefbe4786384f25e3;
    0xfc19dc68b8cd5b5; 0x240ca1cc77ac9c65; 0x2de92c6f592b0275;
    0x4a7484aa6ea6e483; 0x5cb0a9dcbd41fbd4; 0x76f988da831153b5;
    0x983e5152ee66dfab; 0xa831c66d2db43210; 0xb00327c898fb213f;
    0xbf597fc7beef0ee4; 0xc6e00bf33da88fc2; 0xd5a79147930aa725;
    0x6ca6351e003826f; 0x142929670a0e6e70; 0x27b70a8546d22ffc;
    0x2e1b21385c26c926; 0x4d2c6dfc5ac42aed; 0x53380d139d95b3df;
    0x650a73548baf63de; 0x766a0abb3c77b2a8; 0x81c2c92e47edaee6;
    0x92722c851482353b; 0xa2bfe8a14cf10364; 0xa81a664bbc423001;
    0xc24b8b70d0f89791; 0xc76c51a30654be30; 0xd192e819d6ef5218;
    0xd69906245565a910; 0xf40e35855771202a; 0x106aa07032bbd1b8;
    0x19a4c116b8d2d0c8; 0x1e376c085141ab53; 0x2748774cdf8eeb99;
    0x34b0bcb5e19b48a8; 0x391c0cb3c5c95a63; 0x4ed8aa4ae3418acb;
    0x5b9cca4f7763e373; 0x682e6ff3d6b2b8a3; 0x748f82ee5defb2fc;
    0x78a5636f43172f60; 0x84c87814a1f0ab72; 0x8cc702081a6439ec;
    0x90befffa23631e28; 0xa4506cebde82bde9; 0xbef9a3f7b2c67915;
    0xc67178f2e372532b; 0xca273eceea26619c; 0xd186b8c721c0c207;
    0xeada7dd6cde0eb1e; 0xf57d4f7fee6ed178; 0x6f067aa72176fba;
    0xa637dc5a2c898a6; 0x113f9804bef90dae; 0x1b710b35131c471b;
    0x28db77f523047d84; 0x32caab7b40c72493; 0x3c9ebe0a15c9bebc;
    0x431d67c49c100d4c; 0x4cc5d4becb3e42b6; 0x597f299cfc657e2a;
    0x5fcb6fab3ad6faec; 0x6c44198c4a475817 ].

(** sha512.c:26-36 *)
Definition sha512_h0 : list Z :=
  [ 0x6a09e667f3bcc908; 0xbb67ae8584caa73b; 0x3c6ef372fe94f82b;
    0xa54ff53a5f1d36f1; 0x510e527fade682d1; 0x9b05688c2b3e6c1f;
    0x1f83d9abfb41bd6b; 0x5be0cd19137e2179 ].
Definition sha512_reset (c : hctx) : hctx := HCtx sha512_h0 (hc_m c) 0 0.

(** sha512.c:86-96: sixteen big endian words *)
Definition load_be64 (m : list Z) : Z :=
  Z.lor (Z.lor (Z.lor (Z.lor (Z.lor (Z.lor (Z.lor
    (Z.shiftl (byte_at m 0) 56) (Z.shiftl (byte_at m 1) 48)) (Z.shiftl (byte_at m 2) 40))
    (Z.shiftl (byte_at m 3) 32)) (Z.shiftl (byte_at m 4) 24)) (Z.shiftl (byte_at m 5) 16))
    (Z.shiftl (byte_at m 6) 8)) (byte_at m 7).
Definition sha512_load (m : list Z) : list Z :=
  map (fun i => load_be64 (drop (8 * Z.of_nat i) m)) (seq 0 16).

(** sha512.c:99-107 *)
Definition sha512_extend_step (w : list Z) (index : nat) : list Z :=
  w ++ [ (word_at w (index - 16) + word_at w (index - 7) +
          Z.lxor (Z.lxor (ror64 (word_at w (index - 15)) 1) (ror64 (word_at w (index - 15)) 8))
                 (Z.shiftr (word_at w (index - 15)) 7) +
          Z.lxor (Z.lxor (ror64 (word_at w (index - 2)) 19) (ror64 (word_at w (index - 2)) 61))
                 (Z.shiftr (word_at w (index - 2)) 6)) mod 2^64 ].
Definition sha512_schedule (m : list Z) : list Z :=
  fold_left sha512_extend_step (seq 16 64) (sha512_load m).

(** sha512.c:110-117: the SHA512_ROUND macro; returns the new (d, h) *)
Definition sha512_round (a b c d e f g h k w : Z) : Z * Z :=
  let temp1 := (h + k + w +
      Z.lxor (Z.lxor (ror64 e 14) (ror64 e 18)) (ror64 e 41) +
      Z.lxor (Z.land e f) (Z.land (Z.lxor e (2^64 - 1)) g)) mod 2^64 in
  let temp2 := (Z.lxor (Z.lxor (ror64 a 28) (ror64 a 34)) (ror64 a 39) +
      Z.lxor (Z.lxor (Z.land a b) (Z.land a c)) (Z.land b c)) mod 2^64 in
  ((d + temp1) mod 2^64, (temp1 + temp2) mod 2^64).

(** sha512.c:120-129: one pass of the main loop *)
Definition sha512_loop_body (W : list Z) (st : Z * Z * Z * Z * Z * Z * Z * Z) (index : nat) :=
  let '(a, b, c, d, e, f, g, h) := st in
  let k n := word_at sha512_k (index + n) in
  let w n := word_at W (index + n) in
  let '(d, h) := sha512_round a b c d e f g h (k 0%nat) (w 0%nat) in
  let '(c, g) := sha512_round h a b c d e f g (k 1%nat) (w 1%nat) in
  let '(b, f) := sha512_round g h a b c d e f (k 2%nat) (w 2%nat) in
  let '(a, e) := sha512_round f g h a b c d e (k 3%nat) (w 3%nat) in
  let '(h, d) := sha512_round e f g h a b c d (k 4%nat) (w 4%nat) in
  let '(g, c) := sha512_round d e f g h a b c (k 5%nat) (w 5%nat) in
  let '(f, b) := sha512_round c d e f g h a b (k 6%nat) (w 6%nat) in
  let '(e, a) := sha512_round b c d e f g h a (k 7%nat) (w 7%nat) in
  (a, b, c, d, e, f, g, h).

(** sha512.c:40-140 *)
Definition sha512_transform (hh m : list Z) : list Z :=
  let W := sha512_schedule m in
  let '(a, b, c, d, e, f, g, h) :=
    fold_left (sha512_loop_body W) [0; 8; 16; 24; 32; 40; 48; 56; 64; 72]%nat
      (word_at hh 0, word_at hh 1, word_at hh 2, word_at hh 3,
       word_at hh 4, word_at hh 5, word_at hh 6, word_at hh 7) in
  [ (word_at hh 0 + a) mod 2^64; (word_at hh 1 + b) mod 2^64; (word_at hh 2 + c) mod 2^64;
    (word_at hh 3 + d) mod 2^64; (word_at hh 4 + e) mod 2^64; (word_at hh 5 + f) mod 2^64;
    (word_at hh 6 + g) mod 2^64; (word_at hh 7 + h) mod 2^64 ].

(** sha512.c:142-166 *)
Definition sha512_update : hctx -> list Z -> hctx := sha2_update 128 sha512_transform.

(** sha512.c:168-178 *)
Definition write_be64 (v : Z) : list Z :=
  [Z.shiftr v 56 mod 256; Z.shiftr v 48 mod 256; Z.shiftr v 40 mod 256; Z.shiftr v 32 mod 256;
   Z.shiftr v 24 mod 256; Z.shiftr v 16 mod 256; Z.shiftr v 8 mod 256; v mod 256].

(** sha512.c:180-198 *)
Definition sha512_finish (c : hctx) : hctx * list Z :=
  let posn := hc_posn c in
  let m := splice posn [128] (hc_m c) in
  let '(h, m) :=
    if posn <=? 128 - 17 then (hc_h c, splice (posn + 1) (zeros (128 - 16 - (posn + 1))) m)
    else
      let m := splice (posn + 1) (zeros (128 - (posn + 1))) m in
      (sha512_transform (hc_h c) m, splice 0 (zeros (128 - 16)) m) in
  let m := splice (128 - 16) (write_be64 0) m in
  let m := splice (128 - 8) (write_be64 (hc_length c)) m in
  let h := sha512_transform h m in
  (HCtx h m (hc_length c) 0, concat (map (fun i => write_be64 (word_at h i)) (seq 0 8))).

(** src/backend/ref/hash-sha512.c:33-63 *)
Definition sha512_alg : hash_alg := {|
  ha_id := NOISE_ID 72 4;
  ha_hash_len := 64;
  ha_block_len := 128;
  ha_reset := sha512_reset;
  ha_update := sha512_update;
  ha_final := sha512_finish
|}.
Definition sha512_new : hctx := HCtx (zeros 8) (zeros 128) 0 0.
