(** Model of src/crypto/blake2/blake2s.c and src/crypto/blake2/blake2b.c, and of
    the wrappers src/backend/ref/hash-blake2s.c and hash-blake2b.c *)
From Verif Require Import Base MHash MSha2.

(** ** Code common to both files
    The update and finish functions of the two files are the same text except
    for the block length; [block] is 64 in blake2s.c and 128 in blake2b.c.
    [transform h m length f0] is the effect of the transform function on the h
    array. *)
Section Update.
Variable block : Z.
Variable transform : list Z -> list Z -> Z -> Z -> list Z.

(** blake2s.c:213-243, blake2b.c:145-175.  [fuel] bounds the number of rounds
    of the while loop; every round consumes at least one byte. *)
Fixpoint blake2_update_loop (fuel : nat) (c : hctx) (d : list Z) : hctx :=
  match fuel with
  | O => c
  | S fuel' =>
    match d with
    | [] => c
    | _ :: _ =>
      let c := if hc_posn c =? block
               then HCtx (transform (hc_h c) (hc_m c) (hc_length c) 0) (hc_m c) (hc_length c) 0
               else c in
      if (block <? zlen d) && (hc_posn c =? 0) then
        let length := (hc_length c + block) mod 2^64 in
        blake2_update_loop fuel'
          (HCtx (transform (hc_h c) (take block d) length 0) (hc_m c) length (hc_posn c))
          (drop block d)
      else
        let len := block - hc_posn c in
        let len := if zlen d <? len then zlen d else len in
        blake2_update_loop fuel'
          (HCtx (hc_h c) (splice (hc_posn c) (take len d) (hc_m c))
                ((hc_length c + len) mod 2^64) (hc_posn c + len))
          (drop len d)
    end
  end.
Definition blake2_update (c : hctx) (d : list Z) : hctx := blake2_update_loop (length d) c d.

(** blake2s.c:245-249, blake2b.c:177-181: padding and last transform *)
Definition blake2_last (ones : Z) (c : hctx) : hctx :=
  let m := splice (hc_posn c) (zeros (block - hc_posn c)) (hc_m c) in
  HCtx (transform (hc_h c) m (hc_length c) ones) m (hc_length c) (hc_posn c).
End Update.

(* v[i] = x *)
Definition set_word (v : list Z) (i : nat) (x : Z) : list Z :=
  firstn i v ++ [x] ++ skipn (S i) v.

(** ** BLAKE2s *)

(** blake2s.c:34-42 *)
Definition blake2s_iv : list Z :=
  [ 0x6A09E667; 0xBB67AE85; 0x3C6EF372; 0xA54FF53A;
    0x510E527F; 0x9B05688C; 0x1F83D9AB; 0x5BE0CD19 ].

(** blake2s.c:44-63.  The two vectors of the vector build are kept as the
    eight words they hold. *)
Definition blake2s_h0 : list Z :=
  set_word blake2s_iv 0 (Z.lxor (word_at blake2s_iv 0) 0x01010020).
Definition blake2s_reset (c : hctx) : hctx := HCtx blake2s_h0 (hc_m c) 0 0.

(** blake2s.c:66-77 *)
Definition blake2s_sigma : list (list nat) :=
  [ [0; 1; 2; 3; 4; 5; 6; 7; 8; 9; 10; 11; 12; 13; 14; 15];
    [14; 10; 4; 8; 9; 15; 13; 6; 1; 12; 0; 2; 11; 7; 5; 3];
    [11; 8; 12; 0; 5; 2; 15; 13; 10; 14; 3; 6; 7; 1; 9; 4];
    [7; 9; 3; 1; 13; 12; 11; 14; 2; 6; 5; 10; 4; 0; 15; 8];
    [9; 0; 5; 7; 2; 4; 10; 15; 14; 1; 11; 12; 6; 8; 3; 13];
    [2; 12; 6; 10; 0; 11; 8; 3; 4; 13; 7; 5; 15; 14; 1; 9];
    [12; 5; 1; 15; 14; 13; 4; 10; 0; 7; 6; 3; 9; 2; 8; 11];
    [13; 11; 7; 14; 12; 1; 3; 9; 5; 0; 15; 4; 8; 6; 2; 10];
    [6; 15; 14; 9; 11; 3; 0; 8; 12; 2; 13; 7; 1; 4; 10; 5];
    [10; 2; 8; 4; 7; 6; 1; 5; 15; 11; 9; 14; 3; 12; 13; 0] ]%nat.
Definition sigma_at (sigma : list (list nat)) (r i : nat) : nat := nth i (nth r sigma []) O.

(** blake2s.c:83-93: the quarterRound macro on v[ia], v[ib], v[ic], v[id] *)
Definition blake2s_quarter (a b c d x y : Z) : Z * Z * Z * Z :=
  let a := (a + (b + x) mod 2^32) mod 2^32 in
  let d := ror32 (Z.lxor d a) 16 in
  let c := (c + d) mod 2^32 in
  let b := ror32 (Z.lxor b c) 12 in
  let a := (a + (b + y) mod 2^32) mod 2^32 in
  let d := ror32 (Z.lxor d a) 8 in
  let c := (c + d) mod 2^32 in
  let b := ror32 (Z.lxor b c) 7 in
  (a, b, c, d).
Definition blake2s_quarter_at (m : list Z) (r : nat) (v : list Z) (ia ib ic id i : nat) : list Z :=
  let '(a, b, c, d) := blake2s_quarter (word_at v ia) (word_at v ib) (word_at v ic) (word_at v id)
      (word_at m (sigma_at blake2s_sigma r (2 * i))) (word_at m (sigma_at blake2s_sigma r (2 * i + 1))) in
  set_word (set_word (set_word (set_word v ia a) ib b) ic c) id d.

(** blake2s.c:192-205: one of the ten rounds *)
Definition blake2s_round (m : list Z) (v : list Z) (r : nat) : list Z :=
  let v := blake2s_quarter_at m r v 0 4 8 12 0 in
  let v := blake2s_quarter_at m r v 1 5 9 13 1 in
  let v := blake2s_quarter_at m r v 2 6 10 14 2 in
  let v := blake2s_quarter_at m r v 3 7 11 15 3 in
  let v := blake2s_quarter_at m r v 0 5 10 15 4 in
  let v := blake2s_quarter_at m r v 1 6 11 12 5 in
  let v := blake2s_quarter_at m r v 2 7 8 13 6 in
  blake2s_quarter_at m r v 3 4 9 14 7.

(** blake2s.c:168-178: the sixteen message words.  On a little endian machine
    memcpy gives the integer whose base-256 digits are the bytes in memory. *)
Definition mem_word (m : list Z) : Z := fold_right (fun b acc => b + 256 * acc) 0 m.
Definition blake2s_load_le (m : list Z) : list Z :=
  map (fun i => mem_word (sub (4 * Z.of_nat i) 4 m)) (seq 0 16).
Definition load_le32 (m : list Z) : Z :=
  Z.lor (Z.lor (Z.lor (byte_at m 0) (Z.shiftl (byte_at m 1) 8))
               (Z.shiftl (byte_at m 2) 16)) (Z.shiftl (byte_at m 3) 24).
Definition blake2s_load_be (m : list Z) : list Z :=
  map (fun i => load_le32 (drop (4 * Z.of_nat i) m)) (seq 0 16).

(** blake2s.c:181-189 *)
Definition blake2s_v (h : list Z) (length f0 : Z) : list Z :=
  h ++ [ word_at blake2s_iv 0; word_at blake2s_iv 1; word_at blake2s_iv 2; word_at blake2s_iv 3;
         Z.lxor (word_at blake2s_iv 4) (length mod 2^32);
         Z.lxor (word_at blake2s_iv 5) (Z.shiftr length 32 mod 2^32);
         Z.lxor (word_at blake2s_iv 6) f0; word_at blake2s_iv 7 ].

(** blake2s.c:162-211: the scalar version; [load] is chosen by the byte order *)
Definition blake2s_transform_scalar (load : list Z -> list Z) (h m : list Z) (length f0 : Z) : list Z :=
  let mw := load m in
  let v := fold_left (blake2s_round mw) (seq 0 10) (blake2s_v h length f0) in
  map (fun i => Z.lxor (word_at h i) (Z.lxor (word_at v i) (word_at v (i + 8)))) (seq 0 8).

(** Vectors of four words, and the GCC/clang elementwise operators on them *)
Definition vec_map2 (f : Z -> Z -> Z) (x y : list Z) : list Z :=
  map (fun p => f (fst p) (snd p)) (combine x y).
Definition vec_add := vec_map2 (fun a b => (a + b) mod 2^32).
Definition vec_xor := vec_map2 Z.lxor.
Definition vec_ror (x : list Z) (n : Z) : list Z := map (fun a => ror32 a n) x.
(** blake2s.c:97-99 *)
Definition shuffle1 (x : list Z) := [word_at x 1; word_at x 2; word_at x 3; word_at x 0].
Definition shuffle2 (x : list Z) := [word_at x 2; word_at x 3; word_at x 0; word_at x 1].
Definition shuffle3 (x : list Z) := [word_at x 3; word_at x 0; word_at x 1; word_at x 2].
(** blake2s.c:102-112 *)
Definition blake2s_quarter_vec (a b c d mv0 mv1 : list Z) : list Z * list Z * list Z * list Z :=
  let a := vec_add a (vec_add b mv0) in
  let d := vec_ror (vec_xor d a) 16 in
  let c := vec_add c d in
  let b := vec_ror (vec_xor b c) 12 in
  let a := vec_add a (vec_add b mv1) in
  let d := vec_ror (vec_xor d a) 8 in
  let c := vec_add c d in
  let b := vec_ror (vec_xor b c) 7 in
  (a, b, c, d).
(** blake2s.c:137-156 *)
Definition blake2s_round_vec (m : list Z) (v : list Z * list Z * list Z * list Z) (r : nat) :=
  let '(v0, v1, v2, v3) := v in
  let s i := word_at m (sigma_at blake2s_sigma r i) in
  let mv0 := [s 0; s 2; s 4; s 6]%nat in
  let mv1 := [s 1; s 3; s 5; s 7]%nat in
  let '(v0, v1, v2, v3) := blake2s_quarter_vec v0 v1 v2 v3 mv0 mv1 in
  let v1 := shuffle1 v1 in
  let v2 := shuffle2 v2 in
  let v3 := shuffle3 v3 in
  let mv0 := [s 8; s 10; s 12; s 14]%nat in
  let mv1 := [s 9; s 11; s 13; s 15]%nat in
  let '(v0, v1, v2, v3) := blake2s_quarter_vec v0 v1 v2 v3 mv0 mv1 in
  let v1 := shuffle3 v1 in
  let v2 := shuffle2 v2 in
  let v3 := shuffle1 v3 in
  (v0, v1, v2, v3).
(** blake2s.c:119-161: the vector version *)
Definition blake2s_transform_vector (h m : list Z) (length f0 : Z) : list Z :=
  let mw := blake2s_load_le m in
  let h0 := firstn 4 h in
  let h1 := skipn 4 h in
  let v2 := [word_at blake2s_iv 0; word_at blake2s_iv 1; word_at blake2s_iv 2; word_at blake2s_iv 3] in
  let v3 := [Z.lxor (word_at blake2s_iv 4) (length mod 2^32);
             Z.lxor (word_at blake2s_iv 5) (Z.shiftr length 32 mod 2^32);
             Z.lxor (word_at blake2s_iv 6) f0; word_at blake2s_iv 7] in
  let '(v0, v1, v2, v3) := fold_left (blake2s_round_vec mw) (seq 0 10) (h0, h1, v2, v3) in
  vec_xor h0 (vec_xor v0 v2) ++ vec_xor h1 (vec_xor v1 v3).

(** The three builds of blake2s.c *)
Inductive build : Type := VectorLE | ScalarLE | ScalarBE.
Definition blake2s_transform (b : build) : list Z -> list Z -> Z -> Z -> list Z :=
  match b with
  | VectorLE => blake2s_transform_vector
  | ScalarLE => blake2s_transform_scalar blake2s_load_le
  | ScalarBE => blake2s_transform_scalar blake2s_load_be
  end.

(** blake2s.c:252-265: the digest.  memcpy from a word array on a little endian
    machine gives its base-256 digits, lowest first. *)
Fixpoint word_mem (n : nat) (v : Z) : list Z :=
  match n with O => [] | S n' => v mod 256 :: word_mem n' (v / 256) end.
Definition write_le32 (v : Z) : list Z :=
  [v mod 256; Z.shiftr v 8 mod 256; Z.shiftr v 16 mod 256; Z.shiftr v 24 mod 256].
Definition blake2s_out (b : build) (h : list Z) : list Z :=
  match b with
  | VectorLE | ScalarLE => concat (map (word_mem 4) h)
  | ScalarBE => concat (map (fun i => write_le32 (word_at h i)) (seq 0 8))
  end.

(** blake2s.c:213-266 *)
Definition blake2s_update (b : build) : hctx -> list Z -> hctx := blake2_update 64 (blake2s_transform b).
Definition blake2s_finish (b : build) (c : hctx) : hctx * list Z :=
  let c' := blake2_last 64 (blake2s_transform b) 0xFFFFFFFF c in
  (c', blake2s_out b (hc_h c')).

(** src/backend/ref/hash-blake2s.c:33-63 *)
Definition blake2s_alg (b : build) : hash_alg := {|
  ha_id := NOISE_ID 72 1;
  ha_hash_len := 32;
  ha_block_len := 64;
  ha_reset := blake2s_reset;
  ha_update := blake2s_update b;
  ha_final := blake2s_finish b
|}.
Definition blake2s_new : hctx := HCtx (zeros 8) (zeros 64) 0 0.

(** ** BLAKE2b (on a little endian machine) *)

(** blake2b.c:34-41 *)
Definition blake2b_iv : list Z :=
  [ 0x6a09e667f3bcc908; 0xbb67ae8584caa73b;
    0x3c6ef372fe94f82b; 0xa54ff53a5f1d36f1;
    0x510e527fade682d1; 0x9b05688c2b3e6c1f;
    0x1f83d9abfb41bd6b; 0x5be0cd19137e2179 ].

(** blake2b.c:43-55 *)
Definition blake2b_h0 : list Z :=
  set_word blake2b_iv 0 (Z.lxor (word_at blake2b_iv 0) 0x01010040).
Definition blake2b_reset (c : hctx) : hctx := HCtx blake2b_h0 (hc_m c) 0 0.

(** blake2b.c:58-71 *)
Definition blake2b_sigma : list (list nat) :=
  [ [0; 1; 2; 3; 4; 5; 6; 7; 8; 9; 10; 11; 12; 13; 14; 15];
    [14; 10; 4; 8; 9; 15; 13; 6; 1; 12; 0; 2; 11; 7; 5; 3];
    [11; 8; 12; 0; 5; 2; 15; 13; 10; 14; 3; 6; 7; 1; 9; 4];
    [7; 9; 3; 1; 13; 12; 11; 14; 2; 6; 5; 10; 4; 0; 15; 8];
    [9; 0; 5; 7; 2; 4; 10; 15; 14; 1; 11; 12; 6; 8; 3; 13];
    [2; 12; 6; 10; 0; 11; 8; 3; 4; 13; 7; 5; 15; 14; 1; 9];
    [12; 5; 1; 15; 14; 13; 4; 10; 0; 7; 6; 3; 9; 2; 8; 11];
    [13; 11; 7; 14; 12; 1; 3; 9; 5; 0; 15; 4; 8; 6; 2; 10];
    [6; 15; 14; 9; 11; 3; 0; 8; 12; 2; 13; 7; 1; 4; 10; 5];
    [10; 2; 8; 4; 7; 6; 1; 5; 15; 11; 9; 14; 3; 12; 13; 0];
    [0; 1; 2; 3; 4; 5; 6; 7; 8; 9; 10; 11; 12; 13; 14; 15];
    [14; 10; 4; 8; 9; 15; 13; 6; 1; 12; 0; 2; 11; 7; 5; 3] ]%nat.

(** blake2b.c:77-87 *)
Definition blake2b_quarter (a b c d x y : Z) : Z * Z * Z * Z :=
  let a := (a + (b + x) mod 2^64) mod 2^64 in
  let d := ror64 (Z.lxor d a) 32 in
  let c := (c + d) mod 2^64 in
  let b := ror64 (Z.lxor b c) 24 in
  let a := (a + (b + y) mod 2^64) mod 2^64 in
  let d := ror64 (Z.lxor d a) 16 in
  let c := (c + d) mod 2^64 in
  let b := ror64 (Z.lxor b c) 63 in
  (a, b, c, d).
Definition blake2b_quarter_at (m : list Z) (r : nat) (v : list Z) (ia ib ic id i : nat) : list Z :=
  let '(a, b, c, d) := blake2b_quarter (word_at v ia) (word_at v ib) (word_at v ic) (word_at v id)
      (word_at m (sigma_at blake2b_sigma r (2 * i))) (word_at m (sigma_at blake2b_sigma r (2 * i + 1))) in
  set_word (set_word (set_word (set_word v ia a) ib b) ic c) id d.

(** blake2b.c:125-138: one of the twelve rounds *)
Definition blake2b_round (m : list Z) (v : list Z) (r : nat) : list Z :=
  let v := blake2b_quarter_at m r v 0 4 8 12 0 in
  let v := blake2b_quarter_at m r v 1 5 9 13 1 in
  let v := blake2b_quarter_at m r v 2 6 10 14 2 in
  let v := blake2b_quarter_at m r v 3 7 11 15 3 in
  let v := blake2b_quarter_at m r v 0 5 10 15 4 in
  let v := blake2b_quarter_at m r v 1 6 11 12 5 in
  let v := blake2b_quarter_at m r v 2 7 8 13 6 in
  blake2b_quarter_at m r v 3 4 9 14 7.

(** blake2b.c:97-110 *)
Definition blake2b_load_le (m : list Z) : list Z :=
  map (fun i => mem_word (sub (8 * Z.of_nat i) 8 m)) (seq 0 16).
(* The big endian branch advances data by 4, not 8, per word. *)
Definition load_le64 (m : list Z) : Z :=
  Z.lor (Z.lor (Z.lor (Z.lor (Z.lor (Z.lor (Z.lor
    (byte_at m 0) (Z.shiftl (byte_at m 1) 8)) (Z.shiftl (byte_at m 2) 16))
    (Z.shiftl (byte_at m 3) 24)) (Z.shiftl (byte_at m 4) 32)) (Z.shiftl (byte_at m 5) 40))
    (Z.shiftl (byte_at m 6) 48)) (Z.shiftl (byte_at m 7) 56).
Definition blake2b_load_be (m : list Z) : list Z :=
  map (fun i => load_le64 (drop (4 * Z.of_nat i) m)) (seq 0 16).

(** blake2b.c:113-121 *)
Definition blake2b_v (h : list Z) (length f0 : Z) : list Z :=
  h ++ [ word_at blake2b_iv 0; word_at blake2b_iv 1; word_at blake2b_iv 2; word_at blake2b_iv 3;
         Z.lxor (word_at blake2b_iv 4) length;
         word_at blake2b_iv 5;
         Z.lxor (word_at blake2b_iv 6) f0; word_at blake2b_iv 7 ].

(** blake2b.c:89-143 *)
Definition blake2b_transform (load : list Z -> list Z) (h m : list Z) (length f0 : Z) : list Z :=
  let mw := load m in
  let v := fold_left (blake2b_round mw) (seq 0 12) (blake2b_v h length f0) in
  map (fun i => Z.lxor (word_at h i) (Z.lxor (word_at v i) (word_at v (i + 8)))) (seq 0 8).

(** blake2b.c:145-202, little endian branch *)
Definition blake2b_update : hctx -> list Z -> hctx := blake2_update 128 (blake2b_transform blake2b_load_le).
Definition blake2b_finish (c : hctx) : hctx * list Z :=
  let c' := blake2_last 128 (blake2b_transform blake2b_load_le) 0xFFFFFFFFFFFFFFFF c in
  (c', concat (map (word_mem 8) (hc_h c'))).

(** src/backend/ref/hash-blake2b.c:33-63 *)
Definition blake2b_alg : hash_alg := {|
  ha_id := NOISE_ID 72 2;
  ha_hash_len := 64;
  ha_block_len := 128;
  ha_reset := blake2b_reset;
  ha_update := blake2b_update;
  ha_final := blake2b_finish
|}.
Definition blake2b_new : hctx := HCtx (zeros 8) (zeros 128) 0 0.

(** ** BLAKE2b on a big endian machine
    blake2b.c:145-202 with the other branches.  The output loop advances [hash]
    by 4 per 8-byte word, so the words overlap and the end of the caller's
    buffer, whose old contents are [old], is not written. *)
Definition write_le64 (v : Z) : list Z :=
  [v mod 256; Z.shiftr v 8 mod 256; Z.shiftr v 16 mod 256; Z.shiftr v 24 mod 256;
   Z.shiftr v 32 mod 256; Z.shiftr v 40 mod 256; Z.shiftr v 48 mod 256; Z.shiftr v 56 mod 256].
Definition blake2b_update_be : hctx -> list Z -> hctx := blake2_update 128 (blake2b_transform blake2b_load_be).
Definition blake2b_finish_be (old : list Z) (c : hctx) : hctx * list Z :=
  let c' := blake2_last 128 (blake2b_transform blake2b_load_be) 0xFFFFFFFFFFFFFFFF c in
  (c', fold_left (fun out i => splice (4 * Z.of_nat i) (write_le64 (word_at (hc_h c') i)) out) (seq 0 8) old).
