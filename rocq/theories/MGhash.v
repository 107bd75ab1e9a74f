(** Model of src/crypto/ghash/ghash.c *)
From Verif Require Import Base MHash MSha2 MBlake2.

(** GHASH_WORD64 (ghash.h:28-30) chooses 64-bit words; the byte order is that of
    the machine *)
Record gh_build : Type := GhBuild { gh_word64 : bool; gh_big : bool }.

(** A word in memory *)
Definition gh_load (big : bool) (m : list Z) : Z := if big then mem_word (rev m) else mem_word m.
Definition gh_store (big : bool) (n : nat) (v : Z) : list Z :=
  let m := map (fun k => Z.shiftr v (8 * Z.of_nat k) mod 256) (seq 0 n) in
  if big then rev m else m.

(** ghash.c:54-68 *)
Definition swap_endian64 (big : bool) (x : Z) : Z :=
  if big then x
  else
    let shl k := Z.shiftl x k mod 2^64 in
    Z.lor (Z.lor (Z.lor (Z.lor (Z.lor (Z.lor (Z.lor
      (Z.land (Z.shiftr x 56) 0x00000000000000FF)
      (Z.land (Z.shiftr x 40) 0x000000000000FF00))
      (Z.land (Z.shiftr x 24) 0x0000000000FF0000))
      (Z.land (Z.shiftr x 8) 0x00000000FF000000))
      (Z.land (shl 8) 0x000000FF00000000))
      (Z.land (shl 24) 0x0000FF0000000000))
      (Z.land (shl 40) 0x00FF000000000000))
      (Z.land (shl 56) 0xFF00000000000000).
(** ghash.c:114-124 *)
Definition swap_endian32 (big : bool) (x : Z) : Z :=
  if big then x
  else
    let shl k := Z.shiftl x k mod 2^32 in
    Z.lor (Z.lor (Z.lor
      (Z.land (Z.shiftr x 24) 0x000000FF)
      (Z.land (Z.shiftr x 8) 0x0000FF00))
      (Z.land (shl 8) 0x00FF0000))
      (Z.land (shl 24) 0xFF000000).

(** ghash.h:34-48; H as words, Y as the 16 bytes of its memory, because the code
    reads and changes it bytewise *)
Record ghash_state : Type := GhashState { gh_H : list Z; gh_Y : list Z; gh_posn : Z }.

(** ghash.c:70-76 and 126-134 *)
Definition gf128_mul_init (b : gh_build) (key : list Z) : list Z :=
  if gh_word64 b then
    [swap_endian64 (gh_big b) (gh_load (gh_big b) (sub 0 8 key));
     swap_endian64 (gh_big b) (gh_load (gh_big b) (sub 8 8 key))]
  else
    [swap_endian32 (gh_big b) (gh_load (gh_big b) (sub 0 4 key));
     swap_endian32 (gh_big b) (gh_load (gh_big b) (sub 4 4 key));
     swap_endian32 (gh_big b) (gh_load (gh_big b) (sub 8 4 key));
     swap_endian32 (gh_big b) (gh_load (gh_big b) (sub 12 4 key))].

(** (~x) + 1 in [bits]-bit arithmetic *)
Definition neg_word (bits x : Z) : Z := (2^bits - 1 - x + 1) mod 2^bits.

(** ghash.c:90-102, the body of the inner loop of the 64-bit code *)
Definition mul_bit64 (st : Z * (Z * Z * (Z * Z))) : Z * (Z * Z * (Z * Z)) :=
  let '(value, (z0, z1, (v0, v1))) := st in
  let mask := neg_word 64 (Z.shiftr value 7) in
  let z0 := Z.lxor z0 (Z.land v0 mask) in
  let z1 := Z.lxor z1 (Z.land v1 mask) in
  let mask := Z.land (neg_word 64 (Z.land v1 0x01)) 0xE100000000000000 in
  let v1 := Z.lor (Z.shiftr v1 1) (Z.shiftl v0 63 mod 2^64) in
  let v0 := Z.lxor (Z.shiftr v0 1) mask in
  (Z.shiftl value 1 mod 256, (z0, z1, (v0, v1))).
(** ghash.c:78-108; the loops count to 16 and to 8 *)
Definition gf128_mul64 (big : bool) (Y H : list Z) : list Z :=
  let '(z0, z1, _) :=
    fold_left (fun st value => snd (fold_left (fun st _ => mul_bit64 st) (seq 0 8) (value, st)))
              Y (0, 0, (word_at H 0, word_at H 1)) in
  gh_store big 8 (swap_endian64 big z0) ++ gh_store big 8 (swap_endian64 big z1).

(** ghash.c:154-169, the body of the inner loop of the 32-bit code *)
Definition mul_bit32 (st : Z * (Z * Z * Z * Z * (Z * Z * Z * Z))) : Z * (Z * Z * Z * Z * (Z * Z * Z * Z)) :=
  let '(value, (z0, z1, z2, z3, (v0, v1, v2, v3))) := st in
  let mask := neg_word 32 (Z.shiftr value 7) in
  let z0 := Z.lxor z0 (Z.land v0 mask) in
  let z1 := Z.lxor z1 (Z.land v1 mask) in
  let z2 := Z.lxor z2 (Z.land v2 mask) in
  let z3 := Z.lxor z3 (Z.land v3 mask) in
  let mask := Z.land (neg_word 32 (Z.land v3 0x01)) 0xE1000000 in
  let v3 := Z.lor (Z.shiftr v3 1) (Z.shiftl v2 31 mod 2^32) in
  let v2 := Z.lor (Z.shiftr v2 1) (Z.shiftl v1 31 mod 2^32) in
  let v1 := Z.lor (Z.shiftr v1 1) (Z.shiftl v0 31 mod 2^32) in
  let v0 := Z.lxor (Z.shiftr v0 1) mask in
  (Z.shiftl value 1 mod 256, (z0, z1, z2, z3, (v0, v1, v2, v3))).
(** ghash.c:136-176 *)
Definition gf128_mul32 (big : bool) (Y H : list Z) : list Z :=
  let '(z0, z1, z2, z3, _) :=
    fold_left (fun st value => snd (fold_left (fun st _ => mul_bit32 st) (seq 0 8) (value, st)))
              Y (0, 0, 0, 0, (word_at H 0, word_at H 1, word_at H 2, word_at H 3)) in
  gh_store big 4 (swap_endian32 big z0) ++ gh_store big 4 (swap_endian32 big z1) ++
  gh_store big 4 (swap_endian32 big z2) ++ gh_store big 4 (swap_endian32 big z3).
Definition gf128_mul (b : gh_build) : list Z -> list Z -> list Z :=
  if gh_word64 b then gf128_mul64 (gh_big b) else gf128_mul32 (gh_big b).

Section Ghash.
Variable b : gh_build.

(** ghash.c:180-186 *)
Definition ghash_reset (st : ghash_state) (key : cptr) : ghash_state :=
  GhashState (match key with Some k => gf128_mul_init b k | None => gh_H st end) (zeros 16) 0.

(** ghash.c:191-205: one turn of the loop takes at least one byte, which bounds
    [fuel]; lines 195-197 combine [size] bytes of Y, from [posn] on, with data *)
Definition xor_at (off : Z) (d y : list Z) : list Z :=
  splice off (map (fun p => Z.lxor (fst p) (snd p)) (combine (drop off y) d)) y.
Fixpoint ghash_loop (fuel : nat) (st : ghash_state) (d : list Z) : ghash_state :=
  match fuel with
  | O => st
  | S fuel' =>
    if zlen d >? 0 then
      let size := (16 - gh_posn st) mod 256 in
      let size := if size >? zlen d then zlen d else size in
      let Y := xor_at (gh_posn st) (take size d) (gh_Y st) in
      let posn := (gh_posn st + size) mod 256 in
      let d := drop size d in
      if posn =? 16 then ghash_loop fuel' (GhashState (gh_H st) (gf128_mul b Y (gh_H st)) 0) d
      else ghash_loop fuel' (GhashState (gh_H st) Y posn) d
    else st
  end.
(** ghash.c:188-206 *)
Definition ghash_update (st : ghash_state) (d : list Z) : ghash_state := ghash_loop (S (length d)) st d.

(** ghash.c:216-224 *)
Definition ghash_pad (st : ghash_state) : ghash_state :=
  if negb (gh_posn st =? 0) then GhashState (gh_H st) (gf128_mul b (gh_Y st) (gh_H st)) 0 else st.

(** ghash.c:208-214; the bytes stored at token *)
Definition ghash_finalize (st : ghash_state) (len : Z) : ghash_state * list Z :=
  let st := ghash_pad st in
  let len := if len >? 16 then 16 else len in
  (st, take len (gh_Y st)).
End Ghash.
