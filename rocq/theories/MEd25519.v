(** Model of src/crypto/ed25519 for 64-bit machines with 128-bit integers: field,
    group and base point multiplication.  The portable C variant of
    ge25519_scalarmult_base_choose_niels is modelled; on x86-64 with GCC the one in
    assembler of ed25519-donna-64bit-x86.h takes its place, unless
    ED25519_NO_INLINE_ASM is defined. *)
From Verif Require Import Base MHash MSha2 MBlake2 MPoly1305 MX25519 MEdTable.

(** bignum25519, curve25519-donna-64bit.h:9, is the [felem] of MX25519.v, and
    reduce_mask_51 (line 12) its [mask51].  bignum256modm (modm-donna-64bit.h:20),
    five limbs of 56 bits, has the same type. *)
Definition bignum256modm : Type := felem.

(** ed25519-donna.h:81-95 *)
Record ge25519 : Type := GE { ge_x : felem; ge_y : felem; ge_z : felem; ge_t : felem }.
Record ge25519_p1p1 : Type := P1P1 { pp_x : felem; pp_y : felem; pp_z : felem; pp_t : felem }.
Record ge25519_niels : Type := Niels { ni_ysubx : felem; ni_xaddy : felem; ni_t2d : felem }.
Record ge25519_pniels : Type := PNiels { pn_ysubx : felem; pn_xaddy : felem; pn_z : felem; pn_t2d : felem }.

(** ed25519-donna-64bit-tables.h:8-18 *)
Definition ge25519_ecd : felem := (0x00034dca135978a3, 0x0001a8283b156ebd, 0x0005e7a26001c029, 0x000739c663a03cbb, 0x00052036cee2b6ff).
Definition ge25519_ec2d : felem := (0x00069b9426b2f159, 0x00035050762add7a, 0x0003cf44c0038052, 0x0006738cc7407977, 0x0002406d9dc56dff).
Definition ge25519_sqrtneg1 : felem := (0x00061b274a0ea0b0, 0x0000d5a5fc8f189d, 0x0007ef5e9cbd0c60, 0x00078595a6804c9e, 0x0002b8324804fc1d).

(** curve25519-donna-64bit.h:57-60 *)
Definition twoP0 : Z := 0x0fffffffffffda.
Definition twoP1234 : Z := 0x0ffffffffffffe.
Definition fourP0 : Z := 0x1fffffffffffb4.
Definition fourP1234 : Z := 0x1ffffffffffffc.

(** As in MX25519.v, arithmetic on uint64_t and uint128_t goes through [w], and
    the functions return what the C functions write to their first argument.  All
    of them read their arguments before they write, limb by limb at least, so that
    the calls where an argument is the result too are modelled also. *)
Section Arithmetic.
Variable w : Z -> Z -> outcome Z.

(** curve25519-donna-64bit.h:26-33; the same: curve25519_add_after_basic, 36-43 *)
Definition ed_add (a b : felem) : outcome felem :=
  let '(a0, a1, a2, a3, a4) := a in
  let '(b0, b1, b2, b3, b4) := b in
  let! r0 := w 64 (a0 + b0) in let! r1 := w 64 (a1 + b1) in let! r2 := w 64 (a2 + b2) in
  let! r3 := w 64 (a3 + b3) in let! r4 := w 64 (a4 + b4) in
  Ok (r0, r1, r2, r3, r4).
(** The carries of curve25519-donna-64bit.h:48-53, 85-90 and 97-102: limb [i] is
    [si] plus the carry *)
Definition ed_carries (s0 s1 s2 s3 s4 : Z) : outcome felem :=
  let c := Z.shiftr s0 51 in let r0 := Z.land s0 mask51 in
  let! t1 := w 64 (s1 + c) in let c := Z.shiftr t1 51 in let r1 := Z.land t1 mask51 in
  let! t2 := w 64 (s2 + c) in let c := Z.shiftr t2 51 in let r2 := Z.land t2 mask51 in
  let! t3 := w 64 (s3 + c) in let c := Z.shiftr t3 51 in let r3 := Z.land t3 mask51 in
  let! t4 := w 64 (s4 + c) in let c := Z.shiftr t4 51 in let r4 := Z.land t4 mask51 in
  let! m := w 64 (c * 19) in let! r0 := w 64 (r0 + m) in
  Ok (r0, r1, r2, r3, r4).
(** curve25519-donna-64bit.h:45-54 *)
Definition ed_add_reduce (a b : felem) : outcome felem :=
  let! s := ed_add a b in
  let '(s0, s1, s2, s3, s4) := s in
  ed_carries s0 s1 s2 s3 s4.
(** a + (p0, p1234, ...) - b *)
Definition ed_sub_from (p0 p1234 : Z) (a b : felem) : outcome felem :=
  let '(a0, a1, a2, a3, a4) := a in
  let '(b0, b1, b2, b3, b4) := b in
  let! s := w 64 (a0 + p0) in let! r0 := w 64 (s - b0) in
  let! s := w 64 (a1 + p1234) in let! r1 := w 64 (s - b1) in
  let! s := w 64 (a2 + p1234) in let! r2 := w 64 (s - b2) in
  let! s := w 64 (a3 + p1234) in let! r3 := w 64 (s - b3) in
  let! s := w 64 (a4 + p1234) in let! r4 := w 64 (s - b4) in
  Ok (r0, r1, r2, r3, r4).
(** curve25519-donna-64bit.h:63-70 *)
Definition ed_sub (a b : felem) : outcome felem := ed_sub_from twoP0 twoP1234 a b.
(** curve25519-donna-64bit.h:73-80 *)
Definition ed_sub_after_basic (a b : felem) : outcome felem := ed_sub_from fourP0 fourP1234 a b.
(** curve25519-donna-64bit.h:82-91.  Here the sums are made before the carries are
    added; in C the carry is added last in each limb too. *)
Definition ed_sub_reduce (a b : felem) : outcome felem :=
  let! s := ed_sub_from fourP0 fourP1234 a b in
  let '(s0, s1, s2, s3, s4) := s in
  ed_carries s0 s1 s2 s3 s4.
(** curve25519-donna-64bit.h:94-103 *)
Definition ed_neg (a : felem) : outcome felem :=
  let! s := ed_sub_from twoP0 twoP1234 (0, 0, 0, 0, 0) a in
  let '(s0, s1, s2, s3, s4) := s in
  ed_carries s0 s1 s2 s3 s4.

(** The carries of curve25519-donna-64bit.h:158-164 and 271-277 *)
Definition ed_carry (t0 t1 t2 t3 t4 : Z) : outcome felem :=
  let r0 := low51 t0 in let! c := w 64 (Z.shiftr t0 51) in
  let! t1 := w 128 (t1 + c) in let r1 := low51 t1 in let! c := w 64 (Z.shiftr t1 51) in
  let! t2 := w 128 (t2 + c) in let r2 := low51 t2 in let! c := w 64 (Z.shiftr t2 51) in
  let! t3 := w 128 (t3 + c) in let r3 := low51 t3 in let! c := w 64 (Z.shiftr t3 51) in
  let! t4 := w 128 (t4 + c) in let r4 := low51 t4 in let! c := w 64 (Z.shiftr t4 51) in
  let! c19 := w 64 (c * 19) in let! r0 := w 64 (r0 + c19) in let c := Z.shiftr r0 51 in let r0 := Z.land r0 mask51 in
  let! r1 := w 64 (r1 + c) in
  Ok (r0, r1, r2, r3, r4).
(** curve25519-donna-64bit.h:106-171, with native 128-bit integers; the same:
    curve25519_mul_noinline, 173-176 *)
Definition ed_mul (in2 f : felem) : outcome felem :=
  let '(r0, r1, r2, r3, r4) := f in
  let '(s0, s1, s2, s3, s4) := in2 in
  let! t0 := mul w r0 s0 in
  let! t1 := add w (mul w r0 s1) (mul w r1 s0) in
  let! t2 := add w (add w (mul w r0 s2) (mul w r2 s0)) (mul w r1 s1) in
  let! t3 := add w (add w (add w (mul w r0 s3) (mul w r3 s0)) (mul w r1 s2)) (mul w r2 s1) in
  let! t4 := add w (add w (add w (add w (mul w r0 s4) (mul w r4 s0)) (mul w r3 s1)) (mul w r1 s3)) (mul w r2 s2) in
  let! r1 := w 64 (r1 * 19) in
  let! r2 := w 64 (r2 * 19) in
  let! r3 := w 64 (r3 * 19) in
  let! r4 := w 64 (r4 * 19) in
  let! t0 := add w (Ok t0) (add w (add w (add w (mul w r4 s1) (mul w r1 s4)) (mul w r2 s3)) (mul w r3 s2)) in
  let! t1 := add w (Ok t1) (add w (add w (mul w r4 s2) (mul w r2 s4)) (mul w r3 s3)) in
  let! t2 := add w (Ok t2) (add w (mul w r4 s3) (mul w r3 s4)) in
  let! t3 := add w (Ok t3) (mul w r4 s4) in
  ed_carry t0 t1 t2 t3 t4.

(** curve25519-donna-64bit.h:196-207 and 251-262: the sums of products of a square *)
Definition ed_square_sums {A} (f : felem) (k : Z -> Z -> Z -> Z -> Z -> outcome A) : outcome A :=
  let '(r0, r1, r2, r3, r4) := f in
  let! d0 := w 64 (r0 * 2) in
  let! d1 := w 64 (r1 * 2) in
  let! d2 := w 64 (r2 * 2) in let! d2 := w 64 (d2 * 19) in
  let! d419 := w 64 (r4 * 19) in
  let! d4 := w 64 (d419 * 2) in
  let! t0 := add w (add w (mul w r0 r0) (mul w d4 r1)) (mul w d2 r3) in
  let! r319 := w 64 (r3 * 19) in
  let! t1 := add w (add w (mul w d0 r1) (mul w d4 r2)) (mul w r3 r319) in
  let! t2 := add w (add w (mul w d0 r2) (mul w r1 r1)) (mul w d4 r3) in
  let! t3 := add w (add w (mul w d0 r3) (mul w d1 r2)) (mul w r4 d419) in
  let! t4 := add w (add w (mul w d0 r4) (mul w d1 r3)) (mul w r2 r2) in
  k t0 t1 t2 t3 t4.
(** curve25519-donna-64bit.h:236-284 *)
Definition ed_square (f : felem) : outcome felem := ed_square_sums f ed_carry.
(** shl128(c, t, 13), ed25519-donna-portable.h:79: the high word of t << 13 *)
Definition shl13 (t : Z) : outcome Z := let! s := w 128 (t * 2 ^ 13) in w 64 (Z.shiftr s 64).
(** curve25519-donna-64bit.h:214-226 *)
Definition ed_carry_wide (t0 t1 t2 t3 t4 : Z) : outcome felem :=
  let r0 := low51 t0 in
  let r1 := low51 t1 in let! c := shl13 t0 in let! r1 := w 64 (r1 + c) in
  let r2 := low51 t2 in let! c := shl13 t1 in let! r2 := w 64 (r2 + c) in
  let r3 := low51 t3 in let! c := shl13 t2 in let! r3 := w 64 (r3 + c) in
  let r4 := low51 t4 in let! c := shl13 t3 in let! r4 := w 64 (r4 + c) in
  let! c := shl13 t4 in let! c19 := w 64 (c * 19) in let! r0 := w 64 (r0 + c19) in
  ed_carries r0 r1 r2 r3 r4.
(** curve25519-donna-64bit.h:179-234: the loop runs [count] times, at least once in
    all calls *)
Fixpoint ed_square_times (f : felem) (count : nat) : outcome felem :=
  match count with
  | O => Ok f
  | S count => let! f := ed_square_sums f ed_carry_wide in ed_square_times f count
  end.

(** curve25519-donna-64bit.h:313-318: four words to limbs *)
Definition ed_expand_words (x0 x1 x2 x3 : Z) : felem :=
  (Z.land x0 mask51,
   Z.land (Z.lor (Z.shiftr x0 51) (Z.shiftl x1 13 mod 2^64)) mask51,
   Z.land (Z.lor (Z.shiftr x1 38) (Z.shiftl x2 26 mod 2^64)) mask51,
   Z.land (Z.lor (Z.shiftr x2 25) (Z.shiftl x3 39 mod 2^64)) mask51,
   Z.land (Z.shiftr x3 12) mask51).
(** curve25519-donna-64bit.h:287-319.  Both branches of the test of the byte order
    read the four words with the first byte lowest. *)
Definition ed_expand (p : list Z) : felem :=
  ed_expand_words (load_limb p 0) (load_limb p 8) (load_limb p 16) (load_limb p 24).

(** curve25519-donna-64bit.h:335-339 *)
Definition ed_contract_carry (t : felem) : outcome felem :=
  let '(t0, t1, t2, t3, t4) := t in
  let! t1 := w 64 (t1 + Z.shiftr t0 51) in let t0 := Z.land t0 mask51 in
  let! t2 := w 64 (t2 + Z.shiftr t1 51) in let t1 := Z.land t1 mask51 in
  let! t3 := w 64 (t3 + Z.shiftr t2 51) in let t2 := Z.land t2 mask51 in
  let! t4 := w 64 (t4 + Z.shiftr t3 51) in let t3 := Z.land t3 mask51 in
  Ok (t0, t1, t2, t3, t4).
(** curve25519-donna-64bit.h:341-342 *)
Definition ed_contract_carry_full (t : felem) : outcome felem :=
  let! t := ed_contract_carry t in
  let '(t0, t1, t2, t3, t4) := t in
  let! m := w 64 (19 * Z.shiftr t4 51) in let! t0 := w 64 (t0 + m) in let t4 := Z.land t4 mask51 in
  Ok (t0, t1, t2, t3, t4).
(** curve25519-donna-64bit.h:324-373.  The left shifts lose the high bits, as is
    intended. *)
Definition ed_contract (f : felem) : outcome (list Z) :=
  let! t := ed_contract_carry_full f in
  let! t := ed_contract_carry_full t in
  let '(t0, t1, t2, t3, t4) := t in
  let! t0 := w 64 (t0 + 19) in
  let! t := ed_contract_carry_full (t0, t1, t2, t3, t4) in
  let '(t0, t1, t2, t3, t4) := t in
  let! t0 := w 64 (t0 + (mask51 + 1 - 19)) in
  let! t1 := w 64 (t1 + (mask51 + 1 - 1)) in
  let! t2 := w 64 (t2 + (mask51 + 1 - 1)) in
  let! t3 := w 64 (t3 + (mask51 + 1 - 1)) in
  let! t4 := w 64 (t4 + (mask51 + 1 - 1)) in
  let! t := ed_contract_carry (t0, t1, t2, t3, t4) in
  let '(t0, t1, t2, t3, t4) := t in
  let t4 := Z.land t4 mask51 in
  Ok (store_limb (Z.lor (Z.shiftr t0 0) (Z.shiftl t1 51) mod 2^64) ++
      store_limb (Z.lor (Z.shiftr t1 13) (Z.shiftl t2 38) mod 2^64) ++
      store_limb (Z.lor (Z.shiftr t2 26) (Z.shiftl t3 25) mod 2^64) ++
      store_limb (Z.lor (Z.shiftr t3 39) (Z.shiftl t4 12) mod 2^64)).

(** curve25519-donna-helpers.h:12-31 *)
Definition ed_pow_two5mtwo0_two250mtwo0 (b : felem) : outcome felem :=
  let! t0 := ed_square_times b 5 in
  let! b := ed_mul t0 b in
  let! t0 := ed_square_times b 10 in
  let! c := ed_mul t0 b in
  let! t0 := ed_square_times c 20 in
  let! t0 := ed_mul t0 c in
  let! t0 := ed_square_times t0 10 in
  let! b := ed_mul t0 b in
  let! t0 := ed_square_times b 50 in
  let! c := ed_mul t0 b in
  let! t0 := ed_square_times c 100 in
  let! t0 := ed_mul t0 c in
  let! t0 := ed_square_times t0 50 in
  ed_mul t0 b.
(** curve25519-donna-helpers.h:36-49 *)
Definition ed_recip (z : felem) : outcome felem :=
  let! a := ed_square_times z 1 in
  let! t0 := ed_square_times a 2 in
  let! b := ed_mul t0 z in
  let! a := ed_mul b a in
  let! t0 := ed_square_times a 1 in
  let! b := ed_mul t0 b in
  let! b := ed_pow_two5mtwo0_two250mtwo0 b in
  let! b := ed_square_times b 5 in
  ed_mul b a.
(** curve25519-donna-helpers.h:54-67 *)
Definition ed_pow_two252m3 (z : felem) : outcome felem :=
  let! c := ed_square_times z 1 in
  let! t0 := ed_square_times c 2 in
  let! b := ed_mul t0 z in
  let! c := ed_mul b c in
  let! t0 := ed_square_times c 1 in
  let! b := ed_mul t0 b in
  let! b := ed_pow_two5mtwo0_two250mtwo0 b in
  let! b := ed_square_times b 2 in
  ed_mul b z.

(** ed25519-donna-impl-base.h:5-10: the coordinate t of [r] stays as it is *)
Definition p1p1_to_partial (r : ge25519) (p : ge25519_p1p1) : outcome ge25519 :=
  let! x := ed_mul (pp_x p) (pp_t p) in
  let! y := ed_mul (pp_y p) (pp_z p) in
  let! z := ed_mul (pp_z p) (pp_t p) in
  Ok (GE x y z (ge_t r)).
(** ed25519-donna-impl-base.h:12-18 *)
Definition p1p1_to_full (p : ge25519_p1p1) : outcome ge25519 :=
  let! x := ed_mul (pp_x p) (pp_t p) in
  let! y := ed_mul (pp_y p) (pp_z p) in
  let! z := ed_mul (pp_z p) (pp_t p) in
  let! t := ed_mul (pp_x p) (pp_y p) in
  Ok (GE x y z t).
(** ed25519-donna-impl-base.h:53-67 *)
Definition double_p1p1 (p : ge25519) : outcome ge25519_p1p1 :=
  let! a := ed_square (ge_x p) in
  let! b := ed_square (ge_y p) in
  let! c := ed_square (ge_z p) in
  let! c := ed_add_reduce c c in
  let! rx := ed_add (ge_x p) (ge_y p) in
  let! rx := ed_square rx in
  let! ry := ed_add b a in
  let! rz := ed_sub b a in
  let! rx := ed_sub_after_basic rx ry in
  let! rt := ed_sub_after_basic c rz in
  Ok (P1P1 rx ry rz rt).
(** ed25519-donna-impl-base.h:108-113 *)
Definition double_partial (r p : ge25519) : outcome ge25519 :=
  let! t := double_p1p1 p in p1p1_to_partial r t.
(** ed25519-donna-impl-base.h:115-120 *)
Definition double_full (p : ge25519) : outcome ge25519 :=
  let! t := double_p1p1 p in p1p1_to_full t.
(** ed25519-donna-impl-base.h:129-147 *)
Definition nielsadd2 (r : ge25519) (q : ge25519_niels) : outcome ge25519 :=
  let! a := ed_sub (ge_y r) (ge_x r) in
  let! b := ed_add (ge_y r) (ge_x r) in
  let! a := ed_mul a (ni_ysubx q) in
  let! e := ed_mul b (ni_xaddy q) in
  let! h := ed_add e a in
  let! e := ed_sub e a in
  let! c := ed_mul (ge_t r) (ni_t2d q) in
  let! f := ed_add (ge_z r) (ge_z r) in
  let! g := ed_add f c in
  let! f := ed_sub_after_basic f c in
  let! x := ed_mul e f in
  let! y := ed_mul h g in
  let! z := ed_mul g f in
  let! t := ed_mul e h in
  Ok (GE x y z t).

(** curve25519-donna-64bit.h:378-395: the two arrays as words *)
Definition move_conditional_words (out inq : list Z) (flag : Z) : list Z :=
  let nb := (flag - 1) mod 2^64 in
  let b := Z.lxor nb (2^64 - 1) in
  map (fun oi => Z.lor (Z.land (fst oi) nb) (Z.land (snd oi) b)) (combine out inq).
(** ed25519-donna-impl-base.h:298-301, uint32_t *)
Definition windowb_equal (b c : Z) : Z := Z.shiftr ((Z.lxor b c - 1) mod 2^32) 31.
(** ed25519-donna-impl-base.h:315-316: the loop from row [i] on *)
Fixpoint choose_loop (count : nat) (table : list (list Z)) (pos u i : Z) (packed : list Z) : outcome (list Z) :=
  match count with
  | O => Ok packed
  | S count =>
    let! row := match nth_error table (Z.to_nat (pos * 8 + i)) with Some row => Ok row | None => UB end in
    choose_loop count table pos u (i + 1) (move_conditional_words packed row (windowb_equal u (i + 1)))
  end.
(** ed25519-donna-impl-base.h:303-328.  [b] is a signed char: the value is converted
    to int and uint32_t. *)
Definition choose_niels (table : list (list Z)) (pos b : Z) : outcome ge25519_niels :=
  let sign := Z.shiftr (b mod 256) 7 in
  let mask := Z.lxor ((sign - 1) mod 2^32) (2^32 - 1) in
  let u := Z.lxor ((b + mask) mod 2^32) mask in
  let packed := [1; 0; 0; 0; 1; 0; 0; 0; 0; 0; 0; 0] in
  let! packed := choose_loop 8 table pos u 0 packed in
  let at_ (k : nat) := nth k packed 0 in
  let ysubx := ed_expand_words (at_ 0%nat) (at_ 1%nat) (at_ 2%nat) (at_ 3%nat) in
  let xaddy := ed_expand_words (at_ 4%nat) (at_ 5%nat) (at_ 6%nat) (at_ 7%nat) in
  let t2d := ed_expand_words (at_ 8%nat) (at_ 9%nat) (at_ 10%nat) (at_ 11%nat) in
  let '(ysubx, xaddy) := swap_conditional ysubx xaddy sign in
  let! neg := ed_neg t2d in
  let '(t2d, _) := swap_conditional t2d neg sign in
  Ok (Niels ysubx xaddy t2d).

(** Conversion to signed char *)
Definition s8 (x : Z) : Z := (x + 128) mod 256 - 128.
(** modm-donna-64bit.h:220-227: [m] digits of the limb [v] *)
Fixpoint quads (m : nat) (v : Z) : list Z :=
  match m with O => [] | S m => Z.land v 15 :: quads m (Z.shiftr v 4) end.
(** modm-donna-64bit.h:231-237: the loop from the element [a] on, to which the
    carry has still to be added; [r] are the elements after it *)
Fixpoint make_signed (carry a : Z) (r : list Z) : list Z :=
  match r with
  | [] => [s8 (a + carry)]
  | b :: r =>
    let a := s8 (a + carry) in
    let b := s8 (b + Z.shiftr a 4) in
    let a := Z.land a 15 in
    let carry := Z.shiftr a 3 in
    s8 (a - Z.shiftl carry 4) :: make_signed carry b r
  end.
(** modm-donna-64bit.h:213-238 *)
Definition contract256_window4_modm (s : bignum256modm) : list Z :=
  let '(s0, s1, s2, s3, s4) := s in
  let r := quads 14 s0 ++ quads 14 s1 ++ quads 14 s2 ++ quads 14 s3 ++ quads 8 s4 in
  make_signed 0 (hd 0 r) (tl r).

(** ed25519-donna-impl-base.h:347-350 and 359-362: the loops from digit [i] on, in
    steps of two *)
Fixpoint base_loop (count : nat) (table : list (list Z)) (b : list Z) (i : Z) (r : ge25519) : outcome ge25519 :=
  match count with
  | O => Ok r
  | S count =>
    let! t := choose_niels table (i / 2) (byte_at b i) in
    let! r := nielsadd2 r t in
    base_loop count table b (i + 2) r
  end.
(** ed25519-donna-impl-base.h:334-363 *)
Definition scalarmult_base_niels (table : list (list Z)) (s : bignum256modm) : outcome ge25519 :=
  let b := contract256_window4_modm s in
  let! t := choose_niels table 0 (byte_at b 1) in
  let! x := ed_sub_reduce (ni_xaddy t) (ni_ysubx t) in
  let! y := ed_add_reduce (ni_xaddy t) (ni_ysubx t) in
  let r := GE x y (2, 0, 0, 0, 0) (ni_t2d t) in
  let! r := base_loop 31 table b 3 r in
  let! r := double_partial r r in
  let! r := double_partial r r in
  let! r := double_partial r r in
  let! r := double_full r in
  let! t := choose_niels table 0 (byte_at b 0) in
  let! t2d := ed_mul (ni_t2d t) ge25519_ecd in
  let! r := nielsadd2 r (Niels (ni_ysubx t) (ni_xaddy t) t2d) in
  base_loop 31 table b 2 r.

(** modm-donna-64bit.h:189-203; the left shifts lose the high bits, as is intended *)
Definition mask56 : Z := 0xffffffffffffff.
Definition expand_raw256_modm (p : list Z) : bignum256modm :=
  let x0 := load_limb p 0 in let x1 := load_limb p 8 in let x2 := load_limb p 16 in let x3 := load_limb p 24 in
  (Z.land x0 mask56,
   Z.land (Z.lor (Z.shiftr x0 56) (Z.shiftl x1 8 mod 2^64)) mask56,
   Z.land (Z.lor (Z.shiftr x1 48) (Z.shiftl x2 16 mod 2^64)) mask56,
   Z.land (Z.lor (Z.shiftr x2 40) (Z.shiftl x3 24 mod 2^64)) mask56,
   Z.land (Z.shiftr x3 32) 0xffffffff).

(** ed25519.c:124-150; the clamping of lines 132-136 is the one of donna_clamp *)
Definition curved25519_scalarmult_basepoint (e : list Z) : outcome (list Z) :=
  let ec := donna_clamp e in
  let s := expand_raw256_modm ec in
  let! p := scalarmult_base_niels niels_base_multiples s in
  let! yplusz := ed_add (ge_y p) (ge_z p) in
  let! zminusy := ed_sub (ge_z p) (ge_y p) in
  let! zminusy := ed_recip zminusy in
  let! yplusz := ed_mul yplusz zminusy in
  ed_contract yplusz.
End Arithmetic.
