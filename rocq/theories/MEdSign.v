(** Model of the rest of src/crypto/ed25519 for 64-bit machines with 128-bit
    integers: numbers modulo the order of the base point, points as byte strings,
    keys, signatures and the check of signatures.  [junk] stands for the contents
    of a hash context on the stack before it is set up. *)
From Verif Require Import Base MHash MSha2 MBlake2 MPoly1305 MX25519 MEdTable MEd25519 MEdSlide.

(** modm-donna-64bit.h:22-36 *)
Definition modm_m : bignum256modm := (0x12631a5cf5d3ed, 0xf9dea2f79cd658, 0x000000000014de, 0x00000000000000, 0x00000010000000).
Definition modm_mu : bignum256modm := (0x9ce5a30a2c131b, 0x215d086329a7ed, 0xffffffffeb2106, 0xffffffffffffff, 0x00000fffffffff).

(** lo128, ed25519-donna-portable.h:82 *)
Definition lo128 (a : Z) : Z := a mod 2^64.

(** modm-donna-64bit.h:37-40: the difference wraps, as is intended *)
Definition lt_modm (a b : Z) : Z := Z.shiftr ((a - b) mod 2^64) 63.

Section Arithmetic.
Variable w : Z -> Z -> outcome Z.

(** One line of modm-donna-64bit.h:47-53 and 98-103: x - y - pb in a limb of [n]
    bits, and the borrow.  The differences wrap, as is intended. *)
Definition sub_limb (n x y pb : Z) : outcome (Z * Z) :=
  let! pb := w 64 (pb + y) in
  let b := lt_modm x pb in
  Ok (((x - pb) mod 2^64 + Z.shiftl b n) mod 2^64, b).
(** modm-donna-64bit.h:47-53 with n = 32, 98-103 with n = 40: the difference and
    the last borrow *)
Definition sub_limbs (n : Z) (x y : bignum256modm) : outcome (bignum256modm * Z) :=
  let '(x0, x1, x2, x3, x4) := x in
  let '(y0, y1, y2, y3, y4) := y in
  let! d := sub_limb 56 x0 y0 0 in let '(t0, b) := d in
  let! d := sub_limb 56 x1 y1 b in let '(t1, b) := d in
  let! d := sub_limb 56 x2 y2 b in let '(t2, b) := d in
  let! d := sub_limb 56 x3 y3 b in let '(t3, b) := d in
  let! d := sub_limb n x4 y4 b in let '(t4, b) := d in
  Ok ((t0, t1, t2, t3, t4), b).
(** modm-donna-64bit.h:58-62 *)
Definition keep_limb (mask r t : Z) : Z := Z.lxor r (Z.land mask (Z.lxor r t)).
(** modm-donna-64bit.h:42-63 *)
Definition reduce256_modm (r : bignum256modm) : outcome bignum256modm :=
  let! d := sub_limbs 32 r modm_m in
  let '((t0, t1, t2, t3, t4), b) := d in
  let '(r0, r1, r2, r3, r4) := r in
  let mask := (b - 1) mod 2^64 in
  Ok (keep_limb mask r0 t0, keep_limb mask r1 t1, keep_limb mask r2 t2, keep_limb mask r3 t3, keep_limb mask r4 t4).

(** modm-donna-64bit.h:74-87: the multiple of the order, q3.  Of the product of mu
    and q1 only the columns from the fourth on are made.  The left shifts of f lose
    the high bits, as is intended. *)
Definition barrett_q3 (q1 : bignum256modm) : outcome bignum256modm :=
  let '(u0, u1, u2, u3, u4) := modm_mu in
  let '(q0, q1, q2, q3, q4) := q1 in
  let! c := add w (add w (add w (mul w u0 q3) (mul w u3 q0)) (mul w u1 q2)) (mul w u2 q1) in
  let! f := w 64 (Z.shiftr c 56) in
  let! c := add w (add w (add w (add w (add w (mul w u0 q4) (Ok f)) (mul w u4 q0)) (mul w u3 q1)) (mul w u1 q3)) (mul w u2 q2) in
  let l := lo128 c in let a0 := Z.land (Z.shiftr l 40) 0xffff in let! f := w 64 (Z.shiftr c 56) in
  let! c := add w (add w (add w (add w (mul w u4 q1) (Ok f)) (mul w u1 q4)) (mul w u2 q3)) (mul w u3 q2) in
  let l := lo128 c in let a0 := Z.lor a0 (Z.land (Z.shiftl l 16 mod 2^64) mask56) in let a1 := Z.land (Z.shiftr l 40) 0xffff in let! f := w 64 (Z.shiftr c 56) in
  let! c := add w (add w (add w (mul w u4 q2) (Ok f)) (mul w u2 q4)) (mul w u3 q3) in
  let l := lo128 c in let a1 := Z.lor a1 (Z.land (Z.shiftl l 16 mod 2^64) mask56) in let a2 := Z.land (Z.shiftr l 40) 0xffff in let! f := w 64 (Z.shiftr c 56) in
  let! c := add w (add w (mul w u4 q3) (Ok f)) (mul w u3 q4) in
  let l := lo128 c in let a2 := Z.lor a2 (Z.land (Z.shiftl l 16 mod 2^64) mask56) in let a3 := Z.land (Z.shiftr l 40) 0xffff in let! f := w 64 (Z.shiftr c 56) in
  let! c := add w (mul w u4 q4) (Ok f) in
  let l := lo128 c in let a3 := Z.lor a3 (Z.land (Z.shiftl l 16 mod 2^64) mask56) in let a4 := Z.land (Z.shiftr l 40) 0xffff in let! f := w 64 (Z.shiftr c 56) in
  let! f16 := w 64 (Z.shiftl f 16) in let a4 := Z.lor a4 f16 in
  Ok (a0, a1, a2, a3, a4).
(** modm-donna-64bit.h:89-98: q3 times the order, of which 264 bits are made *)
Definition barrett_r2 (q : bignum256modm) : outcome bignum256modm :=
  let '(m0, m1, m2, m3, m4) := modm_m in
  let '(q0, q1, q2, q3, q4) := q in
  let! c := mul w m0 q0 in
  let r0 := Z.land (lo128 c) mask56 in let! f := w 64 (Z.shiftr c 56) in
  let! c := add w (add w (mul w m0 q1) (Ok f)) (mul w m1 q0) in
  let r1 := Z.land (lo128 c) mask56 in let! f := w 64 (Z.shiftr c 56) in
  let! c := add w (add w (add w (mul w m0 q2) (Ok f)) (mul w m2 q0)) (mul w m1 q1) in
  let r2 := Z.land (lo128 c) mask56 in let! f := w 64 (Z.shiftr c 56) in
  let! c := add w (add w (add w (add w (mul w m0 q3) (Ok f)) (mul w m3 q0)) (mul w m1 q2)) (mul w m2 q1) in
  let r3 := Z.land (lo128 c) mask56 in let! f := w 64 (Z.shiftr c 56) in
  let! c := add w (add w (add w (add w (add w (mul w m0 q4) (Ok f)) (mul w m4 q0)) (mul w m3 q1)) (mul w m1 q3)) (mul w m2 q2) in
  Ok (r0, r1, r2, r3, Z.land (lo128 c) 0x0000ffffffffff).
(** modm-donna-64bit.h:65-107 *)
Definition barrett_reduce256_modm (q1 r1 : bignum256modm) : outcome bignum256modm :=
  let! q3 := barrett_q3 q1 in
  let! r2 := barrett_r2 q3 in
  let! d := sub_limbs 40 r1 r2 in
  let '(r, _) := d in
  let! r := reduce256_modm r in
  reduce256_modm r.

(** modm-donna-64bit.h:110-121 *)
Definition add256_modm (x y : bignum256modm) : outcome bignum256modm :=
  let '(x0, x1, x2, x3, x4) := x in
  let '(y0, y1, y2, y3, y4) := y in
  let! c := w 64 (x0 + y0) in let r0 := Z.land c mask56 in let c := Z.shiftr c 56 in
  let! s := w 64 (x1 + y1) in let! c := w 64 (c + s) in let r1 := Z.land c mask56 in let c := Z.shiftr c 56 in
  let! s := w 64 (x2 + y2) in let! c := w 64 (c + s) in let r2 := Z.land c mask56 in let c := Z.shiftr c 56 in
  let! s := w 64 (x3 + y3) in let! c := w 64 (c + s) in let r3 := Z.land c mask56 in let c := Z.shiftr c 56 in
  let! s := w 64 (x4 + y4) in let! r4 := w 64 (c + s) in
  reduce256_modm (r0, r1, r2, r3, r4).

(** modm-donna-64bit.h:123-147: the product, as its low 264 bits r1 and the bits
    from 248 on, q1 *)
Definition mul256_parts (x y : bignum256modm) : outcome (bignum256modm * bignum256modm) :=
  let '(x0, x1, x2, x3, x4) := x in
  let '(y0, y1, y2, y3, y4) := y in
  let! c := mul w x0 y0 in
  let l := lo128 c in let r0 := Z.land l mask56 in let! f := w 64 (Z.shiftr c 56) in
  let! c := add w (add w (mul w x0 y1) (Ok f)) (mul w x1 y0) in
  let l := lo128 c in let r1 := Z.land l mask56 in let! f := w 64 (Z.shiftr c 56) in
  let! c := add w (add w (add w (mul w x0 y2) (Ok f)) (mul w x2 y0)) (mul w x1 y1) in
  let l := lo128 c in let r2 := Z.land l mask56 in let! f := w 64 (Z.shiftr c 56) in
  let! c := add w (add w (add w (add w (mul w x0 y3) (Ok f)) (mul w x3 y0)) (mul w x1 y2)) (mul w x2 y1) in
  let l := lo128 c in let r3 := Z.land l mask56 in let! f := w 64 (Z.shiftr c 56) in
  let! c := add w (add w (add w (add w (add w (mul w x0 y4) (Ok f)) (mul w x4 y0)) (mul w x3 y1)) (mul w x1 y3)) (mul w x2 y2) in
  let l := lo128 c in let r4 := Z.land l 0x0000ffffffffff in let q0 := Z.land (Z.shiftr l 24) 0xffffffff in let! f := w 64 (Z.shiftr c 56) in
  let! c := add w (add w (add w (add w (mul w x4 y1) (Ok f)) (mul w x1 y4)) (mul w x2 y3)) (mul w x3 y2) in
  let l := lo128 c in let q0 := Z.lor q0 (Z.land (Z.shiftl l 32 mod 2^64) mask56) in let q1 := Z.land (Z.shiftr l 24) 0xffffffff in let! f := w 64 (Z.shiftr c 56) in
  let! c := add w (add w (add w (mul w x4 y2) (Ok f)) (mul w x2 y4)) (mul w x3 y3) in
  let l := lo128 c in let q1 := Z.lor q1 (Z.land (Z.shiftl l 32 mod 2^64) mask56) in let q2 := Z.land (Z.shiftr l 24) 0xffffffff in let! f := w 64 (Z.shiftr c 56) in
  let! c := add w (add w (mul w x4 y3) (Ok f)) (mul w x3 y4) in
  let l := lo128 c in let q2 := Z.lor q2 (Z.land (Z.shiftl l 32 mod 2^64) mask56) in let q3 := Z.land (Z.shiftr l 24) 0xffffffff in let! f := w 64 (Z.shiftr c 56) in
  let! c := add w (mul w x4 y4) (Ok f) in
  let l := lo128 c in let q3 := Z.lor q3 (Z.land (Z.shiftl l 32 mod 2^64) mask56) in let q4 := Z.land (Z.shiftr l 24) 0xffffffff in let! f := w 64 (Z.shiftr c 56) in
  let! f32 := w 64 (Z.shiftl f 32) in let q4 := Z.lor q4 f32 in
  Ok ((q0, q1, q2, q3, q4), (r0, r1, r2, r3, r4)).
(** modm-donna-64bit.h:123-150 *)
Definition mul256_modm (x y : bignum256modm) : outcome bignum256modm :=
  let! p := mul256_parts x y in
  barrett_reduce256_modm (fst p) (snd p).

(** modm-donna-64bit.h:152-187; [inp] holds [len] bytes at least, or reading it is
    undefined, as is writing more than 64 of them.  The left shifts lose the high
    bits, as is intended. *)
Definition expand256_modm (inp : list Z) (len : Z) : outcome bignum256modm :=
  if (zlen inp <? len) || (64 <? len) then UB else
  let work := take len inp ++ zeros (64 - len) in
  let x0 := load_limb work 0 in let x1 := load_limb work 8 in let x2 := load_limb work 16 in let x3 := load_limb work 24 in
  let x4 := load_limb work 32 in let x5 := load_limb work 40 in let x6 := load_limb work 48 in let x7 := load_limb work 56 in
  let out :=
   (Z.land x0 mask56,
    Z.land (Z.lor (Z.shiftr x0 56) (Z.shiftl x1 8 mod 2^64)) mask56,
    Z.land (Z.lor (Z.shiftr x1 48) (Z.shiftl x2 16 mod 2^64)) mask56,
    Z.land (Z.lor (Z.shiftr x2 40) (Z.shiftl x3 24 mod 2^64)) mask56,
    Z.land (Z.lor (Z.shiftr x3 32) (Z.shiftl x4 32 mod 2^64)) 0x0000ffffffffff) in
  if len <? 32 then Ok out else
  let q1 :=
   (Z.land (Z.lor (Z.shiftr x3 56) (Z.shiftl x4 8 mod 2^64)) mask56,
    Z.land (Z.lor (Z.shiftr x4 48) (Z.shiftl x5 16 mod 2^64)) mask56,
    Z.land (Z.lor (Z.shiftr x5 40) (Z.shiftl x6 24 mod 2^64)) mask56,
    Z.land (Z.lor (Z.shiftr x6 32) (Z.shiftl x7 32 mod 2^64)) mask56,
    Z.shiftr x7 24) in
  barrett_reduce256_modm q1 out.

(** modm-donna-64bit.h:205-211 *)
Definition contract256_modm (s : bignum256modm) : list Z :=
  let '(s0, s1, s2, s3, s4) := s in
  store_limb (Z.lor s0 (Z.shiftl s1 56) mod 2^64) ++
  store_limb (Z.lor (Z.shiftr s1 8) (Z.shiftl s2 48) mod 2^64) ++
  store_limb (Z.lor (Z.shiftr s2 16) (Z.shiftl s3 40) mod 2^64) ++
  store_limb (Z.lor (Z.shiftr s3 24) (Z.shiftl s4 32) mod 2^64).

(** modm-donna-64bit.h:247-254: [n] bits of a limb *)
Fixpoint limb_bits (n : nat) (v : Z) : list Z :=
  match n with O => [] | S n => Z.land v 1 :: limb_bits n (Z.shiftr v 1) end.
(** modm-donna-64bit.h:268-274: the carry into the elements [r] *)
Fixpoint carry_up (r : list Z) : list Z :=
  match r with
  | [] => []
  | x :: r => if x =? 0 then 1 :: r else 0 :: carry_up r
  end.
(** modm-donna-64bit.h:261-279: the loop over [b], for the element [h] with the
    elements [r] after it, the first of which is at j + 1; the test of j + b against
    the length is the one for the end of [r] *)
Fixpoint slide_one (m : Z) (count : nat) (b : Z) (h : Z) (r : list Z) : Z * list Z :=
  match count with
  | O => (h, r)
  | S count =>
    match r with
    | [] => (h, [])
    | x :: r =>
      if h + Z.shiftl x b <=? m then
        let '(h', r') := slide_one m count (b + 1) (h + Z.shiftl x b) r in (h', 0 :: r')
      else if - m <=? h - Z.shiftl x b then
        match carry_up (x :: r) with
        | [] => (h, [])
        | y :: r => let '(h', r') := slide_one m count (b + 1) (h - Z.shiftl x b) r in (h', y :: r')
        end
      else if negb (x =? 0) then (h, x :: r)
      else let '(h', r') := slide_one m count (b + 1) h r in (h', x :: r')
    end
  end.
(** modm-donna-64bit.h:257-280: the loop over j; [count] elements remain *)
Fixpoint slide_all (m : Z) (count : nat) (r : list Z) : list Z :=
  match count, r with
  | S count, h :: r =>
    if h =? 0 then h :: slide_all m count r
    else let '(h, r) := slide_one m 6 1 h r in h :: slide_all m count r
  | _, _ => r
  end.
(** modm-donna-64bit.h:240-281 *)
Definition contract256_slidingwindow_modm (s : bignum256modm) (windowsize : Z) : list Z :=
  let m := Z.shiftl 1 (windowsize - 1) - 1 in
  let '(s0, s1, s2, s3, s4) := s in
  slide_all m 256 (limb_bits 56 s0 ++ limb_bits 56 s1 ++ limb_bits 56 s2 ++ limb_bits 56 s3 ++ limb_bits 32 s4).

(** ed25519-donna-impl-base.h:20-26 *)
Definition full_to_pniels (r : ge25519) : outcome ge25519_pniels :=
  let! ysubx := ed_sub w (ge_y r) (ge_x r) in
  let! xaddy := ed_add w (ge_y r) (ge_x r) in
  let! t2d := ed_mul w (ge_t r) ge25519_ec2d in
  Ok (PNiels ysubx xaddy (ge_z r) t2d).
(** The end of ed25519-donna-impl-base.h:69-86 and 88-106: [c] is added to one of
    the coordinates z and t, which are equal, and subtracted from the other *)
Definition p1p1_finish (x y zt c : felem) (signbit : bool) : outcome ge25519_p1p1 :=
  let! plus := ed_add w zt c in
  let! minus := ed_sub w zt c in
  Ok (if signbit then P1P1 x y minus plus else P1P1 x y plus minus).
(** ed25519-donna-impl-base.h:69-86; qb[0] is ysubx and qb[1] xaddy *)
Definition nielsadd2_p1p1 (p : ge25519) (q : ge25519_niels) (signbit : bool) : outcome ge25519_p1p1 :=
  let! a := ed_sub w (ge_y p) (ge_x p) in
  let! b := ed_add w (ge_y p) (ge_x p) in
  let! a := ed_mul w a (if signbit then ni_xaddy q else ni_ysubx q) in
  let! x := ed_mul w b (if signbit then ni_ysubx q else ni_xaddy q) in
  let! y := ed_add w x a in
  let! x := ed_sub w x a in
  let! c := ed_mul w (ge_t p) (ni_t2d q) in
  let! t := ed_add_reduce w (ge_z p) (ge_z p) in
  p1p1_finish x y t c signbit.
(** ed25519-donna-impl-base.h:88-106 *)
Definition pnielsadd_p1p1 (p : ge25519) (q : ge25519_pniels) (signbit : bool) : outcome ge25519_p1p1 :=
  let! a := ed_sub w (ge_y p) (ge_x p) in
  let! b := ed_add w (ge_y p) (ge_x p) in
  let! a := ed_mul w a (if signbit then pn_xaddy q else pn_ysubx q) in
  let! x := ed_mul w b (if signbit then pn_ysubx q else pn_xaddy q) in
  let! y := ed_add w x a in
  let! x := ed_sub w x a in
  let! c := ed_mul w (ge_t p) (pn_t2d q) in
  let! t := ed_mul w (ge_z p) (pn_z q) in
  let! t := ed_add_reduce w t t in
  p1p1_finish x y t c signbit.
(** ed25519-donna-impl-base.h:149-172 *)
Definition pnielsadd (p : ge25519) (q : ge25519_pniels) : outcome ge25519_pniels :=
  let! a := ed_sub w (ge_y p) (ge_x p) in
  let! b := ed_add w (ge_y p) (ge_x p) in
  let! a := ed_mul w a (pn_ysubx q) in
  let! x := ed_mul w b (pn_xaddy q) in
  let! y := ed_add w x a in
  let! x := ed_sub w x a in
  let! c := ed_mul w (ge_t p) (pn_t2d q) in
  let! t := ed_mul w (ge_z p) (pn_z q) in
  let! t := ed_add w t t in
  let! z := ed_add w t c in
  let! t := ed_sub_after_basic w t c in
  let! xaddy := ed_mul w x t in
  let! ysubx := ed_mul w y z in
  let! rz := ed_mul w z t in
  let! t2d := ed_mul w x y in
  let y := ysubx in
  let! ysubx := ed_sub w ysubx xaddy in
  let! xaddy := ed_add w xaddy y in
  let! t2d := ed_mul w t2d ge25519_ec2d in
  Ok (PNiels ysubx xaddy rz t2d).

(** ed25519-donna-impl-base.h:179-189; the arrays have 32 bytes *)
Definition ge25519_pack (p : ge25519) : outcome (list Z) :=
  let! zi := ed_recip w (ge_z p) in
  let! tx := ed_mul w (ge_x p) zi in
  let! ty := ed_mul w (ge_y p) zi in
  let! r := ed_contract w ty in
  let! parity := ed_contract w tx in
  Ok (splice 31 [Z.lxor (byte_at r 31) (Z.shiftl (Z.land (byte_at parity 0) 1) 7)] r).

(** ed25519-donna.h:66-72; size_t has 64 bits *)
Definition ed25519_verify (x y : list Z) : bool :=
  let differentbits := fold_left (fun d xy => Z.lor d (Z.lxor (fst xy) (snd xy))) (combine x y) 0 in
  Z.land 1 (Z.shiftr ((differentbits - 1) mod 2^64) 8) =? 1.

(** ed25519-donna-impl-base.h:191-239; None: the function returns zero *)
Definition unpack_negative_vartime (p : list Z) : outcome (option ge25519) :=
  let parity := Z.shiftr (byte_at p 31) 7 in
  let y := ed_expand p in
  let z := (1, 0, 0, 0, 0) in
  let! num := ed_square w y in
  let! den := ed_mul w num ge25519_ecd in
  let! num := ed_sub_reduce w num z in
  let! den := ed_add w den z in
  let! t := ed_square w den in
  let! d3 := ed_mul w t den in
  let! x := ed_square w d3 in
  let! x := ed_mul w x den in
  let! x := ed_mul w x num in
  let! x := ed_pow_two252m3 w x in
  let! x := ed_mul w x d3 in
  let! x := ed_mul w x num in
  let! t := ed_square w x in
  let! t := ed_mul w t den in
  let! root := ed_sub_reduce w t num in
  let! check := ed_contract w root in
  let! x :=
    if ed25519_verify check (zeros 32) then Ok (Some x)
    else
      let! t := ed_add_reduce w t num in
      let! check := ed_contract w t in
      if ed25519_verify check (zeros 32) then let! x := ed_mul w x ge25519_sqrtneg1 in Ok (Some x)
      else Ok None in
  match x with
  | None => Ok None
  | Some x =>
    let! check := ed_contract w x in
    let! x := if Z.land (byte_at check 0) 1 =? parity then ed_neg w x else Ok x in
    let! t := ed_mul w x y in
    Ok (Some (GE x y z t))
  end.

(** ed25519-donna-impl-base.h:266-267: the table of odd multiples from [q] on *)
Fixpoint pniels_table (count : nat) (d1 : ge25519) (q : ge25519_pniels) : outcome (list ge25519_pniels) :=
  match count with
  | O => Ok [q]
  | S count =>
    let! q' := pnielsadd d1 q in
    let! l := pniels_table count d1 q' in
    Ok (q :: l)
  end.
(** An element of a table of C; outside of it is undefined *)
Definition element {A} (table : list A) (i : Z) : outcome A :=
  if i <? 0 then UB else match nth_error table (Z.to_nat i) with Some q => Ok q | None => UB end.
(** ed25519-donna-impl-base.h:279-289: the body of the loop, for the two digits.
    The sign bit of a signed char is the one of its value. *)
Definition double_scalarmult_step (pre1 : list ge25519_pniels) (s1 s2 : Z) (r : ge25519) : outcome ge25519 :=
  let! t := double_p1p1 w r in
  let! rt :=
    if s1 =? 0 then Ok (r, t)
    else
      let! r := p1p1_to_full w t in
      let! q := element pre1 (Z.abs s1 / 2) in
      let! t := pnielsadd_p1p1 r q (s1 <? 0) in
      Ok (r, t) in
  let '(r, t) := rt in
  let! rt :=
    if s2 =? 0 then Ok (r, t)
    else
      let! r := p1p1_to_full w t in
      let! q := element niels_sliding_multiples (Z.abs s2 / 2) in
      let! t := nielsadd2_p1p1 r q (s2 <? 0) in
      Ok (r, t) in
  let '(r, t) := rt in
  p1p1_to_partial w r t.
(** ed25519-donna-impl-base.h:274-290: the loops, for the pairs of digits from the
    last element of the arrays on.  The first loop skips pairs of zeroes. *)
Fixpoint double_scalarmult_loop (pre1 : list ge25519_pniels) (digits : list (Z * Z)) (skip : bool) (r : ge25519) : outcome ge25519 :=
  match digits with
  | [] => Ok r
  | (s1, s2) :: digits =>
    if skip && (Z.lor s1 s2 =? 0) then double_scalarmult_loop pre1 digits true r
    else
      let! r := double_scalarmult_step pre1 s1 s2 r in
      double_scalarmult_loop pre1 digits false r
  end.
(** ed25519-donna-impl-base.h:252-291 *)
Definition double_scalarmult_vartime (p1 : ge25519) (s1 s2 : bignum256modm) : outcome ge25519 :=
  let slide1 := contract256_slidingwindow_modm s1 5 in
  let slide2 := contract256_slidingwindow_modm s2 7 in
  let! d1 := double_full w p1 in
  let! q := full_to_pniels p1 in
  let! pre1 := pniels_table 7 d1 q in
  let zero := (0, 0, 0, 0, 0) in
  let one := (1, 0, 0, 0, 0) in
  double_scalarmult_loop pre1 (rev (combine slide1 slide2)) true (GE zero one one zero).

(** ed25519-hash-custom.h:17-21, src/crypto/sha2/sha512.c:200-206 *)
Definition ed25519_hash (junk : hctx) (parts : list (list Z)) : list Z :=
  snd (sha512_finish (fold_left sha512_update parts (sha512_reset junk))).
(** ed25519.c:23-30; the clamping of lines 26-28 is the one of donna_clamp *)
Definition ed25519_extsk (junk : hctx) (sk : list Z) : list Z :=
  let extsk := ed25519_hash junk [sk] in
  donna_clamp (take 32 extsk) ++ drop 32 extsk.
(** ed25519.c:33-41; only the first 32 bytes of RS are read *)
Definition ed25519_hram (junk : hctx) (RS pk m : list Z) : list Z := ed25519_hash junk [take 32 RS; pk; m].
(** ed25519.c:43-54; keys have 32 bytes *)
Definition ed25519_publickey (junk : hctx) (sk : list Z) : outcome (list Z) :=
  let extsk := ed25519_extsk junk sk in
  let! a := expand256_modm extsk 32 in
  let! A := scalarmult_base_niels w niels_base_multiples a in
  ge25519_pack A.
(** ed25519.c:57-91; [m] is the whole message *)
Definition ed25519_sign (junk : hctx) (m sk pk : list Z) : outcome (list Z) :=
  let extsk := ed25519_extsk junk sk in
  let hashr := ed25519_hash junk [drop 32 extsk; m] in
  let! r := expand256_modm hashr 64 in
  let! R := scalarmult_base_niels w niels_base_multiples r in
  let! RS := ge25519_pack R in
  let hram := ed25519_hram junk RS pk m in
  let! s := expand256_modm hram 64 in
  let! a := expand256_modm extsk 32 in
  let! s := mul256_modm s a in
  let! s := add256_modm s r in
  Ok (RS ++ contract256_modm s).
(** ed25519.c:93-117 *)
Definition ed25519_sign_open (junk : hctx) (m pk RS : list Z) : outcome Z :=
  if negb (Z.land (byte_at RS 63) 224 =? 0) then Ok (-1)
  else
    let! A := unpack_negative_vartime pk in
    match A with
    | None => Ok (-1)
    | Some A =>
      let hash := ed25519_hram junk RS pk m in
      let! hram := expand256_modm hash 64 in
      let! s := expand256_modm (drop 32 RS) 32 in
      let! R := double_scalarmult_vartime A hram s in
      let! checkR := ge25519_pack R in
      Ok (if ed25519_verify (take 32 RS) checkR then 0 else -1)
    end.
End Arithmetic.
