(** Model of src/crypto/donna/curve25519-donna-c64.c, the variant of
    curve25519-donna for 64-bit machines with 128-bit integers. *)
From Verif Require Import Base MHash MSha2 MBlake2 MPoly1305.

(** An array of five limbs, curve25519-donna-c64.c:29 *)
Definition felem : Type := (Z * Z * Z * Z * Z)%type.
Definition mask51 : Z := 0x7ffffffffffff.

(** Arithmetic on limb (64 bits) and uint128_t goes through [w], as in
    MPoly1305.v: [wrap] reduces as C does, [strict] makes a result that does
    not fit an error.  The C functions write their results to arrays given by
    the caller; here they return them.  In every call of the file either the
    result array is distinct from the arguments or all the arguments are read
    before the first write. *)
Section Arithmetic.
Variable w : Z -> Z -> outcome Z.

(** curve25519-donna-c64.c:39-46: output += in *)
Definition fsum (output f : felem) : outcome felem :=
  let '(o0, o1, o2, o3, o4) := output in
  let '(i0, i1, i2, i3, i4) := f in
  let! r0 := w 64 (o0 + i0) in let! r1 := w 64 (o1 + i1) in let! r2 := w 64 (o2 + i2) in
  let! r3 := w 64 (o3 + i3) in let! r4 := w 64 (o4 + i4) in
  Ok (r0, r1, r2, r3, r4).

Definition two54m152 : Z := 2^54 - 152.
Definition two54m8 : Z := 2^54 - 8.
(** curve25519-donna-c64.c:54-65: output = in - output *)
Definition fdifference_backwards (out f : felem) : outcome felem :=
  let '(o0, o1, o2, o3, o4) := out in
  let '(i0, i1, i2, i3, i4) := f in
  let! a := w 64 (i0 + two54m152) in let! r0 := w 64 (a - o0) in
  let! a := w 64 (i1 + two54m8) in let! r1 := w 64 (a - o1) in
  let! a := w 64 (i2 + two54m8) in let! r2 := w 64 (a - o2) in
  let! a := w 64 (i3 + two54m8) in let! r3 := w 64 (a - o3) in
  let! a := w 64 (i4 + two54m8) in let! r4 := w 64 (a - o4) in
  Ok (r0, r1, r2, r3, r4).

(** (limb)a & 0x7ffffffffffff *)
Definition low51 (a : Z) : Z := Z.land (a mod 2^64) mask51.
(** curve25519-donna-c64.c:68-88.  The conversions to limb of a >> 51 and of the
    last sum go through [w] also. *)
Definition fscalar_product (f : felem) (scalar : Z) : outcome felem :=
  let '(i0, i1, i2, i3, i4) := f in
  let! a := w 128 (i0 * scalar) in let r0 := low51 a in
  let! c := w 64 (Z.shiftr a 51) in let! m := w 128 (i1 * scalar) in let! a := w 128 (m + c) in let r1 := low51 a in
  let! c := w 64 (Z.shiftr a 51) in let! m := w 128 (i2 * scalar) in let! a := w 128 (m + c) in let r2 := low51 a in
  let! c := w 64 (Z.shiftr a 51) in let! m := w 128 (i3 * scalar) in let! a := w 128 (m + c) in let r3 := low51 a in
  let! c := w 64 (Z.shiftr a 51) in let! m := w 128 (i4 * scalar) in let! a := w 128 (m + c) in let r4 := low51 a in
  let! c := w 128 (Z.shiftr a 51 * 19) in let! r0 := w 64 (r0 + c) in
  Ok (r0, r1, r2, r3, r4).

(** a + b and a * b of type uint128_t, where the operands may be sums themselves *)
Definition mul (a b : Z) : outcome Z := w 128 (a * b).
Definition add (a b : outcome Z) : outcome Z := let! x := a in let! y := b in w 128 (x + y).
(** The carries of curve25519-donna-c64.c:131-138 and, the same, 171-178 *)
Definition carry (t0 t1 t2 t3 t4 : Z) : outcome felem :=
  let r0 := low51 t0 in let! c := w 64 (Z.shiftr t0 51) in
  let! t1 := w 128 (t1 + c) in let r1 := low51 t1 in let! c := w 64 (Z.shiftr t1 51) in
  let! t2 := w 128 (t2 + c) in let r2 := low51 t2 in let! c := w 64 (Z.shiftr t2 51) in
  let! t3 := w 128 (t3 + c) in let r3 := low51 t3 in let! c := w 64 (Z.shiftr t3 51) in
  let! t4 := w 128 (t4 + c) in let r4 := low51 t4 in let! c := w 64 (Z.shiftr t4 51) in
  let! c19 := w 64 (c * 19) in let! r0 := w 64 (r0 + c19) in let c := Z.shiftr r0 51 in let r0 := Z.land r0 mask51 in
  let! r1 := w 64 (r1 + c) in let c := Z.shiftr r1 51 in let r1 := Z.land r1 mask51 in
  let! r2 := w 64 (r2 + c) in
  Ok (r0, r1, r2, r3, r4).
(** curve25519-donna-c64.c:98-145 *)
Definition fmul (in2 f : felem) : outcome felem :=
  let '(r0, r1, r2, r3, r4) := f in
  let '(s0, s1, s2, s3, s4) := in2 in
  let! t0 := mul r0 s0 in
  let! t1 := add (mul r0 s1) (mul r1 s0) in
  let! t2 := add (add (mul r0 s2) (mul r2 s0)) (mul r1 s1) in
  let! t3 := add (add (add (mul r0 s3) (mul r3 s0)) (mul r1 s2)) (mul r2 s1) in
  let! t4 := add (add (add (add (mul r0 s4) (mul r4 s0)) (mul r3 s1)) (mul r1 s3)) (mul r2 s2) in
  let! r4 := w 64 (r4 * 19) in
  let! r1 := w 64 (r1 * 19) in
  let! r2 := w 64 (r2 * 19) in
  let! r3 := w 64 (r3 * 19) in
  let! t0 := add (Ok t0) (add (add (add (mul r4 s1) (mul r1 s4)) (mul r2 s3)) (mul r3 s2)) in
  let! t1 := add (Ok t1) (add (add (mul r4 s2) (mul r2 s4)) (mul r3 s3)) in
  let! t2 := add (Ok t2) (add (mul r4 s3) (mul r3 s4)) in
  let! t3 := add (Ok t3) (mul r4 s4) in
  carry t0 t1 t2 t3 t4.

(** curve25519-donna-c64.c:159-178: the body of the loop *)
Definition fsquare (f : felem) : outcome felem :=
  let '(r0, r1, r2, r3, r4) := f in
  let! d0 := w 64 (r0 * 2) in
  let! d1 := w 64 (r1 * 2) in
  let! d2 := w 64 (r2 * 2) in let! d2 := w 64 (d2 * 19) in
  let! d419 := w 64 (r4 * 19) in
  let! d4 := w 64 (d419 * 2) in
  let! t0 := add (add (mul r0 r0) (mul d4 r1)) (mul d2 r3) in
  let! r319 := w 64 (r3 * 19) in
  let! t1 := add (add (mul d0 r1) (mul d4 r2)) (mul r3 r319) in
  let! t2 := add (add (mul d0 r2) (mul r1 r1)) (mul d4 r3) in
  let! t3 := add (add (mul d0 r3) (mul d1 r2)) (mul r4 d419) in
  let! t4 := add (add (mul d0 r4) (mul d1 r3)) (mul r2 r2) in
  carry t0 t1 t2 t3 t4.
(** curve25519-donna-c64.c:147-187.  The count is at least 1 in all calls (the C
    loop is do ... while (--count)). *)
Fixpoint fsquare_times (f : felem) (count : nat) : outcome felem :=
  match count with
  | O => Ok f
  | S count => let! f := fsquare f in fsquare_times f count
  end.

(** curve25519-donna-c64.c:190-201 *)
Definition load_limb (p : list Z) (off : Z) : Z := load_le64 (drop off p).
(** curve25519-donna-c64.c:216-223 *)
Definition fexpand (p : list Z) : felem :=
  (Z.land (load_limb p 0) mask51,
   Z.land (Z.shiftr (load_limb p 6) 3) mask51,
   Z.land (Z.shiftr (load_limb p 12) 6) mask51,
   Z.land (Z.shiftr (load_limb p 19) 1) mask51,
   Z.land (Z.shiftr (load_limb p 24) 12) mask51).

(** curve25519-donna-c64.c:203-213 *)
Definition store_limb (v : Z) : list Z := map (fun k => Z.land (Z.shiftr v (8 * Z.of_nat k)) 0xff) (seq 0 8).
(** curve25519-donna-c64.c:238-242, 244-248 and 255-259 *)
Definition contract_round (t : felem) : outcome felem :=
  let '(t0, t1, t2, t3, t4) := t in
  let! t1 := w 128 (t1 + Z.shiftr t0 51) in let t0 := Z.land t0 mask51 in
  let! t2 := w 128 (t2 + Z.shiftr t1 51) in let t1 := Z.land t1 mask51 in
  let! t3 := w 128 (t3 + Z.shiftr t2 51) in let t2 := Z.land t2 mask51 in
  let! t4 := w 128 (t4 + Z.shiftr t3 51) in let t3 := Z.land t3 mask51 in
  let! m := w 128 (19 * Z.shiftr t4 51) in let! t0 := w 128 (t0 + m) in let t4 := Z.land t4 mask51 in
  Ok (t0, t1, t2, t3, t4).
(** curve25519-donna-c64.c:228-281.  The arguments of store_limb are converted to
    limb: this truncation is intended. *)
Definition fcontract (f : felem) : outcome (list Z) :=
  let! t := contract_round f in
  let! t := contract_round t in
  let '(t0, t1, t2, t3, t4) := t in
  let! t0 := w 128 (t0 + 19) in
  let! t := contract_round (t0, t1, t2, t3, t4) in
  let '(t0, t1, t2, t3, t4) := t in
  let! t0 := w 128 (t0 + (0x8000000000000 - 19)) in
  let! t1 := w 128 (t1 + (0x8000000000000 - 1)) in
  let! t2 := w 128 (t2 + (0x8000000000000 - 1)) in
  let! t3 := w 128 (t3 + (0x8000000000000 - 1)) in
  let! t4 := w 128 (t4 + (0x8000000000000 - 1)) in
  let! t1 := w 128 (t1 + Z.shiftr t0 51) in let t0 := Z.land t0 mask51 in
  let! t2 := w 128 (t2 + Z.shiftr t1 51) in let t1 := Z.land t1 mask51 in
  let! t3 := w 128 (t3 + Z.shiftr t2 51) in let t2 := Z.land t2 mask51 in
  let! t4 := w 128 (t4 + Z.shiftr t3 51) in let t3 := Z.land t3 mask51 in
  let t4 := Z.land t4 mask51 in
  Ok (store_limb (Z.lor t0 (Z.shiftl t1 51) mod 2^64) ++
      store_limb (Z.lor (Z.shiftr t1 13) (Z.shiftl t2 38) mod 2^64) ++
      store_limb (Z.lor (Z.shiftr t2 26) (Z.shiftl t3 25) mod 2^64) ++
      store_limb (Z.lor (Z.shiftr t3 39) (Z.shiftl t4 12) mod 2^64)).

(** curve25519-donna-c64.c:292-324: x2, z2, x3, z3 from x, z, xprime, zprime *)
Definition fmonty (x z xprime zprime qmqp : felem) : outcome ((felem * felem) * (felem * felem)) :=
  let origx := x in
  let! x := fsum x z in
  let! z := fdifference_backwards z origx in
  let origxprime := xprime in
  let! xprime := fsum xprime zprime in
  let! zprime := fdifference_backwards zprime origxprime in
  let! xxprime := fmul xprime z in
  let! zzprime := fmul x zprime in
  let origxprime := xxprime in
  let! xxprime := fsum xxprime zzprime in
  let! zzprime := fdifference_backwards zzprime origxprime in
  let! x3 := fsquare_times xxprime 1 in
  let! zzzprime := fsquare_times zzprime 1 in
  let! z3 := fmul zzzprime qmqp in
  let! xx := fsquare_times x 1 in
  let! zz := fsquare_times z 1 in
  let! x2 := fmul xx zz in
  let! zz := fdifference_backwards zz xx in
  let! zzz := fscalar_product zz 121665 in
  let! zzz := fsum zzz xx in
  let! z2 := fmul zz zzz in
  Ok ((x2, z2), (x3, z3)).

(** curve25519-donna-c64.c:333-343; the negation is of a limb and wraps *)
Definition swap_limb (swap a b : Z) : Z * Z :=
  let x := Z.land swap (Z.lxor a b) in (Z.lxor a x, Z.lxor b x).
Definition swap_conditional (a b : felem) (iswap : Z) : felem * felem :=
  let '(a0, a1, a2, a3, a4) := a in
  let '(b0, b1, b2, b3, b4) := b in
  let swap := (- iswap) mod 2^64 in
  let '(a0, b0) := swap_limb swap a0 b0 in
  let '(a1, b1) := swap_limb swap a1 b1 in
  let '(a2, b2) := swap_limb swap a2 b2 in
  let '(a3, b3) := swap_limb swap a3 b3 in
  let '(a4, b4) := swap_limb swap a4 b4 in
  ((a0, a1, a2, a3, a4), (b0, b1, b2, b3, b4)).

(** ((nqx, nqz), (nqpqx, nqpqz)) *)
Definition points : Type := ((felem * felem) * (felem * felem))%type.
(** curve25519-donna-c64.c:366-388: one bit *)
Definition cmult_bit (q : felem) (bit : Z) (st : points) : outcome points :=
  let '((nqx, nqz), (nqpqx, nqpqz)) := st in
  let '(nqx, nqpqx) := swap_conditional nqx nqpqx bit in
  let '(nqz, nqpqz) := swap_conditional nqz nqpqz bit in
  let! r := fmonty nqx nqz nqpqx nqpqz q in
  let '((nqx2, nqz2), (nqpqx2, nqpqz2)) := r in
  let '(nqx2, nqpqx2) := swap_conditional nqx2 nqpqx2 bit in
  let '(nqz2, nqpqz2) := swap_conditional nqz2 nqpqz2 bit in
  Ok ((nqx2, nqz2), (nqpqx2, nqpqz2)).
(** curve25519-donna-c64.c:365-391: the [count] bits of [byte] from the highest *)
Fixpoint cmult_byte (q : felem) (count : nat) (byte : Z) (st : points) : outcome points :=
  match count with
  | O => Ok st
  | S count =>
    let! st := cmult_bit q (Z.shiftr byte 7) st in
    cmult_byte q count (Z.shiftl byte 1 mod 256) st
  end.
(** curve25519-donna-c64.c:363-392: the bytes from the last to the first *)
Fixpoint cmult_loop (q : felem) (n : list Z) (st : points) : outcome points :=
  match n with
  | [] => Ok st
  | byte :: n => let! st := cmult_byte q 8 byte st in cmult_loop q n st
  end.
(** curve25519-donna-c64.c:351-396 *)
Definition cmult (n : list Z) (q : felem) : outcome (felem * felem) :=
  let! st := cmult_loop q (rev n) (((1, 0, 0, 0, 0), (0, 0, 0, 0, 0)), (q, (1, 0, 0, 0, 0))) in
  Ok (fst st).

(** curve25519-donna-c64.c:402-428 *)
Definition crecip (z : felem) : outcome felem :=
  let! a := fsquare_times z 1 in
  let! t0 := fsquare_times a 2 in
  let! b := fmul t0 z in
  let! a := fmul b a in
  let! t0 := fsquare_times a 1 in
  let! b := fmul t0 b in
  let! t0 := fsquare_times b 5 in
  let! b := fmul t0 b in
  let! t0 := fsquare_times b 10 in
  let! c := fmul t0 b in
  let! t0 := fsquare_times c 20 in
  let! t0 := fmul t0 c in
  let! t0 := fsquare_times t0 10 in
  let! b := fmul t0 b in
  let! t0 := fsquare_times b 50 in
  let! c := fmul t0 b in
  let! t0 := fsquare_times c 100 in
  let! t0 := fmul t0 c in
  let! t0 := fsquare_times t0 50 in
  let! t0 := fmul t0 b in
  let! t0 := fsquare_times t0 5 in
  fmul t0 a.

(** curve25519-donna-c64.c:438-441 *)
Definition donna_clamp (secret : list Z) : list Z :=
  [Z.land (byte_at secret 0) 248] ++ sub 1 30 secret ++ [Z.lor (Z.land (byte_at secret 31) 127) 64].
(** curve25519-donna-c64.c:432-449; the two arrays of 32 bytes that the C
    function reads *)
Definition curve25519_donna (secret basepoint : list Z) : outcome (list Z) :=
  let e := donna_clamp secret in
  let bp := fexpand basepoint in
  let! r := cmult e bp in
  let '(x, z) := r in
  let! zmone := crecip z in
  let! z := fmul x zmone in
  fcontract z.
End Arithmetic.
