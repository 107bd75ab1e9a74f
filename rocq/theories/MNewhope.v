(** Model of the parts of src/crypto/newhope that encode polynomials, work on
    their coefficients and derive the key bits: reduce.c, poly.c (without
    poly_uniform and the number theoretic transform), error_correction.c and the
    encodings of newhope.c.  A polynomial is the list of its coefficients. *)
From Verif Require Import Base.

(** params.h:7 *)
Definition PARAM_Q : Z := 12289.
(** an out of range value stored in a uint16_t, a uint32_t or an unsigned char *)
Definition u16 (x : Z) : Z := x mod 2^16.
(** uint32_t *)
Definition u32 (x : Z) : Z := x mod 2^32.
(** unsigned char *)
Definition u8 (x : Z) : Z := x mod 2^8.
(** an out of range value stored in an int16_t or int32_t; implementation defined,
    taken as two's complement, like the right shifts of negative numbers *)
Definition i16 (x : Z) : Z := (x + 2^15) mod 2^16 - 2^15.
(** int32_t *)
Definition i32 (x : Z) : Z := (x + 2^31) mod 2^32 - 2^31.
(** signed arithmetic: overflow is undefined *)
Definition s32 (x : Z) : outcome Z := if (- 2^31 <=? x) && (x <? 2^31) then Ok x else UB.

(** reduce.c:12-21 *)
Definition montgomery_reduce (a : Z) : Z :=
  let u := u32 (a * 12287) in
  let u := Z.land u (2^18 - 1) in
  let u := u32 (u * PARAM_Q) in
  let a := u32 (a + u) in
  u16 (Z.shiftr a 18).
(** reduce.c:24-32; the argument is a uint16_t *)
Definition barrett_reduce (a : Z) : Z :=
  let a := u16 a in
  let u := Z.shiftr (u32 (a * 5)) 16 in
  let u := u32 (u * PARAM_Q) in
  u16 (a - u).

(** poly.c:33-36 (and 38-51): the final subtraction *)
Definition csubq (t : Z) : Z :=
  let m := u16 (t - PARAM_Q) in
  let c := Z.shiftr (i16 m) 15 in
  u16 (Z.lxor m (Z.land (Z.lxor t m) c)).
(** poly.c:53-59 *)
Definition tobytes4 (t0 t1 t2 t3 : Z) : list Z :=
  [Z.land t0 0xff;
   u8 (Z.lor (Z.shiftr t0 8) (Z.shiftl t1 6));
   u8 (Z.shiftr t1 2);
   u8 (Z.lor (Z.shiftr t1 10) (Z.shiftl t2 4));
   u8 (Z.shiftr t2 4);
   u8 (Z.lor (Z.shiftr t2 12) (Z.shiftl t3 2));
   u8 (Z.shiftr t3 6)].
(** poly.c:21-61: the loop takes four coefficients at a time *)
Fixpoint poly_tobytes (p : list Z) : list Z :=
  match p with
  | c0 :: c1 :: c2 :: c3 :: p' =>
    let t c := csubq (barrett_reduce c) in
    tobytes4 (t c0) (t c1) (t c2) (t c3) ++ poly_tobytes p'
  | _ => []
  end.
(** poly.c:9-19: the loop takes seven bytes at a time *)
Fixpoint poly_frombytes (a : list Z) : list Z :=
  match a with
  | a0 :: a1 :: a2 :: a3 :: a4 :: a5 :: a6 :: a' =>
    u16 (Z.lor a0 (Z.shiftl (Z.land a1 0x3f) 8)) ::
    u16 (Z.lor (Z.lor (Z.shiftr a1 6) (Z.shiftl a2 2)) (Z.shiftl (Z.land a3 0x0f) 10)) ::
    u16 (Z.lor (Z.lor (Z.shiftr a3 4) (Z.shiftl a4 4)) (Z.shiftl (Z.land a5 0x03) 12)) ::
    u16 (Z.lor (Z.shiftr a5 2) (Z.shiftl a6 6)) :: poly_frombytes a'
  | _ => []
  end.
(** poly.c:131-140; the products are of type int, and the checks of [s32] say that
    they do not overflow *)
Definition pointwise1 (a b : Z) : outcome Z :=
  let! x := s32 (3186 * b) in
  let t := montgomery_reduce (u32 x) in
  let! y := s32 (a * t) in
  Ok (montgomery_reduce (u32 y)).
(** poly.c:131-140: the loop *)
Fixpoint poly_pointwise (a b : list Z) : outcome (list Z) :=
  match a, b with
  | x :: a', y :: b' => let! r := pointwise1 x y in let! r' := poly_pointwise a' b' in Ok (r :: r')
  | _, _ => Ok []
  end.
(** poly.c:142-147 *)
Fixpoint poly_add (a b : list Z) : list Z :=
  match a, b with
  | x :: a', y :: b' => barrett_reduce (x + y) :: poly_add a' b'
  | _, _ => []
  end.
(** poly.c:121-127: one coefficient of the noise from one word [t] *)
Definition getnoise1 (t : Z) : Z :=
  let d := fold_left (fun d j => u32 (d + Z.land (Z.shiftr t (Z.of_nat j)) 0x01010101)) (seq 0 8) 0 in
  let a := Z.land (Z.shiftr d 8) 0xff + Z.land d 0xff in
  let b := Z.shiftr d 24 + Z.land (Z.shiftr d 16) 0xff in
  u16 (u32 (a + PARAM_Q - b)).

(** poly.c:117-128, after the stream of 4 PARAM_N bytes was written to the words of
    buf; on a little-endian machine *)
Fixpoint noise_of_stream (buf : list Z) : list Z :=
  match buf with
  | b0 :: b1 :: b2 :: b3 :: buf' =>
    getnoise1 (Z.lor (Z.lor (Z.lor b0 (Z.shiftl b1 8)) (Z.shiftl b2 16)) (Z.shiftl b3 24)) :: noise_of_stream buf'
  | _ => []
  end.

(** error_correction.c:5-9; - 2^31 does not occur *)
Definition abs32 (v : Z) : outcome Z :=
  let mask := Z.shiftr v 31 in
  s32 (Z.lxor v mask - mask).
(** error_correction.c:12-33: v0, v1 and the result; [x] is a uint32_t, and so are
    the products and differences with it *)
Definition rec_f (x : Z) : outcome (Z * Z * Z) :=
  let b := i32 (x * 2730) in
  let t := Z.shiftr b 25 in
  let b := i32 (x - t * 12289) in
  let! b := s32 (12288 - b) in
  let b := Z.shiftr b 31 in
  let! t := s32 (t - b) in
  let r := Z.land t 1 in
  let xit := Z.shiftr t 1 in
  let! v0 := s32 (xit + r) in
  let! t := s32 (t - 1) in
  let r := Z.land t 1 in
  let! v1 := s32 (Z.shiftr t 1 + r) in
  let! m := s32 (v0 * 2 * PARAM_Q) in
  let! d := abs32 (i32 (x - m)) in
  Ok (v0, v1, d).
(** error_correction.c:35-53 *)
Definition rec_g (x : Z) : outcome Z :=
  let! b := s32 (x * 2730) in
  let t := Z.shiftr b 27 in
  let! b := s32 (x - t * 49156) in
  let! b := s32 (49155 - b) in
  let b := Z.shiftr b 31 in
  let! t := s32 (t - b) in
  let c := Z.land t 1 in
  let! t := s32 (Z.shiftr t 1 + c) in
  let! t := s32 (t * (8 * PARAM_Q)) in
  let! d := s32 (t - x) in
  abs32 d.
(** error_correction.c:56-68 *)
Definition LDDecode (x0 x1 x2 x3 : Z) : outcome Z :=
  let! t := rec_g x0 in
  let! g1 := rec_g x1 in let! t := s32 (t + g1) in
  let! g2 := rec_g x2 in let! t := s32 (t + g2) in
  let! g3 := rec_g x3 in let! t := s32 (t + g3) in
  let! t := s32 (t - 8 * PARAM_Q) in
  Ok (Z.land (Z.shiftr t 31) 1).
(** error_correction.c:89-104: the four coefficients of c from four coefficients of
    v and a random bit *)
Definition helprec4 (a0 a1 a2 a3 rbit : Z) : outcome (Z * Z * Z * Z) :=
  let! (v00, v10, k) := rec_f (8 * a0 + 4 * rbit) in
  let! (v01, v11, d) := rec_f (8 * a1 + 4 * rbit) in let! k := s32 (k + d) in
  let! (v02, v12, d) := rec_f (8 * a2 + 4 * rbit) in let! k := s32 (k + d) in
  let! (v03, v13, d) := rec_f (8 * a3 + 4 * rbit) in let! k := s32 (k + d) in
  let! k := s32 (2 * PARAM_Q - 1 - k) in
  let k := Z.shiftr k 31 in
  let pick v0 v1 := Z.lxor (Z.land (Z.lnot k) v0) (Z.land k v1) in
  let t0 := pick v00 v10 in let t1 := pick v01 v11 in let t2 := pick v02 v12 in let t3 := pick v03 v13 in
  Ok (Z.land (t0 - t3) 3, Z.land (t1 - t3) 3, Z.land (t2 - t3) 3, Z.land (- k + 2 * t3) 3).
(** error_correction.c:119-124: one bit of the key *)
Definition rec4 (a0 a1 a2 a3 c0 c1 c2 c3 : Z) : outcome Z :=
  let! x0 := s32 (16 * PARAM_Q + 8 * a0 - PARAM_Q * (2 * c0 + c3)) in
  let! x1 := s32 (16 * PARAM_Q + 8 * a1 - PARAM_Q * (2 * c1 + c3)) in
  let! x2 := s32 (16 * PARAM_Q + 8 * a2 - PARAM_Q * (2 * c2 + c3)) in
  let! x3 := s32 (16 * PARAM_Q + 8 * a3 - PARAM_Q * c3) in
  LDDecode x0 x1 x2 x3.

(** p->coeffs[i] *)
Definition coeff (p : list Z) (i : nat) : Z := nth i p 0.
(** the loops over i = 0 .. 255 of error_correction.c:85, 117; each turn works on
    its own coefficients and its own bit *)
Fixpoint each {A} (f : nat -> outcome A) (l : list nat) : outcome (list A) :=
  match l with
  | [] => Ok []
  | i :: l' => let! x := f i in let! r := each f l' in Ok (x :: r)
  end.
(** error_correction.c:71-106; [rand] is the 32 bytes of stream of line 83 *)
Definition helprec (v rand : list Z) : outcome (list Z) :=
  let! c := each (fun i =>
    helprec4 (coeff v i) (coeff v (256 + i)) (coeff v (512 + i)) (coeff v (768 + i))
             (Z.land (Z.shiftr (nth (i / 8) rand 0) (Z.of_nat (i mod 8))) 1)) (seq 0 256) in
  Ok (map (fun '(c0, _, _, _) => c0) c ++ map (fun '(_, c1, _, _) => c1) c ++
      map (fun '(_, _, c2, _) => c2) c ++ map (fun '(_, _, _, c3) => c3) c).
(** error_correction.c:124: eight bits make a byte, the first the lowest *)
Fixpoint pack_bits (l : list Z) : list Z :=
  match l with
  | b0 :: b1 :: b2 :: b3 :: b4 :: b5 :: b6 :: b7 :: l' =>
    fold_left Z.lor [Z.shiftl b1 1; Z.shiftl b2 2; Z.shiftl b3 3; Z.shiftl b4 4; Z.shiftl b5 5; Z.shiftl b6 6; Z.shiftl b7 7] b0
      :: pack_bits l'
  | _ => []
  end.
(** error_correction.c:109-126 *)
Definition rec (v c : list Z) : outcome (list Z) :=
  let! bits := each (fun i =>
    rec4 (coeff v i) (coeff v (256 + i)) (coeff v (512 + i)) (coeff v (768 + i))
         (coeff c i) (coeff c (256 + i)) (coeff c (512 + i)) (coeff c (768 + i))) (seq 0 256) in
  Ok (pack_bits bits).

(** newhope.c:27-28: the second part of encode_b *)
Fixpoint encode_c (c : list Z) : list Z :=
  match c with
  | c0 :: c1 :: c2 :: c3 :: c' =>
    u8 (Z.lor (Z.lor (Z.lor c0 (Z.shiftl c1 2)) (Z.shiftl c2 4)) (Z.shiftl c3 6)) :: encode_c c'
  | _ => []
  end.
(** newhope.c:35-41: the second part of decode_b *)
Fixpoint decode_c (r : list Z) : list Z :=
  match r with
  | b :: r' => Z.land b 3 :: Z.land (Z.shiftr b 2) 3 :: Z.land (Z.shiftr b 4) 3 :: Z.shiftr b 6 :: decode_c r'
  | [] => []
  end.
(** newhope.c:23-29 *)
Definition encode_b (b c : list Z) : list Z := poly_tobytes b ++ encode_c c.
(** newhope.c:31-42; POLY_BYTES is 1792 *)
Definition decode_b (r : list Z) : list Z * list Z := (poly_frombytes (take 1792 r), decode_c (drop 1792 r)).
(** newhope.c:7-13 *)
Definition encode_a (pk seed : list Z) : list Z := poly_tobytes pk ++ take 32 seed.
(** newhope.c:15-21 *)
Definition decode_a (r : list Z) : list Z * list Z := (poly_frombytes (take 1792 r), take 32 (drop 1792 r)).
