(** Model of src/crypto/donna/poly1305-donna.c with poly1305-donna-32.h, the variant
    for compilers without 128-bit integers. *)
From Verif Require Import Base MHash MSha2 MBlake2 MPoly1305.

(** five limbs of 26 bits, poly1305-donna-32.h:75-77 *)
Definition limbs5 : Type := Z * Z * Z * Z * Z.

(** poly1305-donna-32.h:16-23.  [q_buffer] is uninitialised after poly1305_init. *)
Record poly32 : Type := Poly32 {
  q_r : limbs5;
  q_h : limbs5;
  q_pad : Z * Z * Z * Z;
  q_leftover : Z;
  q_buffer : list Z;
  q_final : bool
}.

(** poly1305-donna-32.h:26-33, at offset [off]; the & 0xff change nothing *)
Definition U8TO32 (p : list Z) (off : Z) : Z := load_le32 (drop off p).
(** poly1305-donna-32.h:36-42 *)
Definition U32TO8 (v : Z) : list Z :=
  map (fun k => Z.land (Z.shiftr v (8 * Z.of_nat k)) 0xff) (seq 0 4).

(** the mask 0x3ffffff of poly1305-donna-32.h:100-119, 158-169 *)
Definition mask26 : Z := 0x3ffffff.

(** poly1305-donna-32.h:44-70 *)
Definition poly32_init (buffer key : list Z) : poly32 :=
  Poly32 (Z.land (U8TO32 key 0) 0x3ffffff,
          Z.land (Z.shiftr (U8TO32 key 3) 2) 0x3ffff03,
          Z.land (Z.shiftr (U8TO32 key 6) 4) 0x3ffc0ff,
          Z.land (Z.shiftr (U8TO32 key 9) 6) 0x3f03fff,
          Z.land (Z.shiftr (U8TO32 key 12) 8) 0x00fffff)
         (0, 0, 0, 0, 0)
         (U8TO32 key 16, U8TO32 key 20, U8TO32 key 24, U8TO32 key 28) 0 buffer false.

(** As in MPoly1305.v, sums and products go through [w].  unsigned long has [lw]
    bits, 32 or 64, and unsigned long long has 64. *)
Section Arithmetic.
Variable lw : Z.
Variable w : Z -> Z -> outcome Z.

(** a * b + c * d + ..., for the five products of a line of poly1305-donna-32.h:107-111 *)
Definition sum5 (a b c d e : Z) : outcome Z :=
  let! x := w 64 (a + b) in let! x := w 64 (x + c) in let! x := w 64 (x + d) in w 64 (x + e).
(** poly1305-donna-32.h:107-111: one line *)
Definition dot5 (h : limbs5) (r0 r1 r2 r3 r4 : Z) : outcome Z :=
  let '(h0, h1, h2, h3, h4) := h in
  let! p0 := w 64 (h0 * r0) in let! p1 := w 64 (h1 * r1) in let! p2 := w 64 (h2 * r2) in
  let! p3 := w 64 (h3 * r3) in let! p4 := w 64 (h4 * r4) in
  sum5 p0 p1 p2 p3 p4.
(** poly1305-donna-32.h:99-120: one block, with s1 to s4 of 87-90 *)
Definition poly32_block (hibit : Z) (r : limbs5) (s : Z * Z * Z * Z) (h : limbs5) (m : list Z) : outcome limbs5 :=
  let '(r0, r1, r2, r3, r4) := r in
  let '(s1, s2, s3, s4) := s in
  let '(h0, h1, h2, h3, h4) := h in
  let! h0 := w lw (h0 + Z.land (U8TO32 m 0) mask26) in
  let! h1 := w lw (h1 + Z.land (Z.shiftr (U8TO32 m 3) 2) mask26) in
  let! h2 := w lw (h2 + Z.land (Z.shiftr (U8TO32 m 6) 4) mask26) in
  let! h3 := w lw (h3 + Z.land (Z.shiftr (U8TO32 m 9) 6) mask26) in
  let! h4 := w lw (h4 + Z.lor (Z.shiftr (U8TO32 m 12) 8) hibit) in
  let h := (h0, h1, h2, h3, h4) in
  let! d0 := dot5 h r0 s4 s3 s2 s1 in
  let! d1 := dot5 h r1 r0 s4 s3 s2 in
  let! d2 := dot5 h r2 r1 r0 s4 s3 in
  let! d3 := dot5 h r3 r2 r1 r0 s4 in
  let! d4 := dot5 h r4 r3 r2 r1 r0 in
  let! c := w lw (Z.shiftr d0 26) in let h0 := Z.land (d0 mod 2^lw) mask26 in
  let! d1 := w 64 (d1 + c) in let! c := w lw (Z.shiftr d1 26) in let h1 := Z.land (d1 mod 2^lw) mask26 in
  let! d2 := w 64 (d2 + c) in let! c := w lw (Z.shiftr d2 26) in let h2 := Z.land (d2 mod 2^lw) mask26 in
  let! d3 := w 64 (d3 + c) in let! c := w lw (Z.shiftr d3 26) in let h3 := Z.land (d3 mod 2^lw) mask26 in
  let! d4 := w 64 (d4 + c) in let! c := w lw (Z.shiftr d4 26) in let h4 := Z.land (d4 mod 2^lw) mask26 in
  let! c5 := w lw (c * 5) in let! h0 := w lw (h0 + c5) in let c := Z.shiftr h0 26 in let h0 := Z.land h0 mask26 in
  let! h1 := w lw (h1 + c) in
  Ok (h0, h1, h2, h3, h4).
(** poly1305-donna-32.h:98-124: the loop; [m] has the [count] blocks read *)
Fixpoint poly32_blocks_loop (count : nat) (hibit : Z) (r : limbs5) (s : Z * Z * Z * Z) (h : limbs5) (m : list Z) : outcome limbs5 :=
  match count with
  | O => Ok h
  | S count' =>
    let! h := poly32_block hibit r s h m in
    poly32_blocks_loop count' hibit r s h (drop 16 m)
  end.
(** poly1305-donna-32.h:72-131 *)
Definition poly32_blocks (st : poly32) (m : list Z) (bytes : Z) : outcome poly32 :=
  let hibit := if q_final st then 0 else Z.shiftl 1 24 in
  let '(r0, r1, r2, r3, r4) := q_r st in
  let! s1 := w lw (r1 * 5) in
  let! s2 := w lw (r2 * 5) in
  let! s3 := w lw (r3 * 5) in
  let! s4 := w lw (r4 * 5) in
  let! h := poly32_blocks_loop (Z.to_nat (bytes / 16)) hibit (r0, r1, r2, r3, r4) (s1, s2, s3, s4) (q_h st) m in
  Ok (Poly32 (q_r st) h (q_pad st) (q_leftover st) (q_buffer st) (q_final st)).

(** poly1305-donna.c:55-60 *)
Definition poly32_store (st : poly32) (m : list Z) : poly32 :=
  if zlen m =? 0 then st
  else Poly32 (q_r st) (q_h st) (q_pad st) (q_leftover st + zlen m)
              (splice (q_leftover st) m (q_buffer st)) (q_final st).
(** poly1305-donna.c:47-60; bytes & ~15 is bytes with the low four bits cleared *)
Definition poly32_full (st : poly32) (m : list Z) : outcome poly32 :=
  if zlen m >=? 16 then
    let want := zlen m - zlen m mod 16 in
    let! st := poly32_blocks st m want in
    Ok (poly32_store st (drop want m))
  else Ok (poly32_store st m).
(** poly1305-donna.c:26-61; [m] is the whole input, of length bytes *)
Definition poly32_update (st : poly32) (m : list Z) : outcome poly32 :=
  if q_leftover st =? 0 then poly32_full st m
  else
    let want := 16 - q_leftover st in
    let want := if want >? zlen m then zlen m else want in
    let st := Poly32 (q_r st) (q_h st) (q_pad st) (q_leftover st + want)
                     (splice (q_leftover st) (take want m) (q_buffer st)) (q_final st) in
    if q_leftover st <? 16 then Ok st
    else
      let! st := poly32_blocks st (q_buffer st) 16 in
      let st := Poly32 (q_r st) (q_h st) (q_pad st) 0 (q_buffer st) (q_final st) in
      poly32_full st (drop want m).

(** poly1305-donna-32.h:141-149 *)
Definition poly32_last (st : poly32) : outcome poly32 :=
  if q_leftover st =? 0 then Ok st
  else
    let buffer := splice (q_leftover st) [1] (q_buffer st) in
    let buffer := splice (q_leftover st + 1) (zeros (16 - (q_leftover st + 1))) buffer in
    let st := Poly32 (q_r st) (q_h st) (q_pad st) (q_leftover st) buffer true in
    poly32_blocks st buffer 16.
(** poly1305-donna-32.h:151-163 *)
Definition poly32_carry (h : limbs5) : outcome limbs5 :=
  let '(h0, h1, h2, h3, h4) := h in
  let c := Z.shiftr h1 26 in let h1 := Z.land h1 mask26 in
  let! h2 := w lw (h2 + c) in let c := Z.shiftr h2 26 in let h2 := Z.land h2 mask26 in
  let! h3 := w lw (h3 + c) in let c := Z.shiftr h3 26 in let h3 := Z.land h3 mask26 in
  let! h4 := w lw (h4 + c) in let c := Z.shiftr h4 26 in let h4 := Z.land h4 mask26 in
  let! c5 := w lw (c * 5) in let! h0 := w lw (h0 + c5) in let c := Z.shiftr h0 26 in let h0 := Z.land h0 mask26 in
  let! h1 := w lw (h1 + c) in
  Ok (h0, h1, h2, h3, h4).
(** poly1305-donna-32.h:165-184; the subtractions at 170 and 173 and the complement
    at 179 are meant to wrap around *)
Definition poly32_select (h : limbs5) : outcome limbs5 :=
  let '(h0, h1, h2, h3, h4) := h in
  let! g0 := w lw (h0 + 5) in let c := Z.shiftr g0 26 in let g0 := Z.land g0 mask26 in
  let! g1 := w lw (h1 + c) in let c := Z.shiftr g1 26 in let g1 := Z.land g1 mask26 in
  let! g2 := w lw (h2 + c) in let c := Z.shiftr g2 26 in let g2 := Z.land g2 mask26 in
  let! g3 := w lw (h3 + c) in let c := Z.shiftr g3 26 in let g3 := Z.land g3 mask26 in
  let! g4 := w lw (h4 + c) in
  let g4 := (g4 - Z.shiftl 1 26) mod 2^lw in
  let mask := (Z.shiftr g4 (lw - 1) - 1) mod 2^lw in
  let not_mask := 2^lw - 1 - mask in
  let pick h g := Z.lor (Z.land h not_mask) (Z.land g mask) in
  Ok (pick h0 g0, pick h1 g1, pick h2 g2, pick h3 g3, pick h4 g4).
(** poly1305-donna-32.h:186-201; the left shifts may lose high bits, which the mask
    takes away anyway *)
Definition poly32_output (pad : Z * Z * Z * Z) (h : limbs5) : outcome (list Z) :=
  let '(h0, h1, h2, h3, h4) := h in
  let '(p0, p1, p2, p3) := pad in
  let h0 := Z.land (Z.lor h0 (Z.shiftl h1 26 mod 2^lw)) 0xffffffff in
  let h1 := Z.land (Z.lor (Z.shiftr h1 6) (Z.shiftl h2 20 mod 2^lw)) 0xffffffff in
  let h2 := Z.land (Z.lor (Z.shiftr h2 12) (Z.shiftl h3 14 mod 2^lw)) 0xffffffff in
  let h3 := Z.land (Z.lor (Z.shiftr h3 18) (Z.shiftl h4 8 mod 2^lw)) 0xffffffff in
  let! f := w 64 (h0 + p0) in let h0 := f mod 2^lw in
  let! a := w 64 (h1 + p1) in let! f := w 64 (a + Z.shiftr f 32) in let h1 := f mod 2^lw in
  let! a := w 64 (h2 + p2) in let! f := w 64 (a + Z.shiftr f 32) in let h2 := f mod 2^lw in
  let! a := w 64 (h3 + p3) in let! f := w 64 (a + Z.shiftr f 32) in let h3 := f mod 2^lw in
  Ok (U32TO8 h0 ++ U32TO8 h1 ++ U32TO8 h2 ++ U32TO8 h3).
(** poly1305-donna-32.h:133-218: the state is cleared (203-217) and the sixteen
    bytes of the MAC are written *)
Definition poly32_finish (st : poly32) : outcome (poly32 * list Z) :=
  let! st := poly32_last st in
  let! h := poly32_carry (q_h st) in
  let! h := poly32_select h in
  let! mac := poly32_output (q_pad st) h in
  Ok (Poly32 (0, 0, 0, 0, 0) (0, 0, 0, 0, 0) (0, 0, 0, 0) (q_leftover st) (q_buffer st) (q_final st), mac).
End Arithmetic.
