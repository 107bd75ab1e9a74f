(** Model of src/crypto/donna/poly1305-donna.c with poly1305-donna-64.h, the
    variant for compilers with 128-bit integers. *)
From Verif Require Import Base MHash MSha2 MBlake2.

(** poly1305-donna-64.h:39-46.  [p_buffer] is uninitialised after
    poly1305_init. *)
Record poly1305 : Type := Poly1305 {
  p_r : Z * Z * Z;
  p_h : Z * Z * Z;
  p_pad : Z * Z;
  p_leftover : Z;
  p_buffer : list Z;
  p_final : bool
}.

(** poly1305-donna-64.h:49-60, at offset [off]; the & 0xff change nothing *)
Definition U8TO64 (p : list Z) (off : Z) : Z := load_le64 (drop off p).
(** poly1305-donna-64.h:63-73 *)
Definition U64TO8 (v : Z) : list Z :=
  map (fun k => Z.land (Z.shiftr v (8 * Z.of_nat k)) 0xff) (seq 0 8).

Definition mask44 : Z := 0xfffffffffff.
Definition mask42 : Z := 0x3ffffffffff.

(** poly1305-donna-64.h:75-99 *)
Definition poly1305_init (buffer key : list Z) : poly1305 :=
  let t0 := U8TO64 key 0 in
  let t1 := U8TO64 key 8 in
  Poly1305 (Z.land t0 0xffc0fffffff,
            Z.land (Z.lor (Z.shiftr t0 44) (Z.shiftl t1 20 mod 2^64)) 0xfffffc0ffff,
            Z.land (Z.shiftr t1 24) 0x00ffffffc0f)
           (0, 0, 0) (U8TO64 key 16, U8TO64 key 24) 0 buffer false.

(** The sums and products below are of C type unsigned long long (64 bits) or
    uint128_t.  [w bits x] is what becomes of the exact result [x]: with [wrap]
    it is reduced modulo 2^bits, as C does; with [strict] a result that does not
    fit is an error.  Wherever the code relies on reduction or truncation, it is
    written out instead. *)
Definition wrap (bits x : Z) : outcome Z := Ok (x mod 2 ^ bits).
Definition strict (bits x : Z) : outcome Z := if (0 <=? x) && (x <? 2 ^ bits) then Ok x else UB.

Section Arithmetic.
Variable w : Z -> Z -> outcome Z.

(** poly1305-donna-64.h:122-142: one block, from s1 and s2 of 118-119.  SHR and
    LO convert to unsigned long long. *)
Definition poly1305_block (hibit : Z) (r : Z * Z * Z) (s : Z * Z) (h : Z * Z * Z) (m : list Z) : outcome (Z * Z * Z) :=
  let '(r0, r1, r2) := r in
  let '(s1, s2) := s in
  let '(h0, h1, h2) := h in
  let t0 := U8TO64 m 0 in
  let t1 := U8TO64 m 8 in
  let! h0 := w 64 (h0 + Z.land t0 mask44) in
  let! h1 := w 64 (h1 + Z.land (Z.lor (Z.shiftr t0 44) (Z.shiftl t1 20 mod 2^64)) mask44) in
  let! h2 := w 64 (h2 + Z.lor (Z.land (Z.shiftr t1 24) mask42) hibit) in
  let! d0 := w 128 (h0 * r0) in let! d := w 128 (h1 * s2) in let! d0 := w 128 (d0 + d) in
  let! d := w 128 (h2 * s1) in let! d0 := w 128 (d0 + d) in
  let! d1 := w 128 (h0 * r1) in let! d := w 128 (h1 * r0) in let! d1 := w 128 (d1 + d) in
  let! d := w 128 (h2 * s2) in let! d1 := w 128 (d1 + d) in
  let! d2 := w 128 (h0 * r2) in let! d := w 128 (h1 * r1) in let! d2 := w 128 (d2 + d) in
  let! d := w 128 (h2 * r0) in let! d2 := w 128 (d2 + d) in
  let! c := w 64 (Z.shiftr d0 44) in let h0 := Z.land (d0 mod 2^64) mask44 in
  let! d1 := w 128 (d1 + c) in let! c := w 64 (Z.shiftr d1 44) in let h1 := Z.land (d1 mod 2^64) mask44 in
  let! d2 := w 128 (d2 + c) in let! c := w 64 (Z.shiftr d2 42) in let h2 := Z.land (d2 mod 2^64) mask42 in
  let! c5 := w 64 (c * 5) in let! h0 := w 64 (h0 + c5) in let c := Z.shiftr h0 44 in let h0 := Z.land h0 mask44 in
  let! h1 := w 64 (h1 + c) in
  Ok (h0, h1, h2).

(** poly1305-donna-64.h:121-146: the loop; [m] has the [count] blocks read *)
Fixpoint poly1305_blocks_loop (count : nat) (hibit : Z) (r : Z * Z * Z) (s : Z * Z) (h : Z * Z * Z) (m : list Z)
    : outcome (Z * Z * Z) :=
  match count with
  | O => Ok h
  | S count' =>
    let! h := poly1305_block hibit r s h m in
    poly1305_blocks_loop count' hibit r s h (drop 16 m)
  end.
(** poly1305-donna-64.h:101-151 *)
Definition poly1305_blocks (st : poly1305) (m : list Z) (bytes : Z) : outcome poly1305 :=
  let hibit := if p_final st then 0 else Z.shiftl 1 40 in
  let '(r0, r1, r2) := p_r st in
  let! s1 := w 64 (r1 * Z.shiftl 5 2) in
  let! s2 := w 64 (r2 * Z.shiftl 5 2) in
  let! h := poly1305_blocks_loop (Z.to_nat (bytes / 16)) hibit (r0, r1, r2) (s1, s2) (p_h st) m in
  Ok (Poly1305 (p_r st) h (p_pad st) (p_leftover st) (p_buffer st) (p_final st)).

(** poly1305-donna.c:55-60 *)
Definition poly1305_store (st : poly1305) (m : list Z) : poly1305 :=
  if zlen m =? 0 then st
  else Poly1305 (p_r st) (p_h st) (p_pad st) (p_leftover st + zlen m)
                (splice (p_leftover st) m (p_buffer st)) (p_final st).
(** poly1305-donna.c:47-60; bytes & ~15 is bytes with the low four bits cleared *)
Definition poly1305_full (st : poly1305) (m : list Z) : outcome poly1305 :=
  if zlen m >=? 16 then
    let want := zlen m - zlen m mod 16 in
    let! st := poly1305_blocks st m want in
    Ok (poly1305_store st (drop want m))
  else Ok (poly1305_store st m).
(** poly1305-donna.c:26-61; [m] is the whole input, of length bytes *)
Definition poly1305_update (st : poly1305) (m : list Z) : outcome poly1305 :=
  if p_leftover st =? 0 then poly1305_full st m
  else
    let want := 16 - p_leftover st in
    let want := if want >? zlen m then zlen m else want in
    let st := Poly1305 (p_r st) (p_h st) (p_pad st) (p_leftover st + want)
                       (splice (p_leftover st) (take want m) (p_buffer st)) (p_final st) in
    if p_leftover st <? 16 then Ok st
    else
      let! st := poly1305_blocks st (p_buffer st) 16 in
      let st := Poly1305 (p_r st) (p_h st) (p_pad st) 0 (p_buffer st) (p_final st) in
      poly1305_full st (drop want m).

(** poly1305-donna-64.h:161-169 *)
Definition poly1305_last (st : poly1305) : outcome poly1305 :=
  if p_leftover st =? 0 then Ok st
  else
    let buffer := splice (p_leftover st) [1] (p_buffer st) in
    let buffer := splice (p_leftover st + 1) (zeros (16 - (p_leftover st + 1))) buffer in
    let st := Poly1305 (p_r st) (p_h st) (p_pad st) (p_leftover st) buffer true in
    poly1305_blocks st buffer 16.
(** poly1305-donna-64.h:171-182 *)
Definition poly1305_carry (h : Z * Z * Z) : outcome (Z * Z * Z) :=
  let '(h0, h1, h2) := h in
  let c := Z.shiftr h1 44 in let h1 := Z.land h1 mask44 in
  let! h2 := w 64 (h2 + c) in let c := Z.shiftr h2 42 in let h2 := Z.land h2 mask42 in
  let! c5 := w 64 (c * 5) in let! h0 := w 64 (h0 + c5) in let c := Z.shiftr h0 44 in let h0 := Z.land h0 mask44 in
  let! h1 := w 64 (h1 + c) in let c := Z.shiftr h1 44 in let h1 := Z.land h1 mask44 in
  let! h2 := w 64 (h2 + c) in let c := Z.shiftr h2 42 in let h2 := Z.land h2 mask42 in
  let! c5 := w 64 (c * 5) in let! h0 := w 64 (h0 + c5) in let c := Z.shiftr h0 44 in let h0 := Z.land h0 mask44 in
  let! h1 := w 64 (h1 + c) in
  Ok (h0, h1, h2).
(** poly1305-donna-64.h:184-197; the subtractions at 187 and 190 and the
    complement at 194 are meant to wrap around *)
Definition poly1305_select (h : Z * Z * Z) : outcome (Z * Z * Z) :=
  let '(h0, h1, h2) := h in
  let! g0 := w 64 (h0 + 5) in let c := Z.shiftr g0 44 in let g0 := Z.land g0 mask44 in
  let! g1 := w 64 (h1 + c) in let c := Z.shiftr g1 44 in let g1 := Z.land g1 mask44 in
  let! g2 := w 64 (h2 + c) in
  let g2 := (g2 - Z.shiftl 1 42) mod 2^64 in
  let c := (Z.shiftr g2 63 - 1) mod 2^64 in
  let g0 := Z.land g0 c in
  let g1 := Z.land g1 c in
  let g2 := Z.land g2 c in
  let c := 2^64 - 1 - c in
  Ok (Z.lor (Z.land h0 c) g0, Z.lor (Z.land h1 c) g1, Z.lor (Z.land h2 c) g2).
(** poly1305-donna-64.h:199-212 *)
Definition poly1305_output (pad : Z * Z) (h : Z * Z * Z) : outcome (list Z) :=
  let '(h0, h1, h2) := h in
  let '(t0, t1) := pad in
  let! h0 := w 64 (h0 + Z.land t0 mask44) in
  let c := Z.shiftr h0 44 in let h0 := Z.land h0 mask44 in
  let! a := w 64 (Z.land (Z.lor (Z.shiftr t0 44) (Z.shiftl t1 20 mod 2^64)) mask44 + c) in
  let! h1 := w 64 (h1 + a) in
  let c := Z.shiftr h1 44 in let h1 := Z.land h1 mask44 in
  let! a := w 64 (Z.land (Z.shiftr t1 24) mask42 + c) in
  let! h2 := w 64 (h2 + a) in let h2 := Z.land h2 mask42 in
  let o0 := Z.lor h0 (Z.shiftl h1 44 mod 2^64) in
  let o1 := Z.lor (Z.shiftr h1 20) (Z.shiftl h2 24 mod 2^64) in
  Ok (U64TO8 o0 ++ U64TO8 o1).
(** poly1305-donna-64.h:154-223: the state is cleared (214-222) and the sixteen
    bytes of the MAC are written *)
Definition poly1305_finish (st : poly1305) : outcome (poly1305 * list Z) :=
  let! st := poly1305_last st in
  let! h := poly1305_carry (p_h st) in
  let! h := poly1305_select h in
  let! mac := poly1305_output (p_pad st) h in
  Ok (Poly1305 (0, 0, 0) (0, 0, 0) (0, 0) (p_leftover st) (p_buffer st) (p_final st), mac).
End Arithmetic.
