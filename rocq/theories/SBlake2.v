(** Specification of BLAKE2s-256 and BLAKE2b-512, unkeyed: RFC 7693. *)
From Verif Require Import Base SSha2.

(** Section 2.7: the message schedule *)
Definition SIGMA : list (list nat) :=
  [ [0; 1; 2; 3; 4; 5; 6; 7; 8; 9; 10; 11; 12; 13; 14; 15];
    [14; 10; 4; 8; 9; 15; 13; 6; 1; 12; 0; 2; 11; 7; 5; 3];
    [11; 8; 12; 0; 5; 2; 15; 13; 10; 14; 3; 6; 7; 1; 9; 4];
    [7; 9; 3; 1; 13; 12; 11; 14; 2; 6; 5; 10; 4; 0; 15; 8];
    [9; 0; 5; 7; 2; 4; 10; 15; 14; 1; 11; 12; 6; 8; 3; 13];
    [2; 12; 6; 10; 0; 11; 8; 3; 4; 13; 7; 5; 15; 14; 1; 9];
    [12; 5; 1; 15; 14; 13; 4; 10; 0; 7; 6; 3; 9; 2; 8; 11];
    [13; 11; 7; 14; 12; 1; 3; 9; 5; 0; 15; 4; 8; 6; 2; 10];
    [6; 15; 14; 9; 11; 3; 0; 8; 12; 2; 13; 7; 1; 4; 10; 5];
    [10; 2; 8; 4; 7; 6; 1; 5; 15; 11; 9; 14; 3; 12; 13; 0] ]%nat.

(** Section 2.1: parameters *)
Record blake2_params : Type := Blake2Params {
  b_w : Z;                 (* bits in a word *)
  b_r : nat;               (* rounds in F *)
  b_rot : Z * Z * Z * Z;   (* R1 .. R4 *)
  b_nn : Z                 (* hash bytes *)
}.
Definition blake2s_params := Blake2Params 32 10 (16, 12, 8, 7) 32.
Definition blake2b_params := Blake2Params 64 12 (32, 24, 16, 63) 64.

Section Blake2.
Variable P : blake2_params.
Notation w := (b_w P).
Definition b_wbytes : Z := w / 8.
Definition bb : Z := 16 * b_wbytes.

(** Section 2.6: the same initial value as SHA-2 *)
Definition BIV : list Z := map (frac_sqrt w) (firstn 8 primes).

Definition rotr (x n : Z) : Z := Z.lor (Z.shiftr x n) (Z.shiftl x (w - n) mod 2 ^ w).

(** Section 3.1: mixing function G *)
Definition Gmix (a b c d x y : Z) : Z * Z * Z * Z :=
  let '(R1, R2, R3, R4) := b_rot P in
  let a := (a + b + x) mod 2 ^ w in
  let d := rotr (Z.lxor d a) R1 in
  let c := (c + d) mod 2 ^ w in
  let b := rotr (Z.lxor b c) R2 in
  let a := (a + b + y) mod 2 ^ w in
  let d := rotr (Z.lxor d a) R3 in
  let c := (c + d) mod 2 ^ w in
  let b := rotr (Z.lxor b c) R4 in
  (a, b, c, d).
(* the vector v with v[i] := x *)
Definition put (v : list Z) (i : nat) (x : Z) : list Z := firstn i v ++ [x] ++ skipn (S i) v.
Definition G (v : list Z) (a b c d : nat) (x y : Z) : list Z :=
  let '(va, vb, vc, vd) := Gmix (nth a v 0) (nth b v 0) (nth c v 0) (nth d v 0) x y in
  put (put (put (put v a va) b vb) c vc) d vd.

(** Section 3.2: compression function F *)
Definition F_round (m : list Z) (v : list Z) (i : nat) : list Z :=
  let s := nth (Nat.modulo i 10) SIGMA [] in
  let x k := nth (nth k s O) m 0 in
  let v := G v 0 4  8 12 (x 0%nat) (x 1%nat) in
  let v := G v 1 5  9 13 (x 2%nat) (x 3%nat) in
  let v := G v 2 6 10 14 (x 4%nat) (x 5%nat) in
  let v := G v 3 7 11 15 (x 6%nat) (x 7%nat) in
  let v := G v 0 5 10 15 (x 8%nat) (x 9%nat) in
  let v := G v 1 6 11 12 (x 10%nat) (x 11%nat) in
  let v := G v 2 7  8 13 (x 12%nat) (x 13%nat) in
  G v 3 4  9 14 (x 14%nat) (x 15%nat).
Definition F (h m : list Z) (t : Z) (f : bool) : list Z :=
  let v := h ++ BIV in
  let v := put v 12 (Z.lxor (nth 12 v 0) (t mod 2 ^ w)) in
  let v := put v 13 (Z.lxor (nth 13 v 0) (t / 2 ^ w)) in
  let v := if f then put v 14 (Z.lxor (nth 14 v 0) (2 ^ w - 1)) else v in
  let v := fold_left (F_round m) (seq 0 (b_r P)) v in
  map (fun i => Z.lxor (Z.lxor (nth i h 0) (nth i v 0)) (nth (i + 8) v 0)) (seq 0 8).

(** Section 3.3: padding and the chain of compressions (kk = 0) *)
Definition le_val (l : list Z) : Z := fold_right (fun b acc => b + 256 * acc) 0 l.
Definition le_bytes (n : nat) (v : Z) : list Z := map (fun i => v / 256 ^ Z.of_nat i mod 256) (seq 0 n).
Definition block_count (ll : Z) : Z := if ll =? 0 then 1 else (ll + bb - 1) / bb.
Definition block_words (b : list Z) : list Z := map le_val (pieces (Z.to_nat b_wbytes) 16 b).
Fixpoint chain (h : list Z) (i : Z) (ll : Z) (blocks : list (list Z)) : list Z :=
  match blocks with
  | [] => h
  | [b] => F h (block_words b) ll true
  | b :: r => chain (F h (block_words b) ((i + 1) * bb) false) (i + 1) ll r
  end.
Definition BLAKE2 (m : list Z) : list Z :=
  let ll := zlen m in
  let dd := block_count ll in
  let d := pieces (Z.to_nat bb) (Z.to_nat dd) (m ++ repeat 0 (Z.to_nat (dd * bb - ll))) in
  let h := put BIV 0 (Z.lxor (nth 0 BIV 0) (Z.lxor 0x01010000 (b_nn P))) in
  concat (map (le_bytes (Z.to_nat b_wbytes)) (chain h 0 ll d)).
End Blake2.

Definition BLAKE2s := BLAKE2 blake2s_params.
Definition BLAKE2b := BLAKE2 blake2b_params.
