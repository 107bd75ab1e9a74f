(** Specification of GHASH: NIST SP 800-38D, sections 6.3 and 6.4.  A block is
    the number whose 128 binary digits are its bits, leftmost first. *)
From Verif Require Import Base SSha2 SBlake2.

(** x_i, for i = 0 .. 127 from the left *)
Definition bit_of (x : Z) (i : nat) : bool := Z.testbit x (127 - Z.of_nat i).
Definition LSB1 (v : Z) : bool := Z.testbit v 0.
(** 11100001 followed by 120 zeros *)
Definition R128 : Z := 0xE1 * 2 ^ 120.

(** Section 6.3, algorithm 1: Z_i and V_i for the blocks x and y *)
Fixpoint mul_ZV (x y : Z) (i : nat) : Z * Z :=
  match i with
  | O => (0, y)
  | S j =>
    let '(z, v) := mul_ZV x y j in
    (if bit_of x j then Z.lxor z v else z,
     if LSB1 v then Z.lxor (Z.shiftr v 1) R128 else Z.shiftr v 1)
  end.
Definition gmul (x y : Z) : Z := fst (mul_ZV x y 128).

(** Section 6.4, algorithm 2 *)
Definition GHASH (h : Z) (blocks : list Z) : Z :=
  fold_left (fun y x => gmul (Z.lxor y x) h) blocks 0.

(** The blocks of a byte string, the last one filled up with zeros *)
Definition blocks_of (data : list Z) : list Z :=
  map be_val (pieces 16 (Z.to_nat ((zlen data + 15) / 16)) (data ++ zeros (- zlen data mod 16))).

(** ** The field.  A block stands for the polynomial over the field of two
    elements whose coefficient of t^i is its bit x_i; polynomials are written as
    numbers, with the coefficient of t^i as bit i. *)
Definition polynomial (p x : Z) : Prop :=
  0 <= p < 2 ^ 128 /\ forall i : nat, (i < 128)%nat -> Z.testbit p (Z.of_nat i) = bit_of x i.
(** the product of polynomials, [n] bounding the degree of the first *)
Fixpoint poly_mul (n : nat) (p q : Z) : Z :=
  match n with
  | O => 0
  | S k => Z.lxor (poly_mul k p q) (if Z.testbit p (Z.of_nat k) then Z.shiftl q (Z.of_nat k) else 0)
  end.
(** t^128 + t^7 + t^2 + t + 1 *)
Definition modulus : Z := 2 ^ 128 + 2 ^ 7 + 2 ^ 2 + 2 ^ 1 + 2 ^ 0.
(** p and q differ by a multiple of the modulus *)
Definition congruent (p q : Z) : Prop :=
  exists n m, Z.lxor p q = poly_mul n m modulus.
