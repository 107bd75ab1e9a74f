(** Specification for the NewHope code: arithmetic modulo q = 12289, the noise
    distribution and the distance between two polynomials. *)
From Verif Require Import Base.

Definition newhope_q : Z := 12289.
(** a and b are equal modulo q *)
Definition cong_q (a b : Z) : Prop := exists k, a = b + k * newhope_q.

(** 1024 coefficients that fit an unsigned 16-bit integer *)
Definition coefficients (p : list Z) : Prop := zlen p = 1024 /\ Forall (fun x => 0 <= x < 2^16) p.

(** the number of ones among bits [from] .. [from + n - 1] of [t] *)
Definition ones_in (t : Z) (from n : nat) : Z :=
  fold_right Z.add 0 (map (fun i => Z.b2z (Z.testbit t (Z.of_nat i))) (seq from n)).

(** [e] has, modulo q, the coefficients of the difference of [v'] and [v] *)
Definition difference (v v' e : list Z) : Prop :=
  zlen e = 1024 /\ forall i, (i < 1024)%nat -> cong_q (nth i v' 0) (nth i v 0 + nth i e 0).
(** Each bit of the key comes from four coefficients.  The noise is small enough
    when the absolute values of the four differences add up to less than
    3/4 q - 2. *)
Definition small_noise (e : list Z) : Prop := forall i, (i < 256)%nat ->
  4 * (Z.abs (nth i e 0) + Z.abs (nth (256 + i) e 0) + Z.abs (nth (512 + i) e 0) + Z.abs (nth (768 + i) e 0))
    < 3 * newhope_q - 8.

(** The distance of [x] to the nearest multiple of 8 q *)
Definition distance_8q (x : Z) : Z := Z.min (x mod (8 * newhope_q)) (8 * newhope_q - x mod (8 * newhope_q)).
(** Bit [i] of the key that coefficients [v] and help data [c] stand for: the four
    coefficients, with the help data taken away, are near to a multiple of q or not.
    Everything is scaled by 8, as c is in eighths of q. *)
Definition key_bit (v c : list Z) (i : nat) : bool :=
  let at_ p j := nth (256 * j + i) p 0 in
  distance_8q (8 * at_ v 0%nat - newhope_q * (2 * at_ c 0%nat + at_ c 3%nat)) +
  distance_8q (8 * at_ v 1%nat - newhope_q * (2 * at_ c 1%nat + at_ c 3%nat)) +
  distance_8q (8 * at_ v 2%nat - newhope_q * (2 * at_ c 2%nat + at_ c 3%nat)) +
  distance_8q (8 * at_ v 3%nat - newhope_q * at_ c 3%nat) <? 8 * newhope_q.
(** bit [i] of a string of bytes, the lowest bit of each byte first *)
Definition bit_at (l : list Z) (i : nat) : bool := Z.testbit (nth (i / 8) l 0) (Z.of_nat (i mod 8)).
