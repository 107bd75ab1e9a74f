(** Specification of SHA3-256 and SHAKE128: FIPS 202, on the bits of the state. *)
From Verif Require Import Base.

(** A[x, y, z] of FIPS 202, section 3.1; x and y below 5, z below 64 *)
Definition bit_state : Type := nat -> nat -> nat -> bool.

(** Section 3.2.1 *)
Definition theta_C (A : bit_state) (x z : nat) : bool :=
  xorb (xorb (xorb (xorb (A x 0%nat z) (A x 1%nat z)) (A x 2%nat z)) (A x 3%nat z)) (A x 4%nat z).
Definition theta (A : bit_state) : bit_state := fun x y z =>
  xorb (A x y z) (xorb (theta_C A ((x + 4) mod 5) z) (theta_C A ((x + 1) mod 5) ((z + 63) mod 64)))%nat.
(** Section 3.2.2: (x, y) starts at (1, 0) and goes to (y, 2x + 3y) at each of the 24
    steps t; the lane it meets is rotated by (t + 1)(t + 2)/2. *)
Fixpoint rho_walk (steps t x y : nat) (x0 y0 : nat) : nat :=
  match steps with
  | O => 0
  | S steps' =>
    if (x =? x0)%nat && (y =? y0)%nat then ((t + 1) * (t + 2) / 2) mod 64
    else rho_walk steps' (t + 1) y ((2 * x + 3 * y) mod 5) x0 y0
  end%nat.
Definition rho_offset (x y : nat) : nat := rho_walk 24 0 1 0 x y.
Definition rho (A : bit_state) : bit_state := fun x y z => A x y ((z + 64 - rho_offset x y) mod 64)%nat.
(** Section 3.2.3 *)
Definition pi (A : bit_state) : bit_state := fun x y z => A ((x + 3 * y) mod 5)%nat x z.
(** Section 3.2.4 *)
Definition chi (A : bit_state) : bit_state := fun x y z =>
  xorb (A x y z) (andb (negb (A ((x + 1) mod 5) y z)) (A ((x + 2) mod 5) y z))%nat.
(** Section 3.2.5, algorithm 5: [R] is the list of R[0] to R[7] *)
Definition rc_step (R : list bool) : list bool :=
  let r8 := nth 7 R false in
  [r8; nth 0 R false; nth 1 R false; nth 2 R false; xorb (nth 3 R false) r8; xorb (nth 4 R false) r8; xorb (nth 5 R false) r8; nth 6 R false].
Definition rc (t : nat) : bool :=
  nth 0 (Nat.iter (t mod 255) rc_step [true; false; false; false; false; false; false; false]) false.
(** Algorithm 6: bit 2^j - 1 of the constant of round [ir] is rc(j + 7 ir) *)
Definition RC (ir z : nat) : bool := existsb (fun j => (z =? 2^j - 1)%nat && rc (j + 7 * ir)) (seq 0 7).
Definition iota (ir : nat) (A : bit_state) : bit_state := fun x y z =>
  if (x =? 0)%nat && (y =? 0)%nat then xorb (A x y z) (RC ir z) else A x y z.
(** Section 3.3 and 3.4 *)
Definition Rnd (A : bit_state) (ir : nat) : bit_state := iota ir (chi (pi (rho (theta A)))).
Definition keccak_f (A : bit_state) : bit_state := fold_left Rnd (seq 0 24) A.

(** Appendix B.1 and section 3.1.2: bit 64 (5 y + x) + z of a string of bytes, lowest
    bit of a byte first; the string is continued with zeros *)
Definition state_of (b : list Z) : bit_state := fun x y z =>
  let i := (64 * (5 * y + x) + z)%nat in Z.testbit (nth (i / 8) b 0) (Z.of_nat (i mod 8)).
Definition xor_state (A B : bit_state) : bit_state := fun x y z => xorb (A x y z) (B x y z).
(** the first [n] bytes of the state, section 3.1.3 *)
Definition state_bit (A : bit_state) (i : nat) : bool := A (i / 64 mod 5)%nat (i / 64 / 5)%nat (i mod 64)%nat.
Definition first_bytes (n : nat) (A : bit_state) : list Z :=
  map (fun k => fold_right (fun j acc => Z.b2z (state_bit A (8 * k + j)) * 2^(Z.of_nat j) + acc) 0 (seq 0 8)) (seq 0 n).

(** Section 4 and appendix B.2: the suffix and the padding of a message of bytes; [p]
    is 0x06 for SHA3 and 0x1f for SHAKE *)
Definition padded (r p : Z) (m : list Z) : list Z :=
  let q := r - zlen m mod r in
  m ++ (if q =? 1 then [p + 0x80] else [p] ++ zeros (q - 2) ++ [0x80]).
(** strings of [r] bytes each *)
Fixpoint blocks_of (n : nat) (r : Z) (l : list Z) : list (list Z) :=
  match n with O => [] | S n' => take r l :: blocks_of n' r (drop r l) end.
(** Section 4, algorithm 8, to the end of step 6: the state after absorbing *)
Definition absorbed (r p : Z) (m : list Z) : bit_state :=
  let P := padded r p m in
  fold_left (fun A b => keccak_f (xor_state A (state_of b))) (blocks_of (Z.to_nat (zlen P / r)) r P) (fun _ _ _ => false).
(** Section 6.1 *)
Definition sha3_256 (m : list Z) : list Z := first_bytes 32 (absorbed 136 0x06 m).
(** Sections 4 and 6.2: [n] blocks of output of SHAKE128 *)
Fixpoint squeezed (n : nat) (r : nat) (A : bit_state) : list Z :=
  match n with O => [] | S n' => first_bytes r A ++ squeezed n' r (keccak_f A) end.
Definition shake128_blocks (n : nat) (m : list Z) : list Z := squeezed n 168 (absorbed 168 0x1f m).
