(** Specification of AES: FIPS 197.  A word is a list of four bytes, a state the
    list of its 16 bytes column by column, as in the input (section 3.4). *)
From Verif Require Import Base.

(** Section 4.2: bytes as polynomials modulo x^8 + x^4 + x^3 + x + 1 *)
Definition xtime (a : Z) : Z :=
  if Z.testbit a 7 then Z.lxor (Z.shiftl a 1 mod 256) 0x1b else Z.shiftl a 1 mod 256.
Fixpoint gf_mul_bits (n : nat) (a b : Z) : Z :=
  match n with
  | O => 0
  | S k => Z.lxor (if Z.testbit b 0 then a else 0) (gf_mul_bits k (xtime a) (Z.shiftr b 1))
  end.
Definition gf_mul (a b : Z) : Z := gf_mul_bits 8 a b.
(** the multiplicative inverse, with 0 for 0: b^254, see [gf_inverse] *)
Definition gf_inv (b : Z) : Z :=
  let b2 := gf_mul b b in
  let b4 := gf_mul b2 b2 in
  let b8 := gf_mul b4 b4 in
  let b16 := gf_mul b8 b8 in
  let b32 := gf_mul b16 b16 in
  let b64 := gf_mul b32 b32 in
  let b128 := gf_mul b64 b64 in
  gf_mul b2 (gf_mul b4 (gf_mul b8 (gf_mul b16 (gf_mul b32 (gf_mul b64 b128))))).

(** Section 5.1.1, equation 5.1 *)
Definition affine_bit (b : Z) (i : nat) : bool :=
  let bit k := Z.testbit b (Z.of_nat ((i + k) mod 8)) in
  xorb (xorb (xorb (xorb (xorb (bit 0%nat) (bit 4%nat)) (bit 5%nat)) (bit 6%nat)) (bit 7%nat))
       (Z.testbit 0x63 (Z.of_nat i)).
Definition affine (b : Z) : Z :=
  fold_right (fun i acc => Z.b2z (affine_bit b i) + 2 * acc) 0 (seq 0 8).
Definition S_box (b : Z) : Z := affine (gf_inv b).

(** exclusive or of strings of the same length *)
Definition xor_bytes (a b : list Z) : list Z := map (fun p => Z.lxor (fst p) (snd p)) (combine a b).

(** s[r,c] *)
Definition cell (s : list Z) (r c : nat) : Z := nth (r + 4 * c) s 0.
Definition state_of (f : nat -> nat -> Z) : list Z :=
  flat_map (fun c => map (fun r => f r c) (seq 0 4)) (seq 0 4).
Definition SubBytes (s : list Z) : list Z := map S_box s.
(** Section 5.1.2 *)
Definition ShiftRows (s : list Z) : list Z := state_of (fun r c => cell s r ((c + r) mod 4)).
(** Section 5.1.3, equation 5.6 *)
Definition MixColumns (s : list Z) : list Z :=
  state_of (fun r c =>
    let at_row k := cell s ((r + k) mod 4) c in
    Z.lxor (Z.lxor (Z.lxor (gf_mul 2 (at_row 0%nat)) (gf_mul 3 (at_row 1%nat))) (at_row 2%nat)) (at_row 3%nat)).
(** Section 5.1.4, with round key w[4 round .. 4 round + 3] *)
Definition AddRoundKey (w : list (list Z)) (round : nat) (s : list Z) : list Z :=
  xor_bytes s (concat (map (fun c => nth (4 * round + c) w []) (seq 0 4))).

(** Section 5.1, figure 5 *)
Fixpoint rounds (w : list (list Z)) (n : nat) (s : list Z) : list Z :=
  match n with
  | O => AddRoundKey w 0 s
  | S k => AddRoundKey w (S k) (MixColumns (ShiftRows (SubBytes (rounds w k s))))
  end.
Definition Cipher (nr : nat) (w : list (list Z)) (s : list Z) : list Z :=
  AddRoundKey w nr (ShiftRows (SubBytes (rounds w (nr - 1) s))).

(** Section 5.2, figure 11 *)
Definition SubWord (w : list Z) : list Z := map S_box w.
Definition RotWord (w : list Z) : list Z := tl w ++ firstn 1 w.
Definition Rcon (i : nat) : list Z := [Nat.iter (i - 1) xtime 1; 0; 0; 0].
Fixpoint KeyExpansion (key : list Z) (nk : nat) (n : nat) : list (list Z) :=
  match n with
  | O => []
  | S i =>
    let w := KeyExpansion key nk i in
    w ++ [if (i <? nk)%nat then firstn 4 (skipn (4 * i) key)
          else
            let temp := nth (i - 1) w [] in
            let temp :=
              if (i mod nk =? 0)%nat then xor_bytes (SubWord (RotWord temp)) (Rcon (i / nk))
              else if ((6 <? nk) && (i mod nk =? 4))%nat then SubWord temp
              else temp in
            xor_bytes (nth (i - nk) w []) temp]
  end.
(** AES with a key of 4 nk bytes: nk = 4, 6 or 8, and nk + 6 rounds *)
Definition AES (nk : nat) (key block : list Z) : list Z :=
  Cipher (nk + 6) (KeyExpansion key nk (4 * (nk + 6 + 1))) block.

(** What gf_inv is *)
Lemma gf_inverse : forall b, 0 < b < 256 -> gf_mul b (gf_inv b) = 1.
Proof.
  assert (forallb (fun k => gf_mul (Z.of_nat k) (gf_inv (Z.of_nat k)) =? 1) (seq 1 255) = true) as C by (vm_compute; reflexivity).
  intros b Hb. rewrite forallb_forall in C. specialize (C (Z.to_nat b)). rewrite Z2Nat.id in C by lia.
  apply Z.eqb_eq. apply C. apply in_seq. lia.
Qed.
