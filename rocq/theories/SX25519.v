(** The X25519 function of RFC 7748, section 5, on byte strings. *)
From Verif Require Import Base SBlake2.

(** The prime of the field *)
Definition p25519 : Z := 2^255 - 19.
(** decodeScalar25519: bits 0 to 2 and 255 are cleared, bit 254 is set *)
Definition decode_scalar (k : list Z) : Z := 8 * (le_val k / 8 mod 2^251) + 2^254.
(** decodeUCoordinate: bit 255 is ignored *)
Definition decode_u (u : list Z) : Z := le_val u mod 2^255.
(** encodeUCoordinate *)
Definition encode_u (u : Z) : list Z := le_bytes 32 (u mod p25519).

(** The field; only the results of these operations modulo p matter *)
Definition fadd (a b : Z) : Z := (a + b) mod p25519.
Definition fsub (a b : Z) : Z := (a - b) mod p25519.
Definition fmult (a b : Z) : Z := (a * b) mod p25519.
Definition fpow (a n : Z) : Z := a ^ n mod p25519.
Definition a24 : Z := 121665.

(** x_2, z_2, x_3, z_3, swap *)
Record ladder_state : Type := LS { ls_x2 : Z; ls_z2 : Z; ls_x3 : Z; ls_z3 : Z; ls_swap : bool }.
Definition cswap (swap : bool) (s : ladder_state) : ladder_state :=
  if swap then LS (ls_x3 s) (ls_z3 s) (ls_x2 s) (ls_z2 s) (ls_swap s) else s.
(** The body of the loop, for the bit [k_t] *)
Definition ladder_step (x_1 : Z) (k_t : bool) (s : ladder_state) : ladder_state :=
  let swap := xorb (ls_swap s) k_t in
  let s := cswap swap s in
  let A := fadd (ls_x2 s) (ls_z2 s) in
  let AA := fmult A A in
  let B := fsub (ls_x2 s) (ls_z2 s) in
  let BB := fmult B B in
  let E := fsub AA BB in
  let C := fadd (ls_x3 s) (ls_z3 s) in
  let D := fsub (ls_x3 s) (ls_z3 s) in
  let DA := fmult D A in
  let CB := fmult C B in
  let x_3 := fmult (fadd DA CB) (fadd DA CB) in
  let z_3 := fmult x_1 (fmult (fsub DA CB) (fsub DA CB)) in
  let x_2 := fmult AA BB in
  let z_2 := fmult E (fadd AA (fmult a24 E)) in
  LS x_2 z_2 x_3 z_3 k_t.
(** For t = bits-1 down to 0 *)
Fixpoint ladder (bits : nat) (k x_1 : Z) (s : ladder_state) : ladder_state :=
  match bits with
  | O => s
  | S t => ladder t k x_1 (ladder_step x_1 (Z.testbit k (Z.of_nat t)) s)
  end.
(** X25519(k, u), on numbers *)
Definition x25519_number (k u : Z) : Z :=
  let s := ladder 255 k u (LS 1 0 u 1 false) in
  let s := cswap (ls_swap s) s in
  fmult (ls_x2 s) (fpow (ls_z2 s) (p25519 - 2)).
Definition X25519 (k u : list Z) : list Z := encode_u (x25519_number (decode_scalar k) (decode_u u)).
