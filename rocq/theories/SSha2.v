(** Specification of SHA-256 and SHA-512: FIPS 180-4. *)
From Verif Require Import Base.

(** ** Constants (FIPS 180-4, sections 4.2.2, 4.2.3, 5.3.3, 5.3.5)
    K_t: the first [w] bits of the fractional parts of the cube roots of the
    first primes; H(0): the same for square roots of the first eight primes. *)
Definition range (a b : Z) : list Z := map (fun i => a + Z.of_nat i) (seq 0 (Z.to_nat (b - a))).
Definition is_prime_b (n : Z) : bool := forallb (fun d => negb (n mod d =? 0)) (range 2 n).
(** 409 is the 80th prime. *)
Definition primes : list Z := filter is_prime_b (range 2 410).
(** Integer cube root: the largest x with x^3 <= n, found bit by bit. *)
Fixpoint cbrt_bits (bits : nat) (n x : Z) : Z :=
  match bits with
  | O => x
  | S b => let y := x + 2 ^ Z.of_nat b in
           cbrt_bits b n (if y * y * y <=? n then y else x)
  end.
Definition frac_sqrt (w : Z) (p : Z) : Z := Z.sqrt (p * 2 ^ (2 * w)) mod 2 ^ w.
Definition frac_cbrt (w : Z) (p : Z) : Z := cbrt_bits (Z.to_nat (w + 3)) (p * 2 ^ (3 * w)) 0 mod 2 ^ w.

Record sha2_params : Type := Sha2Params {
  p_w : Z;                       (* word size in bits *)
  p_rounds : nat;
  p_S0 : Z * Z * Z; p_S1 : Z * Z * Z;   (* rotation amounts of the upper-case sigmas *)
  p_s0 : Z * Z * Z; p_s1 : Z * Z * Z    (* two rotations and a shift *)
}.
(** Section 4.1.2, 4.1.3 *)
Definition sha256_params := Sha2Params 32 64 (2, 13, 22) (6, 11, 25) (7, 18, 3) (17, 19, 10).
Definition sha512_params := Sha2Params 64 80 (28, 34, 39) (14, 18, 41) (1, 8, 7) (19, 61, 6).

Section Sha2.
Variable P : sha2_params.
Notation w := (p_w P).
Definition wbytes : Z := w / 8.
Definition bbytes : Z := 16 * wbytes.

(** Section 3.2 *)
Definition ROTR (n x : Z) : Z := Z.lor (Z.shiftr x n) (Z.shiftl x (w - n) mod 2 ^ w).
Definition SHR (n x : Z) : Z := Z.shiftr x n.
Definition add2 (x y : Z) : Z := (x + y) mod 2 ^ w.
Definition sumw (l : list Z) : Z := fold_right Z.add 0 l mod 2 ^ w.
(** Section 4.1 *)
Definition Ch (x y z : Z) : Z := Z.lxor (Z.land x y) (Z.land (Z.lxor x (2 ^ w - 1)) z).
Definition Maj (x y z : Z) : Z := Z.lxor (Z.lxor (Z.land x y) (Z.land x z)) (Z.land y z).
Definition rot3 (r : Z * Z * Z) (x : Z) : Z :=
  let '(a, b, c) := r in Z.lxor (Z.lxor (ROTR a x) (ROTR b x)) (ROTR c x).
Definition rotshr (r : Z * Z * Z) (x : Z) : Z :=
  let '(a, b, c) := r in Z.lxor (Z.lxor (ROTR a x) (ROTR b x)) (SHR c x).

Definition K (t : nat) : Z := frac_cbrt w (nth t primes 0).
Definition IV : list Z := map (frac_sqrt w) (firstn 8 primes).

(** Section 5.1: a bit 1, then zeros, then the bit length in 2w bits. *)
Definition be_val (l : list Z) : Z := fold_left (fun a b => 256 * a + b) l 0.
Definition be_bytes (n : nat) (v : Z) : list Z :=
  map (fun i => v / 256 ^ Z.of_nat (n - 1 - i) mod 256) (seq 0 n).
Definition pad (m : list Z) : list Z :=
  m ++ [128] ++ repeat 0 (Z.to_nat (- (zlen m + 1 + 2 * wbytes) mod bbytes))
    ++ be_bytes (Z.to_nat (2 * wbytes)) (8 * zlen m).
(** Section 5.2: cutting into pieces of [k] bytes *)
Fixpoint pieces (k : nat) (count : nat) (l : list Z) : list (list Z) :=
  match count with
  | O => []
  | S c => firstn k l :: pieces k c (skipn k l)
  end.

(** Section 6.2.2 / 6.4.2, step 1: the message schedule *)
Fixpoint schedule (M : list Z) (n : nat) : list Z :=
  match n with
  | O => []
  | S t =>
    let W := schedule M t in
    W ++ [ if (t <? 16)%nat then nth t M 0
           else sumw [rotshr (p_s1 P) (nth (t - 2) W 0); nth (t - 7) W 0;
                      rotshr (p_s0 P) (nth (t - 15) W 0); nth (t - 16) W 0] ]
  end.
(** steps 2-3 *)
Definition round (W : list Z) (st : Z * Z * Z * Z * Z * Z * Z * Z) (t : nat) :=
  let '(a, b, c, d, e, f, g, h) := st in
  let T1 := sumw [h; rot3 (p_S1 P) e; Ch e f g; K t; nth t W 0] in
  let T2 := sumw [rot3 (p_S0 P) a; Maj a b c] in
  (add2 T1 T2, a, b, c, add2 d T1, e, f, g).
(** step 4 *)
Definition compress (H : list Z) (block : list Z) : list Z :=
  let M := map be_val (pieces (Z.to_nat wbytes) 16 block) in
  let W := schedule M (p_rounds P) in
  match H with
  | [h0; h1; h2; h3; h4; h5; h6; h7] =>
    let '(a, b, c, d, e, f, g, h) := fold_left (round W) (seq 0 (p_rounds P)) (h0, h1, h2, h3, h4, h5, h6, h7) in
    [add2 a h0; add2 b h1; add2 c h2; add2 d h3; add2 e h4; add2 f h5; add2 g h6; add2 h h7]
  | _ => []
  end.
Definition SHA2 (m : list Z) : list Z :=
  let p := pad m in
  let blocks := pieces (Z.to_nat bbytes) (Z.to_nat (zlen p / bbytes)) p in
  concat (map (be_bytes (Z.to_nat wbytes)) (fold_left compress blocks IV)).
End Sha2.

Definition SHA256 := SHA2 sha256_params.
Definition SHA512 := SHA2 sha512_params.
