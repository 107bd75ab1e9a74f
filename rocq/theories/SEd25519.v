(** Ed25519 of RFC 8032, section 5.1, on byte strings. *)
From Verif Require Import Base SBlake2 SSha2 SX25519.

(** Section 5.1, table 1: p is the one of X25519; the number d, the order L of the
    base point, the base point B *)
Definition ed_d : Z := 37095705934669439343138083508754565189542113879843219016388785533085940283555.
Definition ed_L : Z := 2^252 + 27742317777372353535851937790883648493.
Definition ed_B : Z * Z :=
  (15112221349535400772501151409588531511454012693041857206046113283949847762202,
   46316835694926478169428394003475163141307993866256225615783033603165251855960).

(** Points are pairs of numbers from 0 to p - 1 with -x^2 + y^2 = 1 + d x^2 y^2 *)
Definition ed_reduced (P : Z * Z) : Prop := 0 <= fst P < p25519 /\ 0 <= snd P < p25519.
Definition ed_on_curve (P : Z * Z) : Prop :=
  let '(x, y) := P in (- (x * x) + y * y) mod p25519 = (1 + ed_d * (x * x) * (y * y)) mod p25519.
(** The quotient in the field, with Fermat's inverse *)
Definition ed_quotient (a b : Z) : Z := (a * fpow b (p25519 - 2)) mod p25519.
(** Section 5.1.4: addition *)
Definition ed_plus (P Q : Z * Z) : Z * Z :=
  let '(x1, y1) := P in
  let '(x2, y2) := Q in
  let t := ed_d * x1 * x2 * y1 * y2 in
  (ed_quotient (x1 * y2 + x2 * y1) (1 + t), ed_quotient (y1 * y2 + x1 * x2) (1 - t)).
Definition ed_neutral : Z * Z := (0, 1).
(** [k]P *)
Fixpoint ed_times (n : nat) (P : Z * Z) : Z * Z :=
  match n with O => ed_neutral | S n => ed_plus (ed_times n P) P end.
Definition ed_mult (k : Z) (P : Z * Z) : Z * Z := ed_times (Z.to_nat k) P.

(** Section 5.1.2: 255 bits of y and the lowest bit of x *)
Definition ed_encode (P : Z * Z) : list Z := le_bytes 32 (snd P + 2^255 * (fst P mod 2)).

(** Section 5.1.5: the secret scalar s, the prefix, and the public key *)
Definition ed_scalar (sk : list Z) : Z := decode_scalar (take 32 (SHA512 sk)).
Definition ed_prefix (sk : list Z) : list Z := drop 32 (SHA512 sk).
Definition ed_public (sk : list Z) : list Z := ed_encode (ed_mult (ed_scalar sk) ed_B).

(** Section 5.1.6, for the public key A *)
Definition ed_k (R A M : list Z) : Z := le_val (SHA512 (R ++ A ++ M)).
Definition ed_signature (sk A M : list Z) : list Z :=
  let r := le_val (SHA512 (ed_prefix sk ++ M)) in
  let R := ed_encode (ed_mult r ed_B) in
  R ++ le_bytes 32 ((r + ed_k R A M * ed_scalar sk) mod ed_L).

(** Section 5.1.3: a byte string denotes a point *)
Definition ed_denotes (s : list Z) (P : Z * Z) : Prop := ed_reduced P /\ ed_on_curve P /\ s = ed_encode P.
(** Section 5.1.7, with the equation that is not multiplied by the cofactor *)
Definition ed_verifies (A M sig : list Z) : Prop :=
  let R := take 32 sig in
  let S := le_val (drop 32 sig) in
  zlen sig = 64 /\ S < ed_L /\
  exists PA PR, ed_denotes A PA /\ ed_denotes R PR /\ ed_mult S ed_B = ed_plus PR (ed_mult (ed_k R A M) PA).

(** The opposite point *)
Definition ed_opposite (P : Z * Z) : Z * Z := ((- fst P) mod p25519, snd P).
(** What the library takes for the point of a key.  It differs from section 5.1.3 in
    two ways: y may be p or more, and the bit of the sign of x = 0 is free. *)
Definition ed_opens (s : list Z) (P : Z * Z) : Prop :=
  ed_reduced P /\ ed_on_curve P /\ snd P = (le_val s mod 2^255) mod p25519 /\ (fst P mod 2 = le_val s / 2^255 \/ fst P = 0).
(** What the library accepts for a signature.  It differs from section 5.1.7 in this:
    the key is read by ed_opens, S may be any number below 2^253, and the number k of
    the equation is reduced modulo L, which makes a difference only for keys that are
    not multiples of B. *)
Definition ed_accepts (A M sig : list Z) : Prop :=
  let R := take 32 sig in
  let S := le_val (drop 32 sig) in
  zlen sig = 64 /\ S < 2^253 /\
  exists PA PR, ed_opens A PA /\ ed_denotes R PR /\ ed_mult S ed_B = ed_plus PR (ed_mult (ed_k R A M mod ed_L) PA).
(** Keys that section 5.1.5 makes are multiples of B *)
Definition ed_key (A : list Z) : Prop := exists a, 0 <= a /\ A = ed_encode (ed_mult a ed_B).
