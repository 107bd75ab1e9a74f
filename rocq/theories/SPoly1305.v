(** Specification of Poly1305: RFC 7539, section 2.5. *)
From Verif Require Import Base SSha2 SBlake2.

Definition P1305 : Z := 2 ^ 130 - 5.
Definition clamp (r : Z) : Z := Z.land r 0x0ffffffc0ffffffc0ffffffc0fffffff.

(** the message cut into blocks of 16 bytes, the last one possibly shorter *)
Definition blocks16 (msg : list Z) : list (list Z) := pieces 16 (Z.to_nat ((zlen msg + 15) / 16)) msg.

Definition poly1305_mac (key msg : list Z) : list Z :=
  let r := clamp (le_val (take 16 key)) in
  let s := le_val (sub 16 16 key) in
  let a := fold_left (fun a block => ((a + le_val (block ++ [1])) * r) mod P1305) (blocks16 msg) 0 in
  le_bytes 16 (a + s).
