(** The order of the prime subgroup of Curve25519 is a prime. *)
From Coq Require Import Znumtheory.
From Verif Require Import Base PPrime.

Definition order_l : Z := 2^252 + 27742317777372353535851937790883648493.
Lemma prime_531581 : prime 531581. Proof. apply (trial_prime 730). vm_cast_no_check (eq_refl true). Qed.
Lemma prime_1224481 : prime 1224481. Proof. apply (trial_prime 1107). vm_cast_no_check (eq_refl true). Qed.
Lemma prime_l1 : prime 1257559732178653. Proof. pock2 prime_531581 prime_1224481. Qed.
Lemma prime_l2 : prime 4434155615661930479. Proof. pock1 prime_l1. Qed.
Lemma prime_l3 : prime 172054593956031949258510691. Proof. pock1 prime_l2. Qed.
Lemma prime_l4 : prime 19757330305831588566944191468367130476339. Proof. pock1 prime_l3. Qed.
Lemma prime_l5 : prime 276602624281642239937218680557139826668747. Proof. pock1 prime_l4. Qed.
Theorem prime_l : prime order_l. Proof. pock1 prime_l5. Qed.

