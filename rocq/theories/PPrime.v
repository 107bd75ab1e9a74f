(** Fermat's little theorem and Pocklington's criterion; 2^255 - 19 is prime. *)
From Coq Require Import Znumtheory Zpow_facts Permutation.
From Verif Require Import Base SX25519.

(** ** Fermat *)
Definition prod (l : list Z) : Z := fold_right Z.mul 1 l.
Lemma prod_perm : forall l l', Permutation l l' -> prod l = prod l'.
Proof. induction 1; unfold prod in *; cbn [fold_right]; lia. Qed.

Section Fermat.
Variables p a : Z.
Hypothesis Hp : prime p.
Hypothesis Ha : ~ (p | a).
Let below := map Z.of_nat (seq 1 (Z.to_nat (p - 1))).
Local Lemma p_gt : 1 < p. Proof. now destruct Hp. Qed.
Local Lemma in_below : forall x, In x below <-> 1 <= x < p.
Proof.
  pose proof p_gt. intro x. unfold below. rewrite in_map_iff. split.
  - intros (n & <- & Hn). apply in_seq in Hn. lia.
  - intro Hx. exists (Z.to_nat x). split; [lia|]. apply in_seq. lia.
Qed.
Local Lemma not_div_below : forall x, 1 <= x < p -> ~ (p | x).
Proof. intros x Hx D. apply Z.divide_pos_le in D; lia. Qed.
Local Lemma times_perm : Permutation (map (fun i => (a * i) mod p) below) below.
Proof.
  pose proof p_gt as Hgt. apply NoDup_Permutation_bis.
  - unfold below. rewrite map_map. apply NoDup_nth with (d := 0). intros i j Hi Hj.
    rewrite map_length, seq_length in Hi, Hj.
    assert (E : forall k, (k < Z.to_nat (p - 1))%nat ->
      nth k (map (fun x => (a * Z.of_nat x) mod p) (seq 1 (Z.to_nat (p - 1)))) 0 = (a * Z.of_nat (S k)) mod p).
    { intros k Hk. rewrite nth_indep with (d' := (fun x => (a * Z.of_nat x) mod p) 0%nat) by now rewrite map_length, seq_length.
      rewrite (map_nth (fun x => (a * Z.of_nat x) mod p)). now rewrite seq_nth. }
    rewrite !E by assumption. intro H.
    assert (D : (p | a * (Z.of_nat (S i) - Z.of_nat (S j)))).
    { apply Z.mod_divide; [lia|]. rewrite Z.mul_sub_distr_l, Zminus_mod, H, Z.sub_diag. apply Z.mod_0_l. lia. }
    apply prime_mult in D; [|assumption]. destruct D as [D|D]; [now elim Ha|].
    destruct (Z.eq_dec (Z.of_nat (S i)) (Z.of_nat (S j))) as [|N]; [lia|].
    destruct D as (c & D). assert (Z.abs (Z.of_nat (S i) - Z.of_nat (S j)) < p) by lia.
    destruct (Z.eq_dec c 0); [nia|]. assert (p <= Z.abs (c * p)) by nia. lia.
  - now rewrite map_length.
  - intros x Hx. apply in_map_iff in Hx. destruct Hx as (y & <- & Hy). apply in_below in Hy. apply in_below.
    pose proof (Z.mod_pos_bound (a * y) p ltac:(lia)).
    destruct (Z.eq_dec ((a * y) mod p) 0) as [E|]; [|lia].
    apply Z.mod_divide in E; [|lia]. apply prime_mult in E; [|assumption]. destruct E; [now elim Ha|].
    now apply not_div_below in Hy.
Qed.
Local Lemma prod_times : forall l, prod (map (fun i => (a * i) mod p) l) mod p = (a ^ zlen l * prod l) mod p.
Proof.
  induction l as [|x l IH].
  - reflexivity.
  - cbn [map prod fold_right]. fold (prod l). fold (prod (map (fun i => (a * i) mod p) l)).
    rewrite Z.mul_mod_idemp_l by (pose proof p_gt; lia). rewrite <- Z.mul_mod_idemp_r, IH, Z.mul_mod_idemp_r by (pose proof p_gt; lia).
    rewrite zlen_cons, Z.pow_add_r by (pose proof (zlen_nonneg _ l); lia). f_equal. ring.
Qed.
Local Lemma prod_not_div : forall l, (forall x, In x l -> 1 <= x < p) -> ~ (p | prod l).
Proof.
  induction l as [|x l IH]; intros H D.
  - cbn in D. pose proof p_gt. apply Z.divide_1_r_nonneg in D; lia.
  - cbn in D. apply prime_mult in D; [|assumption]. destruct D as [D|D].
    + revert D. apply not_div_below. apply H. now left.
    + revert D. apply IH. intros. apply H. now right.
Qed.
Theorem fermat : a ^ (p - 1) mod p = 1.
Proof.
  pose proof p_gt as Hgt. pose proof (prod_times below) as H. rewrite (prod_perm _ _ times_perm) in H.
  assert (L : zlen below = p - 1) by (unfold zlen, below; rewrite map_length, seq_length; lia).
  rewrite L in H.
  assert (D : (p | (a ^ (p - 1) - 1) * prod below)).
  { apply Z.mod_divide; [lia|]. rewrite Z.mul_sub_distr_r, Z.mul_1_l, Zminus_mod, <- H, Z.sub_diag. apply Z.mod_0_l. lia. }
  apply prime_mult in D; [|assumption]. destruct D as [D|D].
  - destruct D as (c & D). replace (a ^ (p - 1)) with (1 + c * p) by lia. rewrite Z.mod_add by lia. apply Z.mod_1_l. lia.
  - exfalso. revert D. apply prod_not_div. intros. now apply in_below.
Qed.
End Fermat.

(** ** Powers modulo n *)
Lemma pow_mod_1 : forall n b k, 1 < n -> 0 <= k -> b mod n = 1 -> b ^ k mod n = 1.
Proof. intros n b k Hn Hk H. rewrite Zpow_facts.Zpower_mod, H, Z.pow_1_l, Z.mod_1_l by lia. reflexivity. Qed.
Lemma mod_mod_1 : forall n r x, 1 < r -> (r | n) -> 0 < n -> x mod n = 1 -> x mod r = 1.
Proof.
  intros n r x Hr (c & ->) Hn H. rewrite (Z.div_mod x (c * r)) by lia. rewrite H.
  replace (c * r * (x / (c * r)) + 1) with (1 + (c * (x / (c * r))) * r) by ring.
  rewrite Z.mod_add by lia. apply Z.mod_1_l. lia.
Qed.

Lemma bez1 : forall u v x, 1 <= x -> 0 <= u + (Z.abs u + Z.abs v) * x.
Proof. intros. assert ((Z.abs u + Z.abs v) * 1 <= (Z.abs u + Z.abs v) * x) by (apply Z.mul_le_mono_nonneg_l; lia). lia. Qed.
Lemma bez2 : forall u v x, 2 <= x -> 0 <= (Z.abs u + Z.abs v) * x - v.
Proof. intros. assert ((Z.abs u + Z.abs v) * 1 <= (Z.abs u + Z.abs v) * x) by (apply Z.mul_le_mono_nonneg_l; lia). lia. Qed.
(** If b^q = 1 and b <> 1 modulo the prime r, for a prime q, then q divides r - 1 *)
Lemma order_divides : forall r q b, prime r -> prime q -> b ^ q mod r = 1 -> b mod r <> 1 -> (q | r - 1).
Proof.
  intros r q b Hr Hq H1 H2. pose proof (prime_ge_2 r Hr). pose proof (prime_ge_2 q Hq).
  assert (N : ~ (r | b)).
  { intros D. assert (E : b ^ q mod r = 0).
    { apply Z.mod_divide; [lia|]. replace q with (1 + (q - 1)) by lia. rewrite Z.pow_add_r, Z.pow_1_r by lia. now apply Z.divide_mul_l. }
    lia. }
  pose proof (fermat r b Hr N) as F.
  destruct (Zdivide_dec q (r - 1)) as [|ND]; [assumption|]. exfalso. apply H2.
  assert (R : rel_prime q (r - 1)) by now apply prime_rel_prime.
  destruct (rel_prime_bezout _ _ R) as [u v Hb].
  (* u*q + v*(r-1) = 1: make both exponents non-negative *)
  set (k := Z.abs u + Z.abs v). 
  assert (K1 : 0 <= u + k * (r - 1)) by (apply (bez1 u v (r - 1)); lia).
  assert (K2 : 0 <= k * q - v) by (apply (bez2 u v q); lia).
  assert (E : (u + k * (r - 1)) * q = 1 + (k * q - v) * (r - 1)) by (transitivity (u * q + v * (r - 1) + (k * q - v) * (r - 1)); [ring|now rewrite Hb]).
  assert (X : b ^ ((u + k * (r - 1)) * q) mod r = 1).
  { rewrite Z.mul_comm, Z.pow_mul_r by lia. apply pow_mod_1; [lia|lia|exact H1]. }
  rewrite E in X. rewrite Z.pow_add_r, Z.pow_1_r in X by (try apply Z.mul_nonneg_nonneg; lia).
  rewrite <- Z.mul_mod_idemp_r in X by lia.
  rewrite (Z.mul_comm (k * q - v)) in X. rewrite Z.pow_mul_r in X by lia.
  rewrite (pow_mod_1 r (b ^ (r - 1)) (k * q - v)) in X by (exact F || (clear - H K2; lia)). now rewrite Z.mul_1_r in X.
Qed.

(** ** Small divisors *)
Lemma prime_divisor : forall n, 1 < n -> exists r, prime r /\ (r | n).
Proof.
  intros n Hn. assert (0 <= n) by lia. revert Hn. pattern n. apply Z_lt_induction; [|assumption]. clear n H. intros n IH Hn.
  destruct (prime_dec n) as [P|P].
  - exists n. split; [assumption|apply Z.divide_refl].
  - destruct (not_prime_divide n Hn P) as (m & Hm & D). destruct (IH m ltac:(lia) ltac:(lia)) as (r & Pr & Dr).
    exists r. split; [assumption|]. now apply Z.divide_trans with m.
Qed.
Lemma prime_no_small : forall n, 1 < n -> (forall r, prime r -> (r | n) -> r * r <= n -> False) -> prime n.
Proof.
  intros n Hn H. destruct (prime_dec n) as [P|P]; [assumption|exfalso].
  destruct (not_prime_divide n Hn P) as (m & Hm & (c & D)).
  assert (exists d, 1 < d /\ (d | n) /\ d * d <= n) as (d & Hd & Dd & Hs).
  { destruct (Z.le_ge_cases m c).
    - exists m. split; [lia|]. split; [now exists c|]. nia.
    - exists c. split; [nia|]. split; [exists m; lia|]. nia. }
  destruct (prime_divisor d Hd) as (r & Pr & Dr). apply (H r Pr); [now apply Z.divide_trans with d|].
  pose proof (prime_ge_2 r Pr). apply Z.divide_pos_le in Dr; nia.
Qed.

(** ** Pocklington, with the base 2 for every prime factor *)
Definition check_factor (n q : Z) : bool :=
  let b := Zpow_mod 2 ((n - 1) / q) n in
  ((n - 1) mod q =? 0) && (Zpow_mod b q n =? 1) && (Z.gcd (b - 1) n =? 1).
Lemma check_factor_sound : forall n q r, 1 < n -> prime q -> check_factor n q = true -> prime r -> (r | n) -> (q | r - 1).
Proof.
  intros n q r Hn Hq H Pr Dr. unfold check_factor in H. apply andb_true_iff in H. destruct H as (H & H3).
  apply andb_true_iff in H. destruct H as (H1 & H2). apply Z.eqb_eq in H1, H2, H3.
  pose proof (prime_ge_2 q Hq). pose proof (prime_ge_2 r Pr).
  set (b := Zpow_mod 2 ((n - 1) / q) n) in *.
  apply order_divides with b; [assumption|assumption| |].
  - rewrite Zpow_mod_correct in H2 by lia. apply (mod_mod_1 n); [lia|assumption|lia|assumption].
  - intro E. assert (D : (r | Z.gcd (b - 1) n)).
    { apply Z.gcd_greatest; [|assumption]. apply Z.mod_divide; [lia|]. rewrite Zminus_mod, E, (Z.mod_1_l r), Z.sub_diag by lia.
      apply Z.mod_0_l. lia. }
    rewrite H3 in D. apply Z.divide_1_r_nonneg in D; lia.
Qed.
Theorem pocklington1 : forall n q, 1 < n -> prime q -> n < q * q -> check_factor n q = true -> prime n.
Proof.
  intros n q Hn Hq L H. apply prime_no_small; [assumption|]. intros r Pr Dr S.
  pose proof (check_factor_sound n q r Hn Hq H Pr Dr) as D. pose proof (prime_ge_2 r Pr). pose proof (prime_ge_2 q Hq).
  apply Z.divide_pos_le in D; [|lia]. nia.
Qed.
Theorem pocklington2 : forall n q q', 1 < n -> prime q -> prime q' -> q <> q' -> n < (q * q') * (q * q') ->
  check_factor n q = true -> check_factor n q' = true -> prime n.
Proof.
  intros n q q' Hn Hq Hq' N L H H'. apply prime_no_small; [assumption|]. intros r Pr Dr S.
  pose proof (check_factor_sound n q r Hn Hq H Pr Dr) as D. pose proof (check_factor_sound n q' r Hn Hq' H' Pr Dr) as D'.
  pose proof (prime_ge_2 r Pr). pose proof (prime_ge_2 q Hq). pose proof (prime_ge_2 q' Hq').
  assert (DD : (q * q' | r - 1)).
  { destruct D as (c & D). rewrite D, Z.mul_comm in D'. apply Gauss with (b := q) in D' as (e & ->).
    - exists e. rewrite D. ring.
    - apply prime_rel_prime; [assumption|]. intro X. apply N. symmetry. now apply prime_div_prime. }
  apply Z.divide_pos_le in DD; [|lia]. nia.
Qed.
Definition trial (n : Z) (bound : nat) : bool :=
  (1 <? n) && (n <? (Z.of_nat bound + 2) * (Z.of_nat bound + 2)) &&
  forallb (fun d => negb (n mod (Z.of_nat d + 2) =? 0)) (seq 0 bound).
Lemma trial_prime : forall bound n, trial n bound = true -> prime n.
Proof.
  intros bound n H. unfold trial in H. rewrite !andb_true_iff, forallb_forall in H. destruct H as ((H1 & H2) & H).
  apply Z.ltb_lt in H1, H2. apply prime_no_small; [assumption|]. intros r Pr Dr S. pose proof (prime_ge_2 r Pr).
  specialize (H (Z.to_nat (r - 2))). rewrite in_seq in H. specialize (H ltac:(nia)).
  apply negb_true_iff, Z.eqb_neq in H. apply H. rewrite Z2Nat.id by lia. replace (r - 2 + 2) with r by lia.
  now apply Z.mod_divide; [lia|].
Qed.

(** ** The chain for 2^255 - 19 *)
Lemma prime_991 : prime 991. Proof. apply (trial_prime 32). reflexivity. Qed.
Lemma prime_103 : prime 103. Proof. apply (trial_prime 32). reflexivity. Qed.
Lemma prime_127 : prime 127. Proof. apply (trial_prime 32). reflexivity. Qed.
Lemma prime_419 : prime 419. Proof. apply (trial_prime 32). reflexivity. Qed.
Lemma prime_97 : prime 97. Proof. apply (trial_prime 32). reflexivity. Qed.
Lemma prime_1723 : prime 1723. Proof. apply (trial_prime 64). reflexivity. Qed.
Lemma prime_4153 : prime 4153. Proof. apply (trial_prime 64). reflexivity. Qed.
Ltac pock1 H := eapply pocklington1; [reflexivity|exact H|reflexivity|vm_cast_no_check (eq_refl true)].
Ltac pock2 H H' := eapply pocklington2; [reflexivity|exact H|exact H'|discriminate|reflexivity|vm_cast_no_check (eq_refl true)|vm_cast_no_check (eq_refl true)].
Lemma prime_8574133 : prime 8574133. Proof. pock2 prime_991 prime_103. Qed.
Lemma prime_a : prime 1919519569386763. Proof. pock2 prime_8574133 prime_127. Qed.
Lemma prime_569003 : prime 569003. Proof. pock2 prime_419 prime_97. Qed.
Lemma prime_2773320623 : prime 2773320623. Proof. pock1 prime_569003. Qed.
Lemma prime_72106336199 : prime 72106336199. Proof. pock1 prime_2773320623. Qed.
Lemma prime_430751 : prime 430751. Proof. pock1 prime_1723. Qed.
Lemma prime_b : prime 31757755568855353. Proof. pock2 prime_430751 prime_4153. Qed.
Lemma prime_R : prime 75445702479781427272750846543864801. Proof. pock2 prime_a prime_72106336199. Qed.
Lemma prime_Q : prime 74058212732561358302231226437062788676166966415465897661863160754340907. Proof. pock2 prime_R prime_b. Qed.
Theorem prime_p25519 : prime p25519. Proof. pock1 prime_Q. Qed.
