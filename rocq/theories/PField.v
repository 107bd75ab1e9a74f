(** The field of integers modulo a prime, as a type; squares modulo 2^255 - 19 *)
From Coq Require Import Znumtheory Zpow_facts Field Ring Eqdep_dec.
From Verif Require Import Base SX25519 PPrime.

Section Field.
Variable p : Z.
Hypothesis Hp : prime p.
Record fz : Type := Fmk { fval : Z; fval_ok : (fval =? fval mod p) = true }.
Lemma p_gt1 : 1 < p. Proof. now destruct Hp. Qed.
Lemma fval_range : forall a, 0 <= fval a < p.
Proof. intros [a Ha]. cbn. apply Z.eqb_eq in Ha. pose proof p_gt1. rewrite Ha. apply Z.mod_pos_bound. lia. Qed.
Lemma fval_mod : forall a, fval a mod p = fval a.
Proof. intros a. apply Z.mod_small, fval_range. Qed.
Lemma fz_eq : forall a b, fval a = fval b -> a = b.
Proof. intros [a Ha] [b Hb]. cbn. intros ->. f_equal. apply UIP_dec. apply Bool.bool_dec. Qed.
Lemma mod_ok : forall z, (z mod p =? (z mod p) mod p) = true.
Proof. intros z. pose proof p_gt1. rewrite Z.mod_mod by lia. apply Z.eqb_refl. Qed.
Definition fz_of (z : Z) : fz := Fmk (z mod p) (mod_ok z).
Lemma fz_of_eq : forall a b, fz_of a = fz_of b <-> a mod p = b mod p.
Proof. intros a b. split; [intros H; exact (f_equal fval H)|]. intros H. apply fz_eq. exact H. Qed.
Lemma fz_of_fval : forall a, fz_of (fval a) = a.
Proof. intros a. apply fz_eq. cbn. apply fval_mod. Qed.
Definition zadd (a b : fz) : fz := fz_of (fval a + fval b).
Definition zmul (a b : fz) : fz := fz_of (fval a * fval b).
Definition zsub (a b : fz) : fz := fz_of (fval a - fval b).
Definition zopp (a : fz) : fz := fz_of (- fval a).
Definition zpow (a : fz) (n : Z) : fz := fz_of (fval a ^ n).
Definition zinv (a : fz) : fz := zpow a (p - 2).
Definition zdiv (a b : fz) : fz := zmul a (zinv b).

Lemma of_add : forall a b, fz_of (a + b) = zadd (fz_of a) (fz_of b).
Proof. intros. apply fz_of_eq. cbn. apply Z.add_mod. pose proof p_gt1. lia. Qed.
Lemma of_mul : forall a b, fz_of (a * b) = zmul (fz_of a) (fz_of b).
Proof. intros. apply fz_of_eq. cbn. apply Z.mul_mod. pose proof p_gt1. lia. Qed.
Lemma of_sub : forall a b, fz_of (a - b) = zsub (fz_of a) (fz_of b).
Proof. intros. apply fz_of_eq. cbn. apply Zminus_mod. Qed.
Lemma of_opp : forall a, fz_of (- a) = zopp (fz_of a).
Proof. intros. apply fz_of_eq. cbn. replace (- a) with (0 - a) by ring. rewrite Zminus_mod, <- Zminus_mod_idemp_r. f_equal. pose proof p_gt1. rewrite Z.mod_0_l by lia. rewrite Z.mod_mod by lia. ring. Qed.
Lemma of_mod : forall a, fz_of (a mod p) = fz_of a.
Proof. intros. apply fz_of_eq. apply Z.mod_mod. pose proof p_gt1. lia. Qed.
Lemma of_pow : forall a n, fz_of (a ^ n) = zpow (fz_of a) n.
Proof. intros. apply fz_of_eq. cbn. apply Zpower_mod. pose proof p_gt1. lia. Qed.
Lemma fz_cases : forall P : fz -> Prop, (forall z, P (fz_of z)) -> forall a, P a.
Proof. intros P H a. rewrite <- (fz_of_fval a). apply H. Qed.

Lemma fz_dec : forall a b : fz, a = b \/ a <> b.
Proof. intros a b. destruct (Z.eq_dec (fval a) (fval b)) as [E|E]; [left; now apply fz_eq|right; intros ->; now apply E]. Qed.
Lemma fz_0 : forall a, fz_of a = fz_of 0 <-> (p | a).
Proof.
  intros a. pose proof p_gt1. rewrite fz_of_eq, Z.mod_0_l by lia. split; [apply Z.mod_divide; lia|]. intros D. apply Z.mod_divide; [lia|exact D].
Qed.
Lemma zpow_add : forall a n m, 0 <= n -> 0 <= m -> zpow a (n + m) = zmul (zpow a n) (zpow a m).
Proof. intros a n m Hn Hm. unfold zpow. rewrite Z.pow_add_r by assumption. apply of_mul. Qed.
Lemma zpow_mul : forall a n m, 0 <= n -> 0 <= m -> zpow a (n * m) = zpow (zpow a n) m.
Proof. intros a n m Hn Hm. unfold zpow at 1. rewrite Z.pow_mul_r by assumption. rewrite of_pow. reflexivity. Qed.
Lemma zpow_mul_l : forall a b n, zpow (zmul a b) n = zmul (zpow a n) (zpow b n).
Proof. intros a b n. unfold zpow at 2 3. rewrite <- of_mul, <- Z.pow_mul_l. rewrite of_pow. reflexivity. Qed.
Lemma zpow_1 : forall a, zpow a 1 = a.
Proof. intros. unfold zpow. rewrite Z.pow_1_r. apply fz_of_fval. Qed.
Lemma zpow_2 : forall a, zpow a 2 = zmul a a.
Proof. intros. unfold zpow. rewrite Z.pow_2_r. reflexivity. Qed.
Lemma zpow_fermat : forall a, a <> fz_of 0 -> zpow a (p - 1) = fz_of 1.
Proof.
  intros a H. unfold zpow. apply fz_of_eq. rewrite fermat; [pose proof p_gt1; now rewrite Z.mod_1_l by lia|exact Hp|].
  intros D. apply H. rewrite <- (fz_of_fval a). now apply fz_0.
Qed.
Lemma zinv_l : forall a, a <> fz_of 0 -> zmul (zinv a) a = fz_of 1.
Proof.
  intros a H. unfold zinv. rewrite <- (zpow_1 a) at 2. rewrite <- zpow_add; [|pose proof p_gt1; lia|lia].
  replace (p - 2 + 1) with (p - 1) by ring. now apply zpow_fermat.
Qed.
Lemma fz_field : field_theory (fz_of 0) (fz_of 1) zadd zmul zsub zopp zdiv zinv (@eq fz).
Proof.
  split; [split| | |].
  - intros a. pattern a. apply fz_cases. intros z. now rewrite <- of_add.
  - intros a b. unfold zadd. f_equal. ring.
  - intros a b c. revert a. apply (fz_cases (fun a => _)). intros x. revert b. apply (fz_cases (fun a => _)). intros y. revert c. apply (fz_cases (fun a => _)). intros z.
    rewrite <- !of_add. f_equal. ring.
  - intros a. pattern a. apply fz_cases. intros z. rewrite <- of_mul. f_equal. ring.
  - intros a b. unfold zmul. f_equal. ring.
  - intros a b c. revert a. apply (fz_cases (fun a => _)). intros x. revert b. apply (fz_cases (fun a => _)). intros y. revert c. apply (fz_cases (fun a => _)). intros z.
    rewrite <- !of_mul. f_equal. ring.
  - intros a b c. revert a. apply (fz_cases (fun a => _)). intros x. revert b. apply (fz_cases (fun a => _)). intros y. revert c. apply (fz_cases (fun a => _)). intros z.
    rewrite <- ?of_add, <- ?of_mul, <- ?of_add. f_equal. ring.
  - intros a b. revert a. apply (fz_cases (fun a => _)). intros x. revert b. apply (fz_cases (fun a => _)). intros y. rewrite <- of_opp, <- of_add, <- of_sub. f_equal.
  - intros a. pattern a. apply fz_cases. intros z. rewrite <- of_opp, <- of_add. f_equal. ring.
  - intros H. apply fz_of_eq in H. pose proof p_gt1. rewrite Z.mod_1_l, Z.mod_0_l in H by lia. discriminate.
  - intros a b. reflexivity.
  - intros a H. now apply zinv_l.
Qed.
End Field.
