(** Proofs about the field arithmetic of curve25519-donna-c64.c *)
From Coq Require Import Setoid Morphisms Lia ZArith Zpow_facts.
From Verif Require Import Base MHash MSha2 MBlake2 SSha2 SBlake2 PSha2 PSha2b PBlake2 PChaCha MPoly1305 PPoly1305 MX25519 SX25519.

(** ** Congruence modulo p *)
Definition eqp (a b : Z) : Prop := exists k, a = b + k * p25519.
Infix "==" := eqp (at level 70).
Lemma p_pos : 0 < p25519. Proof. reflexivity. Qed.
Lemma eqp_refl : forall a, a == a. Proof. intros a. exists 0. ring. Qed.
Lemma eqp_sym : forall a b, a == b -> b == a. Proof. intros a b (k & ->). exists (- k). ring. Qed.
Lemma eqp_trans : forall a b c, a == b -> b == c -> a == c.
Proof. intros a b c (k & ->) (m & ->). exists (k + m). ring. Qed.
Global Instance eqp_equiv : Equivalence eqp.
Proof. split; [exact eqp_refl|exact eqp_sym|exact eqp_trans]. Qed.
Global Instance eqp_add : Proper (eqp ==> eqp ==> eqp) Z.add.
Proof. intros a b (k & ->) c d (m & ->). exists (k + m). ring. Qed.
Global Instance eqp_sub : Proper (eqp ==> eqp ==> eqp) Z.sub.
Proof. intros a b (k & ->) c d (m & ->). exists (k - m). ring. Qed.
Global Instance eqp_mul : Proper (eqp ==> eqp ==> eqp) Z.mul.
Proof. intros a b (k & ->) c d (m & ->). exists (k * d + m * b + k * m * p25519). ring. Qed.
Lemma eqp_mod : forall a b, a == b <-> a mod p25519 = b mod p25519.
Proof.
  intros a b. split.
  - intros (k & ->). apply Z_mod_plus_full.
  - intros H. exists (a / p25519 - b / p25519). pose proof (Z.div_mod a p25519 ltac:(discriminate)). pose proof (Z.div_mod b p25519 ltac:(discriminate)).
    rewrite H in *. generalize dependent p25519. intros. lia.
Qed.
Lemma mod_eqp : forall a, a mod p25519 == a.
Proof. intros a. apply eqp_mod. apply Z.mod_mod. discriminate. Qed.
Global Instance eqp_pow : forall n, Proper (eqp ==> eqp) (fun a => a ^ n).
Proof.
  intros n a b H. apply eqp_mod. rewrite (Zpow_facts.Zpower_mod a), (Zpow_facts.Zpower_mod b) by exact p_pos.
  apply eqp_mod in H. now rewrite H.
Qed.

(** ** Limbs *)
Definition val (f : felem) : Z :=
  let '(a, b, c, d, e) := f in a + b * 2 ^ 51 + c * 2 ^ 102 + d * 2 ^ 153 + e * 2 ^ 204.
(** All limbs at most k * 2^51 *)
Definition lim (k : Z) (f : felem) : Prop :=
  let '(a, b, c, d, e) := f in
  0 <= a <= k * 2 ^ 51 /\ 0 <= b <= k * 2 ^ 51 /\ 0 <= c <= k * 2 ^ 51 /\ 0 <= d <= k * 2 ^ 51 /\ 0 <= e <= k * 2 ^ 51.
Lemma lim_mono : forall j k f, lim j f -> j <= k -> lim k f.
Proof. intros j k [[[[a b] c] d] e] H Hk. unfold lim in *. lia. Qed.

Lemma land_mask51 : forall x, Z.land x mask51 = x mod 2 ^ 51.
Proof. intros. change mask51 with (Z.ones 51). apply Z.land_ones. lia. Qed.
Lemma low51_mod : forall x, low51 x = x mod 2 ^ 51.
Proof.
  intros. unfold low51. rewrite land_mask51. symmetry. apply Znumtheory.Zmod_div_mod; try lia. exists (2 ^ 13). reflexivity.
Qed.
Ltac stepf Hw := apply (step_ok _ Hw); [lia|]; cbv beta; rewrite ?land_mask51, ?low51_mod; rewrite ?Z.shiftr_div_pow2 by lia.

Section Exact.
Variable w : Z -> Z -> outcome Z.
Hypothesis Hw : exact_in_range w.

Lemma fsum_ok : forall a b, lim 1 a -> lim 1 b -> exists c, fsum w a b = Ok c /\ (lim 2 c /\ val c = val a + val b).
Proof.
  intros [[[[a0 a1] a2] a3] a4] [[[[b0 b1] b2] b3] b4] A B. unfold lim in A, B. cbn [fsum].
  do 5 (stepf Hw). eexists. split; [reflexivity|]. unfold lim, val. split; [lia|ring].
Qed.
Lemma fsum_ok2 : forall a b, lim 2 a -> lim 1 b -> exists c, fsum w a b = Ok c /\ (lim 3 c /\ val c = val a + val b).
Proof.
  intros [[[[a0 a1] a2] a3] a4] [[[[b0 b1] b2] b3] b4] A B. unfold lim in A, B. cbn [fsum].
  do 5 (stepf Hw). eexists. split; [reflexivity|]. unfold lim, val. split; [lia|ring].
Qed.
Lemma fdiff_ok : forall a b, lim 1 a -> lim 1 b -> exists c, fdifference_backwards w a b = Ok c /\ (lim 9 c /\ val c == val b - val a).
Proof.
  intros [[[[a0 a1] a2] a3] a4] [[[[b0 b1] b2] b3] b4] A B. unfold lim in A, B. unfold fdifference_backwards, two54m152, two54m8.
  do 10 (stepf Hw). eexists. split; [reflexivity|]. split; [unfold lim; lia|]. exists 8. unfold val, p25519.
  change (2 ^ 255) with (2 ^ 51 * 2 ^ 204). change (2 ^ 54) with (8 * 2 ^ 51). change (2 ^ 204) with (2 ^ 51 * 2 ^ 153). change (2 ^ 153) with (2 ^ 51 * 2 ^ 102). change (2 ^ 102) with (2 ^ 51 * 2 ^ 51). ring.
Qed.

(** ** Carries *)
Lemma div_bound : forall t k, 0 <= t <= k * 2 ^ 51 -> 0 <= t / 2 ^ 51 <= k.
Proof. intros t k H. split; [apply Z.div_pos; lia|apply Z.div_le_upper_bound; lia]. Qed.
Lemma carry_ok : forall t0 t1 t2 t3 t4,
  0 <= t0 <= 6237 * 2 ^ 102 -> 0 <= t1 <= 6237 * 2 ^ 102 -> 0 <= t2 <= 6237 * 2 ^ 102 -> 0 <= t3 <= 6237 * 2 ^ 102 -> 0 <= t4 <= 405 * 2 ^ 102 ->
  exists f, carry w t0 t1 t2 t3 t4 = Ok f /\ (lim 1 f /\ val f == t0 + t1 * 2 ^ 51 + t2 * 2 ^ 102 + t3 * 2 ^ 153 + t4 * 2 ^ 204).
Proof.
  intros t0 t1 t2 t3 t4 H0 H1 H2 H3 H4. unfold carry.
  rewrite ?land_mask51, ?low51_mod; rewrite ?Z.shiftr_div_pow2 by lia.
  pose proof (Z.div_mod t0 (2 ^ 51) ltac:(lia)) as Q0. pose proof (Z.mod_pos_bound t0 (2 ^ 51) ltac:(lia)) as L0.
  pose proof (div_bound t0 (6237 * 2 ^ 51) ltac:(lia)) as C0.
  set (c0 := t0 / 2 ^ 51) in *. set (e0 := t0 mod 2 ^ 51) in *. clearbody c0 e0.
  do 2 (stepf Hw).
  pose proof (Z.div_mod (t1 + c0) (2 ^ 51) ltac:(lia)) as Q1. pose proof (Z.mod_pos_bound (t1 + c0) (2 ^ 51) ltac:(lia)) as L1.
  pose proof (div_bound (t1 + c0) (6238 * 2 ^ 51) ltac:(lia)) as C1.
  set (c1 := (t1 + c0) / 2 ^ 51) in *. set (e1 := (t1 + c0) mod 2 ^ 51) in *. clearbody c1 e1.
  do 2 (stepf Hw).
  pose proof (Z.div_mod (t2 + c1) (2 ^ 51) ltac:(lia)) as Q2. pose proof (Z.mod_pos_bound (t2 + c1) (2 ^ 51) ltac:(lia)) as L2.
  pose proof (div_bound (t2 + c1) (6238 * 2 ^ 51) ltac:(lia)) as C2.
  set (c2 := (t2 + c1) / 2 ^ 51) in *. set (e2 := (t2 + c1) mod 2 ^ 51) in *. clearbody c2 e2.
  do 2 (stepf Hw).
  pose proof (Z.div_mod (t3 + c2) (2 ^ 51) ltac:(lia)) as Q3. pose proof (Z.mod_pos_bound (t3 + c2) (2 ^ 51) ltac:(lia)) as L3.
  pose proof (div_bound (t3 + c2) (6238 * 2 ^ 51) ltac:(lia)) as C3.
  set (c3 := (t3 + c2) / 2 ^ 51) in *. set (e3 := (t3 + c2) mod 2 ^ 51) in *. clearbody c3 e3.
  do 2 (stepf Hw).
  pose proof (Z.div_mod (t4 + c3) (2 ^ 51) ltac:(lia)) as Q4. pose proof (Z.mod_pos_bound (t4 + c3) (2 ^ 51) ltac:(lia)) as L4.
  pose proof (div_bound (t4 + c3) (406 * 2 ^ 51) ltac:(lia)) as C4.
  set (c4 := (t4 + c3) / 2 ^ 51) in *. set (e4 := (t4 + c3) mod 2 ^ 51) in *. clearbody c4 e4.
  do 3 (stepf Hw).
  pose proof (Z.div_mod (e0 + c4 * 19) (2 ^ 51) ltac:(lia)) as Q5. pose proof (Z.mod_pos_bound (e0 + c4 * 19) (2 ^ 51) ltac:(lia)) as L5.
  pose proof (div_bound (e0 + c4 * 19) 7716 ltac:(lia)) as C5.
  set (c5 := (e0 + c4 * 19) / 2 ^ 51) in *. set (e5 := (e0 + c4 * 19) mod 2 ^ 51) in *. clearbody c5 e5.
  stepf Hw.
  pose proof (Z.div_mod (e1 + c5) (2 ^ 51) ltac:(lia)) as Q6. pose proof (Z.mod_pos_bound (e1 + c5) (2 ^ 51) ltac:(lia)) as L6.
  assert (0 <= (e1 + c5) / 2 ^ 51 <= 1) as C6 by (split; [apply Z.div_pos; lia|apply Z.lt_succ_r; apply Z.div_lt_upper_bound; lia]).
  set (c6 := (e1 + c5) / 2 ^ 51) in *. set (e6 := (e1 + c5) mod 2 ^ 51) in *. clearbody c6 e6.
  stepf Hw.
  eexists. split; [reflexivity|]. split; [unfold lim; lia|]. exists (- c4). cbn [val].
  assert (t0 = 2 ^ 51 * c0 + e0) as -> by lia. assert (t1 = 2 ^ 51 * c1 + e1 - c0) as -> by lia. assert (t2 = 2 ^ 51 * c2 + e2 - c1) as -> by lia.
  assert (t3 = 2 ^ 51 * c3 + e3 - c2) as -> by lia. assert (t4 = 2 ^ 51 * c4 + e4 - c3) as -> by lia.
  assert (e0 = 2 ^ 51 * c5 + e5 - c4 * 19) as -> by lia. assert (e1 = 2 ^ 51 * c6 + e6 - c5) as -> by lia.
  unfold p25519.
  change (2 ^ 255) with (2 ^ 51 * 2 ^ 204). change (2 ^ 204) with (2 ^ 51 * 2 ^ 153). change (2 ^ 153) with (2 ^ 51 * 2 ^ 102). change (2 ^ 102) with (2 ^ 51 * 2 ^ 51). ring.
Qed.

(** ** Products *)
Definition bnd (e : outcome Z) (A x : Z) : Prop := e = Ok x /\ 0 <= x <= A.
Lemma bnd_ok : forall x A, 0 <= x <= A -> bnd (Ok x) A x.
Proof. intros. now split. Qed.
Lemma bnd_mul : forall a b A B, 0 <= a <= A -> 0 <= b <= B -> A * B < 2 ^ 128 -> bnd (mul w a b) (A * B) (a * b).
Proof. intros a b A B Ha Hb H. pose proof (mul_range a b A B Ha Hb) as R. split; [|exact R]. apply Hw. clear - R H. lia. Qed.
Lemma bnd_add : forall e f a b A B, bnd e A a -> bnd f B b -> A + B < 2 ^ 128 -> bnd (add w e f) (A + B) (a + b).
Proof. intros e f a b A B (-> & Ha) (-> & Hb) H. split; [|lia]. unfold add. cbn [obind]. apply Hw. lia. Qed.
Lemma bnd_times : forall a A k, 0 <= a <= A -> 0 <= k -> A * k < 2 ^ 64 -> bnd (w 64 (a * k)) (A * k) (a * k).
Proof. intros a A k Ha Hk H. pose proof (mul_range a k A k Ha ltac:(lia)) as R. split; [|exact R]. apply Hw. clear - R H. lia. Qed.
Lemma bnd_step : forall A (e : outcome Z) B x (f : Z -> outcome A) (Q : A -> Prop), bnd e B x ->
  (0 <= x <= B -> exists h, f x = Ok h /\ Q h) -> exists h, obind e f = Ok h /\ Q h.
Proof. intros A e B x f Q (-> & Hx) H. exact (H Hx). Qed.
Ltac sums := repeat match goal with
  | |- bnd (add w _ _) _ _ => eapply bnd_add
  | |- bnd (mul w _ _) _ _ => eapply bnd_mul
  | |- bnd (w 64 _) _ _ => eapply bnd_times
  | |- bnd (Ok _) _ _ => eapply bnd_ok
  | |- 0 <= _ <= _ => eassumption
  end; try (exact eq_refl); try discriminate.
Ltac next H := eapply bnd_step; [sums|intros H].
Lemma le_upto : forall x A B, 0 <= x <= A -> A <= B -> 0 <= x <= B. Proof. lia. Qed.
Ltac carried := match goal with |- exists h, carry w ?t0 ?t1 ?t2 ?t3 ?t4 = Ok h /\ _ =>
  let f := fresh "f" in let E := fresh "E" in let L := fresh "L" in let V := fresh "V" in
  destruct (carry_ok t0 t1 t2 t3 t4) as (f & E & L & V);
  [eapply le_upto; [eassumption|discriminate]|eapply le_upto; [eassumption|discriminate]|eapply le_upto; [eassumption|discriminate]
  |eapply le_upto; [eassumption|discriminate]|eapply le_upto; [eassumption|discriminate]|];
  exists f; split; [exact E|]; split; [exact L|]; rewrite V; clear end.
Ltac powers := change (2 ^ 255) with (2 ^ 51 * 2 ^ 204); change (2 ^ 204) with (2 ^ 51 * 2 ^ 153); change (2 ^ 153) with (2 ^ 51 * 2 ^ 102); change (2 ^ 102) with (2 ^ 51 * 2 ^ 51).
Lemma fmul_ok : forall a b, lim 9 a -> lim 9 b -> exists c, fmul w a b = Ok c /\ (lim 1 c /\ val c == val a * val b).
Proof.
  intros [[[[s0 s1] s2] s3] s4] [[[[r0 r1] r2] r3] r4] (S0 & S1 & S2 & S3 & S4) (R0 & R1 & R2 & R3 & R4).
  cbn [fmul].
  next T0. next T1. next T2. next T3. next T4. next R4'. next R1'. next R2'. next R3'.
  next T0'. next T1'. next T2'. next T3'. carried.
  exists (- (r4 * s1 + r1 * s4 + r2 * s3 + r3 * s2 + (r4 * s2 + r2 * s4 + r3 * s3) * 2 ^ 51 + (r4 * s3 + r3 * s4) * 2 ^ 102 + r4 * s4 * 2 ^ 153)).
  unfold val, p25519. powers. ring.
Qed.
Lemma fsquare_ok : forall a, lim 9 a -> exists c, fsquare w a = Ok c /\ (lim 1 c /\ val c == val a * val a).
Proof.
  intros [[[[r0 r1] r2] r3] r4] (R0 & R1 & R2 & R3 & R4). cbn [fsquare].
  next D0. next D1. next D2. next D2'. next D419. next D4. next T0. next R319. next T1. next T2. next T3. next T4. carried.
  exists (- (2 * r4 * r1 + 2 * r2 * r3 + (2 * r4 * r2 + r3 * r3) * 2 ^ 51 + (2 * r4 * r3) * 2 ^ 102 + r4 * r4 * 2 ^ 153)).
  unfold val, p25519. powers. ring.
Qed.

Lemma fscalar_ok : forall a, lim 9 a -> exists c, fscalar_product w a 121665 = Ok c /\ (lim 2 c /\ val c == val a * 121665).
Proof.
  intros [[[[r0 r1] r2] r3] r4] (R0 & R1 & R2 & R3 & R4). cbn [fscalar_product].
  stepf Hw.
  pose proof (Z.div_mod (r0 * 121665) (2 ^ 51) ltac:(lia)) as Q0. pose proof (Z.mod_pos_bound (r0 * 121665) (2 ^ 51) ltac:(lia)) as L0.
  pose proof (div_bound (r0 * 121665) (9 * 121665) ltac:(lia)) as C0.
  set (c0 := r0 * 121665 / 2 ^ 51) in *. set (e0 := (r0 * 121665) mod 2 ^ 51) in *. clearbody c0 e0.
  do 3 (stepf Hw).
  pose proof (Z.div_mod (r1 * 121665 + c0) (2 ^ 51) ltac:(lia)) as Q1. pose proof (Z.mod_pos_bound (r1 * 121665 + c0) (2 ^ 51) ltac:(lia)) as L1.
  pose proof (div_bound (r1 * 121665 + c0) (9 * 121666) ltac:(lia)) as C1.
  set (c1 := (r1 * 121665 + c0) / 2 ^ 51) in *. set (e1 := (r1 * 121665 + c0) mod 2 ^ 51) in *. clearbody c1 e1.
  do 3 (stepf Hw).
  pose proof (Z.div_mod (r2 * 121665 + c1) (2 ^ 51) ltac:(lia)) as Q2. pose proof (Z.mod_pos_bound (r2 * 121665 + c1) (2 ^ 51) ltac:(lia)) as L2.
  pose proof (div_bound (r2 * 121665 + c1) (9 * 121666) ltac:(lia)) as C2.
  set (c2 := (r2 * 121665 + c1) / 2 ^ 51) in *. set (e2 := (r2 * 121665 + c1) mod 2 ^ 51) in *. clearbody c2 e2.
  do 3 (stepf Hw).
  pose proof (Z.div_mod (r3 * 121665 + c2) (2 ^ 51) ltac:(lia)) as Q3. pose proof (Z.mod_pos_bound (r3 * 121665 + c2) (2 ^ 51) ltac:(lia)) as L3.
  pose proof (div_bound (r3 * 121665 + c2) (9 * 121666) ltac:(lia)) as C3.
  set (c3 := (r3 * 121665 + c2) / 2 ^ 51) in *. set (e3 := (r3 * 121665 + c2) mod 2 ^ 51) in *. clearbody c3 e3.
  do 3 (stepf Hw).
  pose proof (Z.div_mod (r4 * 121665 + c3) (2 ^ 51) ltac:(lia)) as Q4. pose proof (Z.mod_pos_bound (r4 * 121665 + c3) (2 ^ 51) ltac:(lia)) as L4.
  pose proof (div_bound (r4 * 121665 + c3) (9 * 121666) ltac:(lia)) as C4.
  set (c4 := (r4 * 121665 + c3) / 2 ^ 51) in *. set (e4 := (r4 * 121665 + c3) mod 2 ^ 51) in *. clearbody c4 e4.
  do 2 (stepf Hw).
  eexists. split; [reflexivity|]. split; [unfold lim; lia|]. exists (- c4). cbn [val].
  replace ((r0 + r1 * 2 ^ 51 + r2 * 2 ^ 102 + r3 * 2 ^ 153 + r4 * 2 ^ 204) * 121665)
    with (r0 * 121665 + r1 * 121665 * 2 ^ 51 + r2 * 121665 * 2 ^ 102 + r3 * 121665 * 2 ^ 153 + r4 * 121665 * 2 ^ 204) by ring.
  assert (r1 * 121665 = 2 ^ 51 * c1 + e1 - c0) as -> by lia. assert (r2 * 121665 = 2 ^ 51 * c2 + e2 - c1) as -> by lia.
  assert (r3 * 121665 = 2 ^ 51 * c3 + e3 - c2) as -> by lia. assert (r4 * 121665 = 2 ^ 51 * c4 + e4 - c3) as -> by lia.
  rewrite Q0. unfold p25519. powers. ring.
Qed.

Lemma fsquare_times_ok : forall n a, lim 9 a -> exists c, fsquare_times w a (S n) = Ok c /\ (lim 1 c /\ val c == val a ^ (2 ^ Z.of_nat (S n))).
Proof.
  induction n as [|n IH]; intros a A.
  - destruct (fsquare_ok a A) as (c & E & L & V). exists c. cbn [fsquare_times]. rewrite E. split; [reflexivity|]. split; [exact L|].
    rewrite V. change (2 ^ Z.of_nat 1) with 2. rewrite Z.pow_2_r. reflexivity.
  - destruct (fsquare_ok a A) as (c & E & L & V). destruct (IH c ltac:(apply (lim_mono 1); [exact L|lia])) as (d & E2 & L2 & V2).
    exists d. cbn [fsquare_times] in *. rewrite E. cbn [obind]. split; [exact E2|]. split; [exact L2|]. rewrite V2.
    rewrite (eqp_pow _ _ _ V). rewrite <- Z.pow_2_r. rewrite <- Z.pow_mul_r by lia.
    replace (2 * 2 ^ Z.of_nat (S n)) with (2 ^ Z.of_nat (S (S n))); [reflexivity|].
    rewrite (Nat2Z.inj_succ (S n)), Z.pow_succ_r by lia. reflexivity.
Qed.

(** ** The reciprocal *)
Lemma lim19 : forall f, lim 1 f -> lim 9 f.
Proof. intros f H. apply (lim_mono 1); [exact H|lia]. Qed.
Definition power (z : felem) (n : Z) (f : felem) : Prop := lim 9 f /\ val f == val z ^ n.
Lemma step_square : forall z m f n (k : felem -> outcome felem) Q, power z m f -> 0 <= m ->
  (forall g, power z (2 ^ Z.of_nat (S n) * m) g -> exists h, k g = Ok h /\ Q h) ->
  exists h, obind (fsquare_times w f (S n)) k = Ok h /\ Q h.
Proof.
  intros z m f n k Q (L & V) Hm H. destruct (fsquare_times_ok n f L) as (c & -> & Lc & Vc). cbn [obind]. apply H.
  split; [now apply lim19|]. rewrite Vc, (eqp_pow _ _ _ V). rewrite <- Z.pow_mul_r by lia. rewrite Z.mul_comm. reflexivity.
Qed.
Lemma power_mul : forall z m n f g, power z m f -> power z n g -> 0 <= m -> 0 <= n ->
  exists h, fmul w f g = Ok h /\ (lim 1 h /\ power z (m + n) h).
Proof.
  intros z m n f g (L & V) (L' & V') Hm Hn. destruct (fmul_ok f g L L') as (c & -> & Lc & Vc). exists c.
  split; [reflexivity|]. split; [exact Lc|]. split; [now apply lim19|]. rewrite Vc, V, V', Z.pow_add_r by lia. reflexivity.
Qed.
Lemma step_power_mul : forall z m n f g (k : felem -> outcome felem) Q, power z m f -> power z n g -> 0 <= m -> 0 <= n ->
  (forall h, power z (m + n) h -> exists r, k h = Ok r /\ Q r) ->
  exists r, obind (fmul w f g) k = Ok r /\ Q r.
Proof. intros z m n f g k Q F G Hm Hn H. destruct (power_mul z m n f g F G Hm Hn) as (h & -> & _ & P). apply H. exact P. Qed.
Lemma crecip_ok : forall z, lim 9 z -> exists c, crecip w z = Ok c /\ (lim 1 c /\ val c == val z ^ (p25519 - 2)).
Proof.
  intros z L. assert (P : power z 1 z) by (split; [exact L|rewrite Z.pow_1_r; reflexivity]).
  unfold crecip.
  Ltac sq H := eapply step_square; [eassumption|discriminate|intros ? H].
  Ltac pm H := eapply step_power_mul; [eassumption|eassumption|discriminate|discriminate|intros ? H].
  eapply (step_square z); [exact P|discriminate|intros a A].
  eapply (step_square z); [exact A|discriminate|intros t0 T0].
  eapply (step_power_mul z); [exact T0|exact P|discriminate|discriminate|intros b B].
  eapply (step_power_mul z); [exact B|exact A|discriminate|discriminate|intros a' A'].
  eapply (step_square z); [exact A'|discriminate|intros t1 T1].
  eapply (step_power_mul z); [exact T1|exact B|discriminate|discriminate|intros b1 B1].
  eapply (step_square z); [exact B1|discriminate|intros t2 T2].
  eapply (step_power_mul z); [exact T2|exact B1|discriminate|discriminate|intros b2 B2].
  eapply (step_square z); [exact B2|discriminate|intros t3 T3].
  eapply (step_power_mul z); [exact T3|exact B2|discriminate|discriminate|intros c1 C1].
  eapply (step_square z); [exact C1|discriminate|intros t4 T4].
  eapply (step_power_mul z); [exact T4|exact C1|discriminate|discriminate|intros t5 T5].
  eapply (step_square z); [exact T5|discriminate|intros t6 T6].
  eapply (step_power_mul z); [exact T6|exact B2|discriminate|discriminate|intros b3 B3].
  eapply (step_square z); [exact B3|discriminate|intros t7 T7].
  eapply (step_power_mul z); [exact T7|exact B3|discriminate|discriminate|intros c2 C2].
  eapply (step_square z); [exact C2|discriminate|intros t8 T8].
  eapply (step_power_mul z); [exact T8|exact C2|discriminate|discriminate|intros t9 T9].
  eapply (step_square z); [exact T9|discriminate|intros t10 T10].
  eapply (step_power_mul z); [exact T10|exact B3|discriminate|discriminate|intros t11 T11].
  eapply (step_square z); [exact T11|discriminate|intros t12 T12].
  destruct (power_mul z _ _ t12 a' T12 A' ltac:(discriminate) ltac:(discriminate)) as (h & E & Lh & (_ & V)).
  exists h. split; [exact E|]. split; [exact Lh|]. rewrite V. reflexivity.
Qed.

(** ** One step of the ladder *)
Definition mont (x1 x z x' z' : Z) : (Z * Z) * (Z * Z) :=
  let A := x + z in let AA := A * A in let B := x - z in let BB := B * B in let E := AA - BB in
  let DA := (x' - z') * A in let CB := (x' + z') * B in
  ((AA * BB, E * (AA + 121665 * E)), ((DA + CB) * (DA + CB), x1 * ((DA - CB) * (DA - CB)))).
Definition like (f : felem) (x : Z) : Prop := lim 1 f /\ val f == x.
Definition likes (st : points) (v : (Z * Z) * (Z * Z)) : Prop :=
  like (fst (fst st)) (fst (fst v)) /\ like (snd (fst st)) (snd (fst v)) /\ like (fst (snd st)) (fst (snd v)) /\ like (snd (snd st)) (snd (snd v)).
Lemma fst_step : forall A B (e : outcome A) x (f : A -> outcome B) (Q : B -> Prop), e = Ok x ->
  (exists h, f x = Ok h /\ Q h) -> exists h, obind e f = Ok h /\ Q h.
Proof. intros A B e x f Q -> H. exact H. Qed.
Ltac run H c L V := destruct H as (c & Etmp & L & V); eapply fst_step; [exact Etmp|clear Etmp; cbv beta].
Lemma fmonty_ok : forall x z x' z' q vx vz vx' vz' vq,
  like x vx -> like z vz -> like x' vx' -> like z' vz' -> like q vq ->
  exists st, fmonty w x z x' z' q = Ok st /\ likes st (mont vq vx vz vx' vz').
Proof.
  intros x z x' z' q vx vz vx' vz' vq (Lx & Vx) (Lz & Vz) (Lx' & Vx') (Lz' & Vz') (Lq & Vq). unfold fmonty. cbv zeta.
  run (fsum_ok x z Lx Lz) a La Va. run (fdiff_ok z x Lz Lx) b Lb Vb.
  run (fsum_ok x' z' Lx' Lz') c Lc Vc. run (fdiff_ok z' x' Lz' Lx') d Ld Vd.
  assert (La9 : lim 9 a) by (apply (lim_mono 2); [exact La|lia]). assert (Lc9 : lim 9 c) by (apply (lim_mono 2); [exact Lc|lia]).
  run (fmul_ok c b Lc9 Lb) cb Lcb Vcb. run (fmul_ok a d La9 Ld) da Lda Vda.
  run (fsum_ok cb da Lcb Lda) s Ls Vs. run (fdiff_ok da cb Lda Lcb) t Ltt Vt.
  run (fsquare_times_ok 0 s ltac:(apply (lim_mono 2); [exact Ls|lia])) x3 Lx3 Vx3.
  run (fsquare_times_ok 0 t Ltt) t2 Lt2 Vt2.
  run (fmul_ok t2 q (lim19 _ Lt2) (lim19 _ Lq)) z3 Lz3 Vz3.
  run (fsquare_times_ok 0 a La9) aa Laa Vaa. run (fsquare_times_ok 0 b Lb) b2 Lbb Vbb.
  run (fmul_ok aa b2 (lim19 _ Laa) (lim19 _ Lbb)) x2 Lx2 Vx2.
  run (fdiff_ok b2 aa Lbb Laa) e Le Ve.
  run (fscalar_ok e Le) m Lm Vm.
  run (fsum_ok2 m aa Lm Laa) n Ln Vn.
  run (fmul_ok e n Le ltac:(apply (lim_mono 3); [exact Ln|lia])) z2 Lz2 Vz2.
  eexists. split; [reflexivity|]. unfold likes, like, mont. cbv zeta. cbn [fst snd].
  change (2 ^ Z.of_nat 1) with 2 in *. rewrite Z.pow_2_r in *.
  assert (Va' : val a == vx + vz) by (rewrite Va, Vx, Vz; reflexivity). assert (Vb' : val b == vx - vz) by (rewrite Vb, Vx, Vz; reflexivity).
  assert (Vc' : val c == vx' + vz') by (rewrite Vc, Vx', Vz'; reflexivity). assert (Vd' : val d == vx' - vz') by (rewrite Vd, Vx', Vz'; reflexivity).
  rewrite Vc', Vb' in Vcb. rewrite Va', Vd' in Vda. rewrite Va' in Vaa. rewrite Vb' in Vbb.
  rewrite Vaa, Vbb in Ve. rewrite Vaa, Vbb in Vx2.
  assert (Vn' : val n == ((vx + vz) * (vx + vz) - (vx - vz) * (vx - vz)) * 121665 + (vx + vz) * (vx + vz)) by (rewrite Vn, Vm, Ve, Vaa; reflexivity).
  assert (Vs' : val s == (vx' + vz') * (vx - vz) + (vx + vz) * (vx' - vz')) by (rewrite Vs, Vcb, Vda; reflexivity).
  split; [split; [exact Lx2|rewrite Vx2; reflexivity]|]. split; [split; [exact Lz2|]|split; [split; [exact Lx3|]|split; [exact Lz3|]]].
  - rewrite Vz2, Ve, Vn'. apply eqp_mod. f_equal. ring.
  - rewrite Vx3, Vs'. apply eqp_mod. f_equal. ring.
  - rewrite Vz3, Vt2, Vt, Vcb, Vda, Vq. apply eqp_mod. f_equal. ring.
Qed.

End Exact.
