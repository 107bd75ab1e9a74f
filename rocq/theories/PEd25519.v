(** Proofs about the field arithmetic of src/crypto/ed25519 *)
From Coq Require Import Setoid Morphisms Lia ZArith Zpow_facts.
From Verif Require Import Base MHash MSha2 MBlake2 SSha2 SBlake2 PSha2 PSha2b PBlake2 PChaCha MPoly1305 PPoly1305 PGhash MX25519 SX25519 PX25519 PX25519b MEd25519.

(** All limbs at most k times a little more than 2^51 *)
Definition U : Z := 2251799813816320.
Lemma U_val : U = 2 ^ 51 + 2 ^ 17. Proof. reflexivity. Qed.
Definition lm (k : Z) (f : felem) : Prop :=
  let '(a, b, c, d, e) := f in
  0 <= a <= k * U /\ 0 <= b <= k * U /\ 0 <= c <= k * U /\ 0 <= d <= k * U /\ 0 <= e <= k * U.
Lemma lm_mono : forall j k f, lm j f -> j <= k -> lm k f.
Proof. intros j k [[[[a b] c] d] e] H Hk. unfold lm, U in *. lia. Qed.
Ltac powers := change (2 ^ 255) with (2 ^ 51 * 2 ^ 204); change (2 ^ 204) with (2 ^ 51 * 2 ^ 153); change (2 ^ 153) with (2 ^ 51 * 2 ^ 102); change (2 ^ 102) with (2 ^ 51 * 2 ^ 51).

Section Exact.
Variable w : Z -> Z -> outcome Z.
Hypothesis Hw : exact_in_range w.

Lemma ed_add_ok : forall i j a b, lm i a -> lm j b -> 0 <= i -> 0 <= j -> i + j <= 16 ->
  exists c, ed_add w a b = Ok c /\ (lm (i + j) c /\ val c = val a + val b).
Proof.
  intros i j [[[[a0 a1] a2] a3] a4] [[[[b0 b1] b2] b3] b4] A B Hi Hj Hk. unfold lm, U in *. cbn [ed_add].
  do 5 (stepf Hw). eexists. split; [reflexivity|]. unfold val. split; [lia|ring].
Qed.
Lemma ed_sub_ok : forall i a b, lm i a -> lm 1 b -> 0 <= i <= 12 ->
  exists c, ed_sub w a b = Ok c /\ (lm (i + 2) c /\ val c == val a - val b).
Proof.
  intros i [[[[a0 a1] a2] a3] a4] [[[[b0 b1] b2] b3] b4] A B Hi. unfold lm, U in *. unfold ed_sub, ed_sub_from, twoP0, twoP1234.
  do 10 (stepf Hw). eexists. split; [reflexivity|]. split; [lia|]. exists 2. unfold val, p25519. ring.
Qed.
Lemma ed_sub_from4_ok : forall i a b, lm i a -> lm 3 b -> 0 <= i <= 12 ->
  exists c, ed_sub_from w fourP0 fourP1234 a b = Ok c /\ (lm (i + 4) c /\ val c == val a - val b).
Proof.
  intros i [[[[a0 a1] a2] a3] a4] [[[[b0 b1] b2] b3] b4] A B Hi. unfold lm, U in *. unfold ed_sub_from, fourP0, fourP1234.
  do 10 (stepf Hw). eexists. split; [reflexivity|]. split; [lia|]. exists 4. unfold val, p25519. ring.
Qed.
Lemma ed_sub_after_basic_ok : forall i a b, lm i a -> lm 3 b -> 0 <= i <= 12 ->
  exists c, ed_sub_after_basic w a b = Ok c /\ (lm (i + 4) c /\ val c == val a - val b).
Proof. exact ed_sub_from4_ok. Qed.

(** ** Carries *)
Lemma ed_carries_ok : forall s0 s1 s2 s3 s4,
  0 <= s0 <= 4000 * 2 ^ 51 -> 0 <= s1 <= 4000 * 2 ^ 51 -> 0 <= s2 <= 4000 * 2 ^ 51 -> 0 <= s3 <= 4000 * 2 ^ 51 -> 0 <= s4 <= 4000 * 2 ^ 51 ->
  exists f, ed_carries w s0 s1 s2 s3 s4 = Ok f /\ (lm 1 f /\ val f == s0 + s1 * 2 ^ 51 + s2 * 2 ^ 102 + s3 * 2 ^ 153 + s4 * 2 ^ 204).
Proof.
  intros t0 t1 t2 t3 t4 H0 H1 H2 H3 H4. unfold ed_carries. cbv zeta.
  rewrite ?land_mask51, ?low51_mod; rewrite ?Z.shiftr_div_pow2 by lia.
  pose proof (Z.div_mod t0 (2 ^ 51) ltac:(lia)) as Q0. pose proof (Z.mod_pos_bound t0 (2 ^ 51) ltac:(lia)) as L0.
  pose proof (div_bound t0 4000 ltac:(lia)) as C0.
  set (c0 := t0 / 2 ^ 51) in *. set (e0 := t0 mod 2 ^ 51) in *. clearbody c0 e0.
  stepf Hw.
  pose proof (Z.div_mod (t1 + c0) (2 ^ 51) ltac:(lia)) as Q1. pose proof (Z.mod_pos_bound (t1 + c0) (2 ^ 51) ltac:(lia)) as L1.
  pose proof (div_bound (t1 + c0) 4001 ltac:(lia)) as C1.
  set (c1 := (t1 + c0) / 2 ^ 51) in *. set (e1 := (t1 + c0) mod 2 ^ 51) in *. clearbody c1 e1.
  stepf Hw.
  pose proof (Z.div_mod (t2 + c1) (2 ^ 51) ltac:(lia)) as Q2. pose proof (Z.mod_pos_bound (t2 + c1) (2 ^ 51) ltac:(lia)) as L2.
  pose proof (div_bound (t2 + c1) 4001 ltac:(lia)) as C2.
  set (c2 := (t2 + c1) / 2 ^ 51) in *. set (e2 := (t2 + c1) mod 2 ^ 51) in *. clearbody c2 e2.
  stepf Hw.
  pose proof (Z.div_mod (t3 + c2) (2 ^ 51) ltac:(lia)) as Q3. pose proof (Z.mod_pos_bound (t3 + c2) (2 ^ 51) ltac:(lia)) as L3.
  pose proof (div_bound (t3 + c2) 4001 ltac:(lia)) as C3.
  set (c3 := (t3 + c2) / 2 ^ 51) in *. set (e3 := (t3 + c2) mod 2 ^ 51) in *. clearbody c3 e3.
  stepf Hw.
  pose proof (Z.div_mod (t4 + c3) (2 ^ 51) ltac:(lia)) as Q4. pose proof (Z.mod_pos_bound (t4 + c3) (2 ^ 51) ltac:(lia)) as L4.
  pose proof (div_bound (t4 + c3) 4001 ltac:(lia)) as C4.
  set (c4 := (t4 + c3) / 2 ^ 51) in *. set (e4 := (t4 + c3) mod 2 ^ 51) in *. clearbody c4 e4.
  do 2 (stepf Hw).
  eexists. split; [reflexivity|]. split; [unfold lm, U; lia|]. exists (- c4). cbn [val].
  assert (t0 = 2 ^ 51 * c0 + e0) as -> by lia. assert (t1 = 2 ^ 51 * c1 + e1 - c0) as -> by lia. assert (t2 = 2 ^ 51 * c2 + e2 - c1) as -> by lia.
  assert (t3 = 2 ^ 51 * c3 + e3 - c2) as -> by lia. assert (t4 = 2 ^ 51 * c4 + e4 - c3) as -> by lia.
  unfold p25519. powers. ring.
Qed.
Lemma ed_carries_of : forall k s, lm k s -> 0 <= k <= 20 ->
  exists f, (let '(s0, s1, s2, s3, s4) := s in ed_carries w s0 s1 s2 s3 s4) = Ok f /\ (lm 1 f /\ val f == val s).
Proof.
  intros k [[[[a0 a1] a2] a3] a4] A Hk. unfold lm, U in A. destruct (ed_carries_ok a0 a1 a2 a3 a4) as (f & E & L & V); [lia..|].
  exists f. split; [exact E|]. split; [exact L|exact V].
Qed.
Lemma ed_add_reduce_ok : forall i j a b, lm i a -> lm j b -> 0 <= i -> 0 <= j -> i + j <= 16 ->
  exists c, ed_add_reduce w a b = Ok c /\ (lm 1 c /\ val c == val a + val b).
Proof.
  intros i j a b A B Hi Hj Hk. unfold ed_add_reduce. destruct (ed_add_ok i j a b A B Hi Hj Hk) as (s & -> & L & V). cbn [obind].
  destruct (ed_carries_of (i + j) s L ltac:(lia)) as (f & E & Lf & Vf). exists f. split; [exact E|]. split; [exact Lf|]. rewrite Vf, V. reflexivity.
Qed.
Lemma ed_sub_reduce_ok : forall i a b, lm i a -> lm 3 b -> 0 <= i <= 12 ->
  exists c, ed_sub_reduce w a b = Ok c /\ (lm 1 c /\ val c == val a - val b).
Proof.
  intros i a b A B Hi. unfold ed_sub_reduce. destruct (ed_sub_from4_ok i a b A B Hi) as (s & -> & L & V). cbn [obind].
  destruct (ed_carries_of (i + 4) s L ltac:(lia)) as (f & E & Lf & Vf). exists f. split; [exact E|]. split; [exact Lf|]. rewrite Vf, V. reflexivity.
Qed.
Lemma ed_neg_ok : forall a, lm 1 a -> exists c, ed_neg w a = Ok c /\ (lm 1 c /\ val c == - val a).
Proof.
  intros a A. unfold ed_neg. destruct (ed_sub_ok 0 (0, 0, 0, 0, 0) a) as (s & E0 & L & V); [unfold lm, U; lia|exact A|lia|].
  unfold ed_sub in E0. rewrite E0. cbn [obind].
  destruct (ed_carries_of _ s L ltac:(lia)) as (f & E & Lf & Vf). exists f. split; [exact E|]. split; [exact Lf|]. rewrite Vf, V. reflexivity.
Qed.

Lemma ed_carry_ok : forall t0 t1 t2 t3 t4,
  0 <= t0 <= 3000 * 2 ^ 102 -> 0 <= t1 <= 3000 * 2 ^ 102 -> 0 <= t2 <= 3000 * 2 ^ 102 -> 0 <= t3 <= 3000 * 2 ^ 102 -> 0 <= t4 <= 190 * 2 ^ 102 ->
  exists f, ed_carry w t0 t1 t2 t3 t4 = Ok f /\ (lm 1 f /\ val f == t0 + t1 * 2 ^ 51 + t2 * 2 ^ 102 + t3 * 2 ^ 153 + t4 * 2 ^ 204).
Proof.
  intros t0 t1 t2 t3 t4 H0 H1 H2 H3 H4. unfold ed_carry.
  rewrite ?land_mask51, ?low51_mod; rewrite ?Z.shiftr_div_pow2 by lia.
  pose proof (Z.div_mod t0 (2 ^ 51) ltac:(lia)) as Q0. pose proof (Z.mod_pos_bound t0 (2 ^ 51) ltac:(lia)) as L0.
  pose proof (div_bound t0 (3000 * 2 ^ 51) ltac:(lia)) as C0.
  set (c0 := t0 / 2 ^ 51) in *. set (e0 := t0 mod 2 ^ 51) in *. clearbody c0 e0.
  do 2 (stepf Hw).
  pose proof (Z.div_mod (t1 + c0) (2 ^ 51) ltac:(lia)) as Q1. pose proof (Z.mod_pos_bound (t1 + c0) (2 ^ 51) ltac:(lia)) as L1.
  pose proof (div_bound (t1 + c0) (3001 * 2 ^ 51) ltac:(lia)) as C1.
  set (c1 := (t1 + c0) / 2 ^ 51) in *. set (e1 := (t1 + c0) mod 2 ^ 51) in *. clearbody c1 e1.
  do 2 (stepf Hw).
  pose proof (Z.div_mod (t2 + c1) (2 ^ 51) ltac:(lia)) as Q2. pose proof (Z.mod_pos_bound (t2 + c1) (2 ^ 51) ltac:(lia)) as L2.
  pose proof (div_bound (t2 + c1) (3001 * 2 ^ 51) ltac:(lia)) as C2.
  set (c2 := (t2 + c1) / 2 ^ 51) in *. set (e2 := (t2 + c1) mod 2 ^ 51) in *. clearbody c2 e2.
  do 2 (stepf Hw).
  pose proof (Z.div_mod (t3 + c2) (2 ^ 51) ltac:(lia)) as Q3. pose proof (Z.mod_pos_bound (t3 + c2) (2 ^ 51) ltac:(lia)) as L3.
  pose proof (div_bound (t3 + c2) (3001 * 2 ^ 51) ltac:(lia)) as C3.
  set (c3 := (t3 + c2) / 2 ^ 51) in *. set (e3 := (t3 + c2) mod 2 ^ 51) in *. clearbody c3 e3.
  do 2 (stepf Hw).
  pose proof (Z.div_mod (t4 + c3) (2 ^ 51) ltac:(lia)) as Q4. pose proof (Z.mod_pos_bound (t4 + c3) (2 ^ 51) ltac:(lia)) as L4.
  pose proof (div_bound (t4 + c3) (191 * 2 ^ 51) ltac:(lia)) as C4.
  set (c4 := (t4 + c3) / 2 ^ 51) in *. set (e4 := (t4 + c3) mod 2 ^ 51) in *. clearbody c4 e4.
  do 3 (stepf Hw).
  pose proof (Z.div_mod (e0 + c4 * 19) (2 ^ 51) ltac:(lia)) as Q5. pose proof (Z.mod_pos_bound (e0 + c4 * 19) (2 ^ 51) ltac:(lia)) as L5.
  pose proof (div_bound (e0 + c4 * 19) 3630 ltac:(lia)) as C5.
  set (c5 := (e0 + c4 * 19) / 2 ^ 51) in *. set (e5 := (e0 + c4 * 19) mod 2 ^ 51) in *. clearbody c5 e5.
  stepf Hw.
  eexists. split; [reflexivity|]. split; [unfold lm, U; lia|]. exists (- c4). cbn [val].
  assert (t0 = 2 ^ 51 * c0 + e0) as -> by lia. assert (t1 = 2 ^ 51 * c1 + e1 - c0) as -> by lia. assert (t2 = 2 ^ 51 * c2 + e2 - c1) as -> by lia.
  assert (t3 = 2 ^ 51 * c3 + e3 - c2) as -> by lia. assert (t4 = 2 ^ 51 * c4 + e4 - c3) as -> by lia.
  assert (e0 = 2 ^ 51 * c5 + e5 - c4 * 19) as -> by lia.
  unfold p25519. powers. ring.
Qed.

Lemma shl13_ok : forall t k, 0 <= t <= k * 2 ^ 51 -> k < 2 ^ 64 -> shl13 w t = Ok (t / 2 ^ 51).
Proof.
  intros t k H Hk. unfold shl13. rewrite (Hw 128) by lia. cbn [obind]. rewrite Z.shiftr_div_pow2 by lia.
  change (2 ^ 64) with (2 ^ 51 * 2 ^ 13). rewrite Z.div_mul_cancel_r by lia. pose proof (div_bound t k H). apply Hw. lia.
Qed.
Lemma ed_carry_wide_ok : forall t0 t1 t2 t3 t4,
  0 <= t0 <= 3000 * 2 ^ 102 -> 0 <= t1 <= 3000 * 2 ^ 102 -> 0 <= t2 <= 3000 * 2 ^ 102 -> 0 <= t3 <= 3000 * 2 ^ 102 -> 0 <= t4 <= 190 * 2 ^ 102 ->
  exists f, ed_carry_wide w t0 t1 t2 t3 t4 = Ok f /\ (lm 1 f /\ val f == t0 + t1 * 2 ^ 51 + t2 * 2 ^ 102 + t3 * 2 ^ 153 + t4 * 2 ^ 204).
Proof.
  intros t0 t1 t2 t3 t4 H0 H1 H2 H3 H4. unfold ed_carry_wide.
  rewrite (shl13_ok t0 (3000 * 2 ^ 51)), (shl13_ok t1 (3000 * 2 ^ 51)), (shl13_ok t2 (3000 * 2 ^ 51)), (shl13_ok t3 (3000 * 2 ^ 51)), (shl13_ok t4 (190 * 2 ^ 51)) by lia.
  cbn [obind]. rewrite ?low51_mod.
  pose proof (Z.div_mod t0 (2 ^ 51) ltac:(lia)) as Q0. pose proof (Z.mod_pos_bound t0 (2 ^ 51) ltac:(lia)) as L0.
  pose proof (div_bound t0 (3000 * 2 ^ 51) ltac:(lia)) as C0.
  set (c0 := t0 / 2 ^ 51) in *. set (e0 := t0 mod 2 ^ 51) in *. clearbody c0 e0.
  pose proof (Z.div_mod t1 (2 ^ 51) ltac:(lia)) as Q1. pose proof (Z.mod_pos_bound t1 (2 ^ 51) ltac:(lia)) as L1.
  pose proof (div_bound t1 (3000 * 2 ^ 51) ltac:(lia)) as C1.
  set (c1 := t1 / 2 ^ 51) in *. set (e1 := t1 mod 2 ^ 51) in *. clearbody c1 e1.
  pose proof (Z.div_mod t2 (2 ^ 51) ltac:(lia)) as Q2. pose proof (Z.mod_pos_bound t2 (2 ^ 51) ltac:(lia)) as L2.
  pose proof (div_bound t2 (3000 * 2 ^ 51) ltac:(lia)) as C2.
  set (c2 := t2 / 2 ^ 51) in *. set (e2 := t2 mod 2 ^ 51) in *. clearbody c2 e2.
  pose proof (Z.div_mod t3 (2 ^ 51) ltac:(lia)) as Q3. pose proof (Z.mod_pos_bound t3 (2 ^ 51) ltac:(lia)) as L3.
  pose proof (div_bound t3 (3000 * 2 ^ 51) ltac:(lia)) as C3.
  set (c3 := t3 / 2 ^ 51) in *. set (e3 := t3 mod 2 ^ 51) in *. clearbody c3 e3.
  pose proof (Z.div_mod t4 (2 ^ 51) ltac:(lia)) as Q4. pose proof (Z.mod_pos_bound t4 (2 ^ 51) ltac:(lia)) as L4.
  pose proof (div_bound t4 (190 * 2 ^ 51) ltac:(lia)) as C4.
  set (c4 := t4 / 2 ^ 51) in *. set (e4 := t4 mod 2 ^ 51) in *. clearbody c4 e4.
  clear H0 H1 H2 H3 H4.
  repeat (rewrite (Hw 64) by lia; cbn [obind]).
  destruct (ed_carries_ok (e0 + c4 * 19) (e1 + c0) (e2 + c1) (e3 + c2) (e4 + c3)) as (f & E & L & V); [lia..|].
  exists f. split; [exact E|]. split; [exact L|]. rewrite V. exists (- c4). rewrite Q0, Q1, Q2, Q3, Q4. unfold p25519. powers. ring.
Qed.

(** ** Products *)
Ltac sums := repeat match goal with
  | |- bnd (add w _ _) _ _ => eapply (bnd_add w Hw)
  | |- bnd (mul w _ _) _ _ => eapply (bnd_mul w Hw)
  | |- bnd (w 64 _) _ _ => eapply (bnd_times w Hw)
  | |- bnd (Ok _) _ _ => eapply bnd_ok
  | |- 0 <= _ <= _ => eassumption
  end; try (exact eq_refl); try discriminate.
Ltac next H := eapply bnd_step; [sums|intros H].
Ltac carried lem := match goal with |- exists h, ?g ?t0 ?t1 ?t2 ?t3 ?t4 = Ok h /\ _ =>
  let f := fresh "f" in let E := fresh "E" in let L := fresh "L" in let V := fresh "V" in
  destruct (lem t0 t1 t2 t3 t4) as (f & E & L & V);
  [eapply le_upto; [eassumption|discriminate]|eapply le_upto; [eassumption|discriminate]|eapply le_upto; [eassumption|discriminate]
  |eapply le_upto; [eassumption|discriminate]|eapply le_upto; [eassumption|discriminate]|];
  exists f; split; [exact E|]; split; [exact L|]; rewrite V; clear end.
Lemma ed_mul_ok : forall a b, lm 6 a -> lm 6 b -> exists c, ed_mul w a b = Ok c /\ (lm 1 c /\ val c == val a * val b).
Proof.
  intros [[[[s0 s1] s2] s3] s4] [[[[r0 r1] r2] r3] r4] (S0 & S1 & S2 & S3 & S4) (R0 & R1 & R2 & R3 & R4).
  cbn [ed_mul].
  next T0. next T1. next T2. next T3. next T4. next R1'. next R2'. next R3'. next R4'.
  next T0'. next T1'. next T2'. next T3'. carried ed_carry_ok.
  exists (- (r4 * s1 + r1 * s4 + r2 * s3 + r3 * s2 + (r4 * s2 + r2 * s4 + r3 * s3) * 2 ^ 51 + (r4 * s3 + r3 * s4) * 2 ^ 102 + r4 * s4 * 2 ^ 153)).
  unfold val, p25519. powers. ring.
Qed.
Lemma ed_square_ok : forall a, lm 6 a -> exists c, ed_square w a = Ok c /\ (lm 1 c /\ val c == val a * val a).
Proof.
  intros [[[[r0 r1] r2] r3] r4] (R0 & R1 & R2 & R3 & R4). unfold ed_square, ed_square_sums.
  next D0. next D1. next D2. next D2'. next D419. next D4. next T0. next R319. next T1. next T2. next T3. next T4. carried ed_carry_ok.
  exists (- (2 * r4 * r1 + 2 * r2 * r3 + (2 * r4 * r2 + r3 * r3) * 2 ^ 51 + (2 * r4 * r3) * 2 ^ 102 + r4 * r4 * 2 ^ 153)).
  unfold val, p25519. powers. ring.
Qed.
Lemma ed_square_wide_ok : forall a, lm 6 a -> exists c, ed_square_sums w a (ed_carry_wide w) = Ok c /\ (lm 1 c /\ val c == val a * val a).
Proof.
  intros [[[[r0 r1] r2] r3] r4] (R0 & R1 & R2 & R3 & R4). unfold ed_square_sums.
  next D0. next D1. next D2. next D2'. next D419. next D4. next T0. next R319. next T1. next T2. next T3. next T4. carried ed_carry_wide_ok.
  exists (- (2 * r4 * r1 + 2 * r2 * r3 + (2 * r4 * r2 + r3 * r3) * 2 ^ 51 + (2 * r4 * r3) * 2 ^ 102 + r4 * r4 * 2 ^ 153)).
  unfold val, p25519. powers. ring.
Qed.
Lemma lm16 : forall f, lm 1 f -> lm 6 f.
Proof. intros f H. apply (lm_mono 1); [exact H|lia]. Qed.
Lemma ed_square_times_ok : forall n a, lm 6 a -> exists c, ed_square_times w a (S n) = Ok c /\ (lm 1 c /\ val c == val a ^ (2 ^ Z.of_nat (S n))).
Proof.
  induction n as [|n IH]; intros a A.
  - destruct (ed_square_wide_ok a A) as (c & E & L & V). exists c. cbn [ed_square_times]. rewrite E. split; [reflexivity|]. split; [exact L|].
    rewrite V. change (2 ^ Z.of_nat 1) with 2. rewrite Z.pow_2_r. reflexivity.
  - destruct (ed_square_wide_ok a A) as (c & E & L & V). destruct (IH c (lm16 _ L)) as (d & E2 & L2 & V2).
    exists d. cbn [ed_square_times] in *. rewrite E. cbn [obind]. split; [exact E2|]. split; [exact L2|]. rewrite V2.
    rewrite (eqp_pow _ _ _ V). rewrite <- Z.pow_2_r. rewrite <- Z.pow_mul_r by lia.
    replace (2 * 2 ^ Z.of_nat (S n)) with (2 ^ Z.of_nat (S (S n))); [reflexivity|].
    rewrite (Nat2Z.inj_succ (S n)), Z.pow_succ_r by lia. reflexivity.
Qed.

(** ** Powers *)
Definition epow (z : felem) (n : Z) (f : felem) : Prop := lm 6 f /\ val f == val z ^ n.
Lemma e_square : forall z m f n (k : felem -> outcome felem) Q, epow z m f -> 0 <= m ->
  (forall g, epow z (2 ^ Z.of_nat (S n) * m) g -> exists h, k g = Ok h /\ Q h) ->
  exists h, obind (ed_square_times w f (S n)) k = Ok h /\ Q h.
Proof.
  intros z m f n k Q (L & V) Hm H. destruct (ed_square_times_ok n f L) as (c & -> & Lc & Vc). cbn [obind]. apply H.
  split; [now apply lm16|]. rewrite Vc, (eqp_pow _ _ _ V). rewrite <- Z.pow_mul_r by lia. rewrite Z.mul_comm. reflexivity.
Qed.
Lemma epow_mul : forall z m n f g, epow z m f -> epow z n g -> 0 <= m -> 0 <= n ->
  exists h, ed_mul w f g = Ok h /\ (lm 1 h /\ epow z (m + n) h).
Proof.
  intros z m n f g (L & V) (L' & V') Hm Hn. destruct (ed_mul_ok f g L L') as (c & -> & Lc & Vc). exists c.
  split; [reflexivity|]. split; [exact Lc|]. split; [now apply lm16|]. rewrite Vc, V, V', Z.pow_add_r by lia. reflexivity.
Qed.
Lemma e_mul : forall z m n f g (k : felem -> outcome felem) Q, epow z m f -> epow z n g -> 0 <= m -> 0 <= n ->
  (forall h, epow z (m + n) h -> exists r, k h = Ok r /\ Q r) ->
  exists r, obind (ed_mul w f g) k = Ok r /\ Q r.
Proof. intros z m n f g k Q F G Hm Hn H. destruct (epow_mul z m n f g F G Hm Hn) as (h & -> & _ & P). apply H. exact P. Qed.
Lemma pow250_ok : forall z b, epow z (2 ^ 5 - 1) b -> exists c, ed_pow_two5mtwo0_two250mtwo0 w b = Ok c /\ epow z (2 ^ 250 - 1) c.
Proof.
  intros z b B. unfold ed_pow_two5mtwo0_two250mtwo0.
  eapply (e_square z); [exact B|discriminate|intros t0 T0].
  eapply (e_mul z); [exact T0|exact B|discriminate|discriminate|intros b1 B1].
  eapply (e_square z); [exact B1|discriminate|intros t1 T1].
  eapply (e_mul z); [exact T1|exact B1|discriminate|discriminate|intros c1 C1].
  eapply (e_square z); [exact C1|discriminate|intros t2 T2].
  eapply (e_mul z); [exact T2|exact C1|discriminate|discriminate|intros t3 T3].
  eapply (e_square z); [exact T3|discriminate|intros t4 T4].
  eapply (e_mul z); [exact T4|exact B1|discriminate|discriminate|intros b2 B2].
  eapply (e_square z); [exact B2|discriminate|intros t5 T5].
  eapply (e_mul z); [exact T5|exact B2|discriminate|discriminate|intros c2 C2].
  eapply (e_square z); [exact C2|discriminate|intros t6 T6].
  eapply (e_mul z); [exact T6|exact C2|discriminate|discriminate|intros t7 T7].
  eapply (e_square z); [exact T7|discriminate|intros t8 T8].
  destruct (epow_mul z _ _ t8 b2 T8 B2 ltac:(discriminate) ltac:(discriminate)) as (h & E & Lh & P).
  exists h. split; [exact E|]. exact P.
Qed.
Lemma ed_recip_ok : forall z, lm 6 z -> exists c, ed_recip w z = Ok c /\ (lm 1 c /\ val c == val z ^ (p25519 - 2)).
Proof.
  intros z L. assert (P : epow z 1 z) by (split; [exact L|rewrite Z.pow_1_r; reflexivity]).
  unfold ed_recip.
  eapply (e_square z); [exact P|discriminate|intros a A].
  eapply (e_square z); [exact A|discriminate|intros t0 T0].
  eapply (e_mul z); [exact T0|exact P|discriminate|discriminate|intros b B].
  eapply (e_mul z); [exact B|exact A|discriminate|discriminate|intros a' A'].
  eapply (e_square z); [exact A'|discriminate|intros t1 T1].
  eapply (e_mul z); [exact T1|exact B|discriminate|discriminate|intros b1 B1].
  destruct (pow250_ok z b1 B1) as (b2 & -> & B2). cbn [obind].
  eapply (e_square z); [exact B2|discriminate|intros b3 B3].
  destruct (epow_mul z _ _ b3 a' B3 A' ltac:(discriminate) ltac:(discriminate)) as (h & E & Lh & (_ & V)).
  exists h. split; [exact E|]. split; [exact Lh|]. rewrite V. reflexivity.
Qed.
Lemma ed_pow_two252m3_ok : forall z, lm 6 z -> exists c, ed_pow_two252m3 w z = Ok c /\ (lm 1 c /\ val c == val z ^ (2 ^ 252 - 3)).
Proof.
  intros z L. assert (P : epow z 1 z) by (split; [exact L|rewrite Z.pow_1_r; reflexivity]).
  unfold ed_pow_two252m3.
  eapply (e_square z); [exact P|discriminate|intros a A].
  eapply (e_square z); [exact A|discriminate|intros t0 T0].
  eapply (e_mul z); [exact T0|exact P|discriminate|discriminate|intros b B].
  eapply (e_mul z); [exact B|exact A|discriminate|discriminate|intros a' A'].
  eapply (e_square z); [exact A'|discriminate|intros t1 T1].
  eapply (e_mul z); [exact T1|exact B|discriminate|discriminate|intros b1 B1].
  destruct (pow250_ok z b1 B1) as (b2 & -> & B2). cbn [obind].
  eapply (e_square z); [exact B2|discriminate|intros b3 B3].
  destruct (epow_mul z _ _ b3 z B3 P ltac:(discriminate) ltac:(discriminate)) as (h & E & Lh & (_ & V)).
  exists h. split; [exact E|]. split; [exact Lh|]. rewrite V. reflexivity.
Qed.

(** ** Words to limbs *)
Definition word (x : Z) : Prop := 0 <= x < 2 ^ 64.
Lemma mid_limb : forall a b s n, word a -> word b -> 0 <= s < 51 -> n = 51 - s -> 
  0 <= a / 2 ^ (64 - s) -> a / 2 ^ (64 - s) < 2 ^ s ->
  Z.land (Z.lor (Z.shiftr a (64 - s)) (Z.shiftl b s mod 2 ^ 64)) mask51 = a / 2 ^ (64 - s) + (b mod 2 ^ n) * 2 ^ s.
Proof.
  intros a b s n Ha Hb Hs -> H0 H1. rewrite land_mask51, Z.shiftr_div_pow2, Z.shiftl_mul_pow2 by lia.
  set (q := a / 2 ^ (64 - s)) in *. clearbody q.
  assert (E : (b * 2 ^ s) mod 2 ^ 64 = (b mod 2 ^ (64 - s)) * 2 ^ s).
  { replace (2 ^ 64) with (2 ^ (64 - s) * 2 ^ s) by (rewrite <- Z.pow_add_r by lia; f_equal; lia). apply Z.mul_mod_distr_r; apply Z.pow_nonzero; lia. }
  rewrite E. rewrite <- Z.shiftl_mul_pow2 by lia. rewrite Z.lor_comm, lor_add by lia.
  replace (2 ^ 51) with (2 ^ s * 2 ^ (51 - s)) by (rewrite <- Z.pow_add_r by lia; f_equal; lia).
  assert (P0 : 2 ^ s <> 0) by (apply Z.pow_nonzero; lia). set (m := b mod 2 ^ (64 - s)).
  assert (E1 : (m * 2 ^ s + q) mod 2 ^ s = q) by (rewrite Z.add_comm, Z.mod_add by exact P0; apply Z.mod_small; lia).
  assert (E2 : (m * 2 ^ s + q) / 2 ^ s = m) by (rewrite Z.div_add_l by exact P0; rewrite Z.div_small by lia; lia).
  rewrite Z.rem_mul_r by (try exact P0; apply Z.pow_pos_nonneg; lia). rewrite E1, E2. unfold m.
  rewrite (Z.mul_comm _ (2 ^ s)). f_equal. f_equal. symmetry. apply Znumtheory.Zmod_div_mod; try (apply Z.pow_pos_nonneg; lia).
  exists (2 ^ 13). rewrite <- Z.pow_add_r by lia. f_equal. lia.
Qed.
Lemma ed_expand_words_ok : forall x0 x1 x2 x3, word x0 -> word x1 -> word x2 -> word x3 ->
  lm 1 (ed_expand_words x0 x1 x2 x3) /\ val (ed_expand_words x0 x1 x2 x3) = (x0 + x1 * 2 ^ 64 + x2 * 2 ^ 128 + x3 * 2 ^ 192) mod 2 ^ 255.
Proof.
  intros x0 x1 x2 x3 H0 H1 H2 H3. unfold ed_expand_words.
  assert (D : forall a k, word a -> 0 <= k <= 64 -> 0 <= a / 2 ^ (64 - k) < 2 ^ k).
  { intros a k Ha Hk. unfold word in Ha. split; [apply Z.div_pos; [lia|apply Z.pow_pos_nonneg; lia]|].
    apply Z.div_lt_upper_bound; [apply Z.pow_pos_nonneg; lia|]. rewrite <- Z.pow_add_r by lia. replace (64 - k + k) with 64 by lia. lia. }
  pose proof (D x0 13 H0 ltac:(lia)). pose proof (D x1 26 H1 ltac:(lia)). pose proof (D x2 39 H2 ltac:(lia)).
  pose proof (mid_limb x0 x1 13 38) as L1. pose proof (mid_limb x1 x2 26 25) as L2. pose proof (mid_limb x2 x3 39 12) as L3.
  change (64 - 13) with 51 in *. change (64 - 26) with 38 in *. change (64 - 39) with 25 in *.
  rewrite L1, L2, L3 by (assumption || lia). clear L1 L2 L3.
  rewrite !land_mask51, Z.shiftr_div_pow2 by lia.
  unfold word in *.
  pose proof (Z.div_mod x0 (2 ^ 51) ltac:(lia)) as Q0. pose proof (Z.mod_pos_bound x0 (2 ^ 51) ltac:(lia)) as M0.
  pose proof (Z.div_mod x1 (2 ^ 38) ltac:(lia)) as Q1. pose proof (Z.mod_pos_bound x1 (2 ^ 38) ltac:(lia)) as M1.
  pose proof (Z.div_mod x2 (2 ^ 25) ltac:(lia)) as Q2. pose proof (Z.mod_pos_bound x2 (2 ^ 25) ltac:(lia)) as M2.
  pose proof (Z.div_mod x3 (2 ^ 12) ltac:(lia)) as Q3. pose proof (Z.mod_pos_bound x3 (2 ^ 12) ltac:(lia)) as M3.
  pose proof (Z.div_mod (x3 / 2 ^ 12) (2 ^ 51) ltac:(lia)) as Q4. pose proof (Z.mod_pos_bound (x3 / 2 ^ 12) (2 ^ 51) ltac:(lia)) as M4.
  set (q0 := x0 / 2 ^ 51) in *. set (m0 := x0 mod 2 ^ 51) in *. set (q1 := x1 / 2 ^ 38) in *. set (m1 := x1 mod 2 ^ 38) in *.
  set (q2 := x2 / 2 ^ 25) in *. set (m2 := x2 mod 2 ^ 25) in *. set (q3 := x3 / 2 ^ 12) in *. set (m3 := x3 mod 2 ^ 12) in *.
  set (q4 := q3 / 2 ^ 51) in *. set (m4 := q3 mod 2 ^ 51) in *. clearbody q0 m0 q1 m1 q2 m2 q4 m4 q3 m3. clear D.
  split; [unfold lm, U; lia|]. unfold val. apply Z.mod_unique with (q := q4); [left; lia|]. lia.
Qed.
Lemma load_word : forall p off, bytes p -> 0 <= off -> off + 8 <= zlen p -> word (load_limb p off) /\ load_limb p off = mem_word p / 2 ^ (8 * off) mod 2 ^ 64.
Proof.
  intros p off Hb Ho Hl. pose proof (load_limb_val p off Hb Ho Hl) as E. split; [|exact E]. rewrite E. unfold word. apply Z.mod_pos_bound. lia.
Qed.
Lemma four_words : forall V, 0 <= V < 2 ^ 256 ->
  V mod 2 ^ 64 + (V / 2 ^ 64 mod 2 ^ 64) * 2 ^ 64 + (V / 2 ^ 128 mod 2 ^ 64) * 2 ^ 128 + (V / 2 ^ 192 mod 2 ^ 64) * 2 ^ 192 = V.
Proof.
  intros V H.
  assert (E : forall m, 0 <= m -> V mod (2 ^ m * 2 ^ 64) = V mod 2 ^ m + 2 ^ m * (V / 2 ^ m mod 2 ^ 64)).
  { intros m Hm. apply Z.rem_mul_r; [apply Z.pow_nonzero; lia|lia]. }
  pose proof (E 192 ltac:(lia)) as E3. pose proof (E 128 ltac:(lia)) as E2. pose proof (E 64 ltac:(lia)) as E1.
  change (2 ^ 192 * 2 ^ 64) with (2 ^ 256) in E3. change (2 ^ 128 * 2 ^ 64) with (2 ^ 192) in E2. change (2 ^ 64 * 2 ^ 64) with (2 ^ 128) in E1.
  rewrite (Z.mod_small V (2 ^ 256)) in E3 by lia. rewrite E3 at 5. rewrite E2, E1. ring.
Qed.
Lemma ed_expand_ok : forall p, bytes p -> zlen p = 32 -> lm 1 (ed_expand p) /\ val (ed_expand p) = decode_u p.
Proof.
  intros p Hb Hl. unfold ed_expand.
  destruct (load_word p 0 Hb) as [W0 E0]; [lia..|]. destruct (load_word p 8 Hb) as [W1 E1]; [lia..|].
  destruct (load_word p 16 Hb) as [W2 E2]; [lia..|]. destruct (load_word p 24 Hb) as [W3 E3]; [lia..|].
  destruct (ed_expand_words_ok _ _ _ _ W0 W1 W2 W3) as [L V]. split; [exact L|]. rewrite V, E0, E1, E2, E3. unfold decode_u. f_equal.
  change (8 * 0) with 0. change (8 * 8) with 64. change (8 * 16) with 128. change (8 * 24) with 192. rewrite Z.div_1_r.
  change (le_val p) with (mem_word p). apply four_words. pose proof (mem_word_range p Hb) as R. rewrite Hl in R. exact R.
Qed.

(** ** The smallest representative *)
Lemma contract_carry_ok : forall t0 t1 t2 t3 t4,
  0 <= t0 < 2 ^ 52 -> 0 <= t1 < 2 ^ 52 - 1 -> 0 <= t2 < 2 ^ 52 - 1 -> 0 <= t3 < 2 ^ 52 - 1 -> 0 <= t4 < 2 ^ 52 - 1 ->
  exists e0 e1 e2 e3 e4, ed_contract_carry w (t0, t1, t2, t3, t4) = Ok (e0, e1, e2, e3, e4) /\
    limb e0 /\ limb e1 /\ limb e2 /\ limb e3 /\ 0 <= e4 < 2 ^ 52 /\ val (e0, e1, e2, e3, e4) = val (t0, t1, t2, t3, t4).
Proof.
  intros t0 t1 t2 t3 t4 H0 H1 H2 H3 H4. cbn [ed_contract_carry].
  rewrite ?land_mask51, ?low51_mod; rewrite ?Z.shiftr_div_pow2 by lia.
  Ltac split_limb t c e Q L C :=
    pose proof (Z.div_mod t (2 ^ 51) ltac:(lia)) as Q; pose proof (Z.mod_pos_bound t (2 ^ 51) ltac:(lia)) as L;
    pose proof (carry_bound t ltac:(lia)) as C; set (c := t / 2 ^ 51) in *; set (e := t mod 2 ^ 51) in *; clearbody c e.
  split_limb t0 c0 e0 Q0 L0 C0.
  rewrite (Hw 64) by lia. cbn [obind]. rewrite ?land_mask51; rewrite ?Z.shiftr_div_pow2 by lia.
  split_limb (t1 + c0) c1 e1 Q1 L1 C1. rewrite (Hw 64) by lia. cbn [obind]. rewrite ?land_mask51; rewrite ?Z.shiftr_div_pow2 by lia.
  split_limb (t2 + c1) c2 e2 Q2 L2 C2. rewrite (Hw 64) by lia. cbn [obind]. rewrite ?land_mask51; rewrite ?Z.shiftr_div_pow2 by lia.
  split_limb (t3 + c2) c3 e3 Q3 L3 C3. rewrite (Hw 64) by lia. cbn [obind].
  exists e0, e1, e2, e3, (t4 + c3). split; [reflexivity|]. unfold limb. do 4 (split; [assumption|]). split; [lia|].
  unfold val. assert (t0 = 2 ^ 51 * c0 + e0) as -> by lia. assert (t1 = 2 ^ 51 * c1 + e1 - c0) as -> by lia. assert (t2 = 2 ^ 51 * c2 + e2 - c1) as -> by lia.
  assert (t3 = 2 ^ 51 * c3 + e3 - c2) as -> by lia. powers. ring.
Qed.
Lemma contract_full_ok : forall t0 t1 t2 t3 t4,
  0 <= t0 < 2 ^ 52 -> 0 <= t1 < 2 ^ 52 - 1 -> 0 <= t2 < 2 ^ 52 - 1 -> 0 <= t3 < 2 ^ 52 - 1 -> 0 <= t4 < 2 ^ 52 - 1 ->
  exists c e0 e1 e2 e3 e4, ed_contract_carry_full w (t0, t1, t2, t3, t4) = Ok (e0 + 19 * c, e1, e2, e3, e4) /\
    limb e0 /\ limb e1 /\ limb e2 /\ limb e3 /\ limb e4 /\ 0 <= c <= 1 /\
    val (e0, e1, e2, e3, e4) + c * 2 ^ 255 = val (t0, t1, t2, t3, t4).
Proof.
  intros t0 t1 t2 t3 t4 H0 H1 H2 H3 H4. unfold ed_contract_carry_full.
  destruct (contract_carry_ok t0 t1 t2 t3 t4 H0 H1 H2 H3 H4) as (e0 & e1 & e2 & e3 & u & -> & L0 & L1 & L2 & L3 & L4 & V). cbn [obind].
  rewrite ?land_mask51, ?low51_mod; rewrite ?Z.shiftr_div_pow2 by lia. unfold limb in *.
  split_limb u c e4 Q L C. rewrite (Hw 64) by lia. cbn [obind]. rewrite (Hw 64) by lia. cbn [obind].
  exists c, e0, e1, e2, e3, e4. split; [reflexivity|]. do 6 (split; [assumption|]). rewrite <- V. unfold val. rewrite Q. powers. ring.
Qed.
Lemma ed_contract_ok : forall f, lm 1 f -> ed_contract w f = Ok (le_bytes 32 (val f mod p25519)).
Proof.
  intros [[[[a0 a1] a2] a3] a4] A. unfold lm, U in A. destruct A as (A0 & A1 & A2 & A3 & A4). unfold ed_contract.
  destruct (contract_full_ok a0 a1 a2 a3 a4) as (c1 & b0 & b1 & b2 & b3 & b4 & -> & B0 & B1 & B2 & B3 & B4 & C1 & V1); [lia..|]. cbn [obind].
  unfold limb in B0, B1, B2, B3, B4.
  destruct (contract_full_ok (b0 + 19 * c1) b1 b2 b3 b4) as (c2 & d0 & d1 & d2 & d3 & d4 & -> & D0 & D1 & D2 & D3 & D4 & C2 & V2); [lia..|]. cbn [obind].
  unfold limb in D0, D1, D2, D3, D4.
  assert (D0' : d0 + 19 * c2 < 2 ^ 51) by (unfold val in V2; lia).
  rewrite (Hw 64) by lia. cbn [obind].
  destruct (contract_full_ok (d0 + 19 * c2 + 19) d1 d2 d3 d4) as (c3 & e0 & e1 & e2 & e3 & e4 & -> & E0 & E1 & E2 & E3 & E4 & C3 & V3); [lia..|]. cbn [obind].
  unfold limb in E0, E1, E2, E3, E4.
  assert (E0' : e0 + 19 * c3 < 2 ^ 51) by (unfold val in V3; lia).
  change (mask51 + 1) with (2 ^ 51).
  rewrite !(Hw 64) by lia. cbn [obind].
  destruct (contract_carry_ok (e0 + 19 * c3 + (2 ^ 51 - 19)) (e1 + (2 ^ 51 - 1)) (e2 + (2 ^ 51 - 1)) (e3 + (2 ^ 51 - 1)) (e4 + (2 ^ 51 - 1))) as (h0 & h1 & h2 & h3 & u & -> & L0 & L1 & L2 & L3 & L4' & V4); [lia..|]. cbn [obind].
  unfold limb in L0, L1, L2, L3.
  rewrite ?land_mask51; rewrite ?Z.shiftr_div_pow2 by lia. rewrite Z.div_1_r.
  split_limb u g4 h4 Q4 L4 K4.
  rewrite pack_ok by assumption. do 2 f_equal.
  assert (VH : val (h0, h1, h2, h3, h4) + g4 * 2 ^ 255 = val (e0, e1, e2, e3, e4) + 19 * c3 - 19 + 2 ^ 255).
  { unfold val in *. clear - V4 Q4. lia. }
  assert (VD : forall x0 x1 x2 x3 x4, 0 <= x0 < 2 ^ 51 -> 0 <= x1 < 2 ^ 51 -> 0 <= x2 < 2 ^ 51 -> 0 <= x3 < 2 ^ 51 -> 0 <= x4 < 2 ^ 51 -> 0 <= val (x0, x1, x2, x3, x4) < 2 ^ 255).
  { unfold val. clear. intros. lia. }
  pose proof (VD h0 h1 h2 h3 h4 L0 L1 L2 L3 L4) as RH. pose proof (VD b0 b1 b2 b3 b4 B0 B1 B2 B3 B4) as RB.
  pose proof (VD d0 d1 d2 d3 d4 D0 D1 D2 D3 D4) as RD. pose proof (VD e0 e1 e2 e3 e4 E0 E1 E2 E3 E4) as RE.
  assert (V2' : val (b0 + 19 * c1, b1, b2, b3, b4) = val (b0, b1, b2, b3, b4) + 19 * c1) by (unfold val; ring).
  assert (V3' : val (d0 + 19 * c2 + 19, d1, d2, d3, d4) = val (d0, d1, d2, d3, d4) + 19 * c2 + 19) by (unfold val; ring).
  rewrite V2' in V2. rewrite V3' in V3.
  assert (RD' : val (d0, d1, d2, d3, d4) + 19 * c2 < 2 ^ 255) by (unfold val; clear - D0' D1 D2 D3 D4; lia).
  set (va := val (a0, a1, a2, a3, a4)) in *. set (vb := val (b0, b1, b2, b3, b4)) in *. set (vd := val (d0, d1, d2, d3, d4)) in *.
  set (ve := val (e0, e1, e2, e3, e4)) in *. set (vh := val (h0, h1, h2, h3, h4)) in *. clearbody va vb vd ve vh.
  assert (g4 = 1) as -> by (clear - V1 V2 V3 VH RH RB RD RD' RE C1 C2 C3 K4; lia).
  apply Z.mod_unique with (q := c1 + c2 + c3); unfold p25519; [left|]; clear - V1 V2 V3 VH RH RB RD RD' RE C1 C2 C3; lia.
Qed.
End Exact.
