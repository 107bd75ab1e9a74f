(** Proofs about the Poly1305 code for 32-bit machines *)
From Verif Require Import Base MHash MSha2 MBlake2 SSha2 SBlake2 PSha2 PSha2b PBlake2 PChaCha MPoly1305 SPoly1305 PPoly1305 PPoly1305b MPoly32.
Require Import ZifyBool Lia.

Definition val5 (h : limbs5) : Z :=
  let '(h0, h1, h2, h3, h4) := h in h0 + h1 * 2 ^ 26 + h2 * 2 ^ 52 + h3 * 2 ^ 78 + h4 * 2 ^ 104.
Definition r5_ok (r : limbs5) : Prop :=
  let '(r0, r1, r2, r3, r4) := r in
  0 <= r0 < 2 ^ 26 /\ 0 <= r1 < 2 ^ 26 /\ 0 <= r2 < 2 ^ 26 /\ 0 <= r3 < 2 ^ 26 /\ 0 <= r4 < 2 ^ 20.
Definition h5_ok (h : limbs5) : Prop :=
  let '(h0, h1, h2, h3, h4) := h in
  0 <= h0 < 2 ^ 26 /\ 0 <= h1 < 2 ^ 26 + 2 ^ 6 /\ 0 <= h2 < 2 ^ 26 /\ 0 <= h3 < 2 ^ 26 /\ 0 <= h4 < 2 ^ 26.
Definition g5_ok (h : limbs5) : Prop :=
  let '(h0, h1, h2, h3, h4) := h in
  0 <= h0 < 2 ^ 26 /\ 0 <= h1 < 2 ^ 26 /\ 0 <= h2 < 2 ^ 26 /\ 0 <= h3 < 2 ^ 26 /\ 0 <= h4 < 2 ^ 26.

Lemma land_mask26 : forall x, Z.land x mask26 = x mod 2 ^ 26.
Proof. intros. change mask26 with (Z.ones 26). apply Z.land_ones. lia. Qed.

(** ** Reading four bytes at an offset *)
Lemma u8to32_ok : forall m off, bytes m -> 0 <= off -> off + 4 <= zlen m ->
  U8TO32 m off = mem_word (sub off 4 m) /\ 0 <= U8TO32 m off < 2 ^ 32.
Proof.
  intros m off Hb Ho Hl. unfold U8TO32. rewrite load_le32_val; [|now apply bytes_drop|rewrite zlen_drop; lia].
  split; [reflexivity|]. pose proof (mem_word_range (take 4 (drop off m)) ltac:(now apply bytes_take, bytes_drop)) as R.
  rewrite zlen_take, zlen_drop in R. replace (Z.max 0 (Z.min 4 _)) with 4 in R by lia. change (2 ^ 32) with (256 ^ 4). exact R.
Qed.
Lemma mem_word_cut : forall n l, bytes l -> 0 <= n <= zlen l ->
  mem_word (take n l) = mem_word l mod 256 ^ n /\ mem_word (drop n l) = mem_word l / 256 ^ n.
Proof.
  intros n l Hb Hn. pose proof (mem_word_range (take n l) ltac:(now apply bytes_take)) as R.
  assert (zlen (take n l) = n) as L by (rewrite zlen_take; lia). rewrite L in R.
  assert (mem_word l = mem_word (take n l) + mem_word (drop n l) * 256 ^ n) as E.
  { rewrite <- (take_drop Z n l) at 1. rewrite mem_word_app, L. lia. }
  assert (0 < 256 ^ n) by (apply Z.pow_pos_nonneg; lia).
  rewrite E. rewrite Z_mod_plus_full, Z.mod_small, Z.div_add, Z.div_small by lia. split; reflexivity.
Qed.
Lemma u8to32_val : forall m off, bytes m -> 0 <= off <= 12 -> 16 <= zlen m ->
  U8TO32 m off = (mem_word (take 16 m) / 256 ^ off) mod 2 ^ 32.
Proof.
  intros m off Hb Ho Hl. destruct (u8to32_ok m off Hb ltac:(lia) ltac:(lia)) as [-> _].
  assert (sub off 4 m = take 4 (drop off (take 16 m))) as ->.
  { unfold sub. rewrite (take_drop_comm Z 4 off m), (take_drop_comm Z 4 off (take 16 m)) by lia.
    rewrite take_take. do 2 f_equal. lia. }
  assert (zlen (take 16 m) = 16) as L by (rewrite zlen_take; lia).
  destruct (mem_word_cut off (take 16 m) ltac:(now apply bytes_take) ltac:(lia)) as [_ <-].
  apply mem_word_cut; [now apply bytes_drop, bytes_take|rewrite zlen_drop; lia].
Qed.

Lemma cut_bits : forall x a b, 0 <= a -> 0 <= b -> b + 26 <= 32 ->
  Z.shiftr ((x / 2 ^ a) mod 2 ^ 32) b mod 2 ^ 26 = (x / 2 ^ (a + b)) mod 2 ^ 26.
Proof.
  intros x a b Ha Hb Hab. rewrite <- !Z.shiftr_div_pow2 by lia.
  apply Z.bits_inj'. intros n Hn. destruct (Z_lt_dec n 26) as [L|L].
  - rewrite !Z.mod_pow2_bits_low by lia. rewrite Z.shiftr_spec by lia. rewrite Z.mod_pow2_bits_low by lia.
    rewrite !Z.shiftr_spec by lia. f_equal. lia.
  - rewrite !Z.mod_pow2_bits_high by lia. reflexivity.
Qed.
(** the limbs of sixteen bytes, as the code reads them *)
Lemma read5_ok : forall m, bytes m -> 16 <= zlen m ->
  exists m0 m1 m2 m3 m4,
    U8TO32 m 0 mod 2 ^ 26 = m0 /\ Z.shiftr (U8TO32 m 3) 2 mod 2 ^ 26 = m1 /\
    Z.shiftr (U8TO32 m 6) 4 mod 2 ^ 26 = m2 /\ Z.shiftr (U8TO32 m 9) 6 mod 2 ^ 26 = m3 /\
    Z.shiftr (U8TO32 m 12) 8 = m4 /\
    0 <= m0 < 2 ^ 26 /\ 0 <= m1 < 2 ^ 26 /\ 0 <= m2 < 2 ^ 26 /\ 0 <= m3 < 2 ^ 26 /\ 0 <= m4 < 2 ^ 24 /\
    val5 (m0, m1, m2, m3, m4) = mem_word (take 16 m).
Proof.
  intros m Hb Hl. rewrite !u8to32_val by (auto; lia).
  pose proof (mem_word_range (take 16 m) ltac:(now apply bytes_take)) as R.
  rewrite zlen_take in R. replace (Z.max 0 (Z.min 16 (zlen m))) with 16 in R by lia.
  change (256 ^ 16) with (2 ^ 128) in R. revert R. generalize (mem_word (take 16 m)). intros x R. clear Hb Hl m.
  change (256 ^ 0) with (2 ^ 0). change (256 ^ 3) with (2 ^ 24). change (256 ^ 6) with (2 ^ 48).
  change (256 ^ 9) with (2 ^ 72). change (256 ^ 12) with (2 ^ 96).
  rewrite <- (Z.shiftr_0_r ((x / 2 ^ 0) mod 2 ^ 32)). rewrite !cut_bits by lia.
  change (2 ^ (0 + 0)) with 1. rewrite Z.div_1_r.
  change (24 + 2) with 26. change (48 + 4) with 52. change (72 + 6) with 78.
  assert (Z.shiftr ((x / 2 ^ 96) mod 2 ^ 32) 8 = x / 2 ^ 104) as ->.
  { rewrite Z.mod_small by (split; [apply Z.div_pos; lia|apply Z.div_lt_upper_bound; lia]).
    rewrite Z.shiftr_div_pow2, Z.div_div by lia. reflexivity. }
  do 5 eexists. do 5 (split; [reflexivity|]).
  do 4 (split; [apply Z.mod_pos_bound; lia|]).
  split; [split; [apply Z.div_pos; lia|apply Z.div_lt_upper_bound; lia]|].
  unfold val5.
  change (2 ^ 52) with (2 ^ 26 * 2 ^ 26). change (2 ^ 78) with (2 ^ 26 * 2 ^ 26 * 2 ^ 26).
  change (2 ^ 104) with (2 ^ 26 * 2 ^ 26 * 2 ^ 26 * 2 ^ 26). rewrite <- !Z.div_div by lia.
  pose proof (Z.div_mod x (2 ^ 26) ltac:(lia)) as Q0. set (x1 := x / 2 ^ 26) in *.
  pose proof (Z.div_mod x1 (2 ^ 26) ltac:(lia)) as Q1. set (x2 := x1 / 2 ^ 26) in *.
  pose proof (Z.div_mod x2 (2 ^ 26) ltac:(lia)) as Q2. set (x3 := x2 / 2 ^ 26) in *.
  pose proof (Z.div_mod x3 (2 ^ 26) ltac:(lia)) as Q3. set (x4 := x3 / 2 ^ 26) in *.
  generalize dependent (x3 mod 2 ^ 26). generalize dependent (x2 mod 2 ^ 26).
  generalize dependent (x1 mod 2 ^ 26). generalize dependent (x mod 2 ^ 26). clearbody x1 x2 x3 x4. intros. lia.
Qed.

Section Width.
Variable lw : Z.
Hypothesis Hlw : lw = 32 \/ lw = 64.
Variable w : Z -> Z -> outcome Z.
Hypothesis Hw : exact_in_range w.

Lemma wide : 2 ^ 32 <= 2 ^ lw.
Proof. destruct Hlw as [->| ->]; lia. Qed.
Lemma low26 : forall d, (d mod 2 ^ lw) mod 2 ^ 26 = d mod 2 ^ 26.
Proof.
  intros d. symmetry. apply Znumtheory.Zmod_div_mod; [lia|destruct Hlw as [->| ->]; lia|].
  exists (2 ^ (lw - 26)). destruct Hlw as [->| ->]; reflexivity.
Qed.
Lemma lstep : forall A x (f : Z -> outcome A) (Q : A -> Prop),
  0 <= x < 2 ^ 32 -> (exists h, f x = Ok h /\ Q h) -> exists h, obind (w lw x) f = Ok h /\ Q h.
Proof. intros A x f Q Hx H. pose proof wide. apply (step_ok w Hw); [lia|exact H]. Qed.
Ltac norm := cbv beta; rewrite ?land_mask26, ?low26; rewrite ?Z.shiftr_div_pow2 by lia.
Ltac step32 := apply lstep; [lia|]; norm.
Ltac step64 := apply (step_ok w Hw); [lia|]; norm.

Lemma dot5_ok : forall h0 h1 h2 h3 h4 r0 r1 r2 r3 r4,
  0 <= h0 <= 2 ^ 27 -> 0 <= h1 <= 2 ^ 27 + 2 ^ 6 -> 0 <= h2 <= 2 ^ 27 -> 0 <= h3 <= 2 ^ 27 -> 0 <= h4 <= 2 ^ 27 ->
  0 <= r0 <= 2 ^ 29 -> 0 <= r1 <= 2 ^ 29 -> 0 <= r2 <= 2 ^ 29 -> 0 <= r3 <= 2 ^ 29 -> 0 <= r4 <= 2 ^ 29 ->
  dot5 w (h0, h1, h2, h3, h4) r0 r1 r2 r3 r4 = Ok (h0 * r0 + h1 * r1 + h2 * r2 + h3 * r3 + h4 * r4).
Proof.
  intros h0 h1 h2 h3 h4 r0 r1 r2 r3 r4 H0 H1 H2 H3 H4 R0 R1 R2 R3 R4. unfold dot5, sum5.
  pose proof (mul_range h0 r0 _ _ H0 R0). pose proof (mul_range h1 r1 _ _ H1 R1). pose proof (mul_range h2 r2 _ _ H2 R2).
  pose proof (mul_range h3 r3 _ _ H3 R3). pose proof (mul_range h4 r4 _ _ H4 R4).
  generalize dependent (h0 * r0). generalize dependent (h1 * r1). generalize dependent (h2 * r2).
  generalize dependent (h3 * r3). generalize dependent (h4 * r4). clear H0 H1 H2 H3 H4 R0 R1 R2 R3 R4. intros.
  do 8 (rewrite Hw by lia; cbn [obind]). rewrite Hw by lia. reflexivity.
Qed.

Definition s5 (r : limbs5) : Z * Z * Z * Z := let '(_, r1, r2, r3, r4) := r in (r1 * 5, r2 * 5, r3 * 5, r4 * 5).
Lemma block32_ok : forall hibit r h m,
  hibit = 0 \/ hibit = 2 ^ 24 -> r5_ok r -> h5_ok h -> bytes m -> 16 <= zlen m ->
  exists h', poly32_block lw w hibit r (s5 r) h m = Ok h' /\ (h5_ok h' /\
    val5 h' mod P1305 = ((val5 h + mem_word (take 16 m) + hibit * 2 ^ 104) * val5 r) mod P1305).
Proof.
  intros hibit [[[[r0 r1] r2] r3] r4] [[[[h0 h1] h2] h3] h4] m Hhi (R0 & R1 & R2 & R3 & R4) (H0 & H1 & H2 & H3 & H4) Hb Hl.
  unfold poly32_block, s5. cbv zeta.
  destruct (read5_ok m Hb Hl) as (m0 & m1 & m2 & m3 & m4 & E0 & E1 & E2 & E3 & E4 & M0 & M1 & M2 & M3 & M4 & <-).
  rewrite !land_mask26, E0, E1, E2, E3, E4. clear E0 E1 E2 E3 E4 Hb Hl m.
  assert (Z.lor m4 hibit = m4 + hibit) as ->.
  { destruct Hhi as [->| ->]; [rewrite Z.lor_0_r; lia|].
    change (2 ^ 24) with (Z.shiftl 1 24) at 1. rewrite Z.lor_comm, lor_add by lia. lia. }
  assert (0 <= hibit <= 2 ^ 24) as Hh by (destruct Hhi; lia). clear Hhi.
  do 5 step32.
  replace (val5 (h0, h1, h2, h3, h4) + val5 (m0, m1, m2, m3, m4) + hibit * 2 ^ 104)
    with (val5 (h0 + m0, h1 + m1, h2 + m2, h3 + m3, h4 + (m4 + hibit))) by (unfold val5; lia).
  assert (0 <= h0 + m0 <= 2 ^ 27) as A0 by lia. assert (0 <= h1 + m1 <= 2 ^ 27 + 2 ^ 6) as A1 by lia.
  assert (0 <= h2 + m2 <= 2 ^ 27) as A2 by lia. assert (0 <= h3 + m3 <= 2 ^ 27) as A3 by lia.
  assert (0 <= h4 + (m4 + hibit) <= 3 * 2 ^ 25) as A4 by lia.
  set (a0 := h0 + m0) in *. set (a1 := h1 + m1) in *. set (a2 := h2 + m2) in *. set (a3 := h3 + m3) in *.
  set (a4 := h4 + (m4 + hibit)) in *.
  clearbody a0 a1 a2 a3 a4. clear h0 h1 h2 h3 h4 H0 H1 H2 H3 H4 m0 m1 m2 m3 m4 M0 M1 M2 M3 M4 hibit Hh.
  do 5 (rewrite dot5_ok by lia; cbn [obind]).
  remember (a0 * r0 + a1 * (r4 * 5) + a2 * (r3 * 5) + a3 * (r2 * 5) + a4 * (r1 * 5)) as d0 eqn:D0.
  remember (a0 * r1 + a1 * r0 + a2 * (r4 * 5) + a3 * (r3 * 5) + a4 * (r2 * 5)) as d1 eqn:D1.
  remember (a0 * r2 + a1 * r1 + a2 * r0 + a3 * (r4 * 5) + a4 * (r3 * 5)) as d2 eqn:D2.
  remember (a0 * r3 + a1 * r2 + a2 * r1 + a3 * r0 + a4 * (r4 * 5)) as d3 eqn:D3.
  remember (a0 * r4 + a1 * r3 + a2 * r2 + a3 * r1 + a4 * r0) as d4 eqn:D4.
  pose (k := a1 * r4 + a2 * r3 + a3 * r2 + a4 * r1 + (a2 * r4 + a3 * r3 + a4 * r2) * 2 ^ 26
             + (a3 * r4 + a4 * r3) * 2 ^ 52 + a4 * r4 * 2 ^ 78).
  assert (d0 + d1 * 2 ^ 26 + d2 * 2 ^ 52 + d3 * 2 ^ 78 + d4 * 2 ^ 104
          = val5 (a0, a1, a2, a3, a4) * val5 (r0, r1, r2, r3, r4) - P1305 * k) as V.
  { subst. unfold val5, P1305, k. 
    change (2 ^ 130) with (2 ^ 26 * 2 ^ 26 * 2 ^ 26 * 2 ^ 26 * 2 ^ 26). change (2 ^ 52) with (2 ^ 26 * 2 ^ 26).
    change (2 ^ 78) with (2 ^ 26 * 2 ^ 26 * 2 ^ 26). change (2 ^ 104) with (2 ^ 26 * 2 ^ 26 * 2 ^ 26 * 2 ^ 26).
    generalize (2 ^ 26). intros. ring. }
  clearbody k.
  generalize dependent (val5 (a0, a1, a2, a3, a4) * val5 (r0, r1, r2, r3, r4)). intros V0 V.
  assert (0 <= d0 <= 15 * 2 ^ 53 /\ 0 <= d1 <= 12 * 2 ^ 53 /\ 0 <= d2 <= 8 * 2 ^ 53 /\ 0 <= d3 <= 5 * 2 ^ 53 /\
          0 <= d4 <= 4 * 2 ^ 53 - 2 ^ 50) as (G0 & G1 & G2 & G3 & G4).
  { clear V k V0.
    pose proof (mul_range a0 r0 _ (2 ^ 26) A0 ltac:(lia)). pose proof (mul_range a0 r1 _ (2 ^ 26) A0 ltac:(lia)).
    pose proof (mul_range a0 r2 _ (2 ^ 26) A0 ltac:(lia)). pose proof (mul_range a0 r3 _ (2 ^ 26) A0 ltac:(lia)).
    pose proof (mul_range a0 r4 _ (2 ^ 20) A0 ltac:(lia)).
    pose proof (mul_range a1 r0 _ (2 ^ 26) A1 ltac:(lia)). pose proof (mul_range a1 r1 _ (2 ^ 26) A1 ltac:(lia)).
    pose proof (mul_range a1 r2 _ (2 ^ 26) A1 ltac:(lia)). pose proof (mul_range a1 r3 _ (2 ^ 26) A1 ltac:(lia)).
    pose proof (mul_range a1 r4 _ (2 ^ 20) A1 ltac:(lia)).
    pose proof (mul_range a2 r0 _ (2 ^ 26) A2 ltac:(lia)). pose proof (mul_range a2 r1 _ (2 ^ 26) A2 ltac:(lia)).
    pose proof (mul_range a2 r2 _ (2 ^ 26) A2 ltac:(lia)). pose proof (mul_range a2 r3 _ (2 ^ 26) A2 ltac:(lia)).
    pose proof (mul_range a2 r4 _ (2 ^ 20) A2 ltac:(lia)).
    pose proof (mul_range a3 r0 _ (2 ^ 26) A3 ltac:(lia)). pose proof (mul_range a3 r1 _ (2 ^ 26) A3 ltac:(lia)).
    pose proof (mul_range a3 r2 _ (2 ^ 26) A3 ltac:(lia)). pose proof (mul_range a3 r3 _ (2 ^ 26) A3 ltac:(lia)).
    pose proof (mul_range a3 r4 _ (2 ^ 20) A3 ltac:(lia)).
    pose proof (mul_range a4 r0 _ (2 ^ 26) A4 ltac:(lia)). pose proof (mul_range a4 r1 _ (2 ^ 26) A4 ltac:(lia)).
    pose proof (mul_range a4 r2 _ (2 ^ 26) A4 ltac:(lia)). pose proof (mul_range a4 r3 _ (2 ^ 26) A4 ltac:(lia)).
    pose proof (mul_range a4 r4 _ (2 ^ 20) A4 ltac:(lia)).
    rewrite ?Z.mul_assoc in *. clear A0 A1 A2 A3 A4 R0 R1 R2 R3 R4.
    generalize dependent (a0 * r0). generalize dependent (a0 * r1). generalize dependent (a0 * r2). generalize dependent (a0 * r3). generalize dependent (a0 * r4).
    generalize dependent (a1 * r0). generalize dependent (a1 * r1). generalize dependent (a1 * r2). generalize dependent (a1 * r3). generalize dependent (a1 * r4).
    generalize dependent (a2 * r0). generalize dependent (a2 * r1). generalize dependent (a2 * r2). generalize dependent (a2 * r3). generalize dependent (a2 * r4).
    generalize dependent (a3 * r0). generalize dependent (a3 * r1). generalize dependent (a3 * r2). generalize dependent (a3 * r3). generalize dependent (a3 * r4).
    generalize dependent (a4 * r0). generalize dependent (a4 * r1). generalize dependent (a4 * r2). generalize dependent (a4 * r3). generalize dependent (a4 * r4).
    intros. repeat split; lia. }
  clear D0 D1 D2 D3 D4 A0 A1 A2 A3 A4 R0 R1 R2 R3 R4 a0 a1 a2 a3 a4 r0 r1 r2 r3 r4.
  norm. split_at d0 26 (15 * 2 ^ 27) c0 e0. step32.
  step64. split_at (d1 + c0) 26 (13 * 2 ^ 27) c1 e1. step32.
  step64. split_at (d2 + c1) 26 (9 * 2 ^ 27) c2 e2. step32.
  step64. split_at (d3 + c2) 26 (6 * 2 ^ 27) c3 e3. step32.
  step64. split_at (d4 + c3) 26 (4 * 2 ^ 27) c4 e4. step32.
  step32. step32. split_at (e0 + c4 * 5) 26 42 c5 e5. step32.
  eexists. split; [reflexivity|]. split; [unfold h5_ok; lia|].
  assert (val5 (e5, e1 + c5, e2, e3, e4) = V0 + - (k + c4) * P1305) as ->; [|apply Z_mod_plus_full].
  unfold val5. assert (- (k + c4) * P1305 = - (P1305 * k) - c4 * P1305) as -> by ring.
  generalize dependent (P1305 * k). intros PK V. unfold P1305. lia.
Qed.

(** ** The last steps *)
Lemma carry32_ok : forall h, h5_ok h ->
  exists h', poly32_carry lw w h = Ok h' /\ (g5_ok h' /\ val5 h' mod P1305 = val5 h mod P1305).
Proof.
  intros [[[[h0 h1] h2] h3] h4] (H0 & H1 & H2 & H3 & H4). unfold poly32_carry. cbv zeta. norm.
  split_at h1 26 1 c1 e1. step32. split_at (h2 + c1) 26 1 c2 e2. step32. split_at (h3 + c2) 26 1 c3 e3. step32.
  split_at (h4 + c3) 26 1 c4 e4. step32. step32. split_at (h0 + c4 * 5) 26 1 c5 e5. step32.
  assert (c1 <= 1) by lia. assert (c2 <= c1) by lia. assert (c3 <= c2) by lia. assert (c4 <= c3) by lia.
  (* a carry out of the top limb means that h1 overflowed, and is small now *)
  assert (e1 + c5 < 2 ^ 26) by (destruct (Z.eq_dec c4 0); lia).
  eexists. split; [reflexivity|]. split; [unfold g5_ok; lia|].
  assert (val5 (e5, e1 + c5, e2, e3, e4) = val5 (h0, h1, h2, h3, h4) + - c4 * P1305) as ->; [|apply Z_mod_plus_full].
  unfold val5, P1305. lia.
Qed.

Lemma land_full : forall x, 0 <= x < 2 ^ 32 -> Z.land x (2 ^ lw - 1) = x.
Proof.
  intros x H. pose proof wide. replace (2 ^ lw - 1) with (Z.ones lw) by (rewrite Z.ones_equiv; lia).
  rewrite Z.land_ones by lia. apply Z.mod_small. lia.
Qed.
Lemma select32_ok : forall h, g5_ok h ->
  exists h', poly32_select lw w h = Ok h' /\ (g5_ok h' /\ val5 h' = val5 h mod P1305).
Proof.
  intros [[[[h0 h1] h2] h3] h4] (H0 & H1 & H2 & H3 & H4). unfold poly32_select. cbv zeta.
  step32. split_at (h0 + 5) 26 1 c1 g0. step32. split_at (h1 + c1) 26 1 c2 g1. step32.
  split_at (h2 + c2) 26 1 c3 g2. step32. split_at (h3 + c3) 26 1 c4 g3. step32.
  change (Z.shiftl 1 26) with (2 ^ 26).
  eexists. split; [reflexivity|]. pose proof wide as W.
  assert (0 <= lw - 1) as N by (destruct Hlw as [->| ->]; lia).
  assert (2 ^ lw = 2 * 2 ^ (lw - 1)) as T by (destruct Hlw as [->| ->]; reflexivity).
  assert (val5 (h0, h1, h2, h3, h4) = h0 + h1 * 2 ^ 26 + h2 * 2 ^ 52 + h3 * 2 ^ 78 + h4 * 2 ^ 104) as V by reflexivity.
  rewrite ?(Z.shiftr_div_pow2 _ (lw - 1)) by exact N.
  destruct (Z_lt_dec (h4 + c4) (2 ^ 26)) as [B|B].
  - assert ((h4 + c4 - 2 ^ 26) mod 2 ^ lw = h4 + c4 - 2 ^ 26 + 2 ^ lw) as ->.
    { rewrite <- (Z_mod_plus_full _ 1). rewrite Z.mul_1_l. apply Z.mod_small. lia. }
    assert ((h4 + c4 - 2 ^ 26 + 2 ^ lw) / 2 ^ (lw - 1) = 1) as ->.
    { symmetry. apply Z.div_unique with (h4 + c4 - 2 ^ 26 + 2 ^ (lw - 1)); lia. }
    change (1 - 1) with 0. rewrite Z.mod_0_l by lia.
    rewrite Z.sub_0_r, !Z.land_0_r, !Z.lor_0_r, !land_full by lia.
    split; [unfold g5_ok; lia|]. rewrite Z.mod_small; [reflexivity|]. rewrite V. unfold P1305. lia.
  - assert ((h4 + c4 - 2 ^ 26) mod 2 ^ lw = h4 + c4 - 2 ^ 26) as -> by (apply Z.mod_small; lia).
    assert ((h4 + c4 - 2 ^ 26) / 2 ^ (lw - 1) = 0) as -> by (apply Z.div_small; lia).
    assert ((0 - 1) mod 2 ^ lw = 2 ^ lw - 1) as ->.
    { rewrite <- (Z_mod_plus_full _ 1). rewrite Z.mul_1_l. rewrite Z.mod_small by lia. lia. }
    rewrite Z.sub_diag. rewrite !Z.land_0_r, !Z.lor_0_l, !land_full by lia.
    split; [unfold g5_ok; lia|]. symmetry. rewrite <- (Z_mod_plus_full _ (-1)).
    assert (val5 (h0, h1, h2, h3, h4) + -1 * P1305 = val5 (g0, g1, g2, g3, h4 + c4 - 2 ^ 26)) as ->
      by (unfold val5, P1305; lia).
    apply Z.mod_small. unfold val5, P1305. lia.
Qed.

Lemma u32to8_spec : forall v, U32TO8 (v mod 2 ^ lw) = le_bytes 4 v.
Proof.
  intros v. rewrite <- (le_bytes_mod 4 v). change (256 ^ Z.of_nat 4) with (2 ^ 32).
  assert (v mod 2 ^ 32 = (v mod 2 ^ lw) mod 2 ^ 32) as ->.
  { apply Znumtheory.Zmod_div_mod; [lia|destruct Hlw as [->| ->]; lia|].
    exists (2 ^ (lw - 32)). destruct Hlw as [->| ->]; reflexivity. }
  change (2 ^ 32) with (256 ^ Z.of_nat 4). rewrite le_bytes_mod. generalize (v mod 2 ^ lw). clear v. intros v.
  unfold U32TO8, le_bytes. apply map_ext. intros i. change 0xff with (Z.ones 8).
  rewrite Z.land_ones, Z.shiftr_div_pow2 by lia.
  replace (256 ^ Z.of_nat i) with (2 ^ (8 * Z.of_nat i)) by (rewrite Z.pow_mul_r by lia; reflexivity). reflexivity.
Qed.
Lemma le_bytes_cons32 : forall n a b, le_bytes (4 + n) (a + b * 2 ^ 32) = le_bytes 4 a ++ le_bytes n (a / 2 ^ 32 + b).
Proof.
  intros n a b. rewrite le_bytes_app. change (256 ^ Z.of_nat 4) with (2 ^ 32). f_equal.
  - rewrite <- (le_bytes_mod 4 (a + _)), <- (le_bytes_mod 4 a). change (256 ^ Z.of_nat 4) with (2 ^ 32).
    now rewrite Z_mod_plus_full.
  - now rewrite Z.div_add by lia.
Qed.
(* a word of the packed result *)
Lemma pack : forall lo hi k, 0 <= k < 32 -> 0 <= lo < 2 ^ k ->
  Z.land (Z.lor lo (Z.shiftl hi k mod 2 ^ lw)) 0xffffffff = (lo + hi * 2 ^ k) mod 2 ^ 32.
Proof.
  intros lo hi k Hk Hlo. change 0xffffffff with (Z.ones 32). rewrite Z.land_ones by lia.
  rewrite <- (Z.add_comm (hi * 2 ^ k) lo), <- lor_add, Z.lor_comm by lia.
  apply Z.bits_inj'. intros n Hn. rewrite !mod_pow2_bits by lia. destruct (n <? 32) eqn:E; [|reflexivity]. cbn [andb].
  rewrite !Z.lor_spec. f_equal.
  rewrite mod_pow2_bits by (destruct Hlw as [->| ->]; lia).
  replace (n <? lw) with true by (symmetry; apply Z.ltb_lt; destruct Hlw as [->| ->]; lia). reflexivity.
Qed.
Definition pad_val5 (p : Z * Z * Z * Z) : Z := let '(p0, p1, p2, p3) := p in p0 + p1 * 2 ^ 32 + p2 * 2 ^ 64 + p3 * 2 ^ 96.
Definition pad_ok (p : Z * Z * Z * Z) : Prop :=
  let '(p0, p1, p2, p3) := p in 0 <= p0 < 2 ^ 32 /\ 0 <= p1 < 2 ^ 32 /\ 0 <= p2 < 2 ^ 32 /\ 0 <= p3 < 2 ^ 32.
Lemma output32_ok : forall p h, g5_ok h -> pad_ok p ->
  exists mac, poly32_output lw w p h = Ok mac /\ mac = le_bytes 16 (val5 h + pad_val5 p).
Proof.
  intros [[[p0 p1] p2] p3] [[[[h0 h1] h2] h3] h4] (H0 & H1 & H2 & H3 & H4) (P0 & P1 & P2 & P3).
  unfold poly32_output. cbv zeta. rewrite !Z.shiftr_div_pow2 by lia.
  split_at h1 6 (2 ^ 20) b1 a1. split_at h2 12 (2 ^ 14) b2 a2. split_at h3 18 (2 ^ 8) b3 a3.
  assert (b1 < 2 ^ 20) by lia. assert (b2 < 2 ^ 14) by lia. assert (b3 < 2 ^ 8) by lia.
  rewrite !pack by lia.
  set (u0 := h0 + h1 * 2 ^ 26). set (u1 := b1 + h2 * 2 ^ 20). set (u2 := b2 + h3 * 2 ^ 14). set (u3 := b3 + h4 * 2 ^ 8).
  assert (u0 mod 2 ^ 32 = h0 + a1 * 2 ^ 26) as -> by (symmetry; apply Z.mod_unique with b1; unfold u0; lia).
  assert (u1 mod 2 ^ 32 = b1 + a2 * 2 ^ 20) as -> by (symmetry; apply Z.mod_unique with b2; unfold u1; lia).
  assert (u2 mod 2 ^ 32 = b2 + a3 * 2 ^ 14) as -> by (symmetry; apply Z.mod_unique with b3; unfold u2; lia).
  pose proof (Z.div_mod u3 (2 ^ 32) ltac:(lia)) as Q3. pose proof (Z.mod_pos_bound u3 (2 ^ 32) ltac:(lia)) as B3.
  set (x3 := u3 mod 2 ^ 32) in *. set (y3 := u3 / 2 ^ 32) in *. unfold u3 in Q3. clearbody x3 y3. clear u0 u1 u2 u3.
  assert (exists x0, x0 = h0 + a1 * 2 ^ 26) as [x0 X0] by eauto. assert (exists x1, x1 = b1 + a2 * 2 ^ 20) as [x1 X1] by eauto.
  assert (exists x2, x2 = b2 + a3 * 2 ^ 14) as [x2 X2] by eauto. rewrite <- X0, <- X1, <- X2.
  assert (0 <= x0 < 2 ^ 32) as B0 by lia. assert (0 <= x1 < 2 ^ 32) as B1 by lia. assert (0 <= x2 < 2 ^ 32) as B2 by lia.
  assert (val5 (h0, h1, h2, h3, h4) = x0 + x1 * 2 ^ 32 + x2 * 2 ^ 64 + x3 * 2 ^ 96 + y3 * 2 ^ 128) as ->.
  { unfold val5. lia. }
  clear - Hlw Hw B0 B1 B2 B3 P0 P1 P2 P3.
  assert (forall x, 0 <= x < 2 ^ 34 -> 0 <= x / 2 ^ 32 < 4) as D
    by (intros x Hx; split; [apply Z.div_pos; lia|apply Z.div_lt_upper_bound; lia]).
  apply (step_ok w Hw); [lia|]. cbv beta. rewrite !Z.shiftr_div_pow2 by lia.
  assert (exists f0, f0 = x0 + p0) as [f0 F0] by eauto. rewrite <- F0.
  pose proof (D f0 ltac:(lia)) as D0.
  apply (step_ok w Hw); [lia|]. cbv beta.
  apply (step_ok w Hw); [lia|]. cbv beta. rewrite !Z.shiftr_div_pow2 by lia.
  assert (exists f1, f1 = x1 + p1 + f0 / 2 ^ 32) as [f1 F1] by eauto. rewrite <- F1.
  pose proof (D f1 ltac:(lia)) as D1.
  apply (step_ok w Hw); [lia|]. cbv beta.
  apply (step_ok w Hw); [lia|]. cbv beta. rewrite !Z.shiftr_div_pow2 by lia.
  assert (exists f2, f2 = x2 + p2 + f1 / 2 ^ 32) as [f2 F2] by eauto. rewrite <- F2.
  pose proof (D f2 ltac:(lia)) as D2.
  apply (step_ok w Hw); [lia|]. cbv beta.
  apply (step_ok w Hw); [lia|]. cbv beta.
  eexists. split; [reflexivity|]. rewrite !u32to8_spec. unfold pad_val5.
  rewrite <- (le_bytes_mod 16 (_ + _)). change (256 ^ Z.of_nat 16) with (2 ^ 128).
  replace (x0 + x1 * 2 ^ 32 + x2 * 2 ^ 64 + x3 * 2 ^ 96 + y3 * 2 ^ 128 + (p0 + p1 * 2 ^ 32 + p2 * 2 ^ 64 + p3 * 2 ^ 96))
    with (x0 + p0 + (x1 + p1 + (x2 + p2 + (x3 + p3) * 2 ^ 32) * 2 ^ 32) * 2 ^ 32 + y3 * 2 ^ 128) by (clear; lia).
  rewrite Z_mod_plus_full. change (2 ^ 128) with (256 ^ Z.of_nat 16). rewrite le_bytes_mod.
  rewrite <- F0. rewrite (le_bytes_cons32 12). f_equal.
  replace (f0 / 2 ^ 32 + (x1 + p1 + (x2 + p2 + (x3 + p3) * 2 ^ 32) * 2 ^ 32))
    with (f1 + (x2 + p2 + (x3 + p3) * 2 ^ 32) * 2 ^ 32) by (rewrite F1; ring).
  rewrite (le_bytes_cons32 8). f_equal.
  replace (f1 / 2 ^ 32 + (x2 + p2 + (x3 + p3) * 2 ^ 32)) with (f2 + (x3 + p3) * 2 ^ 32) by (rewrite F2; ring).
  rewrite (le_bytes_cons32 4). f_equal. now rewrite (Z.add_comm _ (x3 + p3)).
Qed.

End Width.

(** ** Key setup *)
Lemma land_mod26 : forall x c, Z.land c mask26 = c -> Z.land x c = Z.land (x mod 2 ^ 26) c.
Proof.
  intros x c Hc. rewrite <- land_mask26. rewrite <- Hc at 1. rewrite <- Z.land_assoc. f_equal. apply Z.land_comm.
Qed.
Lemma init32_r : forall buffer key, bytes key -> 16 <= zlen key ->
  r5_ok (q_r (poly32_init buffer key)) /\
  val5 (q_r (poly32_init buffer key)) = clamp (mem_word (take 16 key)).
Proof.
  intros buffer key Hb Hl. cbn [poly32_init q_r].
  destruct (read5_ok key Hb Hl) as (m0 & m1 & m2 & m3 & m4 & E0 & E1 & E2 & E3 & E4 & M0 & M1 & M2 & M3 & M4 & <-).
  rewrite (land_mod26 (U8TO32 key 0)), (land_mod26 (Z.shiftr (U8TO32 key 3) 2)), (land_mod26 (Z.shiftr (U8TO32 key 6) 4)),
    (land_mod26 (Z.shiftr (U8TO32 key 9) 6)) by reflexivity.
  rewrite E0, E1, E2, E3, E4. clear E0 E1 E2 E3 E4 Hb Hl key buffer.
  pose proof (land_le m0 0x3ffffff ltac:(lia)). pose proof (land_le m1 0x3ffff03 ltac:(lia)).
  pose proof (land_le m2 0x3ffc0ff ltac:(lia)). pose proof (land_le m3 0x3f03fff ltac:(lia)).
  pose proof (land_le m4 0x00fffff ltac:(lia)).
  split; [unfold r5_ok; lia|]. unfold clamp, val5.
  replace 0x0ffffffc0ffffffc0ffffffc0fffffff
    with (0x3ffffff + (0x3ffff03 + (0x3ffc0ff + (0x3f03fff + 0x00fffff * 2 ^ 26) * 2 ^ 26) * 2 ^ 26) * 2 ^ 26) by reflexivity.
  replace (m0 + m1 * 2 ^ 26 + m2 * 2 ^ 52 + m3 * 2 ^ 78 + m4 * 2 ^ 104)
    with (m0 + (m1 + (m2 + (m3 + m4 * 2 ^ 26) * 2 ^ 26) * 2 ^ 26) * 2 ^ 26) by lia.
  do 4 (rewrite land_limbs by lia). lia.
Qed.
Definition key_pad (key : list Z) : Z * Z * Z * Z := (U8TO32 key 16, U8TO32 key 20, U8TO32 key 24, U8TO32 key 28).
Lemma key_pad_ok : forall key, bytes key -> 32 <= zlen key ->
  pad_ok (key_pad key) /\ pad_val5 (key_pad key) = mem_word (sub 16 16 key).
Proof.
  intros key Hb Hl. unfold key_pad, pad_ok, pad_val5.
  destruct (u8to32_ok key 16 Hb ltac:(lia) ltac:(lia)) as [_ A]. destruct (u8to32_ok key 20 Hb ltac:(lia) ltac:(lia)) as [_ B].
  destruct (u8to32_ok key 24 Hb ltac:(lia) ltac:(lia)) as [_ C]. destruct (u8to32_ok key 28 Hb ltac:(lia) ltac:(lia)) as [_ D].
  split; [auto|].
  assert (forall o, 0 <= o -> U8TO32 key (16 + o) = U8TO32 (drop 16 key) o) as E.
  { intros o Ho. unfold U8TO32. rewrite drop_drop by lia. do 2 f_equal. lia. }
  pose proof (E 0 ltac:(lia)) as E0. pose proof (E 4 ltac:(lia)) as E1. pose proof (E 8 ltac:(lia)) as E2. pose proof (E 12 ltac:(lia)) as E3.
  change (16 + 0) with 16 in E0. change (16 + 4) with 20 in E1. change (16 + 8) with 24 in E2. change (16 + 12) with 28 in E3.
  rewrite E0, E1, E2, E3. clear A B C D E E0 E1 E2 E3. unfold sub.
  rewrite !u8to32_val by (try apply bytes_drop; auto; rewrite ?zlen_drop; lia).
  pose proof (mem_word_range (take 16 (drop 16 key)) ltac:(now apply bytes_take, bytes_drop)) as R.
  rewrite zlen_take, zlen_drop in R. replace (Z.max 0 (Z.min 16 _)) with 16 in R by lia.
  revert R. generalize (mem_word (take 16 (drop 16 key))). intros x R. clear - R.
  change (256 ^ 16) with (2 ^ 128) in R.
  change (256 ^ 0) with 1. change (256 ^ 4) with (2 ^ 32). change (256 ^ 8) with (2 ^ 32 * 2 ^ 32).
  change (256 ^ 12) with (2 ^ 32 * 2 ^ 32 * 2 ^ 32). rewrite <- !Z.div_div by lia. rewrite Z.div_1_r.
  pose proof (Z.div_mod x (2 ^ 32) ltac:(lia)) as Q0. set (x1 := x / 2 ^ 32) in *.
  pose proof (Z.div_mod x1 (2 ^ 32) ltac:(lia)) as Q1. set (x2 := x1 / 2 ^ 32) in *.
  pose proof (Z.div_mod x2 (2 ^ 32) ltac:(lia)) as Q2. set (x3 := x2 / 2 ^ 32) in *.
  assert (0 <= x1 < 2 ^ 96) as R1 by (split; [apply Z.div_pos; lia|apply Z.div_lt_upper_bound; lia]).
  assert (0 <= x2 < 2 ^ 64) as R2 by (split; [apply Z.div_pos; lia|apply Z.div_lt_upper_bound; lia]).
  assert (0 <= x3 < 2 ^ 32) as R3 by (split; [apply Z.div_pos; lia|apply Z.div_lt_upper_bound; lia]).
  rewrite (Z.mod_small x3) by lia.
  generalize dependent (x2 mod 2 ^ 32). generalize dependent (x1 mod 2 ^ 32). generalize dependent (x mod 2 ^ 32).
  clearbody x1 x2 x3. intros. lia.
Qed.
