(** Proofs about the NewHope code *)
From Verif Require Import Base MHash MSha2 SSha2 SBlake2 MBlake2 PSha2 PSha2b PBlake2 PChaCha MPoly1305 SPoly1305 PPoly1305 MNewhope SNewhope.
Require Import ZifyBool Lia.

Lemma s32_ok : forall x, - 2^31 <= x < 2^31 -> s32 x = Ok x.
Proof. intros x H. unfold s32. replace ((- 2^31 <=? x) && (x <? 2^31)) with true by lia. reflexivity. Qed.
Lemma i32_ok : forall x, - 2^31 <= x < 2^31 -> i32 x = x.
Proof. intros x H. unfold i32. rewrite Z.mod_small by lia. lia. Qed.

(** ** Coefficients *)
Lemma montgomery_ok : forall a, 0 <= a <= 4095 * 2^18 ->
  0 <= montgomery_reduce a /\ 2^18 * montgomery_reduce a <= a + (2^18 - 1) * 12289 /\
  exists k, montgomery_reduce a * 2^18 = a + k * 12289.
Proof.
  intros a H. unfold montgomery_reduce, u32, u16, PARAM_Q. change (2^18 - 1) with (Z.ones 18).
  rewrite Z.land_ones, Z.shiftr_div_pow2 by lia.
  assert ((a * 12287) mod 2^32 mod 2^18 = (a * 12287) mod 2^18) as ->.
  { symmetry. apply Znumtheory.Zmod_div_mod; [lia|lia|]. exists (2^14). reflexivity. }
  pose proof (Z.mod_pos_bound (a * 12287) (2^18) ltac:(lia)) as B. pose proof (Z.div_mod (a * 12287) (2^18) ltac:(lia)) as D.
  set (u := (a * 12287) mod 2^18) in *. set (m := a * 12287 / 2^18) in *. clearbody u m.
  rewrite (Z.mod_small (u * 12289)) by lia. rewrite (Z.mod_small (a + u * 12289)) by lia.
  assert (a + u * 12289 = (576 * a - m * 12289) * 2^18) as -> by lia.
  rewrite Z.div_mul by lia. rewrite Z.mod_small by lia.
  split; [lia|]. split; [change (Z.ones 18) with (2^18 - 1); lia|]. exists u. lia.
Qed.
Lemma barrett_ok : forall a, 0 <= a < 2^16 ->
  0 <= barrett_reduce a < 16380 /\ exists k, barrett_reduce a = a + k * 12289.
Proof.
  intros a H. unfold barrett_reduce, u32, u16, PARAM_Q. rewrite Z.shiftr_div_pow2 by lia.
  rewrite (Z.mod_small a) by lia. rewrite (Z.mod_small (a * 5)) by lia.
  pose proof (Z.div_mod (a * 5) (2^16) ltac:(lia)) as D. pose proof (Z.mod_pos_bound (a * 5) (2^16) ltac:(lia)) as B.
  set (u := a * 5 / 2^16) in *. clearbody u. generalize dependent ((a * 5) mod 2^16). intros r D B.
  assert (0 <= u <= 4) by lia. rewrite (Z.mod_small (u * 12289)) by lia. rewrite Z.mod_small by lia.
  split; [lia|]. exists (- u). lia.
Qed.
Lemma csubq_ok : forall t, 0 <= t < 16384 -> csubq t = t mod 12289.
Proof.
  intros t H. unfold csubq, i16, u16, PARAM_Q. rewrite Z.shiftr_div_pow2 by lia.
  destruct (Z_lt_dec t 12289) as [L|L].
  - assert ((t - 12289) mod 2^16 = t - 12289 + 2^16) as ->.
    { rewrite <- (Z_mod_plus_full _ 1). apply Z.mod_small. lia. }
    assert ((((t - 12289 + 2^16 + 2^15) mod 2^16 - 2^15) / 2^15) = -1) as ->.
    { assert ((t - 12289 + 2^16 + 2^15) mod 2^16 = t - 12289 + 2^15) as ->.
      { replace (t - 12289 + 2^16 + 2^15) with (t - 12289 + 2^15 + 1 * 2^16) by lia. rewrite Z_mod_plus_full. apply Z.mod_small. lia. }
      symmetry. apply Z.div_unique with (t - 12289 + 2^15); lia. }
    rewrite Z.land_m1_r. rewrite (Z.lxor_comm t), <- Z.lxor_assoc, Z.lxor_nilpotent, Z.lxor_0_l.
    rewrite !Z.mod_small by lia. reflexivity.
  - assert ((t - 12289) mod 2^16 = t - 12289) as -> by (apply Z.mod_small; lia).
    assert ((((t - 12289 + 2^15) mod 2^16 - 2^15) / 2^15) = 0) as ->.
    { rewrite Z.mod_small by lia. apply Z.div_small. lia. }
    rewrite Z.land_0_r, Z.lxor_0_r. rewrite Z.mod_small by lia. apply Z.mod_unique with 1; lia.
Qed.
Lemma canonical : forall a, 0 <= a < 2^16 -> csubq (barrett_reduce a) = a mod 12289.
Proof.
  intros a H. destruct (barrett_ok a H) as [B [k E]]. rewrite csubq_ok by lia. rewrite E. apply Z_mod_plus_full.
Qed.

(** ** Encodings *)
Lemma lor_high : forall a b k, 0 <= k -> 0 <= a < 2^k -> Z.lor a (Z.shiftl b k) = a + b * 2^k.
Proof.
  intros a b k Hk Ha. rewrite Z.lor_comm, lor_add by lia. lia.
Qed.
Lemma tobytes4_ok : forall t0 t1 t2 t3,
  0 <= t0 < 2^14 -> 0 <= t1 < 2^14 -> 0 <= t2 < 2^14 -> 0 <= t3 < 2^14 ->
  tobytes4 t0 t1 t2 t3 =
  [t0 mod 2^8; t0 / 2^8 + t1 mod 2^2 * 2^6; t1 / 2^2 mod 2^8; t1 / 2^10 + t2 mod 2^4 * 2^4; t2 / 2^4 mod 2^8;
   t2 / 2^12 + t3 mod 2^6 * 2^2; t3 / 2^6].
Proof.
  intros t0 t1 t2 t3 H0 H1 H2 H3. unfold tobytes4, u8. change 0xff with (Z.ones 8). rewrite Z.land_ones by lia.
  rewrite !Z.shiftr_div_pow2 by lia.
  rewrite (lor_high (t0 / 2^8) t1 6), (lor_high (t1 / 2^10) t2 4), (lor_high (t2 / 2^12) t3 2)
    by first [lia | split; [apply Z.div_pos; lia|apply Z.div_lt_upper_bound; lia]].
  repeat (apply f_equal2; [first [reflexivity | lia]|]). reflexivity.
Qed.
Lemma bytes7 : forall t0 t1 t2 t3,
  0 <= t0 < 2^14 -> 0 <= t1 < 2^14 -> 0 <= t2 < 2^14 -> 0 <= t3 < 2^14 -> bytes (tobytes4 t0 t1 t2 t3).
Proof.
  intros. rewrite tobytes4_ok by assumption. unfold bytes.
  repeat (constructor; [unfold is_byte; lia|]). constructor.
Qed.
Lemma group_roundtrip : forall t0 t1 t2 t3 l,
  0 <= t0 < 2^14 -> 0 <= t1 < 2^14 -> 0 <= t2 < 2^14 -> 0 <= t3 < 2^14 ->
  poly_frombytes (tobytes4 t0 t1 t2 t3 ++ l) = t0 :: t1 :: t2 :: t3 :: poly_frombytes l.
Proof.
  intros t0 t1 t2 t3 l H0 H1 H2 H3. rewrite tobytes4_ok by assumption. cbn [app poly_frombytes]. unfold u16.
  change 0x3f with (Z.ones 6). change 0x0f with (Z.ones 4). change 0x03 with (Z.ones 2).
  rewrite !Z.land_ones, !Z.shiftr_div_pow2 by lia.
  rewrite (lor_high (t0 mod 2^8) _ 8) by lia.
  rewrite (lor_high ((t0 / 2^8 + t1 mod 2^2 * 2^6) / 2^6) _ 2) by lia.
  rewrite (lor_high (_ + _ * 2^2) _ 10) by lia.
  rewrite (lor_high ((t1 / 2^10 + t2 mod 2^4 * 2^4) / 2^4) _ 4) by lia.
  rewrite (lor_high (_ + _ * 2^4) _ 12) by lia.
  rewrite (lor_high ((t2 / 2^12 + t3 mod 2^6 * 2^2) / 2^2) _ 6) by lia.
  f_equal; [lia|]. f_equal; [lia|]. f_equal; [lia|]. f_equal. lia.
Qed.

(** ** Reconciliation *)
Lemma abs32_ok : forall v, - 2^31 < v < 2^31 -> abs32 v = Ok (Z.abs v).
Proof.
  intros v H. unfold abs32. rewrite Z.shiftr_div_pow2 by lia. destruct (Z_lt_dec v 0).
  - assert (v / 2^31 = -1) as -> by (symmetry; apply Z.div_unique with (v + 2^31); lia).
    rewrite Z.lxor_m1_r. unfold Z.lnot. rewrite s32_ok by lia. f_equal. lia.
  - rewrite Z.div_small by lia. rewrite Z.lxor_0_r, s32_ok by lia. f_equal. lia.
Qed.
Lemma land_1 : forall x, Z.land x 1 = x mod 2.
Proof. intros. change 1 with (Z.ones 1). rewrite Z.land_ones by lia. reflexivity. Qed.
Lemma land_3 : forall x, Z.land x 3 = x mod 4.
Proof. intros. change 3 with (Z.ones 2). rewrite Z.land_ones by lia. reflexivity. Qed.
(* the estimate of the quotient and its correction *)
Lemma sign_mask : forall b, - 2^31 <= b < 2^31 -> Z.shiftr b 31 = if b <? 0 then -1 else 0.
Proof.
  intros b H. rewrite Z.shiftr_div_pow2 by lia. destruct (b <? 0) eqn:E.
  - symmetry. apply Z.div_unique with (b + 2^31); lia.
  - apply Z.div_small. lia.
Qed.
Lemma rec_f_ok : forall x, 0 <= x < 2^19 ->
  exists v0 v1 d, rec_f x = Ok (v0, v1, d) /\ 0 <= v0 <= 22 /\ 0 <= v1 <= v0 /\ d = Z.abs (x - 2 * 12289 * v0) /\ d <= 12289 /\
    2 * 12289 * v1 <= x < 2 * 12289 * (v1 + 1) /\ Z.abs (x - 2 * 12289 * v1 - 12289) = 12289 - d.
Proof.
  intros x H. unfold rec_f, PARAM_Q. rewrite (i32_ok (x * 2730)) by lia. rewrite Z.shiftr_div_pow2 by lia.
  pose proof (Z.div_mod (x * 2730) (2^25) ltac:(lia)) as D. pose proof (Z.mod_pos_bound (x * 2730) (2^25) ltac:(lia)) as B.
  set (t := x * 2730 / 2^25) in *. clearbody t. generalize dependent ((x * 2730) mod 2^25). intros r D B.
  assert (0 <= t <= 43) by lia.
  rewrite (i32_ok (x - t * 12289)) by lia. rewrite s32_ok by lia. cbn [obind]. rewrite sign_mask by lia.
  assert (exists t', t - (if 12288 - (x - t * 12289) <? 0 then -1 else 0) = t' /\ 12289 * t' <= x < 12289 * (t' + 1)) as (t' & -> & T).
  { eexists. split; [reflexivity|]. destruct (12288 - (x - t * 12289) <? 0) eqn:E; lia. }
  clear D B r t H0. rename t' into t. assert (0 <= t <= 42) by lia.
  rewrite s32_ok by lia. cbn [obind]. rewrite !Z.shiftr_div_pow2, !land_1 by lia.
  rewrite s32_ok by lia. cbn [obind]. rewrite s32_ok by lia. cbn [obind].
  rewrite !Z.shiftr_div_pow2, !land_1 by lia. rewrite s32_ok by lia. cbn [obind]. change (2^1) with 2.
  assert (exists v0, t / 2 + t mod 2 = v0 /\ (t = 2 * v0 \/ t = 2 * v0 - 1)) as (v0 & -> & V0) by (eexists; split; [reflexivity|lia]).
  assert (exists v1, (t - 1) / 2 + (t - 1) mod 2 = v1 /\ (t = 2 * v1 \/ t = 2 * v1 + 1)) as (v1 & -> & V1) by (eexists; split; [reflexivity|lia]).
  rewrite s32_ok by lia. cbn [obind]. rewrite i32_ok by lia. rewrite abs32_ok by lia. cbn [obind].
  do 3 eexists. split; [reflexivity|]. replace (v0 * 2 * 12289) with (2 * 12289 * v0) by lia. lia.
Qed.
(** the distance to the nearest multiple of 8q *)
Lemma rec_g_ok : forall x, 0 <= x <= 720904 ->
  exists d m, rec_g x = Ok d /\ d = Z.abs (x - 98312 * m) /\ d <= 49156.
Proof.
  intros x H. unfold rec_g, PARAM_Q. rewrite s32_ok by lia. cbn [obind]. rewrite Z.shiftr_div_pow2 by lia.
  pose proof (Z.div_mod (x * 2730) (2^27) ltac:(lia)) as D. pose proof (Z.mod_pos_bound (x * 2730) (2^27) ltac:(lia)) as B.
  set (t := x * 2730 / 2^27) in *. clearbody t. generalize dependent ((x * 2730) mod 2^27). intros r D B.
  assert (0 <= t <= 15) by lia.
  rewrite s32_ok by lia. cbn [obind]. rewrite s32_ok by lia. cbn [obind]. rewrite sign_mask by lia.
  assert (exists t', t - (if 49155 - (x - t * 49156) <? 0 then -1 else 0) = t' /\ 49156 * t' <= x < 49156 * (t' + 1)) as (t' & -> & T).
  { eexists. split; [reflexivity|]. destruct (49155 - (x - t * 49156) <? 0) eqn:E; lia. }
  clear D B r t H0. rename t' into t. assert (0 <= t <= 14) by lia.
  rewrite s32_ok by lia. cbn [obind]. rewrite Z.shiftr_div_pow2, land_1 by lia. change (2^1) with 2.
  assert (exists v, t / 2 + t mod 2 = v /\ (t = 2 * v \/ t = 2 * v - 1)) as (v & -> & V) by (eexists; split; [reflexivity|lia]).
  rewrite s32_ok by lia. cbn [obind]. rewrite s32_ok by lia. cbn [obind]. rewrite s32_ok by lia. cbn [obind].
  rewrite abs32_ok by lia. exists (Z.abs (v * (8 * 12289) - x)), v. split; [reflexivity|]. lia.
Qed.
(* near a multiple of 8q, and near an odd multiple of 4q *)
Lemma rec_g_near : forall x n e, 0 <= x <= 720904 -> x = 98312 * n + e -> exists d, rec_g x = Ok d /\ 0 <= d <= 49156 /\ d <= Z.abs e.
Proof.
  intros x n e H E. destruct (rec_g_ok x H) as (d & m & G & D & L). exists d. split; [exact G|]. split; [lia|].
  destruct (Z.eq_dec m n); [subst; lia|]. assert (m <= n - 1 \/ m >= n + 1) by lia. lia.
Qed.
Lemma rec_g_far : forall x n e, 0 <= x <= 720904 -> x = 98312 * n + 49156 + e ->
  exists d, rec_g x = Ok d /\ 0 <= d <= 49156 /\ 49156 - Z.abs e <= d.
Proof.
  intros x n e H E. destruct (rec_g_ok x H) as (d & m & G & D & L). exists d. split; [exact G|]. split; [lia|].
  assert (m <= n \/ m >= n + 1) by lia. lia.
Qed.

(** the point of the lattice that helprec4 chooses and its distance; h is 0 or 1 *)
Lemma helprec4_ok : forall a0 a1 a2 a3 rbit,
  0 <= a0 < 2^16 -> 0 <= a1 < 2^16 -> 0 <= a2 < 2^16 -> 0 <= a3 < 2^16 -> 0 <= rbit <= 1 ->
  exists t0 t1 t2 t3 h,
    helprec4 a0 a1 a2 a3 rbit = Ok ((t0 - t3) mod 4, (t1 - t3) mod 4, (t2 - t3) mod 4, (h + 2 * t3) mod 4) /\
    Z.abs (8 * a0 - 12289 * (2 * t0 + h)) + Z.abs (8 * a1 - 12289 * (2 * t1 + h)) + Z.abs (8 * a2 - 12289 * (2 * t2 + h)) +
    Z.abs (8 * a3 - 12289 * (2 * t3 + h)) <= 2 * 12289 + 16.
Proof.
  intros a0 a1 a2 a3 rbit H0 H1 H2 H3 Hr. unfold helprec4, PARAM_Q.
  assert (forall v d y, Z.abs (y + 4 * rbit - 2 * 12289 * v - 12289) = 12289 - d ->
    Z.abs (y - 12289 * (2 * v + 1)) <= 12289 - d + 4) as T1 by (clear - Hr; lia).
  assert (forall v d y, d = Z.abs (y + 4 * rbit - 2 * 12289 * v) -> Z.abs (y - 12289 * (2 * v + 0)) <= d + 4) as T0 by (clear - Hr; lia).
  destruct (rec_f_ok (8 * a0 + 4 * rbit) ltac:(lia)) as (v00 & v10 & d0 & -> & _ & _ & P0 & L0 & _ & Q0). cbn [obind].
  destruct (rec_f_ok (8 * a1 + 4 * rbit) ltac:(clear - H1 Hr; lia)) as (v01 & v11 & d1 & -> & _ & _ & P1 & L1 & _ & Q1). cbn [obind].
  destruct (rec_f_ok (8 * a2 + 4 * rbit) ltac:(clear - H2 Hr; lia)) as (v02 & v12 & d2 & -> & _ & _ & P2 & L2 & _ & Q2). cbn [obind].
  destruct (rec_f_ok (8 * a3 + 4 * rbit) ltac:(clear - H3 Hr; lia)) as (v03 & v13 & d3 & -> & _ & _ & P3 & L3 & _ & Q3). cbn [obind].
  assert (0 <= d0) as N0 by (clear - P0; lia). assert (0 <= d1) as N1 by (clear - P1; lia).
  assert (0 <= d2) as N2 by (clear - P2; lia). assert (0 <= d3) as N3 by (clear - P3; lia).
  pose proof (T1 _ _ _ Q0) as U0. pose proof (T1 _ _ _ Q1) as U1. pose proof (T1 _ _ _ Q2) as U2. pose proof (T1 _ _ _ Q3) as U3.
  pose proof (T0 _ _ _ P0) as W0. pose proof (T0 _ _ _ P1) as W1. pose proof (T0 _ _ _ P2) as W2. pose proof (T0 _ _ _ P3) as W3.
  clear T0 T1 P0 P1 P2 P3 Q0 Q1 Q2 Q3 H0 H1 H2 H3 Hr.
  do 4 (rewrite s32_ok by (clear U0 U1 U2 U3 W0 W1 W2 W3; lia); cbn [obind]).
  rewrite sign_mask by (clear U0 U1 U2 U3 W0 W1 W2 W3; lia). rewrite !land_3.
  destruct (2 * 12289 - 1 - (d0 + d1 + d2 + d3) <? 0) eqn:E.
  - change (Z.lnot (-1)) with 0. rewrite !Z.land_0_l, !Z.lxor_0_l, !Z.land_m1_l.
    exists v10, v11, v12, v13, 1. split; [reflexivity|]. clear W0 W1 W2 W3.
    apply Z.ltb_lt in E. revert U0 U1 U2 U3.
    generalize (Z.abs (8 * a0 - 12289 * (2 * v10 + 1))), (Z.abs (8 * a1 - 12289 * (2 * v11 + 1))),
      (Z.abs (8 * a2 - 12289 * (2 * v12 + 1))), (Z.abs (8 * a3 - 12289 * (2 * v13 + 1))). intros. lia.
  - change (Z.lnot 0) with (-1). rewrite !Z.land_0_l, !Z.lxor_0_r, !Z.land_m1_l.
    exists v00, v01, v02, v03, 0. split; [reflexivity|]. clear U0 U1 U2 U3.
    apply Z.ltb_ge in E. revert W0 W1 W2 W3.
    generalize (Z.abs (8 * a0 - 12289 * (2 * v00 + 0))), (Z.abs (8 * a1 - 12289 * (2 * v01 + 0))),
      (Z.abs (8 * a2 - 12289 * (2 * v02 + 0))), (Z.abs (8 * a3 - 12289 * (2 * v03 + 0))). intros. lia.
Qed.
(** a bit of the key, from coefficients at a small distance *)
Lemma rec4_ok : forall t0 t1 t2 t3 h a0 a1 a2 a3 e0 e1 e2 e3 n0 n1 n2 n3,
  0 <= a0 < 2^16 -> 0 <= a1 < 2^16 -> 0 <= a2 < 2^16 -> 0 <= a3 < 2^16 ->
  8 * a0 = 12289 * (2 * t0 + h) + e0 + n0 * 98312 -> 8 * a1 = 12289 * (2 * t1 + h) + e1 + n1 * 98312 ->
  8 * a2 = 12289 * (2 * t2 + h) + e2 + n2 * 98312 -> 8 * a3 = 12289 * (2 * t3 + h) + e3 + n3 * 98312 ->
  Z.abs e0 + Z.abs e1 + Z.abs e2 + Z.abs e3 < 98312 ->
  rec4 a0 a1 a2 a3 ((t0 - t3) mod 4) ((t1 - t3) mod 4) ((t2 - t3) mod 4) ((h + 2 * t3) mod 4)
  = Ok (if Z.even ((h + 2 * t3) / 4) then 1 else 0).
Proof.
  intros t0 t1 t2 t3 h a0 a1 a2 a3 e0 e1 e2 e3 n0 n1 n2 n3 A0 A1 A2 A3 E0 E1 E2 E3 S.
  unfold rec4, PARAM_Q.
  pose proof (Z.div_mod (t0 - t3) 4 ltac:(lia)) as D0. pose proof (Z.mod_pos_bound (t0 - t3) 4 ltac:(lia)) as B0.
  pose proof (Z.div_mod (t1 - t3) 4 ltac:(lia)) as D1. pose proof (Z.mod_pos_bound (t1 - t3) 4 ltac:(lia)) as B1.
  pose proof (Z.div_mod (t2 - t3) 4 ltac:(lia)) as D2. pose proof (Z.mod_pos_bound (t2 - t3) 4 ltac:(lia)) as B2.
  pose proof (Z.div_mod (h + 2 * t3) 4 ltac:(lia)) as D3. pose proof (Z.mod_pos_bound (h + 2 * t3) 4 ltac:(lia)) as B3.
  set (c0 := (t0 - t3) mod 4) in *. set (c1 := (t1 - t3) mod 4) in *. set (c2 := (t2 - t3) mod 4) in *. set (c3 := (h + 2 * t3) mod 4) in *.
  set (k0 := (t0 - t3) / 4) in *. set (k1 := (t1 - t3) / 4) in *. set (k2 := (t2 - t3) / 4) in *. set (b := (h + 2 * t3) / 4) in *.
  clearbody c0 c1 c2 c3 k0 k1 k2 b.
  do 4 (rewrite s32_ok by lia; cbn [obind]). unfold LDDecode, PARAM_Q.
  set (x0 := 16 * 12289 + 8 * a0 - 12289 * (2 * c0 + c3)). set (x1 := 16 * 12289 + 8 * a1 - 12289 * (2 * c1 + c3)).
  set (x2 := 16 * 12289 + 8 * a2 - 12289 * (2 * c2 + c3)). set (x3 := 16 * 12289 + 8 * a3 - 12289 * c3).
  assert (0 <= x0 <= 720904) as X0 by (unfold x0; lia). assert (0 <= x1 <= 720904) as X1 by (unfold x1; lia).
  assert (0 <= x2 <= 720904) as X2 by (unfold x2; lia). assert (0 <= x3 <= 720904) as X3 by (unfold x3; lia).
  destruct (Z.even b) eqn:P.
  - apply Z.even_spec in P. destruct P as [j P].
    destruct (rec_g_near x0 (2 + n0 + k0 + j) e0 X0 ltac:(unfold x0; lia)) as (d0 & -> & R0 & L0). cbn [obind].
    destruct (rec_g_near x1 (2 + n1 + k1 + j) e1 X1 ltac:(unfold x1; lia)) as (d1 & -> & R1 & L1). cbn [obind]. rewrite s32_ok by lia. cbn [obind].
    destruct (rec_g_near x2 (2 + n2 + k2 + j) e2 X2 ltac:(unfold x2; lia)) as (d2 & -> & R2 & L2). cbn [obind]. rewrite s32_ok by lia. cbn [obind].
    destruct (rec_g_near x3 (2 + n3 + j) e3 X3 ltac:(unfold x3; lia)) as (d3 & -> & R3 & L3). cbn [obind]. rewrite s32_ok by lia. cbn [obind].
    rewrite s32_ok by lia. cbn [obind]. rewrite sign_mask by lia.
    replace (d0 + d1 + d2 + d3 - 8 * 12289 <? 0) with true by (clear - S L0 L1 L2 L3; lia). reflexivity.
  - assert (Z.odd b = true) as P' by (rewrite <- Z.negb_even, P; reflexivity). apply Z.odd_spec in P'. destruct P' as [j P'].
    destruct (rec_g_far x0 (2 + n0 + k0 + j) e0 X0 ltac:(unfold x0; lia)) as (d0 & -> & R0 & L0). cbn [obind].
    destruct (rec_g_far x1 (2 + n1 + k1 + j) e1 X1 ltac:(unfold x1; lia)) as (d1 & -> & R1 & L1). cbn [obind]. rewrite s32_ok by lia. cbn [obind].
    destruct (rec_g_far x2 (2 + n2 + k2 + j) e2 X2 ltac:(unfold x2; lia)) as (d2 & -> & R2 & L2). cbn [obind]. rewrite s32_ok by lia. cbn [obind].
    destruct (rec_g_far x3 (2 + n3 + j) e3 X3 ltac:(unfold x3; lia)) as (d3 & -> & R3 & L3). cbn [obind]. rewrite s32_ok by lia. cbn [obind].
    rewrite s32_ok by lia. cbn [obind]. rewrite sign_mask by lia.
    replace (d0 + d1 + d2 + d3 - 8 * 12289 <? 0) with false by (clear - S L0 L1 L2 L3; lia). reflexivity.
Qed.

(** ** Whole polynomials *)
Lemma q_mod_range : forall x, 0 <= x mod 12289 < 2^14.
Proof. intros x. pose proof (Z.mod_pos_bound x 12289 ltac:(lia)). lia. Qed.
Lemma tobytes_ok : forall k p l, zlen p = 4 * Z.of_nat k -> Forall (fun x => 0 <= x < 2^16) p ->
  zlen (poly_tobytes p) = 7 * Z.of_nat k /\ bytes (poly_tobytes p) /\
  poly_frombytes (poly_tobytes p ++ l) = map (fun x => x mod 12289) p ++ poly_frombytes l.
Proof.
  induction k as [|k IH]; intros p l L F.
  - assert (p = []) as -> by (apply zlen_0_nil; lia). split; [reflexivity|]. split; [constructor|reflexivity].
  - do 4 (destruct p as [|? p]; [repeat rewrite zlen_cons in L; change (zlen (@nil Z)) with 0 in L; lia|]).
    rewrite !zlen_cons in L. repeat match goal with H : Forall _ (_ :: _) |- _ => inversion H; clear H; subst end.
    cbn [poly_tobytes map app]. rewrite !canonical by assumption.
    destruct (IH p l ltac:(lia) ltac:(assumption)) as (L1 & B1 & R1).
    split; [rewrite zlen_app, L1; change (zlen (tobytes4 _ _ _ _)) with 7; lia|].
    split; [apply bytes_app; split; [apply bytes7; apply q_mod_range|exact B1]|].
    rewrite <- app_assoc, group_roundtrip by apply q_mod_range. now rewrite R1.
Qed.
Lemma tobytes_cong : forall p p', Forall2 (fun x y => 0 <= x < 2^16 /\ 0 <= y < 2^16 /\ cong_q x y) p p' ->
  poly_tobytes p = poly_tobytes p'.
Proof.
  intros p p' H. assert (map (fun x => csubq (barrett_reduce x)) p = map (fun x => csubq (barrett_reduce x)) p') as E.
  { induction H as [|x y p p' (X & Y & k & E) H IH]; [reflexivity|]. cbn [map]. rewrite IH. f_equal.
    rewrite !canonical by assumption. rewrite E. unfold newhope_q. apply Z_mod_plus_full. }
  assert (forall n a b, (length a <= n)%nat -> map (fun x => csubq (barrett_reduce x)) a = map (fun x => csubq (barrett_reduce x)) b ->
    poly_tobytes a = poly_tobytes b) as T; [|eapply T; [apply le_n|exact E]].
  clear. induction n as [|n IH]; intros a b L E.
  - destruct a; [|cbn in L; lia]. destruct b; [reflexivity|discriminate].
  - do 4 (destruct a as [|? a]; [repeat (destruct b as [|? b]; try reflexivity; try discriminate)|];
          destruct b as [|? b]; [discriminate|]).
    cbn [map] in E. injection E as E0 E1 E2 E3 E. cbn [poly_tobytes]. rewrite E0, E1, E2, E3. f_equal.
    apply IH; [cbn [length] in L; lia|exact E].
Qed.
Lemma encode_c_ok : forall k c, zlen c = 4 * Z.of_nat k -> Forall (fun x => 0 <= x < 4) c ->
  zlen (encode_c c) = Z.of_nat k /\ bytes (encode_c c) /\ decode_c (encode_c c) = c.
Proof.
  induction k as [|k IH]; intros c L F.
  - assert (c = []) as -> by (apply zlen_0_nil; lia). split; [reflexivity|]. split; [constructor|reflexivity].
  - do 4 (destruct c as [|? c]; [repeat rewrite zlen_cons in L; change (zlen (@nil Z)) with 0 in L; lia|]).
    rewrite !zlen_cons in L. repeat match goal with H : Forall _ (_ :: _) |- _ => inversion H; clear H; subst end.
    cbn [encode_c decode_c]. destruct (IH c ltac:(lia) ltac:(assumption)) as (L1 & B1 & R1).
    unfold u8. rewrite (lor_high z z0 2), (lor_high _ z1 4), (lor_high _ z2 6) by lia.
    rewrite Z.mod_small by lia.
    split; [rewrite zlen_cons, L1; lia|]. split; [constructor; [unfold is_byte; lia|exact B1]|].
    rewrite R1, !land_3, !Z.shiftr_div_pow2 by lia. f_equal; [lia|]. f_equal; [lia|]. f_equal; [lia|]. f_equal. lia.
Qed.
Lemma encode_b_ok : forall b c, zlen b = 1024 -> Forall (fun x => 0 <= x < 2^16) b -> zlen c = 1024 -> Forall (fun x => 0 <= x < 4) c ->
  zlen (encode_b b c) = 2048 /\ bytes (encode_b b c) /\ decode_b (encode_b b c) = (map (fun x => x mod 12289) b, c).
Proof.
  intros b c Lb Fb Lc Fc. destruct (tobytes_ok 256 b [] ltac:(lia) Fb) as (L1 & B1 & R1). change (7 * Z.of_nat 256) with 1792 in L1.
  destruct (encode_c_ok 256 c ltac:(lia) Fc) as (L2 & B2 & R2). change (Z.of_nat 256) with 256 in L2.
  unfold encode_b, decode_b. split; [rewrite zlen_app; lia|]. split; [now apply bytes_app|].
  rewrite <- L1, take_app_exact, drop_app_exact, R2. rewrite app_nil_r in R1. rewrite R1. cbn [poly_frombytes]. now rewrite app_nil_r.
Qed.

Lemma pointwise1_ok : forall a b, 0 <= a < 2^16 -> 0 <= b < 2^16 ->
  exists r, pointwise1 a b = Ok r /\ 0 <= r < 2^14 /\ cong_q r (a * b).
Proof.
  intros a b Ha Hb. unfold pointwise1. rewrite s32_ok by lia. cbn [obind].
  assert (forall x, 0 <= x < 2^32 -> u32 x = x) as U by (intros; apply Z.mod_small; lia).
  rewrite (U (3186 * b)) by lia.
  destruct (montgomery_ok (3186 * b) ltac:(lia)) as (N1 & U1 & k1 & E1).
  set (t := montgomery_reduce (3186 * b)) in *. clearbody t. assert (0 <= t <= 13086) as Ht by lia.
  pose proof (mul_range a t 65535 13086 ltac:(lia) Ht) as M.
  rewrite s32_ok by lia. cbn [obind]. rewrite (U (a * t)) by lia. clear U.
  destruct (montgomery_ok (a * t) ltac:(lia)) as (N2 & U2 & k2 & E2).
  eexists. split; [reflexivity|]. split; [lia|].
  set (r := montgomery_reduce (a * t)) in *. clearbody r.
  (* 2^36 is 3186 modulo q; its inverse is 12262 *)
  assert (2^36 * r = 3186 * (a * b) + (a * k1 + 2^18 * k2) * 12289) as V.
  { replace (2^36 * r) with (2^18 * (r * 2^18)) by lia. rewrite E2.
    replace (2^18 * (a * t + k2 * 12289)) with (a * (t * 2^18) + 2^18 * k2 * 12289) by ring. rewrite E1. ring. }
  unfold cong_q, newhope_q.
  generalize dependent (a * k1 + 2^18 * k2). generalize dependent (a * b). clear. intros y K V.
  exists (3179 * y + 12262 * K - 68568494079 * r). lia.
Qed.
Lemma pointwise_ok : forall a b, Forall (fun x => 0 <= x < 2^16) a -> Forall (fun x => 0 <= x < 2^16) b -> zlen a = zlen b ->
  exists r, poly_pointwise a b = Ok r /\ zlen r = zlen a /\ Forall (fun x => 0 <= x < 2^14) r /\
    forall i, (i < length a)%nat -> cong_q (nth i r 0) (nth i a 0 * nth i b 0).
Proof.
  intros a b Fa. revert b. induction Fa as [|x a Hx Fa IH]; intros b Fb L.
  - exists []. split; [destruct b; reflexivity|]. split; [reflexivity|]. split; [constructor|]. intros i Hi. cbn in Hi. lia.
  - destruct b as [|y b]; [rewrite zlen_cons in L; change (zlen (@nil Z)) with 0 in L; pose proof (zlen_nonneg Z a); lia|].
    inversion Fb; subst. rewrite !zlen_cons in L.
    destruct (pointwise1_ok x y Hx ltac:(assumption)) as (r & E & R & C).
    destruct (IH b ltac:(assumption) ltac:(lia)) as (rs & Es & Ls & Rs & Cs).
    exists (r :: rs). cbn [poly_pointwise]. rewrite E. cbn [obind]. rewrite Es. cbn [obind].
    split; [reflexivity|]. split; [rewrite !zlen_cons; lia|]. split; [now constructor|].
    intros [|i] Hi; cbn [nth]; [exact C|apply Cs; cbn in Hi; lia].
Qed.
Lemma add_ok : forall a b, Forall (fun x => 0 <= x < 2^15) a -> Forall (fun x => 0 <= x < 2^15) b -> zlen a = zlen b ->
  zlen (poly_add a b) = zlen a /\ Forall (fun x => 0 <= x < 2^14) (poly_add a b) /\
    forall i, (i < length a)%nat -> cong_q (nth i (poly_add a b) 0) (nth i a 0 + nth i b 0).
Proof.
  intros a b Fa. revert b. induction Fa as [|x a Hx Fa IH]; intros b Fb L.
  - split; [reflexivity|]. split; [constructor|]. intros i Hi. cbn in Hi. lia.
  - destruct b as [|y b]; [rewrite zlen_cons in L; change (zlen (@nil Z)) with 0 in L; pose proof (zlen_nonneg Z a); lia|].
    inversion Fb; subst. rewrite !zlen_cons in L.
    destruct (barrett_ok (x + y) ltac:(lia)) as [R C]. destruct (IH b ltac:(assumption) ltac:(lia)) as (Ls & Rs & Cs).
    cbn [poly_add]. split; [rewrite !zlen_cons; lia|]. split; [constructor; [lia|exact Rs]|].
    intros [|i] Hi; cbn [nth]; [exact C|apply Cs; cbn in Hi; lia].
Qed.

(** ** Noise *)
Lemma low_bits : forall t j, 0 <= j -> Z.land (Z.shiftr t j) 0x01010101 =
  Z.b2z (Z.testbit t j) + Z.b2z (Z.testbit t (j + 8)) * 2^8 + Z.b2z (Z.testbit t (j + 16)) * 2^16 + Z.b2z (Z.testbit t (j + 24)) * 2^24.
Proof.
  intros t j Hj. rewrite !Z.testbit_spec' by lia. rewrite !Z.pow_add_r by lia. rewrite <- !Z.div_div by lia.
  rewrite Z.shiftr_div_pow2 by lia. generalize (t / 2^j). clear. intros y.
  rewrite (land_div_mod y 0x01010101 8) by lia. change (0x01010101 mod 2^8) with 1. change (0x01010101 / 2^8) with 0x010101.
  rewrite (land_div_mod (y / 2^8) 0x010101 8) by lia. change (0x010101 mod 2^8) with 1. change (0x010101 / 2^8) with 0x0101.
  rewrite (land_div_mod (y / 2^8 / 2^8) 0x0101 8) by lia. change (0x0101 mod 2^8) with 1. change (0x0101 / 2^8) with 1.
  rewrite !land_1. rewrite !Z.div_div by lia. change (2^8 * 2^8) with (2^16). change (2^16 * 2^8) with (2^24).
  assert (forall x, (x mod 2^8) mod 2 = x mod 2) as M.
  { intros x. symmetry. apply Znumtheory.Zmod_div_mod; [lia|lia|]. exists 128. reflexivity. }
  rewrite !M. ring.
Qed.
Definition count_bits (t k : Z) (l : list nat) : Z := fold_right Z.add 0 (map (fun j => Z.b2z (Z.testbit t (Z.of_nat j + k))) l).
Lemma count_bits_range : forall t k l, 0 <= count_bits t k l <= Z.of_nat (length l).
Proof.
  intros t k l. unfold count_bits. induction l as [|j l IH]; [cbn; lia|]. cbn [map fold_right length].
  unfold Z.b2z at 1 3. destruct (Z.testbit _ _); lia.
Qed.
Lemma counters : forall t l a0 a1 a2 a3,
  0 <= a0 -> 0 <= a1 -> 0 <= a2 -> 0 <= a3 ->
  a0 + Z.of_nat (length l) <= 255 -> a1 + Z.of_nat (length l) <= 255 -> a2 + Z.of_nat (length l) <= 255 -> a3 + Z.of_nat (length l) <= 255 ->
  fold_left (fun d j => u32 (d + Z.land (Z.shiftr t (Z.of_nat j)) 0x01010101)) l (a0 + a1 * 2^8 + a2 * 2^16 + a3 * 2^24)
  = (a0 + count_bits t 0 l) + (a1 + count_bits t 8 l) * 2^8 + (a2 + count_bits t 16 l) * 2^16 + (a3 + count_bits t 24 l) * 2^24.
Proof.
  intros t l. induction l as [|j l IH]; intros a0 a1 a2 a3 A0 A1 A2 A3 B0 B1 B2 B3; [cbn [fold_left]; unfold count_bits; cbn [map fold_right]; lia|].
  cbn [fold_left]. rewrite low_bits by lia. unfold count_bits. cbn [map fold_right]. fold (count_bits t 0 l) (count_bits t 8 l) (count_bits t 16 l) (count_bits t 24 l).
  rewrite Z.add_0_r. cbn [length] in *.
  assert (forall i, 0 <= Z.b2z (Z.testbit t i) <= 1) as Bz by (intros i; destruct (Z.testbit t i); cbn; lia).
  pose proof (Bz (Z.of_nat j)). pose proof (Bz (Z.of_nat j + 8)). pose proof (Bz (Z.of_nat j + 16)). pose proof (Bz (Z.of_nat j + 24)).
  generalize dependent (Z.b2z (Z.testbit t (Z.of_nat j))). generalize dependent (Z.b2z (Z.testbit t (Z.of_nat j + 8))).
  generalize dependent (Z.b2z (Z.testbit t (Z.of_nat j + 16))). generalize dependent (Z.b2z (Z.testbit t (Z.of_nat j + 24))).
  clear Bz. intros x3 X3 x2 X2 x1 X1 x0 X0. unfold u32. rewrite Z.mod_small by lia.
  replace (a0 + a1 * 2^8 + a2 * 2^16 + a3 * 2^24 + (x0 + x1 * 2^8 + x2 * 2^16 + x3 * 2^24))
    with ((a0 + x0) + (a1 + x1) * 2^8 + (a2 + x2) * 2^16 + (a3 + x3) * 2^24) by ring.
  rewrite IH by lia. ring.
Qed.
Lemma getnoise1_ok : forall t, getnoise1 t = 12289 + ones_in t 0 16 - ones_in t 16 16 /\
  12289 - 16 <= getnoise1 t <= 12289 + 16.
Proof.
  intros t. assert (ones_in t 0 16 = count_bits t 0 (seq 0 8) + count_bits t 8 (seq 0 8)) as ->.
  { unfold ones_in, count_bits. cbn [seq map fold_right]. 
    repeat match goal with |- context [Z.testbit t ?i] => let n := eval vm_compute in i in progress change i with n end. ring. }
  assert (ones_in t 16 16 = count_bits t 16 (seq 0 8) + count_bits t 24 (seq 0 8)) as ->.
  { unfold ones_in, count_bits. cbn [seq map fold_right]. 
    repeat match goal with |- context [Z.testbit t ?i] => let n := eval vm_compute in i in progress change i with n end. ring. }
  unfold getnoise1, PARAM_Q.
  pose proof (counters t (seq 0 8) 0 0 0 0) as C. cbn [length seq] in C. change (0 + 0 * 2^8 + 0 * 2^16 + 0 * 2^24) with 0 in C.
  change (seq 0 8) with [0; 1; 2; 3; 4; 5; 6; 7]%nat. rewrite C by lia. clear C.
  pose proof (count_bits_range t 0 [0; 1; 2; 3; 4; 5; 6; 7]%nat). pose proof (count_bits_range t 8 [0; 1; 2; 3; 4; 5; 6; 7]%nat).
  pose proof (count_bits_range t 16 [0; 1; 2; 3; 4; 5; 6; 7]%nat). pose proof (count_bits_range t 24 [0; 1; 2; 3; 4; 5; 6; 7]%nat).
  generalize dependent (count_bits t 0 [0; 1; 2; 3; 4; 5; 6; 7]%nat). generalize dependent (count_bits t 8 [0; 1; 2; 3; 4; 5; 6; 7]%nat).
  generalize dependent (count_bits t 16 [0; 1; 2; 3; 4; 5; 6; 7]%nat). generalize dependent (count_bits t 24 [0; 1; 2; 3; 4; 5; 6; 7]%nat).
  cbn [length]. intros x3 X3 x2 X2 x1 X1 x0 X0. rewrite !Z.add_0_l. change 0xff with (Z.ones 8). 
  rewrite !Z.land_ones, !Z.shiftr_div_pow2 by lia.
  assert ((x0 + x1 * 2^8 + x2 * 2^16 + x3 * 2^24) / 2^8 = x1 + x2 * 2^8 + x3 * 2^16) as ->
    by (symmetry; apply Z.div_unique with x0; lia).
  assert ((x0 + x1 * 2^8 + x2 * 2^16 + x3 * 2^24) / 2^16 = x2 + x3 * 2^8) as ->
    by (symmetry; apply Z.div_unique with (x0 + x1 * 2^8); lia).
  assert ((x0 + x1 * 2^8 + x2 * 2^16 + x3 * 2^24) / 2^24 = x3) as ->
    by (symmetry; apply Z.div_unique with (x0 + x1 * 2^8 + x2 * 2^16); lia).
  assert ((x1 + x2 * 2^8 + x3 * 2^16) mod 2^8 = x1) as -> by (symmetry; apply Z.mod_unique with (x2 + x3 * 2^8); lia).
  assert ((x0 + x1 * 2^8 + x2 * 2^16 + x3 * 2^24) mod 2^8 = x0) as -> by (symmetry; apply Z.mod_unique with (x1 + x2 * 2^8 + x3 * 2^16); lia).
  assert ((x2 + x3 * 2^8) mod 2^8 = x2) as -> by (symmetry; apply Z.mod_unique with x3; lia).
  unfold u16, u32. rewrite (Z.mod_small (_ - _)) by lia. rewrite Z.mod_small by lia. lia.
Qed.

(** ** All the bits of the key *)
Lemma each_ok : forall A (f : nat -> outcome A) (P : nat -> A -> Prop) l,
  (forall i, In i l -> exists x, f i = Ok x /\ P i x) -> exists xs, each f l = Ok xs /\ Forall2 P l xs.
Proof.
  intros A f P l. induction l as [|i l IH]; intros H; [exists []; split; [reflexivity|constructor]|].
  destruct (H i (or_introl eq_refl)) as (x & E & Px). destruct IH as (xs & Es & Fs); [intros j Hj; apply H; now right|].
  exists (x :: xs). cbn [each]. rewrite E. cbn [obind]. rewrite Es. split; [reflexivity|]. now constructor.
Qed.
Lemma each_ext : forall A (f g : nat -> outcome A) l, (forall i, In i l -> f i = g i) -> each f l = each g l.
Proof.
  intros A f g l. induction l as [|i l IH]; intros H; [reflexivity|]. cbn [each]. rewrite (H i (or_introl eq_refl)).
  rewrite IH; [reflexivity|]. intros j Hj. apply H. now right.
Qed.
Lemma forall2_seq : forall A (P : nat -> A -> Prop) d n xs k, Forall2 P (seq k n) xs ->
  length xs = n /\ forall i, (i < n)%nat -> P (k + i)%nat (nth i xs d).
Proof.
  intros A P d n. induction n as [|n IH]; intros xs k H; cbn [seq] in H; inversion H; subst.
  - split; [reflexivity|]. intros i Hi. lia.
  - destruct (IH _ _ H4) as [L N]. split; [cbn; lia|]. intros [|i] Hi; cbn [nth].
    + now rewrite Nat.add_0_r.
    + rewrite <- Nat.add_succ_comm. apply N. lia.
Qed.
Lemma nth_quarters : forall (a b c d : list Z) i, (i < 256)%nat -> length a = 256%nat -> length b = 256%nat -> length c = 256%nat ->
  nth i (a ++ b ++ c ++ d) 0 = nth i a 0 /\ nth (256 + i) (a ++ b ++ c ++ d) 0 = nth i b 0 /\
  nth (512 + i) (a ++ b ++ c ++ d) 0 = nth i c 0 /\ nth (768 + i) (a ++ b ++ c ++ d) 0 = nth i d 0.
Proof.
  intros a b c d i Hi La Lb Lc. split; [rewrite app_nth1 by lia; reflexivity|].
  split; [rewrite app_nth2, app_nth1 by lia; f_equal; lia|].
  split; [rewrite app_nth2, app_nth2, app_nth1 by lia; f_equal; lia|].
  rewrite app_nth2, app_nth2, app_nth2 by lia. f_equal. lia.
Qed.
Lemma pack_bits_ok : forall k l, length l = (8 * k)%nat -> Forall (fun b => b = 0 \/ b = 1) l ->
  zlen (pack_bits l) = Z.of_nat k /\ bytes (pack_bits l).
Proof.
  induction k as [|k IH]; intros l L F; [destruct l; [split; [reflexivity|constructor]|cbn in L; lia]|].
  do 8 (destruct l as [|? l]; [cbn in L; lia|]).
  repeat match goal with H : Forall _ (_ :: _) |- _ => inversion H; clear H; subst end.
  cbn [pack_bits]. destruct (IH l) as [L1 B1]; [cbn in L; lia|assumption|].
  split; [rewrite zlen_cons, L1; lia|]. constructor; [|exact B1].
  repeat match goal with H : _ = 0 \/ _ = 1 |- _ => destruct H; subst end; vm_compute; split; congruence.
Qed.
Lemma nth_in : forall p i, coefficients p -> (i < 1024)%nat -> 0 <= nth i p 0 < 2^16.
Proof.
  intros p i [L F] Hi. rewrite Forall_forall in F. apply F. apply nth_In. unfold zlen in L. lia.
Qed.
Local Notation quad := (Z * Z * Z * Z)%type.
Definition q1 (c : quad) : Z := let '(x, _, _, _) := c in x.
Definition q2 (c : quad) : Z := let '(_, x, _, _) := c in x.
Definition q3 (c : quad) : Z := let '(_, _, x, _) := c in x.
Definition q4 (c : quad) : Z := let '(_, _, _, x) := c in x.
(* what is known of four coefficients of the help data *)
Definition helps (v : list Z) (i : nat) (c : quad) : Prop :=
  exists t0 t1 t2 t3 h, c = ((t0 - t3) mod 4, (t1 - t3) mod 4, (t2 - t3) mod 4, (h + 2 * t3) mod 4) /\
    Z.abs (8 * nth i v 0 - 12289 * (2 * t0 + h)) + Z.abs (8 * nth (256 + i) v 0 - 12289 * (2 * t1 + h)) +
    Z.abs (8 * nth (512 + i) v 0 - 12289 * (2 * t2 + h)) + Z.abs (8 * nth (768 + i) v 0 - 12289 * (2 * t3 + h)) <= 2 * 12289 + 16.
Lemma helprec_ok : forall v rand, coefficients v -> exists c, helprec v rand = Ok c /\ zlen c = 1024 /\ Forall (fun x => 0 <= x < 4) c /\
  forall i, (i < 256)%nat -> helps v i (nth i c 0, nth (256 + i) c 0, nth (512 + i) c 0, nth (768 + i) c 0).
Proof.
  intros v rand Hv. unfold helprec.
  edestruct (each_ok quad) with (P := helps v) (l := seq 0 256) as (xs & E & F).
  2: { rewrite E. cbn [obind]. clear E. destruct (forall2_seq _ _ (0, 0, 0, 0) _ _ _ F) as [L N].
    change (fun '(c0, _, _, _) => c0) with q1. change (fun '(_, c1, _, _) => c1) with q2.
    change (fun '(_, _, c2, _) => c2) with q3. change (fun '(_, _, _, c3) => c3) with q4.
    exists (map q1 xs ++ map q2 xs ++ map q3 xs ++ map q4 xs).
    split; [reflexivity|]. split; [unfold zlen; rewrite !app_length, !map_length, L; reflexivity|].
    assert (Forall (fun c => 0 <= q1 c < 4 /\ 0 <= q2 c < 4 /\ 0 <= q3 c < 4 /\ 0 <= q4 c < 4) xs) as R.
    { clear - F. induction F as [|i c l xs (t0 & t1 & t2 & t3 & h & -> & _) F IH]; constructor; [|exact IH].
      cbn [q1 q2 q3 q4]. repeat split; apply Z.mod_pos_bound; lia. }
    split.
    - rewrite Forall_forall in R. repeat (apply Forall_app; split); apply Forall_forall; intros x Hx; apply in_map_iff in Hx;
      destruct Hx as (y & <- & Hy); apply R in Hy; apply Hy.
    - intros i Hi. specialize (N i Hi). rewrite Nat.add_0_l in N.
      destruct (nth_quarters (map q1 xs) (map q2 xs) (map q3 xs) (map q4 xs) i Hi) as (-> & -> & -> & ->); rewrite ?map_length; auto.
      rewrite (map_nth q1 xs (0, 0, 0, 0) i : nth i (map q1 xs) 0 = _), (map_nth q2 xs (0, 0, 0, 0) i : nth i (map q2 xs) 0 = _),
        (map_nth q3 xs (0, 0, 0, 0) i : nth i (map q3 xs) 0 = _), (map_nth q4 xs (0, 0, 0, 0) i : nth i (map q4 xs) 0 = _).
      destruct (nth i xs (0, 0, 0, 0)) as [[[? ?] ?] ?]. exact N. }
  intros i Hi. apply in_seq in Hi. unfold coeff.
  destruct (helprec4_ok (nth i v 0) (nth (256 + i) v 0) (nth (512 + i) v 0) (nth (768 + i) v 0)
    (Z.land (Z.shiftr (nth (i / 8) rand 0) (Z.of_nat (i mod 8))) 1)) as (t0 & t1 & t2 & t3 & h & E & D);
    try (apply nth_in; [exact Hv|lia]); [rewrite land_1; pose proof (Z.mod_pos_bound (Z.shiftr (nth (i / 8) rand 0) (Z.of_nat (i mod 8))) 2); lia|].
  eexists. split; [exact E|]. do 5 eexists. split; [reflexivity|exact D].
Qed.

Lemma rec_ok : forall v v' e c, coefficients v -> coefficients v' -> difference v v' e -> small_noise e ->
  (forall i, (i < 256)%nat -> helps v i (nth i c 0, nth (256 + i) c 0, nth (512 + i) c 0, nth (768 + i) c 0)) ->
  exists key, rec v c = Ok key /\ rec v' c = Ok key /\ zlen key = 32 /\ bytes key.
Proof.
  intros v v' e c Hv Hv' [Le D] S H. unfold rec.
  edestruct (each_ok Z) with (P := fun i b => rec4 (coeff v i) (coeff v (256 + i)) (coeff v (512 + i)) (coeff v (768 + i))
         (coeff c i) (coeff c (256 + i)) (coeff c (512 + i)) (coeff c (768 + i)) = Ok b /\
      rec4 (coeff v' i) (coeff v' (256 + i)) (coeff v' (512 + i)) (coeff v' (768 + i))
         (coeff c i) (coeff c (256 + i)) (coeff c (512 + i)) (coeff c (768 + i)) = Ok b /\ (b = 0 \/ b = 1)) (l := seq 0 256) as (bits & E & F).
  2: { rewrite E. cbn [obind]. exists (pack_bits bits). split; [reflexivity|].
    assert (length bits = (8 * 32)%nat /\ Forall (fun b => b = 0 \/ b = 1) bits) as [L B].
    { split; [exact (proj1 (forall2_seq _ _ 0 _ _ _ F))|].
      clear - F. induction F as [|? ? ? ? (_ & _ & ?)]; constructor; assumption. }
    split; [|apply (pack_bits_ok 32 bits L B)].
    assert (each (fun i => rec4 (coeff v' i) (coeff v' (256 + i)) (coeff v' (512 + i)) (coeff v' (768 + i))
         (coeff c i) (coeff c (256 + i)) (coeff c (512 + i)) (coeff c (768 + i))) (seq 0 256) = Ok bits) as ->; [|reflexivity].
    clear - F. induction F as [|? ? ? ? (_ & E & _) F IH]; [reflexivity|]. cbn [each]. rewrite E. cbn [obind]. now rewrite IH. }
  intros i Hi. apply in_seq in Hi.
  assert ((i < 1024)%nat /\ (256 + i < 1024)%nat /\ (512 + i < 1024)%nat /\ (768 + i < 1024)%nat) as (I0 & I1 & I2 & I3) by (clear - Hi; lia).
  assert (i < 256)%nat as I by (clear - Hi; lia). clear Hi.
  destruct (H i I) as (t0 & t1 & t2 & t3 & h & E & A). unfold coeff. 
  rewrite (f_equal q1 E : nth i c 0 = (t0 - t3) mod 4), (f_equal q2 E : nth (256 + i) c 0 = (t1 - t3) mod 4),
    (f_equal q3 E : nth (512 + i) c 0 = (t2 - t3) mod 4), (f_equal q4 E : nth (768 + i) c 0 = (h + 2 * t3) mod 4).
  specialize (S i I). unfold newhope_q in S.
  destruct (D i I0) as (k0 & K0). destruct (D (256 + i)%nat I1) as (k1 & K1).
  destruct (D (512 + i)%nat I2) as (k2 & K2). destruct (D (768 + i)%nat I3) as (k3 & K3). unfold newhope_q in *.
  pose proof (nth_in v i Hv I0). pose proof (nth_in v (256 + i) Hv I1).
  pose proof (nth_in v (512 + i) Hv I2). pose proof (nth_in v (768 + i) Hv I3).
  pose proof (nth_in v' i Hv' I0). pose proof (nth_in v' (256 + i) Hv' I1).
  pose proof (nth_in v' (512 + i) Hv' I2). pose proof (nth_in v' (768 + i) Hv' I3).
  exists (if Z.even ((h + 2 * t3) / 4) then 1 else 0). match goal with |- ?P /\ _ => cut P; [intros PP; split; [exact PP|]; split; [exact PP|]; split; [clear PP|destruct (Z.even _); auto]|] end.
  2: { eapply (rec4_ok t0 t1 t2 t3 h) with (n0 := 0) (n1 := 0) (n2 := 0) (n3 := 0)
      (e0 := 8 * nth i v 0 - 12289 * (2 * t0 + h)) (e1 := 8 * nth (256 + i) v 0 - 12289 * (2 * t1 + h))
      (e2 := 8 * nth (512 + i) v 0 - 12289 * (2 * t2 + h)) (e3 := 8 * nth (768 + i) v 0 - 12289 * (2 * t3 + h)); try assumption; try ring.
    clear - A. lia. }
  eapply (rec4_ok t0 t1 t2 t3 h) with (a0 := nth i v' 0) (a1 := nth (256 + i) v' 0) (a2 := nth (512 + i) v' 0) (a3 := nth (768 + i) v' 0) (n0 := k0) (n1 := k1) (n2 := k2) (n3 := k3)
      (e0 := 8 * nth i v 0 - 12289 * (2 * t0 + h) + 8 * nth i e 0) (e1 := 8 * nth (256 + i) v 0 - 12289 * (2 * t1 + h) + 8 * nth (256 + i) e 0)
      (e2 := 8 * nth (512 + i) v 0 - 12289 * (2 * t2 + h) + 8 * nth (512 + i) e 0)
      (e3 := 8 * nth (768 + i) v 0 - 12289 * (2 * t3 + h) + 8 * nth (768 + i) e 0); try assumption.
    + rewrite K0. ring.
    + rewrite K1. ring.
    + rewrite K2. ring.
    + rewrite K3. ring.
    + clear - A S.
      pose proof (Z.abs_triangle (8 * nth i v 0 - 12289 * (2 * t0 + h)) (8 * nth i e 0)) as T0.
      pose proof (Z.abs_triangle (8 * nth (256 + i) v 0 - 12289 * (2 * t1 + h)) (8 * nth (256 + i) e 0)) as T1.
      pose proof (Z.abs_triangle (8 * nth (512 + i) v 0 - 12289 * (2 * t2 + h)) (8 * nth (512 + i) e 0)) as T2.
      pose proof (Z.abs_triangle (8 * nth (768 + i) v 0 - 12289 * (2 * t3 + h)) (8 * nth (768 + i) e 0)) as T3.
      rewrite (Z.abs_mul 8) in T0, T1, T2, T3. change (Z.abs 8) with 8 in *.
      repeat match goal with H : context [Z.abs ?x] |- _ => generalize dependent (Z.abs x) end. intros. lia.
Qed.

(** ** The bits of the key, exactly *)
Lemma rec_g_exact : forall x y, 0 <= x <= 720904 -> x = 16 * 12289 + y -> rec_g x = Ok (distance_8q y) /\ 0 <= distance_8q y <= 49156.
Proof.
  intros x y H E. destruct (rec_g_ok x H) as (d & m & -> & D & L). unfold distance_8q, newhope_q. change (8 * 12289) with 98312.
  pose proof (Z.div_mod y 98312 ltac:(lia)) as Dy. pose proof (Z.mod_pos_bound y 98312 ltac:(lia)) as By.
  generalize dependent (y mod 98312). generalize dependent (y / 98312). intros n r Dy By.
  split; [|lia]. f_equal. assert (m = n + 2 \/ m = n + 3 \/ m <= n + 1 \/ m >= n + 4) as M by lia. lia.
Qed.
Lemma pack_bits_at : forall k l i, length l = (8 * k)%nat -> Forall (fun b => b = 0 \/ b = 1) l -> (i < 8 * k)%nat ->
  bit_at (pack_bits l) i = (nth i l 0 =? 1).
Proof.
  induction k as [|k IH]; intros l i L F Hi; [lia|].
  do 8 (destruct l as [|? l]; [cbn in L; lia|]).
  repeat match goal with H : Forall _ (_ :: _) |- _ => inversion H; clear H; subst end.
  destruct (Nat.lt_ge_cases i 8) as [S|G].
  - unfold bit_at. rewrite (Nat.div_small i 8 S), (Nat.mod_small i 8 S). cbn [pack_bits nth].
    clear IH L Hi. repeat match goal with H : _ = 0 \/ _ = 1 |- _ => destruct H; subst end;
    do 8 (destruct i as [|i]; [reflexivity|]); lia.
  - assert (exists j, i = (8 + j)%nat) as [j ->] by (exists (i - 8)%nat; lia).
    specialize (IH l j ltac:(cbn in L; lia) ltac:(assumption) ltac:(lia)). cbn [nth Nat.add].
    rewrite <- IH. unfold bit_at. change (S (S (S (S (S (S (S (S j)))))))) with (8 + j)%nat.
    replace (8 + j)%nat with (j + 1 * 8)%nat by lia. rewrite Nat.div_add, Nat.mod_add by lia.
    replace (j / 8 + 1)%nat with (S (j / 8)) by lia. reflexivity.
Qed.
Lemma rec_exact : forall v c, coefficients v -> zlen c = 1024 -> Forall (fun x => 0 <= x < 4) c ->
  exists key, rec v c = Ok key /\ zlen key = 32 /\ bytes key /\ forall i, (i < 256)%nat -> bit_at key i = key_bit v c i.
Proof.
  intros v c Hv Lc Fc. unfold rec.
  assert (forall i, (i < 1024)%nat -> 0 <= nth i c 0 < 4) as Hc.
  { intros i Hi. rewrite Forall_forall in Fc. apply Fc. apply nth_In. unfold zlen in Lc. lia. }
  edestruct (each_ok Z) with (P := fun i b => b = if key_bit v c i then 1 else 0) (l := seq 0 256) as (bits & E & F).
  2: { rewrite E. cbn [obind]. exists (pack_bits bits). split; [reflexivity|]. clear E.
    assert (length bits = (8 * 32)%nat /\ Forall (fun b => b = 0 \/ b = 1) bits) as [L B].
    { split; [exact (proj1 (forall2_seq _ _ 0 _ _ _ F))|].
      clear - F. induction F as [|i b l bits E F IH]; constructor; [|exact IH]. destruct (key_bit v c i); auto. }
    destruct (pack_bits_ok 32 bits L B) as [L1 B1]. split; [exact L1|]. split; [exact B1|].
    intros i Hi. rewrite (pack_bits_at 32 bits i L B) by (clear - Hi; lia).
    rewrite (proj2 (forall2_seq _ _ 0 _ _ _ F) i Hi). rewrite Nat.add_0_l. destruct (key_bit v c i); reflexivity. }
  intros i Hi. apply in_seq in Hi.
  assert ((i < 1024)%nat /\ (256 + i < 1024)%nat /\ (512 + i < 1024)%nat /\ (768 + i < 1024)%nat) as (I0 & I1 & I2 & I3) by (clear - Hi; lia).
  clear Hi. unfold key_bit, coeff. change (256 * 0 + i)%nat with i. change (256 * 1 + i)%nat with (256 + i)%nat.
  change (256 * 2 + i)%nat with (512 + i)%nat. change (256 * 3 + i)%nat with (768 + i)%nat.
  pose proof (nth_in v _ Hv I0) as A0. pose proof (nth_in v _ Hv I1) as A1. pose proof (nth_in v _ Hv I2) as A2. pose proof (nth_in v _ Hv I3) as A3.
  pose proof (Hc _ I0) as C0. pose proof (Hc _ I1) as C1. pose proof (Hc _ I2) as C2. pose proof (Hc _ I3) as C3. clear - A0 A1 A2 A3 C0 C1 C2 C3.
  generalize dependent (nth i v 0). generalize dependent (nth (256 + i) v 0). generalize dependent (nth (512 + i) v 0). generalize dependent (nth (768 + i) v 0).
  generalize dependent (nth i c 0). generalize dependent (nth (256 + i) c 0). generalize dependent (nth (512 + i) c 0). generalize dependent (nth (768 + i) c 0).
  intros c3 C3 c2 C2 c1 C1 c0 C0 a3 A3 a2 A2 a1 A1 a0 A0. unfold rec4, LDDecode, PARAM_Q, newhope_q.
  do 4 (rewrite s32_ok by lia; cbn [obind]).
  destruct (rec_g_exact (16 * 12289 + 8 * a0 - 12289 * (2 * c0 + c3)) (8 * a0 - 12289 * (2 * c0 + c3)) ltac:(lia) ltac:(lia)) as [-> D0]. cbn [obind].
  destruct (rec_g_exact (16 * 12289 + 8 * a1 - 12289 * (2 * c1 + c3)) (8 * a1 - 12289 * (2 * c1 + c3)) ltac:(lia) ltac:(lia)) as [-> D1]. cbn [obind].
  rewrite s32_ok by lia. cbn [obind].
  destruct (rec_g_exact (16 * 12289 + 8 * a2 - 12289 * (2 * c2 + c3)) (8 * a2 - 12289 * (2 * c2 + c3)) ltac:(lia) ltac:(lia)) as [-> D2]. cbn [obind].
  rewrite s32_ok by lia. cbn [obind].
  destruct (rec_g_exact (16 * 12289 + 8 * a3 - 12289 * c3) (8 * a3 - 12289 * c3) ltac:(lia) ltac:(lia)) as [-> D3]. cbn [obind].
  rewrite s32_ok by lia. cbn [obind]. rewrite s32_ok by lia. cbn [obind]. eexists. split; [reflexivity|]. rewrite sign_mask by lia.
  match goal with |- context [?x - 8 * 12289 <? 0] => generalize x end. intros s.
  destruct (s - 8 * 12289 <? 0) eqn:E1; destruct (s <? 8 * 12289) eqn:E2; try lia; reflexivity.
Qed.

(** ** Any received message *)
Lemma frombytes_range : forall k l, zlen l = 7 * Z.of_nat k -> bytes l ->
  zlen (poly_frombytes l) = 4 * Z.of_nat k /\ Forall (fun x => 0 <= x < 2^14) (poly_frombytes l).
Proof.
  induction k as [|k IH]; intros l L B.
  - assert (l = []) as -> by (apply zlen_0_nil; lia). split; [reflexivity|constructor].
  - do 7 (destruct l as [|? l]; [repeat rewrite zlen_cons in L; change (zlen (@nil Z)) with 0 in L; lia|]).
    rewrite !zlen_cons in L. unfold bytes in B. repeat match goal with H : Forall _ (_ :: _) |- _ => inversion H; clear H; subst end.
    repeat match goal with H : is_byte _ |- _ => unfold is_byte in H end.
    destruct (IH l) as [L1 F1]; [lia|assumption|]. cbn [poly_frombytes]. split; [rewrite !zlen_cons, L1; lia|].
    change 0x3f with (Z.ones 6). change 0x0f with (Z.ones 4). change 0x03 with (Z.ones 2).
    rewrite !Z.land_ones, !Z.shiftr_div_pow2 by lia. clear IH L L1.
    repeat constructor; try assumption; unfold u16; (rewrite Z.mod_small; [|]);
    repeat (rewrite lor_high; [|lia|]); try lia.
Qed.
