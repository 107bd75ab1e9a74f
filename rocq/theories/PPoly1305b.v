(** Proofs about the Poly1305 code: the last steps *)
From Verif Require Import Base MHash MSha2 MBlake2 SSha2 SBlake2 PSha2 PSha2b PBlake2 PChaCha MPoly1305 SPoly1305 PPoly1305.

Definition g_ok (h : Z * Z * Z) : Prop :=
  let '(h0, h1, h2) := h in 0 <= h0 < 2 ^ 44 /\ 0 <= h1 <= 2 ^ 44 /\ 0 <= h2 < 2 ^ 42.

(* splits a value [e] below [bound] times [2^k] in its high and low part *)
Ltac split_at e k bound c x :=
  let C := fresh "C" in let Q := fresh "Q" in let L := fresh "L" in
  assert (0 <= e / 2 ^ k < bound + 1) as C by (split; [apply Z.div_pos; lia|apply Z.div_lt_upper_bound; lia]);
  pose proof (Z.div_mod e (2 ^ k) ltac:(lia)) as Q; pose proof (Z.mod_pos_bound e (2 ^ k) ltac:(lia)) as L;
  set (c := e / 2 ^ k) in *; set (x := e mod 2 ^ k) in *; clearbody c x.

Lemma carry_ok : forall w, exact_in_range w -> forall h, h_ok h ->
  exists h', poly1305_carry w h = Ok h' /\ (g_ok h' /\ limbs h' mod P1305 = limbs h mod P1305).
Proof.
  intros w Hw [[h0 h1] h2] (H0 & H1 & H2). unfold poly1305_carry. cbv zeta.
  rewrite ?land_mask44, ?Z.shiftr_div_pow2 by lia.
  split_at h1 44 1 c1 e1. step Hw.
  split_at (h2 + c1) 42 1 c2 e2. step Hw. step Hw.
  split_at (h0 + c2 * 5) 44 1 c3 e3. step Hw.
  split_at (e1 + c3) 44 1 c4 e4. step Hw.
  split_at (e2 + c4) 42 1 c5 e5. step Hw. step Hw.
  split_at (e3 + c5 * 5) 44 1 c6 e6. step Hw.
  eexists. split; [reflexivity|]. split; [unfold g_ok; lia|].
  assert (limbs (e6, e4 + c6, e5) = limbs (h0, h1, h2) + - (c2 + c5) * P1305) as ->; [|apply Z_mod_plus_full].
  unfold limbs, P1305. lia.
Qed.

Lemma land_all : forall x, 0 <= x < 2 ^ 64 -> Z.land x (2 ^ 64 - 1) = x.
Proof. intros x H. change (2 ^ 64 - 1) with (Z.ones 64). rewrite Z.land_ones by lia. now apply Z.mod_small. Qed.
Lemma select_ok : forall w, exact_in_range w -> forall h, g_ok h ->
  exists h', poly1305_select w h = Ok h' /\ (g_ok h' /\ limbs h' = limbs h mod P1305).
Proof.
  intros w Hw [[h0 h1] h2] (H0 & H1 & H2). unfold poly1305_select. cbv zeta.
  step Hw. split_at (h0 + 5) 44 1 c1 g0. step Hw. split_at (h1 + c1) 44 1 c2 g1. step Hw.
  change (Z.shiftl 1 42) with (2 ^ 42).
  eexists. split; [reflexivity|].
  assert (limbs (h0, h1, h2) = h0 + h1 * 2 ^ 44 + h2 * 2 ^ 88) as V by reflexivity.
  destruct (Z_lt_dec (h2 + c2) (2 ^ 42)) as [S|S].
  - assert ((h2 + c2 - 2 ^ 42) mod 2 ^ 64 = h2 + c2 - 2 ^ 42 + 2 ^ 64) as ->.
    { rewrite <- (Z_mod_plus_full _ 1). apply Z.mod_small. lia. }
    assert ((h2 + c2 - 2 ^ 42 + 2 ^ 64) / 2 ^ 63 = 1) as ->.
    { symmetry. apply Z.div_unique with (h2 + c2 - 2 ^ 42 + 2 ^ 63); lia. }
    change ((1 - 1) mod 2 ^ 64) with 0. rewrite Z.sub_0_r, !Z.land_0_r, !Z.lor_0_r, !land_all by lia.
    split; [unfold g_ok; lia|]. rewrite Z.mod_small; [reflexivity|]. rewrite V. unfold P1305. lia.
  - assert ((h2 + c2 - 2 ^ 42) mod 2 ^ 64 = h2 + c2 - 2 ^ 42) as -> by (apply Z.mod_small; lia).
    assert ((h2 + c2 - 2 ^ 42) / 2 ^ 63 = 0) as -> by (apply Z.div_small; lia).
    change ((0 - 1) mod 2 ^ 64) with (2 ^ 64 - 1). change (2 ^ 64 - 1 - (2 ^ 64 - 1)) with 0.
    rewrite !Z.land_0_r, !Z.lor_0_l, !land_all by lia.
    split; [unfold g_ok; lia|]. symmetry. rewrite <- (Z_mod_plus_full _ (-1)).
    assert (limbs (h0, h1, h2) + -1 * P1305 = limbs (g0, g1, h2 + c2 - 2 ^ 42)) as ->
      by (unfold limbs, P1305; lia).
    apply Z.mod_small. unfold limbs, P1305. lia.
Qed.

Lemma le_bytes_mod : forall n v, le_bytes n (v mod 256 ^ Z.of_nat n) = le_bytes n v.
Proof.
  intros n v. unfold le_bytes. apply map_ext_in. intros i Hi. apply in_seq in Hi.
  replace (256 ^ Z.of_nat n) with (2 ^ (8 * Z.of_nat n)) by (rewrite Z.pow_mul_r by lia; reflexivity).
  replace (256 ^ Z.of_nat i) with (2 ^ (8 * Z.of_nat i)) by (rewrite Z.pow_mul_r by lia; reflexivity).
  rewrite <- !Z.shiftr_div_pow2 by lia. change 256 with (2 ^ 8).
  apply Z.bits_inj'. intros b Hb. rewrite !mod_pow2_bits by lia. destruct (b <? 8) eqn:E; [|reflexivity].
  rewrite !Z.shiftr_spec by lia. rewrite mod_pow2_bits by lia. destruct (b + 8 * Z.of_nat i <? 8 * Z.of_nat n) eqn:E2; [reflexivity|lia].
Qed.
Lemma le_bytes_app : forall n m v, le_bytes (n + m) v = le_bytes n v ++ le_bytes m (v / 256 ^ Z.of_nat n).
Proof.
  intros n m v. unfold le_bytes. rewrite seq_app, map_app. f_equal. cbn [Nat.add].
  rewrite <- (Nat.add_0_r n) at 1. generalize 0%nat as k. induction m as [|m IH]; intros k; [reflexivity|].
  cbn [seq map]. f_equal.
  - rewrite Nat2Z.inj_add, Z.pow_add_r by lia. now rewrite Z.div_div by lia.
  - rewrite <- IH. do 2 f_equal. lia.
Qed.
Lemma u64to8_spec : forall v, U64TO8 v = le_bytes 8 v.
Proof.
  intros v. unfold U64TO8, le_bytes. apply map_ext. intros i. change 0xff with (Z.ones 8).
  rewrite Z.land_ones, Z.shiftr_div_pow2 by lia.
  replace (256 ^ Z.of_nat i) with (2 ^ (8 * Z.of_nat i)) by (rewrite Z.pow_mul_r by lia; reflexivity). reflexivity.
Qed.
Lemma le_bytes_two : forall a b, 0 <= a < 2 ^ 64 -> le_bytes 8 a ++ le_bytes 8 b = le_bytes 16 (a + b * 2 ^ 64).
Proof.
  intros a b Ha. rewrite (le_bytes_app 8 8). change (256 ^ Z.of_nat 8) with (2 ^ 64). f_equal.
  - rewrite <- (le_bytes_mod 8 (a + b * 2 ^ 64)). change (256 ^ Z.of_nat 8) with (2 ^ 64).
    rewrite Z_mod_plus_full, Z.mod_small by lia. reflexivity.
  - rewrite Z.div_add, Z.div_small by lia. reflexivity.
Qed.

Lemma output_ok : forall w, exact_in_range w -> forall t0 t1 h, g_ok h -> 0 <= t0 < 2 ^ 64 -> 0 <= t1 < 2 ^ 64 ->
  exists mac, poly1305_output w (t0, t1) h = Ok mac /\ mac = le_bytes 16 (limbs h + (t0 + t1 * 2 ^ 64)).
Proof.
  intros w Hw t0 t1 [[h0 h1] h2] (H0 & H1 & H2) T0 T1. unfold poly1305_output. cbv zeta.
  pose proof (m_limbs_ok _ _ T0 T1) as M. unfold m_limbs in M.
  rewrite ?land_mask44, ?land_mask42 in *.
  set (m0 := t0 mod 2 ^ 44) in *.
  set (m1 := Z.lor (Z.shiftr t0 44) (Z.shiftl t1 20 mod 2 ^ 64) mod 2 ^ 44) in *.
  rewrite (Z.mod_small (Z.shiftr t1 24)) by lia.
  set (m2 := Z.shiftr t1 24) in *.
  destruct M as (M0 & M1 & M2 & <-). clearbody m0 m1 m2. clear T0 T1 t0 t1.
  step Hw. split_at (h0 + m0) 44 1 c1 e0. step Hw. step Hw. split_at (h1 + (m1 + c1)) 44 2 c2 e1. step Hw.
  apply (step_ok _ Hw); [lia|]; cbv beta. rewrite land_mask42.
  pose proof (Z.div_mod (h2 + (m2 + c2)) (2 ^ 42) ltac:(lia)) as Q2. pose proof (Z.mod_pos_bound (h2 + (m2 + c2)) (2 ^ 42) ltac:(lia)) as L2.
  set (e2 := (h2 + (m2 + c2)) mod 2 ^ 42) in *. set (k2 := (h2 + (m2 + c2)) / 2 ^ 42) in *. clearbody e2 k2.
  eexists. split; [reflexivity|]. rewrite !u64to8_spec.
  assert (Z.shiftl e1 44 mod 2 ^ 64 = Z.shiftl (e1 mod 2 ^ 20) 44) as ->.
  { rewrite !Z.shiftl_mul_pow2 by lia. change (2 ^ 64) with (2 ^ 20 * 2 ^ 44). now rewrite Z.mul_mod_distr_r by lia. }
  assert (Z.shiftl e2 24 mod 2 ^ 64 = Z.shiftl (e2 mod 2 ^ 40) 24) as ->.
  { rewrite !Z.shiftl_mul_pow2 by lia. change (2 ^ 64) with (2 ^ 40 * 2 ^ 24). now rewrite Z.mul_mod_distr_r by lia. }
  rewrite ?Z.shiftr_div_pow2 by lia.
  rewrite !(Z.lor_comm _ (Z.shiftl _ _)), !lor_add by (try split; try (apply Z.div_pos; lia); try (apply Z.div_lt_upper_bound; lia); lia).
  pose proof (Z.div_mod e1 (2 ^ 20) ltac:(lia)) as Q3. pose proof (Z.mod_pos_bound e1 (2 ^ 20) ltac:(lia)) as L3.
  pose proof (Z.div_mod e2 (2 ^ 40) ltac:(lia)) as Q4. pose proof (Z.mod_pos_bound e2 (2 ^ 40) ltac:(lia)) as L4.
  set (u := e1 mod 2 ^ 20) in *. set (v := e1 / 2 ^ 20) in *. set (x := e2 mod 2 ^ 40) in *. set (y := e2 / 2 ^ 40) in *. clearbody u v x y.
  rewrite le_bytes_two by lia.
  rewrite <- (le_bytes_mod 16 (u * _ + _ + _)), <- (le_bytes_mod 16 (limbs _ + _)). f_equal.
  change (256 ^ Z.of_nat 16) with (2 ^ 128).
  rewrite <- (Z_mod_plus_full (u * 2 ^ 44 + e0 + _) (y + 4 * k2)). f_equal. unfold limbs. lia.
Qed.

Lemma pad_val : forall key, bytes key -> 32 <= zlen key ->
  U8TO64 key 16 + U8TO64 key 24 * 2 ^ 64 = mem_word (sub 16 16 key).
Proof.
  intros key Hb Hl. unfold sub. rewrite <- sixteen_val by (try apply bytes_drop; try rewrite zlen_drop; auto; lia).
  unfold U8TO64. rewrite !drop_drop by lia. reflexivity.
Qed.
Lemma mem_word_zeros : forall n, mem_word (repeat 0 n) = 0.
Proof. intros n. induction n as [|n IH]; [reflexivity|]. cbn [repeat]. unfold mem_word in *. cbn [fold_right]. lia. Qed.
Lemma blocks16_split : forall k full rest, zlen full = 16 * Z.of_nat k -> zlen rest < 16 ->
  blocks16 (full ++ rest) = pieces 16 k full ++ (if zlen rest =? 0 then [] else [rest]).
Proof.
  intros k full rest F R. unfold blocks16. pose proof (zlen_nonneg Z rest) as N.
  destruct (zlen rest =? 0) eqn:E.
  - assert (rest = []) as -> by (apply zlen_0_nil; lia). rewrite !app_nil_r.
    replace ((zlen full + 15) / 16) with (Z.of_nat k).
    + now rewrite Nat2Z.id.
    + apply Z.div_unique with 15; lia.
  - replace ((zlen (full ++ rest) + 15) / 16) with (Z.of_nat (k + 1)).
    + rewrite Nat2Z.id. rewrite pieces_app by lia. cbn [pieces].
      rewrite firstn_all2 by (unfold zlen in R; lia). reflexivity.
    + rewrite zlen_app. apply Z.div_unique with (zlen rest - 1); lia.
Qed.
Lemma horner_range : forall r bs, horner r 0 bs mod P1305 = horner r 0 bs.
Proof.
  intros r bs. apply Z.mod_small. destruct bs as [|b bs] using rev_ind; [unfold horner, P1305; cbn [fold_left]; lia|].
  rewrite horner_snoc. apply Z.mod_pos_bound. reflexivity.
Qed.
Lemma last_ok : forall w, exact_in_range w -> forall key k full rest st, bytes key -> 32 <= zlen key ->
  holding key k full rest st ->
  exists st', poly1305_last w st = Ok st' /\ (h_ok (p_h st') /\ p_pad st' = (U8TO64 key 16, U8TO64 key 24) /\
    limbs (p_h st') mod P1305 = horner (clamp (mem_word (take 16 key))) 0 (blocks16 (full ++ rest))).
Proof.
  intros w Hw key k full rest st Hk Lk (F & Lr & L & LB & BB & TB & Fi & R & RV & H & HV & Pd).
  pose proof (zlen_nonneg Z rest) as Nr.
  rewrite (blocks16_split k) by (clear HV; auto). unfold poly1305_last. rewrite L.
  destruct (zlen rest =? 0) eqn:E.
  - exists st. split; [reflexivity|]. split; [exact H|]. split; [exact Pd|]. rewrite app_nil_r, HV. apply horner_range.
  - set (b1 := splice (zlen rest + 1) (zeros (16 - (zlen rest + 1))) (splice (zlen rest) [1] (p_buffer st))).
    assert (b1 = rest ++ [1] ++ zeros (15 - zlen rest)) as Eb.
    { assert (splice (zlen rest) [1] (p_buffer st) = (rest ++ [1]) ++ drop (zlen rest + 1) (p_buffer st)) as X.
      { unfold splice. rewrite TB. rewrite <- app_assoc. reflexivity. }
      unfold b1. rewrite X. unfold splice at 1.
      assert (zlen (rest ++ [1]) = zlen rest + 1) as Lx by (rewrite zlen_app; reflexivity).
      rewrite <- Lx at 1. rewrite take_app_exact. rewrite zlen_zeros by (clear - Lr; lia).
      rewrite drop_all; [rewrite app_nil_r, <- app_assoc; do 3 f_equal; clear; lia|].
      rewrite zlen_app, Lx, zlen_drop. clear - LB Nr Lr. lia. }
    assert (zlen b1 = 16) as Lb.
    { rewrite Eb, !zlen_app, zlen_zeros by (clear - Lr; lia). change (zlen [1]) with 1. clear; lia. }
    assert (bytes b1) as Hb.
    { rewrite Eb. apply bytes_app. split; [rewrite <- TB; now apply bytes_take|]. apply bytes_app. split; [|apply bytes_zeros].
      constructor; [unfold is_byte; lia|constructor]. }
    unfold poly1305_blocks. cbn [p_leftover p_buffer p_final p_r p_h p_pad].
    destruct (p_r st) as [[r0 r1] r2] eqn:Er. assert (R' := R). unfold r_ok in R'. change (Z.shiftl 5 2) with 20.
    rewrite Hw by (clear - R'; lia). cbn [obind]. rewrite Hw by (clear - R'; lia). cbn [obind].
    change (Z.to_nat (16 / 16)) with 1%nat. cbn [poly1305_blocks_loop].
    destruct (block_ok w Hw 0 (r0, r1, r2) (p_h st) b1 (or_introl eq_refl) R H Hb) as (h' & E1 & K1 & V1); [clear - Lb; lia|].
    rewrite E1. cbn [obind]. eexists. split; [reflexivity|]. cbn [p_h p_pad]. split; [exact K1|]. split; [exact Pd|].
    rewrite V1, horner_snoc, RV. rewrite Z.mul_0_l, Z.add_0_r.
    assert (mem_word (take 16 b1) = le_val (rest ++ [1])) as ->.
    { rewrite take_all by (clear - Lb; lia). rewrite Eb, app_assoc, mem_word_app. unfold zeros. rewrite mem_word_zeros.
      change le_val with mem_word. clear. lia. }
    rewrite <- horner_range, <- HV.
    symmetry. rewrite <- Z.mul_mod_idemp_l by discriminate. rewrite Z.add_mod_idemp_l by discriminate.
    apply Z.mul_mod_idemp_l. discriminate.
Qed.
Lemma finish_ok : forall w, exact_in_range w -> forall key k full rest st, bytes key -> 32 <= zlen key ->
  holding key k full rest st ->
  exists st', poly1305_finish w st = Ok (st', poly1305_mac key (full ++ rest)) /\
    (p_r st', p_h st', p_pad st') = ((0, 0, 0), (0, 0, 0), (0, 0)).
Proof.
  intros w Hw key k full rest st Hk Lk Hh. unfold poly1305_finish.
  destruct (last_ok w Hw key k full rest st Hk Lk Hh) as (s1 & E1 & K1 & P1 & V1). rewrite E1. cbn [obind].
  destruct (carry_ok w Hw _ K1) as (h2 & E2 & G2 & V2). rewrite E2. cbn [obind].
  destruct (select_ok w Hw _ G2) as (h3 & E3 & G3 & V3). rewrite E3. cbn [obind]. rewrite P1.
  destruct (u8to64_ok key 16 Hk ltac:(clear; lia) ltac:(clear - Lk; lia)) as [_ T0].
  destruct (u8to64_ok key 24 Hk ltac:(clear; lia) ltac:(clear - Lk; lia)) as [_ T1].
  destruct (output_ok w Hw _ _ h3 G3 T0 T1) as (mac & E4 & V4). rewrite E4. cbn [obind].
  rewrite V4, pad_val by auto. rewrite V3, V2, V1. eexists. split; reflexivity.
Qed.
