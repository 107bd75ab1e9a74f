(** Proofs about curve25519-donna-c64.c: bytes, the ladder *)
From Coq Require Import Setoid Morphisms Lia ZArith Zpow_facts.
From Verif Require Import Base MHash MSha2 MBlake2 SSha2 SBlake2 PSha2 PSha2b PBlake2 PChaCha MPoly1305 PPoly1305 PGhash MX25519 SX25519 PX25519.

(** ** Reading and writing bytes *)
Lemma mem_word_drop : forall l k, bytes l -> 0 <= k <= zlen l -> mem_word (drop k l) = mem_word l / 256 ^ k.
Proof.
  intros l k Hb Hk. rewrite <- (take_drop Z k l) at 2. rewrite mem_word_app.
  assert (zlen (take k l) = k) as L by (rewrite zlen_take; lia). rewrite L.
  pose proof (mem_word_range (take k l) ltac:(now apply bytes_take)) as R. rewrite L in R.
  rewrite Z.add_comm, Z.mul_comm, Z.div_add_l by lia. rewrite Z.div_small by lia. lia.
Qed.
Lemma mem_word_take : forall l k, bytes l -> 0 <= k <= zlen l -> mem_word (take k l) = mem_word l mod 256 ^ k.
Proof.
  intros l k Hb Hk. rewrite <- (take_drop Z k l) at 2. rewrite mem_word_app.
  assert (zlen (take k l) = k) as L by (rewrite zlen_take; lia). rewrite L.
  pose proof (mem_word_range (take k l) ltac:(now apply bytes_take)) as R. rewrite L in R.
  rewrite Z.mul_comm, Z_mod_plus_full, Z.mod_small by lia. reflexivity.
Qed.
Lemma load_limb_val : forall l off, bytes l -> 0 <= off -> off + 8 <= zlen l -> load_limb l off = mem_word l / 2 ^ (8 * off) mod 2 ^ 64.
Proof.
  intros l off Hb Ho Hl. unfold load_limb. rewrite load_le64_val; [|now apply bytes_drop|rewrite zlen_drop; lia].
  rewrite mem_word_take; [|now apply bytes_drop|rewrite zlen_drop; lia]. rewrite mem_word_drop by (assumption || lia).
  rewrite Z.pow_mul_r by lia. reflexivity.
Qed.
Lemma limb_of : forall V a b, 0 <= a -> 0 <= b <= 13 -> Z.land (Z.shiftr (V / 2 ^ a mod 2 ^ 64) b) mask51 = V / 2 ^ (a + b) mod 2 ^ 51.
Proof.
  intros V a b Ha Hb. rewrite land_mask51, Z.shiftr_div_pow2 by lia. rewrite Z.pow_add_r, <- Z.div_div by lia.
  set (W := V / 2 ^ a). clearbody W.
  rewrite <- !Z.shiftr_div_pow2, <- !Z.land_ones by lia. apply Z.bits_inj'. intros n Hn.
  rewrite !Z.land_spec, !Z.shiftr_spec, Z.land_spec by lia. rewrite !Z.testbit_ones by lia.
  destruct (Z.ltb_spec n 51); [|now rewrite !andb_false_r].
  replace (0 <=? n + b) with true by (symmetry; apply Z.leb_le; lia). replace (n + b <? 64) with true by (symmetry; apply Z.ltb_lt; lia).
  now rewrite !andb_true_r.
Qed.
Lemma five_limbs : forall V, 0 <= V ->
  V mod 2 ^ 51 + (V / 2 ^ 51 mod 2 ^ 51) * 2 ^ 51 + (V / 2 ^ 102 mod 2 ^ 51) * 2 ^ 102 + (V / 2 ^ 153 mod 2 ^ 51) * 2 ^ 153 + (V / 2 ^ 204 mod 2 ^ 51) * 2 ^ 204 = V mod 2 ^ 255.
Proof.
  intros V H.
  assert (E : forall m, 0 <= m -> V mod (2 ^ m * 2 ^ 51) = V mod 2 ^ m + 2 ^ m * (V / 2 ^ m mod 2 ^ 51)).
  { intros m Hm. apply Z.rem_mul_r; lia. }
  pose proof (E 204 ltac:(lia)) as E4. pose proof (E 153 ltac:(lia)) as E3. pose proof (E 102 ltac:(lia)) as E2. pose proof (E 51 ltac:(lia)) as E1.
  change (2 ^ 204 * 2 ^ 51) with (2 ^ 255) in E4. change (2 ^ 153 * 2 ^ 51) with (2 ^ 204) in E3. change (2 ^ 102 * 2 ^ 51) with (2 ^ 153) in E2. change (2 ^ 51 * 2 ^ 51) with (2 ^ 102) in E1.
  rewrite E4, E3, E2, E1. ring.
Qed.
Lemma fexpand_ok : forall u, bytes u -> zlen u = 32 -> lim 1 (fexpand u) /\ val (fexpand u) = decode_u u.
Proof.
  intros u Hb Hl. unfold fexpand. rewrite !load_limb_val by (assumption || lia).
  change (8 * 0) with 0. change (8 * 6) with 48. change (8 * 12) with 96. change (8 * 19) with 152. change (8 * 24) with 192.
  rewrite <- (Z.shiftr_0_r (mem_word u / 2 ^ 0 mod 2 ^ 64)). rewrite !limb_of by lia.
  change (0 + 0) with 0. change (48 + 3) with 51. change (96 + 6) with 102. change (152 + 1) with 153. change (192 + 12) with 204.
  rewrite Z.div_1_r. set (V := mem_word u). assert (0 <= V) by (apply mem_word_range; assumption).
  split.
  - unfold lim. pose proof (fun x => Z.mod_pos_bound x (2 ^ 51) eq_refl) as B.
    pose proof (B V). pose proof (B (V / 2 ^ 51)). pose proof (B (V / 2 ^ 102)). pose proof (B (V / 2 ^ 153)). pose proof (B (V / 2 ^ 204)). clear - H0 H1 H2 H3 H4. lia.
  - unfold val, decode_u. change (le_val u) with V. now apply five_limbs.
Qed.

(** ** Reduction to the smallest representative *)
Lemma carry_bound : forall t, 0 <= t < 2 * 2 ^ 51 -> 0 <= t / 2 ^ 51 <= 1.
Proof. intros t H. split; [apply Z.div_pos; lia|]. apply Z.lt_succ_r. apply Z.div_lt_upper_bound; lia. Qed.
Ltac split_limb t c e Q L C :=
  pose proof (Z.div_mod t (2 ^ 51) ltac:(lia)) as Q; pose proof (Z.mod_pos_bound t (2 ^ 51) ltac:(lia)) as L;
  pose proof (carry_bound t ltac:(lia)) as C; set (c := t / 2 ^ 51) in *; set (e := t mod 2 ^ 51) in *; clearbody c e.
Ltac powers := change (2 ^ 255) with (2 ^ 51 * 2 ^ 204); change (2 ^ 204) with (2 ^ 51 * 2 ^ 153); change (2 ^ 153) with (2 ^ 51 * 2 ^ 102); change (2 ^ 102) with (2 ^ 51 * 2 ^ 51).
Definition limb (x : Z) : Prop := 0 <= x < 2 ^ 51.
Section Exact.
Variable w : Z -> Z -> outcome Z.
Hypothesis Hw : exact_in_range w.
Lemma round_ok : forall t0 t1 t2 t3 t4,
  0 <= t0 < 2 ^ 51 + 40 -> 0 <= t1 <= 2 ^ 51 -> 0 <= t2 <= 2 ^ 51 -> 0 <= t3 <= 2 ^ 51 -> 0 <= t4 <= 2 ^ 51 ->
  exists r, contract_round w (t0, t1, t2, t3, t4) = Ok r /\
  exists c e0 e1 e2 e3 e4, r = (e0 + 19 * c, e1, e2, e3, e4) /\
    limb e0 /\ limb e1 /\ limb e2 /\ limb e3 /\ limb e4 /\ 0 <= c <= 1 /\
    val (e0, e1, e2, e3, e4) + c * 2 ^ 255 = val (t0, t1, t2, t3, t4).
Proof.
  intros t0 t1 t2 t3 t4 H0 H1 H2 H3 H4. cbn [contract_round].
  rewrite ?land_mask51, ?low51_mod; rewrite ?Z.shiftr_div_pow2 by lia.
  split_limb t0 c0 e0 Q0 L0 C0. stepf Hw. split_limb (t1 + c0) c1 e1 Q1 L1 C1. stepf Hw. split_limb (t2 + c1) c2 e2 Q2 L2 C2.
  stepf Hw. split_limb (t3 + c2) c3 e3 Q3 L3 C3. stepf Hw. split_limb (t4 + c3) c4 e4 Q4 L4 C4. do 2 (stepf Hw).
  eexists. split; [reflexivity|]. exists c4, e0, e1, e2, e3, e4. split; [reflexivity|]. unfold limb.
  split; [exact L0|]. split; [exact L1|]. split; [exact L2|]. split; [exact L3|]. split; [exact L4|]. split; [exact C4|].
  cbn [val]. assert (t0 = 2 ^ 51 * c0 + e0) as -> by lia. assert (t1 = 2 ^ 51 * c1 + e1 - c0) as -> by lia. assert (t2 = 2 ^ 51 * c2 + e2 - c1) as -> by lia.
  assert (t3 = 2 ^ 51 * c3 + e3 - c2) as -> by lia. assert (t4 = 2 ^ 51 * c4 + e4 - c3) as -> by lia. powers. ring.
Qed.

(** ** The bytes *)
Lemma le_bytes_mod : forall n x y, x mod 256 ^ Z.of_nat n = y mod 256 ^ Z.of_nat n -> le_bytes n x = le_bytes n y.
Proof.
  induction n as [|n IH]; intros x y H; [reflexivity|]. rewrite !le_bytes_S.
  rewrite Nat2Z.inj_succ, Z.pow_succ_r in H by lia. rewrite !Z.rem_mul_r in H by lia.
  pose proof (Z.mod_pos_bound x 256 eq_refl). pose proof (Z.mod_pos_bound y 256 eq_refl).
  set (P := 256 ^ Z.of_nat n) in *. f_equal; [lia|]. apply IH. fold P. lia.
Qed.
Lemma le_bytes_app : forall n m x, le_bytes (n + m) x = le_bytes n x ++ le_bytes m (x / 256 ^ Z.of_nat n).
Proof.
  induction n as [|n IH]; intros m x.
  - cbn [Nat.add]. change (256 ^ Z.of_nat 0) with 1. rewrite Z.div_1_r. reflexivity.
  - cbn [Nat.add]. rewrite !le_bytes_S, IH. cbn [app]. do 3 f_equal. rewrite Nat2Z.inj_succ, Z.pow_succ_r by lia. rewrite Z.div_div by lia. reflexivity.
Qed.
Lemma store_limb_spec : forall v, store_limb (v mod 2 ^ 64) = le_bytes 8 v.
Proof.
  intros v. transitivity (le_bytes 8 (v mod 2 ^ 64)).
  - unfold store_limb, le_bytes. apply map_ext. intros k. rewrite Z.shiftr_div_pow2 by lia. change 0xff with (Z.ones 8).
    rewrite Z.land_ones by lia. now rewrite Z.pow_mul_r by lia.
  - apply le_bytes_mod. change (256 ^ Z.of_nat 8) with (2 ^ 64). apply Z.mod_mod. lia.
Qed.
Lemma pack_ok : forall f0 f1 f2 f3 f4, limb f0 -> limb f1 -> limb f2 -> limb f3 -> limb f4 ->
  store_limb (Z.lor f0 (Z.shiftl f1 51) mod 2^64) ++
  store_limb (Z.lor (f1 / 2 ^ 13) (Z.shiftl f2 38) mod 2^64) ++
  store_limb (Z.lor (f2 / 2 ^ 26) (Z.shiftl f3 25) mod 2^64) ++
  store_limb (Z.lor (f3 / 2 ^ 39) (Z.shiftl f4 12) mod 2^64) = le_bytes 32 (val (f0, f1, f2, f3, f4)).
Proof.
  intros f0 f1 f2 f3 f4 H0 H1 H2 H3 H4. unfold limb in *.
  assert (L : forall a b k, 0 <= k -> 0 <= a < 2 ^ k -> Z.lor a (Z.shiftl b k) = a + b * 2 ^ k).
  { intros a b k Hk Ha. rewrite Z.lor_comm, lor_add by lia. lia. }
  rewrite !store_limb_spec.
  pose proof (Z.div_mod f1 (2 ^ 13) ltac:(lia)) as Q1. pose proof (Z.mod_pos_bound f1 (2 ^ 13) ltac:(lia)) as M1.
  pose proof (Z.div_mod f2 (2 ^ 26) ltac:(lia)) as Q2. pose proof (Z.mod_pos_bound f2 (2 ^ 26) ltac:(lia)) as M2.
  pose proof (Z.div_mod f3 (2 ^ 39) ltac:(lia)) as Q3. pose proof (Z.mod_pos_bound f3 (2 ^ 39) ltac:(lia)) as M3.
  set (q1 := f1 / 2 ^ 13) in *. set (m1 := f1 mod 2 ^ 13) in *. set (q2 := f2 / 2 ^ 26) in *. set (m2 := f2 mod 2 ^ 26) in *.
  set (q3 := f3 / 2 ^ 39) in *. set (m3 := f3 mod 2 ^ 39) in *. clearbody q1 m1 q2 m2 q3 m3.
  rewrite (L f0 f1 51) by lia. rewrite (L q1 f2 38) by lia. rewrite (L q2 f3 25) by lia. rewrite (L q3 f4 12) by lia. clear L.
  change 32%nat with (8 + (8 + (8 + 8)))%nat. rewrite !le_bytes_app. change (256 ^ Z.of_nat 8) with (2 ^ 64).
  unfold val.
  assert (E1 : (f0 + f1 * 2 ^ 51 + f2 * 2 ^ 102 + f3 * 2 ^ 153 + f4 * 2 ^ 204) / 2 ^ 64 = q1 + f2 * 2 ^ 38 + f3 * 2 ^ 89 + f4 * 2 ^ 140).
  { symmetry. apply Z.div_unique with (r := f0 + m1 * 2 ^ 51); lia. }
  rewrite E1.
  assert (E2 : (q1 + f2 * 2 ^ 38 + f3 * 2 ^ 89 + f4 * 2 ^ 140) / 2 ^ 64 = q2 + f3 * 2 ^ 25 + f4 * 2 ^ 76).
  { symmetry. apply Z.div_unique with (r := q1 + m2 * 2 ^ 38); lia. }
  rewrite E2.
  assert (E3 : (q2 + f3 * 2 ^ 25 + f4 * 2 ^ 76) / 2 ^ 64 = q3 + f4 * 2 ^ 12).
  { symmetry. apply Z.div_unique with (r := q2 + m3 * 2 ^ 25); lia. }
  rewrite E3. clear. f_equal; [|f_equal; [|f_equal]]; apply le_bytes_mod; change (256 ^ Z.of_nat 8) with (2 ^ 64).
  - replace (f0 + f1 * 2 ^ 51 + f2 * 2 ^ 102 + f3 * 2 ^ 153 + f4 * 2 ^ 204) with (f0 + f1 * 2 ^ 51 + (f2 * 2 ^ 38 + f3 * 2 ^ 89 + f4 * 2 ^ 140) * 2 ^ 64) by lia.
    now rewrite Z_mod_plus_full.
  - replace (q1 + f2 * 2 ^ 38 + f3 * 2 ^ 89 + f4 * 2 ^ 140) with (q1 + f2 * 2 ^ 38 + (f3 * 2 ^ 25 + f4 * 2 ^ 76) * 2 ^ 64) by lia.
    now rewrite Z_mod_plus_full.
  - replace (q2 + f3 * 2 ^ 25 + f4 * 2 ^ 76) with (q2 + f3 * 2 ^ 25 + (f4 * 2 ^ 12) * 2 ^ 64) by lia.
    now rewrite Z_mod_plus_full.
Qed.

Lemma fcontract_ok : forall f, lim 1 f -> fcontract w f = Ok (le_bytes 32 (val f mod p25519)).
Proof.
  intros [[[[a0 a1] a2] a3] a4] (A0 & A1 & A2 & A3 & A4). unfold fcontract.
  destruct (round_ok a0 a1 a2 a3 a4) as (r & -> & c1 & b0 & b1 & b2 & b3 & b4 & -> & B0 & B1 & B2 & B3 & B4 & C1 & V1); [lia..|]. cbn [obind].
  unfold limb in B0, B1, B2, B3, B4.
  destruct (round_ok (b0 + 19 * c1) b1 b2 b3 b4) as (r & -> & c2 & d0 & d1 & d2 & d3 & d4 & -> & D0 & D1 & D2 & D3 & D4 & C2 & V2); [lia..|]. cbn [obind].
  unfold limb in D0, D1, D2, D3, D4.
  assert (D0' : d0 + 19 * c2 < 2 ^ 51) by (unfold val in V2; lia).
  rewrite (Hw 128) by lia. cbn [obind].
  destruct (round_ok (d0 + 19 * c2 + 19) d1 d2 d3 d4) as (r & -> & c3 & e0 & e1 & e2 & e3 & e4 & -> & E0 & E1 & E2 & E3 & E4 & C3 & V3); [lia..|]. cbn [obind].
  unfold limb in E0, E1, E2, E3, E4.
  assert (E0' : e0 + 19 * c3 < 2 ^ 51) by (unfold val in V3; lia).
  change 0x8000000000000 with (2 ^ 51).
  rewrite !(Hw 128) by lia. cbn [obind].
  rewrite (Hw 128) by (rewrite Z.shiftr_div_pow2 by lia; lia). cbn [obind].
  rewrite ?land_mask51, ?low51_mod; rewrite ?Z.shiftr_div_pow2 by lia.
  split_limb (e0 + 19 * c3 + (2 ^ 51 - 19)) g0 h0 Q0 L0 K0.
  split_limb (e1 + (2 ^ 51 - 1) + g0) g1 h1 Q1 L1 K1. rewrite (Hw 128) by lia. cbn [obind].
  rewrite ?land_mask51, ?low51_mod; rewrite ?Z.shiftr_div_pow2 by lia.
  split_limb (e2 + (2 ^ 51 - 1) + g1) g2 h2 Q2 L2 K2. rewrite (Hw 128) by lia. cbn [obind].
  rewrite ?land_mask51, ?low51_mod; rewrite ?Z.shiftr_div_pow2 by lia.
  split_limb (e3 + (2 ^ 51 - 1) + g2) g3 h3 Q3 L3 K3. rewrite (Hw 128) by lia. cbn [obind].
  rewrite ?land_mask51, ?low51_mod; rewrite ?Z.shiftr_div_pow2 by lia.
  split_limb (e4 + (2 ^ 51 - 1) + g3) g4 h4 Q4 L4 K4.
  rewrite pack_ok by assumption. do 2 f_equal.
  (* the number *)
  assert (VH : val (h0, h1, h2, h3, h4) + g4 * 2 ^ 255 = val (e0, e1, e2, e3, e4) + 19 * c3 - 19 + 2 ^ 255).
  { unfold val. clear - Q0 Q1 Q2 Q3 Q4. lia. }
  assert (VD : forall x0 x1 x2 x3 x4, 0 <= x0 < 2 ^ 51 -> 0 <= x1 < 2 ^ 51 -> 0 <= x2 < 2 ^ 51 -> 0 <= x3 < 2 ^ 51 -> 0 <= x4 < 2 ^ 51 -> 0 <= val (x0, x1, x2, x3, x4) < 2 ^ 255).
  { unfold val. clear. intros. lia. }
  pose proof (VD h0 h1 h2 h3 h4 L0 L1 L2 L3 L4) as RH. pose proof (VD b0 b1 b2 b3 b4 B0 B1 B2 B3 B4) as RB.
  pose proof (VD d0 d1 d2 d3 d4 D0 D1 D2 D3 D4) as RD. pose proof (VD e0 e1 e2 e3 e4 E0 E1 E2 E3 E4) as RE.
  replace (val (b0 + 19 * c1, b1, b2, b3, b4)) with (val (b0, b1, b2, b3, b4) + 19 * c1) in V2 by (unfold val; ring).
  replace (val (d0 + 19 * c2 + 19, d1, d2, d3, d4)) with (val (d0, d1, d2, d3, d4) + 19 * c2 + 19) in V3 by (unfold val; ring).
  clear - VH RH RB RD RE V1 V2 V3 C1 C2 C3 K4.
  set (H := val (h0, h1, h2, h3, h4)) in *. set (B := val (b0, b1, b2, b3, b4)) in *. set (D := val (d0, d1, d2, d3, d4)) in *.
  set (F := val (e0, e1, e2, e3, e4)) in *. set (A := val (a0, a1, a2, a3, a4)) in *. clearbody A B D F H.
  apply Z.mod_unique with (q := c1 + c2 + c3); unfold p25519; lia.
Qed.
End Exact.
