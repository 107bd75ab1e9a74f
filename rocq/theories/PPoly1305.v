(** Proofs about the Poly1305 code *)
From Verif Require Import Base MHash MSha2 MBlake2 SSha2 SBlake2 PSha2 PSha2b PBlake2 PChaCha MPoly1305 SPoly1305.
Require Import ZifyBool Lia.

Definition limbs (h : Z * Z * Z) : Z := let '(h0, h1, h2) := h in h0 + h1 * 2 ^ 44 + h2 * 2 ^ 88.
Definition r_ok (r : Z * Z * Z) : Prop :=
  let '(r0, r1, r2) := r in 0 <= r0 < 2 ^ 44 /\ 0 <= r1 < 2 ^ 44 /\ 0 <= r2 < 2 ^ 36.
Definition h_ok (h : Z * Z * Z) : Prop :=
  let '(h0, h1, h2) := h in 0 <= h0 < 2 ^ 44 /\ 0 <= h1 < 2 ^ 44 + 2 ^ 10 /\ 0 <= h2 < 2 ^ 42.
Definition exact_in_range (w : Z -> Z -> outcome Z) : Prop := forall bits x, 0 <= x < 2 ^ bits -> w bits x = Ok x.
Lemma wrap_exact : exact_in_range wrap.
Proof. intros bits x H. unfold wrap. now rewrite Z.mod_small. Qed.
Lemma strict_exact : exact_in_range strict.
Proof. intros bits x H. unfold strict. destruct (0 <=? x) eqn:A, (x <? 2 ^ bits) eqn:B; try reflexivity; lia. Qed.

Lemma land_mask44 : forall x, Z.land x mask44 = x mod 2 ^ 44.
Proof. intros. change mask44 with (Z.ones 44). apply Z.land_ones. lia. Qed.
Lemma land_mask42 : forall x, Z.land x mask42 = x mod 2 ^ 42.
Proof. intros. change mask42 with (Z.ones 42). apply Z.land_ones. lia. Qed.
Lemma low44 : forall d, (d mod 2 ^ 64) mod 2 ^ 44 = d mod 2 ^ 44.
Proof. intros d. symmetry. apply Znumtheory.Zmod_div_mod; try lia. exists (2 ^ 20). reflexivity. Qed.
Lemma low42 : forall d, (d mod 2 ^ 64) mod 2 ^ 42 = d mod 2 ^ 42.
Proof. intros d. symmetry. apply Znumtheory.Zmod_div_mod; try lia. exists (2 ^ 22). reflexivity. Qed.

(** ** Reading sixteen bytes *)
Lemma load_le64_val : forall l, bytes l -> 8 <= zlen l -> load_le64 l = mem_word (take 8 l).
Proof.
  intros l Hb Hl. unfold zlen in Hl.
  do 8 (destruct l as [|? l]; [cbn [length] in Hl; lia|]).
  repeat match goal with H : bytes (_ :: _) |- _ => inversion H; clear H; subst | H : Forall is_byte (_ :: _) |- _ => inversion H; clear H; subst end.
  change (take 8 (z :: z0 :: z1 :: z2 :: z3 :: z4 :: z5 :: z6 :: l)) with [z; z0; z1; z2; z3; z4; z5; z6].
  cbv [load_le64 byte_at Z.to_nat Pos.to_nat Pos.iter_op Init.Nat.add nth mem_word fold_right].
  unfold is_byte in *.
  assert (forall a b k, 0 <= k -> 0 <= a < 2 ^ k -> Z.lor a (Z.shiftl b k) = a + b * 2 ^ k) as L.
  { intros a b k Hk Ha. rewrite Z.lor_comm, lor_add by lia. lia. }
  rewrite (L _ _ 8), (L _ _ 16), (L _ _ 24), (L _ _ 32), (L _ _ 40), (L _ _ 48), (L _ _ 56) by lia. lia.
Qed.
Definition m_limbs (t0 t1 : Z) : Z * Z * Z :=
  (t0 mod 2 ^ 44, Z.lor (Z.shiftr t0 44) (Z.shiftl t1 20 mod 2 ^ 64) mod 2 ^ 44, Z.shiftr t1 24).
Lemma m_limbs_ok : forall t0 t1, 0 <= t0 < 2 ^ 64 -> 0 <= t1 < 2 ^ 64 ->
  let '(m0, m1, m2) := m_limbs t0 t1 in
  0 <= m0 < 2 ^ 44 /\ 0 <= m1 < 2 ^ 44 /\ 0 <= m2 < 2 ^ 40 /\ m0 + m1 * 2 ^ 44 + m2 * 2 ^ 88 = t0 + t1 * 2 ^ 64.
Proof.
  intros t0 t1 H0 H1. unfold m_limbs. rewrite !Z.shiftr_div_pow2 by lia.
  assert (Z.shiftl t1 20 mod 2 ^ 64 = Z.shiftl (t1 mod 2 ^ 44) 20) as ->.
  { rewrite !Z.shiftl_mul_pow2 by lia. change (2 ^ 64) with (2 ^ 44 * 2 ^ 20). now rewrite Z.mul_mod_distr_r by lia. }
  rewrite Z.lor_comm, lor_add by lia. lia.
Qed.
Lemma u8to64_ok : forall m off, bytes m -> 0 <= off -> off + 8 <= zlen m ->
  U8TO64 m off = mem_word (sub off 8 m) /\ 0 <= U8TO64 m off < 2 ^ 64.
Proof.
  intros m off Hb Ho Hl. unfold U8TO64. rewrite load_le64_val; [|now apply bytes_drop|rewrite zlen_drop; lia].
  split; [reflexivity|]. pose proof (mem_word_range (take 8 (drop off m)) ltac:(now apply bytes_take, bytes_drop)) as R.
  rewrite zlen_take, zlen_drop in R. replace (Z.max 0 (Z.min 8 _)) with 8 in R by lia. change (2 ^ 64) with (256 ^ 8). exact R.
Qed.
Lemma mem_word_app : forall a b, mem_word (a ++ b) = mem_word a + 256 ^ zlen a * mem_word b.
Proof.
  intros a b. induction a as [|x a IH].
  - cbn [app]. change (zlen (@nil Z)) with 0. change (mem_word []) with 0. change (256 ^ 0) with 1. lia.
  - cbn [app]. rewrite zlen_cons, Z.pow_add_r by (pose proof (zlen_nonneg Z a); lia). change (256 ^ 1) with 256.
    unfold mem_word in *. cbn [fold_right]. rewrite IH. ring.
Qed.
Lemma sixteen_val : forall m, bytes m -> 16 <= zlen m ->
  U8TO64 m 0 + U8TO64 m 8 * 2 ^ 64 = mem_word (take 16 m).
Proof.
  intros m Hb Hl. destruct (u8to64_ok m 0 Hb ltac:(lia) ltac:(lia)) as [-> _].
  destruct (u8to64_ok m 8 Hb ltac:(lia) ltac:(lia)) as [-> _].
  assert (take 16 m = sub 0 8 m ++ sub 8 8 m) as ->.
  { unfold sub. rewrite (drop_le0 Z 0) by lia. rewrite take_drop_comm by lia. 
    pose proof (take_drop Z 8 (take 16 m)) as E. rewrite take_take in E. symmetry. exact E. }
  rewrite mem_word_app. rewrite zlen_sub by lia. change (256 ^ 8) with (2 ^ 64). lia.
Qed.

(** ** One block *)
Lemma mul_range : forall a b A B, 0 <= a <= A -> 0 <= b <= B -> 0 <= a * b <= A * B.
Proof. intros a b A B Ha Hb. split; [apply Z.mul_nonneg_nonneg; lia|]. apply Z.mul_le_mono_nonneg; lia. Qed.

Lemma step_ok : forall w, exact_in_range w -> forall A bits x (f : Z -> outcome A) (Q : A -> Prop),
  0 <= x < 2 ^ bits -> (exists h, f x = Ok h /\ Q h) -> exists h, obind (w bits x) f = Ok h /\ Q h.
Proof. intros w Hw A bits x f Q Hx H. now rewrite Hw. Qed.
Ltac step Hw := apply (step_ok _ Hw); [lia|]; cbv beta; rewrite ?land_mask44, ?land_mask42, ?low44, ?low42;
  rewrite ?Z.shiftr_div_pow2 by lia.

Definition hibit_ok (hibit : Z) : Prop := hibit = 0 \/ hibit = 2 ^ 40.
Lemma block_ok : forall w, exact_in_range w -> forall hibit r h m,
  hibit_ok hibit -> r_ok r -> h_ok h -> bytes m -> 16 <= zlen m ->
  exists h', poly1305_block w hibit r (let '(_, r1, r2) := r in (r1 * 20, r2 * 20)) h m = Ok h' /\ h_ok h' /\
    limbs h' mod P1305 = ((limbs h + mem_word (take 16 m) + hibit * 2 ^ 88) * limbs r) mod P1305.
Proof.
  intros w Hw hibit [[r0 r1] r2] [[h0 h1] h2] m Hhi (R0 & R1 & R2) (H0 & H1 & H2) Hb Hl.
  unfold poly1305_block. cbv zeta.
  rewrite <- (sixteen_val m Hb Hl).
  destruct (u8to64_ok m 0 Hb ltac:(lia) ltac:(lia)) as [_ T0].
  destruct (u8to64_ok m 8 Hb ltac:(lia) ltac:(lia)) as [_ T1].
  pose proof (m_limbs_ok _ _ T0 T1) as M. unfold m_limbs in M.
  rewrite !land_mask44, !land_mask42 in *.
  set (m0 := U8TO64 m 0 mod 2 ^ 44) in *.
  set (m1 := Z.lor (Z.shiftr (U8TO64 m 0) 44) (Z.shiftl (U8TO64 m 8) 20 mod 2 ^ 64) mod 2 ^ 44) in *.
  rewrite (Z.mod_small (Z.shiftr (U8TO64 m 8) 24)) by lia.
  set (m2 := Z.shiftr (U8TO64 m 8) 24) in *.
  destruct M as (M0 & M1 & M2 & <-). clearbody m0 m1 m2. clear T0 T1 Hb Hl m.
  assert (Z.lor m2 hibit = m2 + hibit) as ->.
  { destruct Hhi as [->| ->]; [rewrite Z.lor_0_r; lia|].
    change (2 ^ 40) with (Z.shiftl 1 40) at 1. rewrite Z.lor_comm, lor_add by lia. lia. }
  assert (0 <= hibit <= 2 ^ 40) as Hh by (destruct Hhi; lia). clear Hhi.
  do 3 (step Hw).
  replace (limbs (h0, h1, h2) + (m0 + m1 * 2 ^ 44 + m2 * 2 ^ 88) + hibit * 2 ^ 88)
    with (limbs (h0 + m0, h1 + m1, h2 + (m2 + hibit))) by (unfold limbs; lia).
  assert (0 <= h0 + m0 <= 2 ^ 45) as A0 by lia.
  assert (0 <= h1 + m1 <= 2 ^ 46) as A1 by lia.
  assert (0 <= h2 + (m2 + hibit) <= 2 ^ 43) as A2 by lia.
  set (a0 := h0 + m0) in *. set (a1 := h1 + m1) in *. set (a2 := h2 + (m2 + hibit)) in *.
  clearbody a0 a1 a2. clear h0 h1 h2 H0 H1 H2 m0 m1 m2 M0 M1 M2 hibit Hh.
  assert (0 <= r1 * 20 <= 2 ^ 49) as S1 by lia. assert (0 <= r2 * 20 <= 2 ^ 41) as S2 by lia.
  pose proof (mul_range a0 r0 _ (2 ^ 44) A0 ltac:(lia)) as B00. pose proof (mul_range a1 (r2 * 20) _ _ A1 S2) as B12.
  pose proof (mul_range a2 (r1 * 20) _ _ A2 S1) as B21. pose proof (mul_range a0 r1 _ (2 ^ 44) A0 ltac:(lia)) as B01.
  pose proof (mul_range a1 r0 _ (2 ^ 44) A1 ltac:(lia)) as B10. pose proof (mul_range a2 (r2 * 20) _ _ A2 S2) as B22.
  pose proof (mul_range a0 r2 _ (2 ^ 36) A0 ltac:(lia)) as B02. pose proof (mul_range a1 r1 _ (2 ^ 44) A1 ltac:(lia)) as B11.
  pose proof (mul_range a2 r0 _ (2 ^ 44) A2 ltac:(lia)) as B20.
  remember (a0 * r0) as p00 eqn:E00. remember (a1 * (r2 * 20)) as p12 eqn:E12. remember (a2 * (r1 * 20)) as p21 eqn:E21.
  remember (a0 * r1) as p01 eqn:E01. remember (a1 * r0) as p10 eqn:E10. remember (a2 * (r2 * 20)) as p22 eqn:E22.
  remember (a0 * r2) as p02 eqn:E02. remember (a1 * r1) as p11 eqn:E11. remember (a2 * r0) as p20 eqn:E20.
  assert (p00 + p12 + p21 + (p01 + p10 + p22) * 2 ^ 44 + (p02 + p11 + p20) * 2 ^ 88
          = limbs (a0, a1, a2) * limbs (r0, r1, r2) - P1305 * (4 * (a1 * r2 + a2 * r1 + a2 * r2 * 2 ^ 44))) as V.
  { subst. unfold limbs, P1305. change (2 ^ 130 - 5) with 1361129467683753853853498429727072845819. change (2 ^ 44) with 17592186044416. change (2 ^ 88) with 309485009821345068724781056. ring. }
  generalize dependent (limbs (a0, a1, a2) * limbs (r0, r1, r2)).
  generalize (4 * (a1 * r2 + a2 * r1 + a2 * r2 * 2 ^ 44)).
  clear E00 E12 E21 E01 E10 E22 E02 E11 E20 S1 S2 A0 A1 A2 R0 R1 R2. intros K V0 V.
  do 15 (step Hw).
  remember (p00 + p12 + p21) as d0 eqn:D0. remember (p01 + p10 + p22) as d1 eqn:D1.
  remember (p02 + p11 + p20) as d2 eqn:D2.
  assert (0 <= d0 <= 2 ^ 93) as G0 by lia. assert (0 <= d1 <= 2 ^ 92) as G1 by lia.
  assert (0 <= d2 <= 2 ^ 91) as G2 by lia. clear B00 B12 B21 B01 B10 B22 B02 B11 B20 D0 D1 D2 p00 p12 p21 p01 p10 p22 p02 p11 p20.
  assert (0 <= d0 / 2 ^ 44 <= 2 ^ 49) as C0 by (split; [apply Z.div_pos; lia|apply Z.div_le_upper_bound; lia]).
  pose proof (Z.div_mod d0 (2 ^ 44) ltac:(lia)) as Q0. pose proof (Z.mod_pos_bound d0 (2 ^ 44) ltac:(lia)) as L0.
  set (c0 := d0 / 2 ^ 44) in *. set (e0 := d0 mod 2 ^ 44) in *. clearbody c0 e0.
  do 2 (step Hw).
  assert (0 <= (d1 + c0) / 2 ^ 44 <= 2 ^ 49) as C1 by (split; [apply Z.div_pos; lia|apply Z.div_le_upper_bound; lia]).
  pose proof (Z.div_mod (d1 + c0) (2 ^ 44) ltac:(lia)) as Q1. pose proof (Z.mod_pos_bound (d1 + c0) (2 ^ 44) ltac:(lia)) as L1.
  set (c1 := (d1 + c0) / 2 ^ 44) in *. set (e1 := (d1 + c0) mod 2 ^ 44) in *. clearbody c1 e1.
  do 2 (step Hw).
  assert (0 <= (d2 + c1) / 2 ^ 42 <= 2 ^ 50) as C2 by (split; [apply Z.div_pos; lia|apply Z.div_le_upper_bound; lia]).
  pose proof (Z.div_mod (d2 + c1) (2 ^ 42) ltac:(lia)) as Q2. pose proof (Z.mod_pos_bound (d2 + c1) (2 ^ 42) ltac:(lia)) as L2.
  set (c2 := (d2 + c1) / 2 ^ 42) in *. set (e2 := (d2 + c1) mod 2 ^ 42) in *. clearbody c2 e2.
  do 3 (step Hw).
  assert (0 <= (e0 + c2 * 5) / 2 ^ 44 <= 2 ^ 9) as C3 by (split; [apply Z.div_pos; lia|apply Z.div_le_upper_bound; lia]).
  pose proof (Z.div_mod (e0 + c2 * 5) (2 ^ 44) ltac:(lia)) as Q3. pose proof (Z.mod_pos_bound (e0 + c2 * 5) (2 ^ 44) ltac:(lia)) as L3.
  set (c3 := (e0 + c2 * 5) / 2 ^ 44) in *. set (e3 := (e0 + c2 * 5) mod 2 ^ 44) in *. clearbody c3 e3.
  step Hw.
  eexists. split; [reflexivity|]. split; [unfold h_ok; lia|].
  assert (limbs (e3, e1 + c3, e2) = V0 + - (K + c2) * P1305) as ->; [|apply Z_mod_plus_full].
  cbn [limbs]. assert (P1305 * K = d0 + 0 - d0 + P1305 * K) by lia.
  assert (- (K + c2) * P1305 = - (P1305 * K) - c2 * P1305) as -> by ring.
  generalize dependent (P1305 * K). intros PK V _. unfold P1305. lia.
Qed.

(** ** Key setup *)
Lemma land_div_mod : forall x y k, 0 <= k ->
  Z.land x y = Z.land (x mod 2 ^ k) (y mod 2 ^ k) + Z.land (x / 2 ^ k) (y / 2 ^ k) * 2 ^ k.
Proof.
  intros x y k Hk.
  rewrite (Z.div_mod (Z.land x y) (2 ^ k)) at 1 by lia.
  assert (Z.land x y / 2 ^ k = Z.land (x / 2 ^ k) (y / 2 ^ k)) as ->
    by (rewrite <- !Z.shiftr_div_pow2 by lia; apply Z.shiftr_land).
  assert (Z.land x y mod 2 ^ k = Z.land (x mod 2 ^ k) (y mod 2 ^ k)) as ->; [|lia].
  rewrite <- !Z.land_ones by lia. apply Z.bits_inj'. intros n Hn. rewrite !Z.land_spec.
  destruct (Z.testbit x n), (Z.testbit y n), (Z.testbit (Z.ones k) n); reflexivity.
Qed.
Lemma land_limbs : forall a b c d k, 0 <= k -> 0 <= a < 2 ^ k -> 0 <= c < 2 ^ k ->
  Z.land (a + b * 2 ^ k) (c + d * 2 ^ k) = Z.land a c + Z.land b d * 2 ^ k.
Proof.
  intros a b c d k Hk Ha Hc. rewrite (land_div_mod _ _ k Hk).
  rewrite !Z_mod_plus_full, !Z.mod_small by lia. rewrite !Z.div_add, !Z.div_small by lia. reflexivity.
Qed.
Lemma land_mod44 : forall x c, Z.land c mask44 = c -> Z.land x c = Z.land (x mod 2 ^ 44) c.
Proof.
  intros x c Hc. rewrite <- land_mask44. rewrite <- Hc at 1. rewrite <- Z.land_assoc. f_equal. apply Z.land_comm.
Qed.
Lemma land_le : forall x c, 0 <= c -> 0 <= Z.land x c <= c.
Proof.
  intros x c Hc. split; [apply Z.land_nonneg; lia|]. rewrite Z.land_comm.
  assert (0 <= Z.ldiff c x) by (apply Z.ldiff_nonneg; lia).
  assert (c = Z.land c x + Z.ldiff c x) as E; [|lia].
  rewrite Z.add_nocarry_lxor.
  - apply Z.bits_inj'. intros n Hn. rewrite Z.lxor_spec, Z.land_spec, Z.ldiff_spec.
    destruct (Z.testbit c n), (Z.testbit x n); reflexivity.
  - apply Z.bits_inj'. intros n Hn. rewrite !Z.land_spec, Z.ldiff_spec, Z.bits_0.
    destruct (Z.testbit c n), (Z.testbit x n); reflexivity.
Qed.
Lemma init_r : forall buffer key, bytes key -> 16 <= zlen key ->
  r_ok (p_r (poly1305_init buffer key)) /\
  limbs (p_r (poly1305_init buffer key)) = clamp (mem_word (take 16 key)).
Proof.
  intros buffer key Hb Hl. cbn [poly1305_init p_r].
  rewrite <- (sixteen_val key Hb Hl).
  destruct (u8to64_ok key 0 Hb ltac:(lia) ltac:(lia)) as [_ T0].
  destruct (u8to64_ok key 8 Hb ltac:(lia) ltac:(lia)) as [_ T1].
  pose proof (m_limbs_ok _ _ T0 T1) as M. unfold m_limbs in M.
  rewrite (land_mod44 (U8TO64 key 0)) by reflexivity.
  rewrite (land_mod44 (Z.lor _ _)) by reflexivity.
  set (m0 := U8TO64 key 0 mod 2 ^ 44) in *.
  set (m1 := Z.lor (Z.shiftr (U8TO64 key 0) 44) (Z.shiftl (U8TO64 key 8) 20 mod 2 ^ 64) mod 2 ^ 44) in *.
  set (m2 := Z.shiftr (U8TO64 key 8) 24) in *.
  destruct M as (M0 & M1 & M2 & <-). clearbody m0 m1 m2. clear T0 T1 Hb Hl key buffer.
  pose proof (land_le m0 0xffc0fffffff ltac:(lia)). pose proof (land_le m1 0xfffffc0ffff ltac:(lia)).
  pose proof (land_le m2 0x00ffffffc0f ltac:(lia)).
  split; [unfold r_ok; lia|]. unfold clamp, limbs.
  replace 0x0ffffffc0ffffffc0ffffffc0fffffff with (0xffc0fffffff + (0xfffffc0ffff + 0x00ffffffc0f * 2 ^ 44) * 2 ^ 44) by reflexivity.
  replace (m0 + m1 * 2 ^ 44 + m2 * 2 ^ 88) with (m0 + (m1 + m2 * 2 ^ 44) * 2 ^ 44) by lia.
  rewrite land_limbs by lia. rewrite land_limbs by lia. lia.
Qed.

(** ** Several blocks *)
Definition horner (r a : Z) (blocks : list (list Z)) : Z :=
  fold_left (fun a block => ((a + le_val (block ++ [1])) * r) mod P1305) blocks a.
Lemma horner_snoc : forall r a bs b, horner r a (bs ++ [b]) = ((horner r a bs + le_val (b ++ [1])) * r) mod P1305.
Proof. intros. unfold horner. now rewrite fold_left_app. Qed.
Lemma horner_mod : forall r a bs, horner r (a mod P1305) bs mod P1305 = horner r a bs mod P1305.
Proof.
  intros r a [|b bs]; [apply Z.mod_mod; discriminate|]. unfold horner. cbn [fold_left]. f_equal. f_equal.
  rewrite Z.mul_mod by discriminate. rewrite Z.add_mod_idemp_l by discriminate. rewrite <- Z.mul_mod by discriminate. reflexivity.
Qed.
Lemma full_block_val : forall b, zlen b = 16 -> le_val (b ++ [1]) = mem_word b + 2 ^ 40 * 2 ^ 88.
Proof. intros b H. change le_val with mem_word. rewrite mem_word_app, H. reflexivity. Qed.
Lemma blocks_loop_ok : forall w, exact_in_range w -> forall r, r_ok r -> forall count h m,
  h_ok h -> bytes m -> 16 * Z.of_nat count <= zlen m ->
  exists h', poly1305_blocks_loop w count (2 ^ 40) r (let '(_, r1, r2) := r in (r1 * 20, r2 * 20)) h m = Ok h' /\ h_ok h' /\
    limbs h' mod P1305 = horner (limbs r) (limbs h) (pieces 16 count m) mod P1305.
Proof.
  intros w Hw r Hr count. induction count as [|count IH]; intros h m Hh Hb Hl.
  - exists h. split; [reflexivity|]. split; [exact Hh|reflexivity].
  - cbn [poly1305_blocks_loop pieces].
    destruct (block_ok w Hw (2 ^ 40) r h m (or_intror eq_refl) Hr Hh Hb ltac:(lia)) as (h1 & E1 & K1 & V1).
    rewrite E1. cbn [obind].
    destruct (IH h1 (drop 16 m) K1 ltac:(now apply bytes_drop) ltac:(rewrite zlen_drop; lia)) as (h2 & E2 & K2 & V2).
    exists h2. split; [exact E2|]. split; [exact K2|]. rewrite V2.
    rewrite <- horner_mod, V1. unfold horner at 2. cbn [fold_left].
    change (firstn 16 m) with (take 16 m). change (skipn 16 m) with (drop 16 m).
    rewrite full_block_val by (rewrite zlen_take; clear - Hl; lia). rewrite Z.add_assoc. reflexivity.
Qed.

(** ** The state after some input *)
Definition holding (key : list Z) (k : nat) (full rest : list Z) (st : poly1305) : Prop :=
  zlen full = 16 * Z.of_nat k /\ zlen rest < 16 /\ p_leftover st = zlen rest /\
  zlen (p_buffer st) = 16 /\ bytes (p_buffer st) /\ take (zlen rest) (p_buffer st) = rest /\
  p_final st = false /\ r_ok (p_r st) /\ limbs (p_r st) = clamp (mem_word (take 16 key)) /\ h_ok (p_h st) /\
  limbs (p_h st) mod P1305 = horner (clamp (mem_word (take 16 key))) 0 (pieces 16 k full) mod P1305 /\
  p_pad st = (U8TO64 key 16, U8TO64 key 24).

Lemma init_holding : forall buffer key, bytes key -> 32 <= zlen key -> bytes buffer -> zlen buffer = 16 ->
  holding key 0 [] [] (poly1305_init buffer key).
Proof.
  intros buffer key Hk Lk Hb Lb. destruct (init_r buffer key Hk ltac:(lia)) as [R V].
  unfold holding. split; [reflexivity|]. split; [reflexivity|]. split; [reflexivity|].
  split; [exact Lb|]. split; [exact Hb|]. split; [reflexivity|]. split; [reflexivity|].
  split; [exact R|]. split; [exact V|]. split; [cbn [poly1305_init p_h h_ok]; lia|]. split; reflexivity.
Qed.
Lemma pieces_app : forall k n a b, zlen a = Z.of_nat k * Z.of_nat n ->
  forall m, pieces k (n + m) (a ++ b) = pieces k n a ++ pieces k m b.
Proof.
  intros k n. induction n as [|n IH]; intros a b Ha m.
  - destruct a; [reflexivity|]. rewrite zlen_cons in Ha. pose proof (zlen_nonneg Z a). lia.
  - cbn [Nat.add pieces app]. unfold zlen in Ha.
    assert (k <= length a)%nat as Hk by nia.
    rewrite firstn_app, skipn_app. replace (k - length a)%nat with 0%nat by lia.
    cbn [firstn skipn]. rewrite app_nil_r. f_equal. apply IH. unfold zlen. rewrite skipn_length. nia.
Qed.
Lemma pieces_exact : forall k n a b, zlen a = Z.of_nat k * Z.of_nat n -> pieces k n (a ++ b) = pieces k n a.
Proof. intros k n a b H. pose proof (pieces_app k n a b H 0) as E. cbn [pieces] in E. now rewrite Nat.add_0_r, app_nil_r in E. Qed.

Lemma blocks_holding : forall w, exact_in_range w -> forall key k full st m bytes',
  holding key k full [] st -> bytes m -> 16 * Z.of_nat bytes' <= zlen m ->
  exists st', poly1305_blocks w st m (16 * Z.of_nat bytes') = Ok st' /\
    holding key (k + bytes') (full ++ take (16 * Z.of_nat bytes') m) [] st'.
Proof.
  intros w Hw key k full st m c (F & _ & L & LB & BB & _ & Fi & R & RV & H & HV & Pd) Hb Hl.
  assert (zlen (take (Z.of_nat c * 16) m) = 16 * Z.of_nat c) as Lt by (rewrite zlen_take; clear - Hl; lia).
  unfold poly1305_blocks. rewrite Fi. destruct (p_r st) as [[r0 r1] r2] eqn:Er.
  change (Z.shiftl 5 2) with 20. cbn [r_ok] in R.
  rewrite Hw by (clear - R; lia). cbn [obind]. rewrite Hw by (clear - R; lia). cbn [obind].
  rewrite (Z.mul_comm 16), Z.div_mul, Nat2Z.id by discriminate. change (Z.shiftl 1 40) with (2 ^ 40).
  destruct (blocks_loop_ok w Hw (r0, r1, r2) R c (p_h st) m H Hb Hl) as (h' & E & K & V). rewrite E. cbn [obind].
  eexists. split; [reflexivity|]. unfold holding. cbn [p_leftover p_buffer p_final p_r p_h p_pad].
  split; [rewrite zlen_app, Lt; clear - F; lia|]. split; [reflexivity|]. split; [exact L|]. split; [exact LB|].
  split; [exact BB|]. split; [reflexivity|]. split; [reflexivity|]. split; [exact R|]. split; [exact RV|]. split; [exact K|].
  split; [|assumption]. rewrite V. rewrite <- horner_mod, HV, horner_mod, RV.
  rewrite pieces_app by (clear - F; lia). unfold horner. rewrite fold_left_app. fold (horner (clamp (mem_word (take 16 key))) 0 (pieces 16 k full)).
  f_equal. f_equal. rewrite <- (take_drop Z (Z.of_nat c * 16) m) at 1. apply pieces_exact. clear - Lt; lia.
Qed.

Lemma store_holding : forall key k full st m, holding key k full [] st -> bytes m -> zlen m < 16 ->
  holding key k full m (poly1305_store st m).
Proof.
  intros key k full st m (F & _ & L & LB & BB & _ & Fi & R & RV & H & HV & Pd) Hb Hl.
  unfold poly1305_store. destruct (zlen m =? 0) eqn:E.
  - assert (m = []) as -> by (apply zlen_0_nil; clear - E; lia).
    unfold holding. auto 20.
  - change (zlen (@nil Z)) with 0 in L. rewrite L. rewrite splice_0.
    unfold holding. cbn [p_leftover p_buffer p_final p_r p_h p_pad].
    split; [exact F|]. split; [exact Hl|]. split; [reflexivity|].
    split; [rewrite zlen_app, zlen_drop; clear - LB Hl; pose proof (zlen_nonneg Z m); lia|].
    split; [apply bytes_app; split; [exact Hb|now apply bytes_drop]|]. split; [apply take_app_exact|]. auto 10.
Qed.
Lemma full_holding : forall w, exact_in_range w -> forall key k full st m, holding key k full [] st -> bytes m ->
  exists st' k' full' rest', poly1305_full w st m = Ok st' /\ full' ++ rest' = full ++ m /\ holding key k' full' rest' st'.
Proof.
  intros w Hw key k full st m Hh Hb. unfold poly1305_full. rewrite Z.geb_leb.
  destruct (16 <=? zlen m) eqn:E.
  - pose proof (Z.mod_pos_bound (zlen m) 16 eq_refl) as Mb.
    assert (exists n, zlen m - zlen m mod 16 = 16 * Z.of_nat n) as [n En].
    { exists (Z.to_nat (zlen m / 16)). pose proof (Z.div_mod (zlen m) 16 ltac:(discriminate)).
      rewrite Z2Nat.id; [clear Hh; lia|]. apply Z.div_pos; [apply zlen_nonneg|reflexivity]. }
    rewrite En. destruct (blocks_holding w Hw key k full st m n Hh Hb) as (st1 & E1 & H1); [clear Hh; lia|].
    rewrite E1. cbn [obind].
    exists (poly1305_store st1 (drop (16 * Z.of_nat n) m)), (k + n)%nat, (full ++ take (16 * Z.of_nat n) m), (drop (16 * Z.of_nat n) m).
    split; [reflexivity|]. split; [rewrite <- app_assoc; f_equal; apply take_drop|].
    apply store_holding; [exact H1|now apply bytes_drop|rewrite zlen_drop; clear - En Mb; lia].
  - exists (poly1305_store st m), k, full, m. split; [reflexivity|]. split; [reflexivity|].
    apply store_holding; auto. clear - E; lia.
Qed.
Lemma update_holding : forall w, exact_in_range w -> forall key k full rest st m, holding key k full rest st -> bytes m ->
  exists st' k' full' rest', poly1305_update w st m = Ok st' /\ full' ++ rest' = full ++ rest ++ m /\ holding key k' full' rest' st'.
Proof.
  intros w Hw key k full rest st m Hh Hb. unfold poly1305_update.
  pose proof (zlen_nonneg Z rest) as Nr. pose proof (zlen_nonneg Z m) as Nm.
  assert (p_leftover st = zlen rest) as L by apply Hh. rewrite L.
  destruct (zlen rest =? 0) eqn:E.
  { assert (rest = []) as -> by (apply zlen_0_nil; clear - E; lia). cbn [app]. apply (full_holding w Hw key k full st m Hh Hb). }
  rewrite Z.gtb_ltb.
  set (want := if zlen m <? 16 - zlen rest then zlen m else 16 - zlen rest).
  assert (Hh' := Hh). destruct Hh' as (F & Lr & _ & LB & BB & TB & Fi & R & RV & H & HV & Pd).
  assert (0 <= want <= zlen m /\ want <= 16 - zlen rest /\ (want = zlen m \/ want = 16 - zlen rest)) as (W1 & W2 & W3).
  { unfold want. clear - Nm Lr Nr. destruct (zlen m <? 16 - zlen rest) eqn:X; lia. }
  assert (zlen (take want m) = want) as Lw by (rewrite zlen_take; clear - W1; lia).
  assert (splice (zlen rest) (take want m) (p_buffer st) = rest ++ take want m ++ drop (zlen rest + want) (p_buffer st)) as Es
    by (unfold splice; rewrite TB, Lw; reflexivity).
  cbn [p_leftover].
  match goal with |- context [if _ then Ok ?s else _] => set (s1 := s) end.
  destruct (zlen rest + want <? 16) eqn:E16.
  - assert (want = zlen m) as Ew by (clear - W3 E16; lia).
    exists s1, k, full, (rest ++ m). split; [reflexivity|]. split; [reflexivity|].
    assert (take want m = m) as Et by (apply take_all; clear - Ew; lia).
    unfold holding, s1. cbn [p_leftover p_buffer p_final p_r p_h p_pad]. rewrite Es, Et.
    split; [exact F|]. split; [rewrite zlen_app; clear - E16 Ew; lia|]. split; [rewrite zlen_app, Ew; reflexivity|].
    split; [rewrite !zlen_app, zlen_drop; clear - E16 Ew LB Nr Nm; lia|].
    split; [apply bytes_app; split; [rewrite <- TB; now apply bytes_take|apply bytes_app; split; [exact Hb|now apply bytes_drop]]|].
    split; [rewrite app_assoc; apply take_app_exact|]. auto 10.
  - assert (want = 16 - zlen rest) as Ew by (clear - W2 E16; lia).
    assert (p_buffer s1 = rest ++ take want m) as Eb.
    { unfold s1. cbn [p_buffer]. rewrite Es. rewrite drop_all by (clear - LB Ew; lia). now rewrite app_nil_r. }
    assert (zlen (p_buffer s1) = 16) as Lb1 by (rewrite Eb, zlen_app, Lw; clear - Ew; lia).
    assert (bytes (p_buffer s1)) as Hb1.
    { rewrite Eb. apply bytes_app. split; [rewrite <- TB; now apply bytes_take|now apply bytes_take]. }
    pose (s0 := Poly1305 (p_r s1) (p_h s1) (p_pad s1) 0 (p_buffer s1) (p_final s1)).
    assert (holding key k full [] s0) as H0.
    { unfold holding, s0. cbn [p_leftover p_buffer p_final p_r p_h p_pad].
      split; [exact F|]. split; [reflexivity|]. split; [reflexivity|]. split; [exact Lb1|]. split; [exact Hb1|].
      split; [reflexivity|]. auto 10. }
    destruct (blocks_holding w Hw key k full s0 (p_buffer s1) 1 H0 Hb1) as (s2 & E2 & H2); [clear - Lb1; lia|].
    change (16 * Z.of_nat 1) with 16 in *.
    (* the leftover count has no effect on poly1305_blocks *)
    assert (exists l, poly1305_blocks w s1 (p_buffer s1) 16 = Ok (Poly1305 (p_r s2) (p_h s2) (p_pad s2) l (p_buffer s2) (p_final s2))) as [l El].
    { revert E2. unfold poly1305_blocks, s0. cbn [p_leftover p_buffer p_final p_r p_h p_pad].
      destruct (p_r s1) as [[r0 r1] r2]. destruct (w 64 (r1 * Z.shiftl 5 2)); cbn [obind]; [|discriminate].
      destruct (w 64 (r2 * Z.shiftl 5 2)); cbn [obind]; [|discriminate].
      destruct (poly1305_blocks_loop _ _ _ _ _ _ _); cbn [obind]; [|discriminate]. intros X. injection X as <-.
      cbn [p_leftover p_buffer p_final p_r p_h p_pad]. eexists. reflexivity. }
    rewrite El. cbn [obind p_leftover p_buffer p_final p_r p_h p_pad].
    assert (Poly1305 (p_r s2) (p_h s2) (p_pad s2) 0 (p_buffer s2) (p_final s2) = s2) as ->.
    { destruct H2 as (_ & _ & L2 & _). destruct s2. cbn in *. change (zlen (@nil Z)) with 0 in L2. now rewrite L2. }
    assert (take 16 (p_buffer s1) = rest ++ take want m) as Et by (rewrite <- Eb; apply take_all; clear - Lb1; lia).
    rewrite Et in H2.
    destruct (full_holding w Hw key _ _ s2 (drop want m) H2) as (s3 & k3 & f3 & r3 & E3 & V3 & H3); [now apply bytes_drop|].
    exists s3, k3, f3, r3. split; [exact E3|]. split; [|exact H3].
    rewrite V3. rewrite <- !app_assoc. now rewrite take_drop.
Qed.
