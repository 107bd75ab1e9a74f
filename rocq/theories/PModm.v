(** Arithmetic modulo the order of the base point: modm-donna-64bit.h *)
From Verif Require Import Base MHash MSha2 MBlake2 SSha2 SBlake2 PSha2 PSha2b PBlake2 PChaCha PGhash MPoly1305 PPoly1305 PPoly1305b MX25519 SX25519 MEdTable MEd25519 MEdSlide MEdSign PPrimeL PX25519 PX25519b PEd25519.

Definition val56 (s : bignum256modm) : Z :=
  let '(s0, s1, s2, s3, s4) := s in s0 + s1 * 2 ^ 56 + s2 * 2 ^ 112 + s3 * 2 ^ 168 + s4 * 2 ^ 224.
(** Limbs of 56 bits, the last one at most 2^n - 1 *)
Definition lim56 (n : Z) (s : bignum256modm) : Prop :=
  let '(s0, s1, s2, s3, s4) := s in
  0 <= s0 <= 2 ^ 56 - 1 /\ 0 <= s1 <= 2 ^ 56 - 1 /\ 0 <= s2 <= 2 ^ 56 - 1 /\ 0 <= s3 <= 2 ^ 56 - 1 /\ 0 <= s4 <= 2 ^ n - 1.
Lemma val56_m : val56 modm_m = order_l. Proof. reflexivity. Qed.
Lemma lim56_m : lim56 32 modm_m. Proof. unfold lim56, modm_m. lia. Qed.
Lemma val56_range : forall n s, 0 <= n -> lim56 n s -> 0 <= val56 s < 2 ^ (224 + n).
Proof.
  intros n [[[[s0 s1] s2] s3] s4] Hn (H0 & H1 & H2 & H3 & H4). unfold val56. rewrite Z.pow_add_r by lia. split; [lia|].
  assert (s4 * 2 ^ 224 <= (2 ^ n - 1) * 2 ^ 224) by (apply Z.mul_le_mono_nonneg_r; lia). lia.
Qed.
Lemma lim56_top : forall n m s, lim56 n s -> 0 <= m <= 56 -> val56 s < 2 ^ (224 + m) -> lim56 m s.
Proof.
  intros n m [[[[s0 s1] s2] s3] s4] (H0 & H1 & H2 & H3 & H4) Hm H. unfold lim56, val56 in *. do 4 (split; [assumption|]). split; [lia|].
  rewrite Z.pow_add_r in H by lia. assert (s4 * 2 ^ 224 < 2 ^ m * 2 ^ 224) by lia. apply Z.mul_lt_mono_pos_r in H5; lia.
Qed.

(** ** Columns *)
Lemma mask56_mod : forall x, Z.land x mask56 = x mod 2 ^ 56.
Proof. intros. change mask56 with (Z.ones 56). apply Z.land_ones. lia. Qed.
Lemma lo_mask : forall c lo hi, c = lo + 2 ^ 56 * hi -> 0 <= lo <= 2 ^ 56 - 1 -> Z.land (lo128 c) mask56 = lo.
Proof.
  intros c lo hi -> H. rewrite mask56_mod. unfold lo128. rewrite <- Znumtheory.Zmod_div_mod; [|lia|lia|exists (2 ^ 8); reflexivity].
  rewrite Z.mul_comm, Z.mod_add by lia. apply Z.mod_small. lia.
Qed.
Lemma lo_top : forall c lo hi, c = lo + 2 ^ 56 * hi -> 0 <= lo <= 2 ^ 56 - 1 -> Z.land (lo128 c) 0x0000ffffffffff = lo mod 2 ^ 40.
Proof.
  intros c lo hi -> H. change 0x0000ffffffffff with (Z.ones 40). rewrite Z.land_ones by lia. unfold lo128. rewrite <- Znumtheory.Zmod_div_mod; [|lia|lia|exists (2 ^ 24); reflexivity].
  replace (lo + 2 ^ 56 * hi) with (lo + (2 ^ 16 * hi) * 2 ^ 40) by lia. apply Z.mod_add. lia.
Qed.
Lemma lo_high : forall n k c lo hi, 0 <= k <= 56 -> n = 56 - k -> c = lo + 2 ^ 56 * hi -> 0 <= lo <= 2 ^ 56 - 1 -> Z.land (Z.shiftr (lo128 c) k) (Z.ones n) = lo / 2 ^ k.
Proof.
  intros n k c lo hi Hk -> -> H. rewrite Z.land_ones, Z.shiftr_div_pow2 by lia. unfold lo128.
  assert (P : 0 < 2 ^ k) by (apply Z.pow_pos_nonneg; lia). assert (P' : 0 < 2 ^ (56 - k)) by (apply Z.pow_pos_nonneg; lia).
  assert (E56 : 2 ^ 56 = 2 ^ k * 2 ^ (56 - k)) by (rewrite <- Z.pow_add_r by lia; f_equal; lia).
  set (h := (lo + 2 ^ 56 * hi) / 2 ^ 64). rewrite (Z.mod_eq _ (2 ^ 64)) by lia. fold h.
  replace (lo + 2 ^ 56 * hi - 2 ^ 64 * h) with (lo + ((hi - 2 ^ 8 * h) * 2 ^ (56 - k)) * 2 ^ k) by (change (2 ^ 64) with (2 ^ 8 * 2 ^ 56); rewrite E56; ring).
  rewrite Z.div_add by lia. rewrite Z.mod_add by lia. apply Z.mod_small. split; [apply Z.div_pos; lia|]. apply Z.div_lt_upper_bound; [lia|]. rewrite <- E56. lia.
Qed.
Lemma lo_shift : forall n k c lo hi, 0 <= k <= 56 -> n = 56 - k -> c = lo + 2 ^ 56 * hi -> 0 <= lo <= 2 ^ 56 - 1 ->
  Z.land (Z.shiftl (lo128 c) k mod 2 ^ 64) mask56 = (lo mod 2 ^ n) * 2 ^ k.
Proof.
  intros n k c lo hi Hk -> -> H. rewrite mask56_mod, Z.shiftl_mul_pow2 by lia. unfold lo128.
  rewrite <- Znumtheory.Zmod_div_mod; [|lia|lia|exists (2 ^ 8); reflexivity].
  assert (E56 : 2 ^ 56 = 2 ^ (56 - k) * 2 ^ k) by (rewrite <- Z.pow_add_r by lia; f_equal; lia). rewrite E56 at 2.
  assert (P : 0 < 2 ^ k) by (apply Z.pow_pos_nonneg; lia). assert (P' : 0 < 2 ^ (56 - k)) by (apply Z.pow_pos_nonneg; lia).
  rewrite Z.mul_mod_distr_r by lia. f_equal. rewrite <- (Znumtheory.Zmod_div_mod (2 ^ (56 - k)) (2 ^ 64)); [|exact P'|lia|].
  - rewrite E56. replace (lo + 2 ^ (56 - k) * 2 ^ k * hi) with (lo + (2 ^ k * hi) * 2 ^ (56 - k)) by ring. apply Z.mod_add. lia.
  - exists (2 ^ (8 + k)). rewrite <- Z.pow_add_r by lia. f_equal. lia.
Qed.
Lemma lor_sum : forall k a b, 0 <= k -> 0 <= a < 2 ^ k -> Z.lor a (b * 2 ^ k) = a + b * 2 ^ k.
Proof. intros k a b Hk Ha. rewrite <- Z.shiftl_mul_pow2 by lia. rewrite Z.lor_comm, lor_add by lia. rewrite Z.shiftl_mul_pow2 by lia. apply Z.add_comm. Qed.

Lemma lo_high24 : forall c lo hi, c = lo + 2 ^ 56 * hi -> 0 <= lo <= 2 ^ 56 - 1 -> Z.land (Z.shiftr (lo128 c) 24) (Z.ones 32) = lo / 2 ^ 24.
Proof. intros c lo hi. apply lo_high; [lia|reflexivity]. Qed.
Lemma lo_high40 : forall c lo hi, c = lo + 2 ^ 56 * hi -> 0 <= lo <= 2 ^ 56 - 1 -> Z.land (Z.shiftr (lo128 c) 40) (Z.ones 16) = lo / 2 ^ 40.
Proof. intros c lo hi. apply lo_high; [lia|reflexivity]. Qed.
Lemma lo_shift32 : forall c lo hi, c = lo + 2 ^ 56 * hi -> 0 <= lo <= 2 ^ 56 - 1 -> Z.land (Z.shiftl (lo128 c) 32 mod 2 ^ 64) mask56 = (lo mod 2 ^ 24) * 2 ^ 32.
Proof. intros c lo hi. apply lo_shift; [lia|reflexivity]. Qed.
Lemma lo_shift16 : forall c lo hi, c = lo + 2 ^ 56 * hi -> 0 <= lo <= 2 ^ 56 - 1 -> Z.land (Z.shiftl (lo128 c) 16 mod 2 ^ 64) mask56 = (lo mod 2 ^ 40) * 2 ^ 16.
Proof. intros c lo hi. apply lo_shift; [lia|reflexivity]. Qed.

(** Bits of a number that is spread over words of 64 bits *)
Lemma window : forall v k s n, 0 <= k -> 0 <= s <= 64 -> 0 <= n <= 64 ->
  Z.land (Z.lor (Z.shiftr (v / 2 ^ k mod 2 ^ 64) (64 - s)) (Z.shiftl (v / 2 ^ (k + 64) mod 2 ^ 64) s mod 2 ^ 64)) (Z.ones n) = v / 2 ^ (k + (64 - s)) mod 2 ^ n.
Proof.
  intros v k s n Hk Hs Hn. rewrite <- (Z.land_ones _ n) by lia. apply Z.bits_inj'. intros i Hi.
  rewrite !Z.land_spec. destruct (Z.testbit (Z.ones n) i) eqn:En; [|now rewrite !andb_false_r]. rewrite !andb_true_r.
  assert (In : i < n). { destruct (Z.ltb_spec i n); [assumption|]. rewrite Z.ones_spec_high in En by lia. discriminate. }
  rewrite Z.lor_spec. rewrite (Z.mod_pow2_bits_low _ 64 i) by lia. rewrite Z.shiftr_spec by lia. rewrite <- !Z.shiftr_div_pow2 by lia.
  rewrite (Z.shiftr_spec _ (k + (64 - s))) by lia. destruct (Z.ltb_spec i s).
  - rewrite Z.mod_pow2_bits_low by lia. rewrite Z.shiftr_spec by lia. rewrite Z.shiftl_spec_low by lia. rewrite orb_false_r. f_equal. lia.
  - rewrite Z.mod_pow2_bits_high by lia. cbn [orb]. rewrite Z.shiftl_spec by lia. rewrite Z.mod_pow2_bits_low by lia. rewrite Z.shiftr_spec by lia. f_equal. lia.
Qed.
Lemma window1 : forall v, Z.land (Z.lor (Z.shiftr (v / 2 ^ 0 mod 2 ^ 64) 56) (Z.shiftl (v / 2 ^ 64 mod 2 ^ 64) 8 mod 2 ^ 64)) (Z.ones 56) = v / 2 ^ 56 mod 2 ^ 56.
Proof. intros v. apply (window v 0 8 56); lia. Qed.
Lemma window2 : forall v, Z.land (Z.lor (Z.shiftr (v / 2 ^ 64 mod 2 ^ 64) 48) (Z.shiftl (v / 2 ^ 128 mod 2 ^ 64) 16 mod 2 ^ 64)) (Z.ones 56) = v / 2 ^ 112 mod 2 ^ 56.
Proof. intros v. apply (window v 64 16 56); lia. Qed.
Lemma window3 : forall v, Z.land (Z.lor (Z.shiftr (v / 2 ^ 128 mod 2 ^ 64) 40) (Z.shiftl (v / 2 ^ 192 mod 2 ^ 64) 24 mod 2 ^ 64)) (Z.ones 56) = v / 2 ^ 168 mod 2 ^ 56.
Proof. intros v. apply (window v 128 24 56); lia. Qed.
Lemma window4 : forall v, Z.land (Z.lor (Z.shiftr (v / 2 ^ 192 mod 2 ^ 64) 32) (Z.shiftl (v / 2 ^ 256 mod 2 ^ 64) 32 mod 2 ^ 64)) (Z.ones 40) = v / 2 ^ 224 mod 2 ^ 40.
Proof. intros v. apply (window v 192 32 40); lia. Qed.
Lemma window5 : forall v, Z.land (Z.lor (Z.shiftr (v / 2 ^ 192 mod 2 ^ 64) 56) (Z.shiftl (v / 2 ^ 256 mod 2 ^ 64) 8 mod 2 ^ 64)) (Z.ones 56) = v / 2 ^ 248 mod 2 ^ 56.
Proof. intros v. apply (window v 192 8 56); lia. Qed.
Lemma window6 : forall v, Z.land (Z.lor (Z.shiftr (v / 2 ^ 256 mod 2 ^ 64) 48) (Z.shiftl (v / 2 ^ 320 mod 2 ^ 64) 16 mod 2 ^ 64)) (Z.ones 56) = v / 2 ^ 304 mod 2 ^ 56.
Proof. intros v. apply (window v 256 16 56); lia. Qed.
Lemma window7 : forall v, Z.land (Z.lor (Z.shiftr (v / 2 ^ 320 mod 2 ^ 64) 40) (Z.shiftl (v / 2 ^ 384 mod 2 ^ 64) 24 mod 2 ^ 64)) (Z.ones 56) = v / 2 ^ 360 mod 2 ^ 56.
Proof. intros v. apply (window v 320 24 56); lia. Qed.
Lemma window8 : forall v, Z.land (Z.lor (Z.shiftr (v / 2 ^ 384 mod 2 ^ 64) 32) (Z.shiftl (v / 2 ^ 448 mod 2 ^ 64) 32 mod 2 ^ 64)) (Z.ones 56) = v / 2 ^ 416 mod 2 ^ 56.
Proof. intros v. apply (window v 384 32 56); lia. Qed.
Lemma limbs_of : forall v n, 0 <= n <= 56 -> let s := (v mod 2 ^ 56, v / 2 ^ 56 mod 2 ^ 56, v / 2 ^ 112 mod 2 ^ 56, v / 2 ^ 168 mod 2 ^ 56, v / 2 ^ 224 mod 2 ^ n) in
  lim56 n s /\ val56 s = v mod 2 ^ (224 + n).
Proof.
  intros v n Hn s. assert (P : 0 < 2 ^ n) by (apply Z.pow_pos_nonneg; lia). split.
  - unfold s, lim56. pose proof (Z.mod_pos_bound v (2 ^ 56)). pose proof (Z.mod_pos_bound (v / 2 ^ 56) (2 ^ 56)). pose proof (Z.mod_pos_bound (v / 2 ^ 112) (2 ^ 56)).
    pose proof (Z.mod_pos_bound (v / 2 ^ 168) (2 ^ 56)). pose proof (Z.mod_pos_bound (v / 2 ^ 224) (2 ^ n)). lia.
  - assert (E : forall m k, 0 <= m -> 0 <= k -> v mod 2 ^ (m + k) = v mod 2 ^ m + 2 ^ m * (v / 2 ^ m mod 2 ^ k)).
    { intros m k Hm Hk. rewrite Z.pow_add_r by lia. apply Z.rem_mul_r; [apply Z.pow_nonzero; lia|apply Z.pow_pos_nonneg; lia]. }
    pose proof (E 168 56 ltac:(lia) ltac:(lia)) as E3. pose proof (E 112 56 ltac:(lia) ltac:(lia)) as E2. pose proof (E 56 56 ltac:(lia) ltac:(lia)) as E1.
    change (168 + 56) with 224 in E3. change (112 + 56) with 168 in E2. change (56 + 56) with 112 in E1.
    unfold s, val56. rewrite (E 224 n) by lia. rewrite E3, E2, E1. ring.
Qed.
Lemma lim56_wide : forall n s, lim56 40 s -> lim56 (40 + Z.of_nat n) s.
Proof.
  intros n [[[[s0 s1] s2] s3] s4] (H0 & H1 & H2 & H3 & H4). do 4 (split; [assumption|]). assert (2 ^ 40 <= 2 ^ (40 + Z.of_nat n)) by (apply Z.pow_le_mono_r; lia). lia.
Qed.
Lemma contract256_ok : forall s, lim56 32 s -> contract256_modm s = le_bytes 32 (val56 s).
Proof.
  intros [[[[f0 f1] f2] f3] f4] (H0 & H1 & H2 & H3 & H4). unfold contract256_modm.
  assert (L : forall a b k, 0 <= k -> 0 <= a < 2 ^ k -> Z.lor a (Z.shiftl b k) = a + b * 2 ^ k).
  { intros a b k Hk Ha. rewrite Z.lor_comm, lor_add by lia. lia. }
  rewrite !store_limb_spec. rewrite !Z.shiftr_div_pow2 by lia.
  pose proof (Z.div_mod f1 (2 ^ 8) ltac:(lia)) as Q1. pose proof (Z.mod_pos_bound f1 (2 ^ 8) ltac:(lia)) as M1.
  pose proof (Z.div_mod f2 (2 ^ 16) ltac:(lia)) as Q2. pose proof (Z.mod_pos_bound f2 (2 ^ 16) ltac:(lia)) as M2.
  pose proof (Z.div_mod f3 (2 ^ 24) ltac:(lia)) as Q3. pose proof (Z.mod_pos_bound f3 (2 ^ 24) ltac:(lia)) as M3.
  set (q1 := f1 / 2 ^ 8) in *. set (m1 := f1 mod 2 ^ 8) in *. set (q2 := f2 / 2 ^ 16) in *. set (m2 := f2 mod 2 ^ 16) in *.
  set (q3 := f3 / 2 ^ 24) in *. set (m3 := f3 mod 2 ^ 24) in *. clearbody q1 m1 q2 m2 q3 m3.
  rewrite (L f0 f1 56) by lia. rewrite (L q1 f2 48) by lia. rewrite (L q2 f3 40) by lia. rewrite (L q3 f4 32) by lia. clear L.
  change 32%nat with (8 + (8 + (8 + 8)))%nat. rewrite !le_bytes_app. change (256 ^ Z.of_nat 8) with (2 ^ 64).
  unfold val56.
  assert (E1 : (f0 + f1 * 2 ^ 56 + f2 * 2 ^ 112 + f3 * 2 ^ 168 + f4 * 2 ^ 224) / 2 ^ 64 = q1 + f2 * 2 ^ 48 + f3 * 2 ^ 104 + f4 * 2 ^ 160).
  { symmetry. apply Z.div_unique with (r := f0 + m1 * 2 ^ 56); lia. }
  rewrite E1.
  assert (E2 : (q1 + f2 * 2 ^ 48 + f3 * 2 ^ 104 + f4 * 2 ^ 160) / 2 ^ 64 = q2 + f3 * 2 ^ 40 + f4 * 2 ^ 96).
  { symmetry. apply Z.div_unique with (r := q1 + m2 * 2 ^ 48); lia. }
  rewrite E2.
  assert (E3 : (q2 + f3 * 2 ^ 40 + f4 * 2 ^ 96) / 2 ^ 64 = q3 + f4 * 2 ^ 32).
  { symmetry. apply Z.div_unique with (r := q2 + m3 * 2 ^ 40); lia. }
  rewrite E3. clear. f_equal; [|f_equal; [|f_equal]]; apply le_bytes_mod; change (256 ^ Z.of_nat 8) with (2 ^ 64).
  - replace (f0 + f1 * 2 ^ 56 + f2 * 2 ^ 112 + f3 * 2 ^ 168 + f4 * 2 ^ 224) with (f0 + f1 * 2 ^ 56 + (f2 * 2 ^ 48 + f3 * 2 ^ 104 + f4 * 2 ^ 160) * 2 ^ 64) by lia.
    now rewrite Z_mod_plus_full.
  - replace (q1 + f2 * 2 ^ 48 + f3 * 2 ^ 104 + f4 * 2 ^ 160) with (q1 + f2 * 2 ^ 48 + (f3 * 2 ^ 40 + f4 * 2 ^ 96) * 2 ^ 64) by lia.
    now rewrite Z_mod_plus_full.
  - replace (q2 + f3 * 2 ^ 40 + f4 * 2 ^ 96) with (q2 + f3 * 2 ^ 40 + (f4 * 2 ^ 32) * 2 ^ 64) by lia.
    now rewrite Z_mod_plus_full.
Qed.

Section Exact.
Variable w : Z -> Z -> outcome Z.
Hypothesis Hw : exact_in_range w.

Lemma col_step : forall A (e : outcome Z) B x (K : Z -> Z -> outcome A) (Q : A -> Prop), bnd e B x -> B < 2 ^ 120 ->
  (forall c lo hi, c = x -> c = lo + 2 ^ 56 * hi -> 0 <= lo <= 2 ^ 56 - 1 -> 0 <= hi <= B / 2 ^ 56 -> exists h, K c hi = Ok h /\ Q h) ->
  exists h, obind e (fun c => obind (w 64 (Z.shiftr c 56)) (fun f => K c f)) = Ok h /\ Q h.
Proof.
  intros A e B x K Q (-> & Hx) HB H. cbn [obind]. rewrite Z.shiftr_div_pow2 by lia.
  assert (D : 0 <= x / 2 ^ 56 <= B / 2 ^ 56) by (split; [apply Z.div_pos; lia|apply Z.div_le_mono; lia]).
  assert (D2 : B / 2 ^ 56 < 2 ^ 64) by (apply Z.div_lt_upper_bound; [lia|exact HB]).
  rewrite (Hw 64) by lia. cbn [obind]. apply (H x (x mod 2 ^ 56)); [reflexivity| |pose proof (Z.mod_pos_bound x (2 ^ 56)); lia|exact D].
  pose proof (Z.div_mod x (2 ^ 56)). lia.
Qed.
Ltac sums := repeat match goal with
  | |- bnd (add w _ _) _ _ => eapply (bnd_add w Hw)
  | |- bnd (mul w _ _) _ _ => eapply (bnd_mul w Hw)
  | |- bnd (Ok _) _ _ => eapply bnd_ok
  | |- 0 <= _ <= _ => eassumption
  end; try (exact eq_refl); try discriminate.
Ltac col c lo hi Hc Hs Hl Hh := eapply col_step; [sums|exact eq_refl|intros c lo hi Hc Hs Hl Hh];
  (match type of Hh with _ <= _ <= ?b => let v := eval vm_compute in b in change b with v in Hh end);
  rewrite ?(lo_mask c lo hi Hs Hl), ?(lo_top c lo hi Hs Hl), ?(lo_high24 c lo hi Hs Hl), ?(lo_high40 c lo hi Hs Hl), ?(lo_shift32 c lo hi Hs Hl), ?(lo_shift16 c lo hi Hs Hl).
Ltac part n lo b a Hd Ha Hb := 
  pose proof (Z.div_mod lo (2 ^ n) ltac:(lia)) as Hd; pose proof (Z.mod_pos_bound lo (2 ^ n) ltac:(lia)) as Ha;
  assert (Hb : 0 <= lo / 2 ^ n < 2 ^ (56 - n)) by (split; [apply Z.div_pos; lia|apply Z.div_lt_upper_bound; lia]);
  set (b := lo / 2 ^ n) in *; set (a := lo mod 2 ^ n) in *; clearbody a b.

(** ** Products *)
Lemma mul_parts_ok : forall x y, lim56 32 x -> lim56 32 y ->
  exists p, mul256_parts w x y = Ok p /\
    (lim56 56 (fst p) /\ lim56 40 (snd p) /\ val56 (fst p) = (val56 x * val56 y) / 2 ^ 248 /\ val56 (snd p) = (val56 x * val56 y) mod 2 ^ 264).
Proof.
  intros [[[[x0 x1] x2] x3] x4] [[[[y0 y1] y2] y3] y4] (X0 & X1 & X2 & X3 & X4) (Y0 & Y1 & Y2 & Y3 & Y4).
  unfold mul256_parts. cbv zeta. change 0xffffffff with (Z.ones 32).
  col c0 l0 h0 C0 S0 L0 H0. col c1 l1 h1 C1 S1 L1 H1. col c2 l2 h2 C2 S2 L2 H2. col c3 l3 h3 C3 S3 L3 H3. col c4 l4 h4 C4 S4 L4 H4.
  col c5 l5 h5 C5 S5 L5 H5. col c6 l6 h6 C6 S6 L6 H6. col c7 l7 h7 C7 S7 L7 H7. col c8 l8 h8 C8 S8 L8 H8.
  rewrite Z.shiftl_mul_pow2 by lia.
  assert (H8' : 0 <= h8 <= 1000). { eapply le_upto; [exact H8|]. vm_compute. discriminate. }
  rewrite (Hw 64) by lia. cbn [obind].
  assert (E : val56 (x0, x1, x2, x3, x4) * val56 (y0, y1, y2, y3, y4) =
    l0 + l1 * 2 ^ 56 + l2 * 2 ^ 112 + l3 * 2 ^ 168 + l4 * 2 ^ 224 + l5 * 2 ^ 280 + l6 * 2 ^ 336 + l7 * 2 ^ 392 + l8 * 2 ^ 448 + h8 * 2 ^ 504).
  { transitivity (c0 + (c1 - h0) * 2 ^ 56 + (c2 - h1) * 2 ^ 112 + (c3 - h2) * 2 ^ 168 + (c4 - h3) * 2 ^ 224 + (c5 - h4) * 2 ^ 280 + (c6 - h5) * 2 ^ 336 + (c7 - h6) * 2 ^ 392 + (c8 - h7) * 2 ^ 448).
    - unfold val56. rewrite C0, C1, C2, C3, C4, C5, C6, C7, C8. ring.
    - rewrite S0, S1, S2, S3, S4, S5, S6, S7, S8. ring. }
  rewrite E. clear E C0 C1 C2 C3 C4 C5 C6 C7 C8 S0 S1 S2 S3 S4 S5 S6 S7 S8 c0 c1 c2 c3 c4 c5 c6 c7 c8 X0 X1 X2 X3 X4 Y0 Y1 Y2 Y3 Y4 H0 H1 H2 H3 H4 H5 H6 H7 H8.
  part 24 l5 b5 a5 D5 A5 B5. part 24 l6 b6 a6 D6 A6 B6. part 24 l7 b7 a7 D7 A7 B7. part 24 l8 b8 a8 D8 A8 B8.
  pose proof (Z.div_mod l4 (2 ^ 40) ltac:(lia)) as D9. pose proof (Z.mod_pos_bound l4 (2 ^ 40) ltac:(lia)) as A9.
  assert (B9 : 0 <= l4 / 2 ^ 40 < 2 ^ 16) by (split; [apply Z.div_pos; lia|apply Z.div_lt_upper_bound; lia]).
  set (b9 := l4 / 2 ^ 40) in *. set (a9 := l4 mod 2 ^ 40) in *. clearbody b9 a9.
  part 24 l4 b4 a4 D4 A4 B4. change (2 ^ (56 - 24)) with (2 ^ 32) in *.
  rewrite !(lor_sum 32) by lia.
  eexists. split; [reflexivity|]. cbn [fst snd]. unfold lim56, val56.
  split; [lia|]. split; [lia|]. split.
  - apply Z.div_unique with (r := l0 + l1 * 2 ^ 56 + l2 * 2 ^ 112 + l3 * 2 ^ 168 + a4 * 2 ^ 224); [left; lia|]. lia.
  - apply Z.mod_unique with (q := b9 + l5 * 2 ^ 16 + l6 * 2 ^ 72 + l7 * 2 ^ 128 + l8 * 2 ^ 184 + h8 * 2 ^ 240); [left; lia|]. lia.
Qed.

(** ** Barrett's reduction *)
Lemma barrett_q3_ok : forall q, lim56 40 q ->
  exists r, barrett_q3 w q = Ok r /\
    (lim56 56 r /\ exists s low, val56 modm_mu * val56 q = s * 2 ^ 168 + low /\ 0 <= low < 2 ^ 226 /\ val56 r = s / 2 ^ 96).
Proof.
  intros [[[[y0 y1] y2] y3] y4] (Y0 & Y1 & Y2 & Y3 & Y4).
  assert (M : lim56 40 modm_mu) by (unfold lim56, modm_mu; lia).
  unfold barrett_q3. destruct modm_mu as [[[[x0 x1] x2] x3] x4]. destruct M as (X0 & X1 & X2 & X3 & X4).
  cbv zeta. change 0xffff with (Z.ones 16).
  col c3 l3 h3 C3 S3 L3 H3. col c4 l4 h4 C4 S4 L4 H4.
  col c5 l5 h5 C5 S5 L5 H5. col c6 l6 h6 C6 S6 L6 H6. col c7 l7 h7 C7 S7 L7 H7. col c8 l8 h8 C8 S8 L8 H8.
  rewrite Z.shiftl_mul_pow2 by (clear; lia).
  assert (H8' : 0 <= h8 <= 2 ^ 26). { eapply le_upto; [exact H8|]. vm_compute. discriminate. }
  rewrite (Hw 64) by (clear - H8'; lia). cbn [obind].
  set (s := l3 + l4 * 2 ^ 56 + l5 * 2 ^ 112 + l6 * 2 ^ 168 + l7 * 2 ^ 224 + l8 * 2 ^ 280 + h8 * 2 ^ 336).
  set (low := x0 * y0 + (x0 * y1 + x1 * y0) * 2 ^ 56 + (x0 * y2 + x1 * y1 + x2 * y0) * 2 ^ 112).
  assert (E : val56 (x0, x1, x2, x3, x4) * val56 (y0, y1, y2, y3, y4) = s * 2 ^ 168 + low).
  { transitivity ((c3 + (c4 - h3) * 2 ^ 56 + (c5 - h4) * 2 ^ 112 + (c6 - h5) * 2 ^ 168 + (c7 - h6) * 2 ^ 224 + (c8 - h7) * 2 ^ 280) * 2 ^ 168 + low).
    - unfold val56, low. rewrite C3, C4, C5, C6, C7, C8. ring.
    - unfold s. rewrite S3, S4, S5, S6, S7, S8. ring. }
  assert (Hlow : 0 <= low < 2 ^ 226).
  { assert (G : forall a b, 0 <= a <= 2 ^ 56 - 1 -> 0 <= b <= 2 ^ 56 - 1 -> 0 <= a * b <= 2 ^ 112).
    { intros a b Ha Hb. split; [apply Z.mul_nonneg_nonneg; lia|]. transitivity ((2 ^ 56) * 2 ^ 56); [apply Z.mul_le_mono_nonneg; lia|reflexivity || (vm_compute; discriminate)]. }
    pose proof (G _ _ X0 Y0). pose proof (G _ _ X0 Y1). pose proof (G _ _ X1 Y0). pose proof (G _ _ X0 Y2). pose proof (G _ _ X1 Y1). pose proof (G _ _ X2 Y0).
    unfold low. generalize dependent (x0 * y0). generalize dependent (x0 * y1). generalize dependent (x1 * y0). generalize dependent (x0 * y2). generalize dependent (x1 * y1). generalize dependent (x2 * y0). clear. intros. lia. }
  rewrite E. clearbody low. clear E C3 C4 C5 C6 C7 C8 S3 S4 S5 S6 S7 S8 c3 c4 c5 c6 c7 c8 X0 X1 X2 X3 X4 Y0 Y1 Y2 Y3 Y4 H3 H4 H5 H6 H7 H8.
  part 40 l4 b4 a4 D4 A4 B4. part 40 l5 b5 a5 D5 A5 B5. part 40 l6 b6 a6 D6 A6 B6. part 40 l7 b7 a7 D7 A7 B7. part 40 l8 b8 a8 D8 A8 B8.
  change (2 ^ (56 - 40)) with (2 ^ 16) in *.
  rewrite !(lor_sum 16) by lia.
  eexists. split; [reflexivity|]. split; [unfold lim56; lia|]. exists s, low. split; [reflexivity|]. split; [assumption|].
  unfold val56. apply Z.div_unique with (r := l3 + a4 * 2 ^ 56); [left; lia|]. unfold s. lia.
Qed.
Lemma barrett_r2_ok : forall q, lim56 40 q ->
  exists r, barrett_r2 w q = Ok r /\ (lim56 40 r /\ val56 r = (order_l * val56 q) mod 2 ^ 264).
Proof.
  intros [[[[y0 y1] y2] y3] y4] (Y0 & Y1 & Y2 & Y3 & Y4).
  rewrite <- val56_m. pose proof lim56_m as M.
  unfold barrett_r2. destruct modm_m as [[[[x0 x1] x2] x3] x4]. destruct M as (X0 & X1 & X2 & X3 & X4).
  cbv zeta.
  col c0 l0 h0 C0 S0 L0 H0. col c1 l1 h1 C1 S1 L1 H1. col c2 l2 h2 C2 S2 L2 H2. col c3 l3 h3 C3 S3 L3 H3.
  eapply (bnd_step); [sums|intros H4].
  match goal with |- context [lo128 ?e] => set (c4 := e) in * end.
  pose proof (Z.div_mod c4 (2 ^ 56) ltac:(clear; lia)) as S4. pose proof (Z.mod_pos_bound c4 (2 ^ 56) ltac:(clear; lia)) as L4.
  set (h4 := c4 / 2 ^ 56) in *. set (l4 := c4 mod 2 ^ 56) in *. rewrite (lo_top c4 l4 h4) by (clear - S4 L4; lia).
  set (high := h4 + x1 * y4 + x2 * y3 + x3 * y2 + x4 * y1 + (x2 * y4 + x3 * y3 + x4 * y2) * 2 ^ 56 + (x3 * y4 + x4 * y3) * 2 ^ 112 + x4 * y4 * 2 ^ 168).
  assert (E : val56 (x0, x1, x2, x3, x4) * val56 (y0, y1, y2, y3, y4) = l0 + l1 * 2 ^ 56 + l2 * 2 ^ 112 + l3 * 2 ^ 168 + l4 * 2 ^ 224 + high * 2 ^ 280).
  { transitivity (c0 + (c1 - h0) * 2 ^ 56 + (c2 - h1) * 2 ^ 112 + (c3 - h2) * 2 ^ 168 + (c4 - h3) * 2 ^ 224 + (high - h4) * 2 ^ 280).
    - unfold val56, high, c4. rewrite C0, C1, C2, C3. ring.
    - rewrite S0, S1, S2, S3, S4. ring. }
  rewrite E. clearbody c4 l4 h4 high. clear E C0 C1 C2 C3 S0 S1 S2 S3 S4 c0 c1 c2 c3 X0 X1 X2 X3 X4 Y0 Y1 Y2 Y3 Y4 H0 H1 H2 H3 H4.
  part 40 l4 b4 a4 D4 A4 B4. change (2 ^ (56 - 40)) with (2 ^ 16) in *.
  eexists. split; [reflexivity|]. split; [unfold lim56; lia|]. unfold val56.
  apply Z.mod_unique with (q := b4 + high * 2 ^ 16); [left; lia|]. lia.
Qed.

(** ** Differences *)
Lemma lt_modm_b : forall a b, 0 <= a < 2 ^ 63 -> 0 <= b < 2 ^ 63 -> lt_modm a b = Z.b2z (a <? b).
Proof.
  intros a b Ha Hb. unfold lt_modm. rewrite Z.shiftr_div_pow2 by lia. destruct (Z.ltb_spec a b); cbn [Z.b2z].
  - replace ((a - b) mod 2 ^ 64) with (a - b + 2 ^ 64) by (apply Z.mod_unique with (q := -1); lia). symmetry. apply Z.div_unique with (r := a - b + 2 ^ 63); lia.
  - rewrite Z.mod_small by lia. apply Z.div_small. lia.
Qed.
Lemma sub_limb_ok : forall n x y pb, 0 <= n <= 56 -> 0 <= x <= 2 ^ 56 - 1 -> 0 <= y -> 0 <= pb -> y + pb <= 2 ^ n ->
  exists t b, sub_limb w n x y pb = Ok (t, b) /\ (b = 0 \/ b = 1 /\ t < 2 ^ n) /\ t = x - (y + pb) + b * 2 ^ n /\ 0 <= b <= 1 /\ (forall k, x <= k -> 2 ^ n - 1 <= k -> 0 <= t /\ t <= k).
Proof.
  intros n x y pb Hn Hx Hy Hp Hs. unfold sub_limb. assert (P : 2 ^ n <= 2 ^ 56) by (apply Z.pow_le_mono_r; lia). assert (P' : 0 < 2 ^ n) by (apply Z.pow_pos_nonneg; lia).
  rewrite (Hw 64) by lia. cbn [obind]. rewrite (lt_modm_b x (pb + y)) by lia. rewrite Z.shiftl_mul_pow2 by lia. rewrite Zplus_mod_idemp_l.
  eexists _, _. split; [reflexivity|]. destruct (Z.ltb_spec x (pb + y)); cbn [Z.b2z].
  - rewrite Z.mod_small by lia. split; [right; split; [reflexivity|lia]|]. split; [lia|]. split; [lia|]. intros; lia.
  - rewrite Z.mod_small by lia. split; [left; reflexivity|]. split; [lia|]. split; [lia|]. intros; lia.
Qed.
Lemma sub_limbs_ok : forall n m x y, 0 <= n <= m -> m <= 56 -> lim56 m x -> lim56 n y ->
  exists t b, sub_limbs w n x y = Ok (t, b) /\ (b = 0 \/ b = 1) /\ lim56 m t /\ val56 t = val56 x - val56 y + b * 2 ^ (224 + n) /\ (b = 1 -> val56 t < 2 ^ (224 + n)).
Proof.
  intros n m [[[[x0 x1] x2] x3] x4] [[[[y0 y1] y2] y3] y4] Hn Hm (X0 & X1 & X2 & X3 & X4) (Y0 & Y1 & Y2 & Y3 & Y4).
  assert (P : 2 ^ n <= 2 ^ m) by (apply Z.pow_le_mono_r; lia). assert (P' : 2 ^ m <= 2 ^ 56) by (apply Z.pow_le_mono_r; lia).
  unfold sub_limbs.
  destruct (sub_limb_ok 56 x0 y0 0) as (t0 & b0 & -> & B0 & T0 & Q0 & R0); [clear - Hn Hm; lia|clear - X0 P'; lia|clear - Y0; lia|clear; lia|clear - Y0 P; lia|]. cbn [obind].
  destruct (sub_limb_ok 56 x1 y1 b0) as (t1 & b1 & -> & B1 & T1 & Q1 & R1); [clear - Hn Hm; lia|clear - X1 P'; lia|clear - Y1; lia|clear - Q0; lia|clear - Y1 Q0 P; lia|]. cbn [obind].
  destruct (sub_limb_ok 56 x2 y2 b1) as (t2 & b2 & -> & B2 & T2 & Q2 & R2); [clear - Hn Hm; lia|clear - X2 P'; lia|clear - Y2; lia|clear - Q1; lia|clear - Y2 Q1 P; lia|]. cbn [obind].
  destruct (sub_limb_ok 56 x3 y3 b2) as (t3 & b3 & -> & B3 & T3 & Q3 & R3); [clear - Hn Hm; lia|clear - X3 P'; lia|clear - Y3; lia|clear - Q2; lia|clear - Y3 Q2 P; lia|]. cbn [obind].
  destruct (sub_limb_ok n x4 y4 b3) as (t4 & b4 & -> & B4 & T4 & Q4 & R4); [clear - Hn Hm; lia|clear - X4 P'; lia|clear - Y4; lia|clear - Q3; lia|clear - Y4 Q3 P; lia|]. cbn [obind].
  eexists _, _. split; [reflexivity|]. split; [destruct B4 as [B4|[B4 _]]; auto|].
  assert (L : lim56 m (t0, t1, t2, t3, t4)) by (unfold lim56; split; [|split; [|split; [|split]]]; [apply R0|apply R1|apply R2|apply R3|apply R4]; (clear - X0 X1 X2 X3 X4 P P'; lia)). split; [exact L|].
  split.
  - unfold val56. rewrite Z.pow_add_r by lia. rewrite T0, T1, T2, T3, T4. ring.
  - intros E. destruct B4 as [B4|[_ B4]]; [clear - B4 E; lia|]. apply (fun H => val56_range n (t0, t1, t2, t3, t4) (proj1 Hn) H).
    destruct L as (L0 & L1 & L2 & L3 & L4). do 4 (split; [assumption|]). clear - L4 B4. lia.
Qed.
Lemma keep_0 : forall r t, keep_limb 0 r t = r.
Proof. intros. unfold keep_limb. rewrite Z.land_0_l, Z.lxor_0_r. reflexivity. Qed.
Lemma keep_1 : forall r t, 0 <= r < 2 ^ 64 -> 0 <= t < 2 ^ 64 -> keep_limb (2 ^ 64 - 1) r t = t.
Proof.
  intros r t Hr Ht. unfold keep_limb. change (2 ^ 64 - 1) with (Z.ones 64). rewrite Z.land_comm, Z.land_ones by lia.
  rewrite Z.mod_small.
  - rewrite <- Z.lxor_assoc, Z.lxor_nilpotent, Z.lxor_0_l. reflexivity.
  - apply lxor_word; lia.
Qed.
(** One subtraction of the order at most *)
Lemma reduce_ok : forall r, lim56 40 r -> exists q, reduce256_modm w r = Ok q /\ lim56 40 q /\ val56 q = if val56 r <? order_l then val56 r else val56 r - order_l.
Proof.
  intros [[[[r0 r1] r2] r3] r4] L. unfold reduce256_modm.
  destruct (sub_limbs_ok 32 40 (r0, r1, r2, r3, r4) modm_m) as ([[[[t0 t1] t2] t3] t4] & b & -> & Hb & Lt & V & U); [lia|lia|assumption|exact lim56_m|]. cbn [obind].
  rewrite val56_m in V. pose proof (val56_range 40 _ ltac:(lia) Lt) as Rt. eexists. split; [reflexivity|].
  destruct Hb as [-> | ->].
  - change ((0 - 1) mod 2 ^ 64) with (2 ^ 64 - 1). unfold lim56 in L, Lt. rewrite !keep_1 by (clear - L Lt; lia). split; [exact Lt|]. rewrite V.
    destruct (Z.ltb_spec (val56 (r0, r1, r2, r3, r4)) order_l); lia.
  - change ((1 - 1) mod 2 ^ 64) with 0. rewrite !keep_0. split; [exact L|]. specialize (U eq_refl).
    destruct (Z.ltb_spec (val56 (r0, r1, r2, r3, r4)) order_l); lia.
Qed.

(** [x] is any number of which [q1] holds the bits from 248 on and [r1] the low 264 *)
Lemma barrett_ok : forall x q1 r1, 0 <= x < 2 ^ 512 -> lim56 56 q1 -> lim56 40 r1 -> val56 q1 = x / 2 ^ 248 -> val56 r1 = x mod 2 ^ 264 ->
  exists r, barrett_reduce256_modm w q1 r1 = Ok r /\ lim56 40 r /\ val56 r = x mod order_l.
Proof.
  intros x q1 r1 Hx Hq Hr Vq Vr. unfold barrett_reduce256_modm.
  assert (Q1 : 0 <= val56 q1 < 2 ^ 264). { rewrite Vq. split; [apply Z.div_pos; lia|]. apply Z.div_lt_upper_bound; [lia|]. change (2 ^ 248 * 2 ^ 264) with (2 ^ 512). lia. }
  assert (Lq : lim56 40 q1) by (apply (lim56_top 56); [assumption|lia|exact (proj2 Q1)]).
  destruct (barrett_q3_ok q1 Lq) as (q3 & -> & L3 & s & low & Es & Hlow & V3). cbn [obind].
  pose proof (Z.div_mod x (2 ^ 248) ltac:(lia)) as Dx. pose proof (Z.mod_pos_bound x (2 ^ 248) ltac:(lia)) as Mx. rewrite <- Vq in Dx. set (x0 := x mod 2 ^ 248) in *.
  pose proof (Z.div_mod s (2 ^ 96) ltac:(lia)) as Ds. pose proof (Z.mod_pos_bound s (2 ^ 96) ltac:(lia)) as Ms. rewrite <- V3 in Ds. set (s0 := s mod 2 ^ 96) in *.
  pose proof (val56_range 56 _ ltac:(lia) L3) as R3. change (224 + 56) with 280 in R3.
  assert (G : 0 <= x - order_l * val56 q3 < 3 * order_l).
  { change (val56 modm_mu) with 0xfffffffffffffffffffffffffffffffeb2106215d086329a7ed9ce5a30a2c131b in Es. unfold order_l. clearbody x0 s0. clear - Hx Q1 Es Hlow Dx Mx Ds Ms R3.
    generalize dependent (val56 q1). generalize dependent (val56 q3). intros. lia. }
  assert (L3' : lim56 40 q3). { apply (lim56_top 56); [assumption|lia|]. change (224 + 40) with 264. unfold order_l in G. lia. }
  destruct (barrett_r2_ok q3 L3') as (r2 & -> & L2 & V2). cbn [obind].
  destruct (sub_limbs_ok 40 40 r1 r2) as (t & b & -> & Hb & Lt & Vt & _); [lia|lia|assumption|assumption|]. cbn [obind].
  pose proof (val56_range 40 _ ltac:(lia) Lt) as Rt. change (224 + 40) with 264 in *.
  assert (Et : val56 t = x - order_l * val56 q3).
  { rewrite <- (Z.mod_small (val56 t) (2 ^ 264)) by exact Rt. rewrite <- (Z.mod_small (x - order_l * val56 q3) (2 ^ 264)) by (unfold order_l in *; lia).
    rewrite Vt, Vr, V2. rewrite Z.mod_add by lia. rewrite <- Zminus_mod. reflexivity. }
  destruct (reduce_ok t Lt) as (u & -> & Lu & Vu). cbn [obind]. destruct (reduce_ok u Lu) as (v & -> & Lv & Vv).
  exists v. split; [reflexivity|]. split; [exact Lv|].
  assert (Gv : 0 <= val56 v < order_l /\ exists k, x = order_l * k + val56 v).
  { rewrite Et in Vu. generalize dependent (val56 q3). generalize dependent (val56 u). generalize dependent (val56 v). unfold order_l. clear. intros v u Vv q3 _ _ _ G _ _ Vu.
    destruct (Z.ltb_spec (x - (2 ^ 252 + 27742317777372353535851937790883648493) * q3) (2 ^ 252 + 27742317777372353535851937790883648493)); destruct (Z.ltb_spec u (2 ^ 252 + 27742317777372353535851937790883648493)).
    - split; [lia|]. exists q3. lia.
    - split; [lia|]. exists q3. lia.
    - split; [lia|]. exists (q3 + 1). lia.
    - split; [lia|]. exists (q3 + 2). lia. }
  destruct Gv as (Gv & k & Ek). apply Z.mod_unique with (q := k); [left; exact Gv|exact Ek].
Qed.

(** ** The operations *)
Definition scalar_mod (s : bignum256modm) : Prop := lim56 32 s /\ val56 s < order_l.
Lemma scalar_mod_of : forall r x, lim56 40 r -> val56 r = x mod order_l -> scalar_mod r.
Proof.
  intros r x L V. pose proof (Z.mod_pos_bound x order_l eq_refl) as B. rewrite <- V in B. split; [|lia].
  apply (lim56_top 40); [assumption|lia|]. change (2 ^ (224 + 32)) with (2 ^ 256). unfold order_l in B. lia.
Qed.
Lemma mul256_ok : forall x y, scalar_mod x -> lim56 32 y -> val56 y < 2 ^ 256 ->
  exists r, mul256_modm w x y = Ok r /\ scalar_mod r /\ val56 r = (val56 x * val56 y) mod order_l.
Proof.
  intros x y (Lx & Hx) Ly Hy. unfold mul256_modm. destruct (mul_parts_ok x y Lx Ly) as ((q1 & r1) & -> & Lq & Lr & Vq & Vr). cbn [obind fst snd] in *.
  pose proof (val56_range 32 _ ltac:(lia) Lx) as Rx. pose proof (val56_range 32 _ ltac:(lia) Ly) as Ry.
  assert (B : 0 <= val56 x * val56 y < 2 ^ 512). { change (224 + 32) with 256 in *. split; [apply Z.mul_nonneg_nonneg; lia|]. change (2 ^ 512) with (2 ^ 256 * 2 ^ 256). apply Z.mul_lt_mono_nonneg; lia. }
  destruct (barrett_ok _ q1 r1 B Lq Lr Vq Vr) as (r & -> & L & V). exists r. split; [reflexivity|]. split; [|exact V]. exact (scalar_mod_of _ _ L V).
Qed.
Lemma add256_ok : forall x y, scalar_mod x -> scalar_mod y ->
  exists r, add256_modm w x y = Ok r /\ scalar_mod r /\ val56 r = (val56 x + val56 y) mod order_l.
Proof.
  intros x y (Lx & Hx) (Ly & Hy). pose proof (val56_range 32 _ ltac:(lia) Lx) as Rx. pose proof (val56_range 32 _ ltac:(lia) Ly) as Ry.
  destruct x as [[[[x0 x1] x2] x3] x4]. destruct y as [[[[y0 y1] y2] y3] y4]. destruct Lx as (X0 & X1 & X2 & X3 & X4). destruct Ly as (Y0 & Y1 & Y2 & Y3 & Y4).
  unfold add256_modm.
  assert (D : forall c, 0 <= c < 2 ^ 58 -> 0 <= c mod 2 ^ 56 <= 2 ^ 56 - 1 /\ 0 <= c / 2 ^ 56 <= 3 /\ c = c mod 2 ^ 56 + c / 2 ^ 56 * 2 ^ 56).
  { clear. intros c Hc. pose proof (Z.mod_pos_bound c (2 ^ 56) ltac:(lia)). pose proof (Z.div_mod c (2 ^ 56) ltac:(lia)).
    assert (c / 2 ^ 56 < 4) by (apply Z.div_lt_upper_bound; lia). assert (0 <= c / 2 ^ 56) by (apply Z.div_pos; lia). lia. }
  rewrite (Hw 64) by (clear - X0 Y0; lia). cbn [obind]. rewrite mask56_mod, Z.shiftr_div_pow2 by lia.
  destruct (D (x0 + y0)) as (A0 & B0 & E0); [clear - X0 Y0; lia|]. set (c0 := (x0 + y0) / 2 ^ 56) in *. set (l0 := (x0 + y0) mod 2 ^ 56) in *. clearbody c0 l0.
  rewrite (Hw 64) by (clear - X1 Y1; lia). cbn [obind]. rewrite (Hw 64) by (clear - X1 Y1 B0; lia). cbn [obind]. rewrite mask56_mod, Z.shiftr_div_pow2 by lia.
  destruct (D (c0 + (x1 + y1))) as (A1 & B1 & E1); [clear - X1 Y1 B0; lia|]. set (c1 := (c0 + (x1 + y1)) / 2 ^ 56) in *. set (l1 := (c0 + (x1 + y1)) mod 2 ^ 56) in *. clearbody c1 l1.
  rewrite (Hw 64) by (clear - X2 Y2; lia). cbn [obind]. rewrite (Hw 64) by (clear - X2 Y2 B1; lia). cbn [obind]. rewrite mask56_mod, Z.shiftr_div_pow2 by lia.
  destruct (D (c1 + (x2 + y2))) as (A2 & B2 & E2); [clear - X2 Y2 B1; lia|]. set (c2 := (c1 + (x2 + y2)) / 2 ^ 56) in *. set (l2 := (c1 + (x2 + y2)) mod 2 ^ 56) in *. clearbody c2 l2.
  rewrite (Hw 64) by (clear - X3 Y3; lia). cbn [obind]. rewrite (Hw 64) by (clear - X3 Y3 B2; lia). cbn [obind]. rewrite mask56_mod, Z.shiftr_div_pow2 by lia.
  destruct (D (c2 + (x3 + y3))) as (A3 & B3 & E3); [clear - X3 Y3 B2; lia|]. set (c3 := (c2 + (x3 + y3)) / 2 ^ 56) in *. set (l3 := (c2 + (x3 + y3)) mod 2 ^ 56) in *. clearbody c3 l3.
  rewrite (Hw 64) by (clear - X4 Y4; lia). cbn [obind]. rewrite (Hw 64) by (clear - X4 Y4 B3; lia). cbn [obind].
  assert (L : lim56 40 (l0, l1, l2, l3, c3 + (x4 + y4))) by (unfold lim56; clear - A0 A1 A2 A3 B3 X4 Y4; lia).
  assert (V : val56 (l0, l1, l2, l3, c3 + (x4 + y4)) = val56 (x0, x1, x2, x3, x4) + val56 (y0, y1, y2, y3, y4)).
  { unfold val56. clear - E0 E1 E2 E3. lia. }
  destruct (reduce_ok _ L) as (r & Er & Lr & Vr). rewrite Er. exists r. split; [reflexivity|]. rewrite V in Vr.
  assert (Vm : val56 r = (val56 (x0, x1, x2, x3, x4) + val56 (y0, y1, y2, y3, y4)) mod order_l).
  { rewrite Vr. generalize dependent (val56 (x0, x1, x2, x3, x4)). generalize dependent (val56 (y0, y1, y2, y3, y4)). clear. intros y Hy Ry x Hx Rx _ _.
    destruct (Z.ltb_spec (x + y) order_l); [rewrite Z.mod_small; lia|]. apply Z.mod_unique with (q := 1); lia. }
  split; [|exact Vm]. exact (scalar_mod_of _ _ Lr Vm).
Qed.

Lemma expand256_ok : forall p len, bytes p -> 32 <= len <= 64 -> len <= zlen p ->
  exists r, expand256_modm w p len = Ok r /\ scalar_mod r /\ val56 r = mem_word (take len p) mod order_l.
Proof.
  intros p len Hb Hlen Hl. unfold expand256_modm.
  destruct (Z.ltb_spec (zlen p) len); [lia|]. destruct (Z.ltb_spec 64 len); [lia|]. cbn [orb]. destruct (Z.ltb_spec len 32); [lia|].
  set (work := take len p ++ zeros (64 - len)). cbv zeta.
  assert (Bw : bytes work) by (apply Forall_app; split; [now apply bytes_take|apply bytes_zeros]).
  assert (Lw : zlen work = 64) by (unfold work; rewrite zlen_app, zlen_take, zlen_zeros; lia).
  assert (V : mem_word work = mem_word (take len p)) by (unfold work, zeros; rewrite mem_word_app, mem_word_zeros; lia).
  rewrite !load_limb_val by (assumption || lia). rewrite <- V. pose proof (mem_word_range work Bw) as R. rewrite Lw in R. change (256 ^ 64) with (2 ^ 512) in R.
  clearbody work. clear Hb Hl V. set (v := mem_word work) in *. clearbody v.
  change (8 * 0) with 0. change (8 * 8) with 64. change (8 * 16) with 128. change (8 * 24) with 192. change (8 * 32) with 256. change (8 * 40) with 320. change (8 * 48) with 384. change (8 * 56) with 448.
  change 0x0000ffffffffff with (Z.ones 40). change mask56 with (Z.ones 56).
  rewrite window1, window2, window3, window4, window5, window6, window7, window8.
  assert (A0 : Z.land (v / 2 ^ 0 mod 2 ^ 64) (Z.ones 56) = v mod 2 ^ 56).
  { change (2 ^ 0) with 1. rewrite Z.div_1_r, Z.land_ones by lia. rewrite <- Znumtheory.Zmod_div_mod; [reflexivity|lia|lia|exists (2 ^ 8); reflexivity]. }
  rewrite A0.
  assert (B4 : Z.shiftr (v / 2 ^ 448 mod 2 ^ 64) 24 = v / 2 ^ 248 / 2 ^ 224).
  { rewrite Z.mod_small; [|split; [apply Z.div_pos; lia|apply Z.div_lt_upper_bound; [lia|]; change (2 ^ 448 * 2 ^ 64) with (2 ^ 512); lia]].
    rewrite Z.shiftr_div_pow2, !Z.div_div by lia. reflexivity. }
  rewrite B4.
  assert (Hi : 0 <= v / 2 ^ 248 < 2 ^ 264) by (split; [apply Z.div_pos; lia|apply Z.div_lt_upper_bound; [lia|]; change (2 ^ 248 * 2 ^ 264) with (2 ^ 512); lia]).
  assert (B5 : v / 2 ^ 248 / 2 ^ 224 = v / 2 ^ 248 / 2 ^ 224 mod 2 ^ 40).
  { symmetry. apply Z.mod_small. split; [apply Z.div_pos; lia|]. apply Z.div_lt_upper_bound; [lia|]. change (2 ^ 224 * 2 ^ 40) with (2 ^ 264). lia. }
  rewrite B5. clear A0 B4 B5.
  assert (S0 : v / 2 ^ 304 = v / 2 ^ 248 / 2 ^ 56) by (rewrite Z.div_div by lia; reflexivity).
  assert (S1 : v / 2 ^ 360 = v / 2 ^ 248 / 2 ^ 112) by (rewrite Z.div_div by lia; reflexivity).
  assert (S2 : v / 2 ^ 416 = v / 2 ^ 248 / 2 ^ 168) by (rewrite Z.div_div by lia; reflexivity).
  rewrite S0, S1, S2. clear S0 S1 S2.
  destruct (limbs_of v 40 ltac:(lia)) as (Lr & Vr). destruct (limbs_of (v / 2 ^ 248) 40 ltac:(lia)) as (Lq & Vq). change (224 + 40) with 264 in *. rewrite (Z.mod_small (v / 2 ^ 248) (2 ^ 264)) in Vq by exact Hi.
  destruct (barrett_ok v _ _ R (lim56_wide 16 _ Lq) Lr Vq Vr) as (r & -> & L & E). exists r. split; [reflexivity|]. split; [exact (scalar_mod_of _ _ L E)|exact E].
Qed.
End Exact.
