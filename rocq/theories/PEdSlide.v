(** Recoding of scalars by sliding windows: modm-donna-64bit.h:240-281 *)
From Verif Require Import Base MHash MSha2 MBlake2 SSha2 SBlake2 PSha2 PGhash MPoly1305 PPoly1305 MX25519 SX25519 MEdTable MEd25519 MEdSlide MEdSign PPrimeL PX25519 PX25519b PEd25519 PModm.

Fixpoint bv (l : list Z) : Z := match l with [] => 0 | x :: l => x + 2 * bv l end.
Definition bit (x : Z) : Prop := x = 0 \/ x = 1.
Lemma bv_app : forall a b, bv (a ++ b) = bv a + 2 ^ zlen a * bv b.
Proof.
  induction a as [|x a IH]; intros b; cbn [app bv]; [rewrite zlen_nil; lia|]. rewrite IH, zlen_cons, Z.pow_add_r by (pose proof (zlen_nonneg _ a); lia). lia.
Qed.
Lemma bv_range : forall l, Forall bit l -> 0 <= bv l <= 2 ^ zlen l - 1.
Proof.
  induction l as [|x l IH]; intros H; cbn [bv]; [rewrite zlen_nil; lia|]. inversion H; subst. specialize (IH H3). rewrite zlen_cons, Z.pow_add_r by (pose proof (zlen_nonneg _ l); lia).
  destruct H2; lia.
Qed.
Lemma limb_bits_ok : forall n v, length (limb_bits n v) = n /\ Forall bit (limb_bits n v) /\ bv (limb_bits n v) = v mod 2 ^ Z.of_nat n.
Proof.
  induction n as [|n IH]; intros v; cbn [limb_bits]; [split; [reflexivity|split; [constructor|cbn; now rewrite Z.mod_1_r]]|].
  destruct (IH (Z.shiftr v 1)) as (L & B & V). change 1 with (Z.ones 1) at 1 3 5. rewrite Z.land_ones by lia. change (2 ^ 1) with 2.
  assert (M : 0 <= v mod 2 < 2) by (apply Z.mod_pos_bound; lia).
  split; [cbn [length]; now rewrite L|]. split; [constructor; [unfold bit; lia|exact B]|].
  cbn [bv]. rewrite V, Z.shiftr_div_pow2 by lia. change (2 ^ 1) with 2. rewrite Nat2Z.inj_succ, Z.pow_succ_r by lia. rewrite Z.rem_mul_r by lia. reflexivity.
Qed.
Lemma carry_up_ok : forall l, Forall bit l -> bv l + 1 < 2 ^ zlen l -> length (carry_up l) = length l /\ Forall bit (carry_up l) /\ bv (carry_up l) = bv l + 1.
Proof.
  induction l as [|x l IH]; intros H V; cbn [carry_up bv] in *; [rewrite zlen_nil in V; cbn in V; lia|]. inversion H; subst.
  rewrite zlen_cons, Z.pow_add_r in V by (pose proof (zlen_nonneg _ l); lia). destruct (Z.eqb_spec x 0).
  - subst x. split; [reflexivity|]. split; [constructor; [now right|assumption]|]. cbn [bv]. lia.
  - destruct H2 as [|H2]; [contradiction|]. subst x. destruct (IH H3 ltac:(lia)) as (L & B & E). cbn [length bv]. split; [now rewrite L|]. split; [constructor; [now left|exact B]|]. lia.
Qed.

(** What the loop over b keeps *)
Lemma slide_one_ok : forall count m b h r, 1 <= b -> Z.odd h = true -> - m <= h <= m -> - 2 ^ b < h < 2 ^ b -> Forall bit r ->
  h + 2 ^ b * bv r <= 2 ^ (b + zlen r - 1) ->
  let '(h', r') := slide_one m count b h r in
  Z.odd h' = true /\ - m <= h' <= m /\ length r' = length r /\ Forall bit r' /\ h' + 2 ^ b * bv r' = h + 2 ^ b * bv r /\ bv r' <= 2 ^ (zlen r - 1).
Proof.
  assert (Stop : forall m b h r, 1 <= b -> Z.odd h = true -> - m <= h <= m -> - 2 ^ b < h < 2 ^ b -> Forall bit r -> h + 2 ^ b * bv r <= 2 ^ (b + zlen r - 1) ->
    Z.odd h = true /\ - m <= h <= m /\ length r = length r /\ Forall bit r /\ h + 2 ^ b * bv r = h + 2 ^ b * bv r /\ bv r <= 2 ^ (zlen r - 1)).
  { intros m b h r Hb O M S B V. do 5 (split; [auto|]). destruct r as [|x r]; [cbn; lia|]. rewrite zlen_cons in *. pose proof (zlen_nonneg _ r).
    replace (b + (1 + zlen r) - 1) with (b + zlen r) in V by lia. replace (1 + zlen r - 1) with (zlen r) by lia. rewrite Z.pow_add_r in V by lia.
    assert (P : 0 < 2 ^ b) by (apply Z.pow_pos_nonneg; lia). set (k := bv (x :: r)) in *. set (t := 2 ^ zlen r) in *. clearbody k t. clear - V S P. nia. }
  assert (Step : forall m count b h r x y, (forall m b h r, 1 <= b -> Z.odd h = true -> - m <= h <= m -> - 2 ^ b < h < 2 ^ b -> Forall bit r -> h + 2 ^ b * bv r <= 2 ^ (b + zlen r - 1) ->
      let '(h', r') := slide_one m count b h r in
      Z.odd h' = true /\ - m <= h' <= m /\ length r' = length r /\ Forall bit r' /\ h' + 2 ^ b * bv r' = h + 2 ^ b * bv r /\ bv r' <= 2 ^ (zlen r - 1)) ->
    forall h0, 1 <= b -> Z.odd h0 = true -> x = 0 \/ x = 1 \/ x = -1 -> h = h0 + x * 2 ^ b -> - m <= h <= m -> - 2 ^ b < h0 < 2 ^ b -> Forall bit r ->
    h + 2 ^ b * (2 * bv r) = h0 + 2 ^ b * y -> h0 + 2 ^ b * y <= 2 ^ (b + zlen r) ->
    let '(h', r') := slide_one m count (b + 1) h r in
    Z.odd h' = true /\ - m <= h' <= m /\ length (0 :: r') = S (length r) /\ Forall bit (0 :: r') /\ h' + 2 ^ b * bv (0 :: r') = h0 + 2 ^ b * y /\ bv (0 :: r') <= 2 ^ zlen r).
  { intros m count b h r x y IH h0 Hb O Hx Eh M S B V U. assert (P : 2 ^ (b + 1) = 2 * 2 ^ b) by (rewrite Z.pow_add_r by lia; lia).
    assert (P' : 0 < 2 ^ b) by (apply Z.pow_pos_nonneg; lia).
    specialize (IH m (b + 1) h r ltac:(lia)). destruct (slide_one m count (b + 1) h r) as [h' r']. destruct IH as (O' & M' & L' & B' & V' & U').
    - rewrite Eh, Z.odd_add. replace (2 ^ b) with (2 * 2 ^ (b - 1)) by (rewrite <- Z.pow_succ_r by lia; f_equal; lia). rewrite O, !Z.odd_mul. cbn. now rewrite andb_false_r.
    - exact M.
    - rewrite P. destruct Hx as [->|[->| ->]]; lia.
    - exact B.
    - rewrite P. replace (b + 1 + zlen r - 1) with (b + zlen r) by lia. lia.
    - split; [exact O'|]. split; [exact M'|]. split; [cbn [length]; now rewrite L'|]. split; [constructor; [now left|exact B']|]. cbn [bv]. rewrite P in V'. split; [lia|].
      destruct r as [|z r]; [destruct r'; [cbn; lia|discriminate]|]. rewrite zlen_cons in *. pose proof (zlen_nonneg _ r). replace (1 + zlen r - 1) with (zlen r) in U' by lia.
      rewrite Z.pow_add_r by lia. lia. }
  induction count as [|count IH]; intros m b h r Hb O M S B V; cbn [slide_one].
  - now apply Stop.
  - destruct r as [|x r]; [exact (Stop m b h [] Hb O M S B V)|]. inversion B as [|? ? Bx Br]; subst.
    assert (P' : 0 < 2 ^ b) by (apply Z.pow_pos_nonneg; lia). rewrite zlen_cons in *. pose proof (zlen_nonneg _ r) as Lr.
    replace (b + (1 + zlen r) - 1) with (b + zlen r) in V by lia. replace (1 + zlen r - 1) with (zlen r) by lia. rewrite Z.shiftl_mul_pow2 by lia. cbn [bv] in *.
    destruct (Z.leb_spec (h + x * 2 ^ b) m) as [A|A].
    + pose proof (Step m count b (h + x * 2 ^ b) r x (x + 2 * bv r) IH h Hb O ltac:(destruct Bx; auto) eq_refl ltac:(destruct Bx; subst x; lia) S Br ltac:(lia) V) as R.
      destruct (slide_one m count (b + 1) (h + x * 2 ^ b) r) as [h' r']. exact R.
    + assert (x = 1) by (destruct Bx; subst x; lia). subst x. rewrite Z.mul_1_l in *. destruct (Z.leb_spec (- m) (h - 2 ^ b)) as [A'|A'].
      * assert (H1 : 1 <= h) by lia. cbn [carry_up]. change (1 =? 0) with false. cbv iota.
        assert (U : bv r + 1 < 2 ^ zlen r \/ r = []).
        { destruct r as [|y r]; [now right|]. left. rewrite zlen_cons in *. pose proof (zlen_nonneg _ r). rewrite Z.pow_add_r in V by lia. rewrite !Z.pow_add_r in * by lia.
          change (2 ^ 1) with 2 in *. set (k := bv (y :: r)) in *. assert (K : 1 + 2 * k < 2 * 2 ^ zlen r).
          { set (t := 2 ^ zlen r) in *. clearbody k t. clear - V H1 P'. nia. }
          assert (Kt : 1 <= 2 ^ zlen r) by (pose proof (Z.pow_pos_nonneg 2 (zlen r)); lia). lia. }
        assert (U' : bv r + 1 < 2 ^ zlen r).
        { destruct U as [U|U]; [exact U|]. subst r. exfalso. cbn [bv] in V. rewrite zlen_nil in V. replace (b + 0) with b in V by lia. clear - V H1. lia. }
        destruct (carry_up_ok r Br U') as (Lc & Bc & Vc).
        assert (Zc : zlen (carry_up r) = zlen r) by (unfold zlen; now rewrite Lc).
        pose proof (Step m count b (h - 2 ^ b) (carry_up r) (-1) (1 + 2 * bv r) IH h Hb O ltac:(auto) ltac:(lia) ltac:(lia) S Bc ltac:(rewrite Vc; lia) ltac:(rewrite Zc; exact V)) as R.
        rewrite Lc, Zc in R. destruct (slide_one m count (b + 1) (h - 2 ^ b) (carry_up r)) as [h' r']. exact R.
      * change (1 =? 0) with false. cbn [negb]. pose proof (Stop m b h (1 :: r) Hb O M S B) as R. rewrite zlen_cons in R. replace (b + (1 + zlen r) - 1) with (b + zlen r) in R by lia. replace (1 + zlen r - 1) with (zlen r) in R by lia.
        apply R. exact V.
Qed.
Definition digit (m d : Z) : Prop := d = 0 \/ Z.odd d = true /\ - m <= d <= m.
Lemma slide_all_ok : forall count m r, 1 <= m -> (length r <= count)%nat -> Forall bit r -> bv r <= 2 ^ (zlen r - 1) ->
  length (slide_all m count r) = length r /\ Forall (digit m) (slide_all m count r) /\ bv (slide_all m count r) = bv r.
Proof.
  induction count as [|count IH]; intros m r Hm L B V; cbn [slide_all].
  - destruct r; [|cbn in L; lia]. repeat split; constructor.
  - destruct r as [|h r]; [repeat split; constructor|]. inversion B as [|? ? Bh Br]; subst. cbn [length] in L. rewrite zlen_cons in V. pose proof (zlen_nonneg _ r) as Lr. replace (1 + zlen r - 1) with (zlen r) in V by lia. cbn [bv] in V.
    destruct (Z.eqb_spec h 0) as [->|N].
    + destruct (IH m r Hm ltac:(lia) Br) as (L1 & D1 & V1).
      { destruct r as [|y r]; [cbn; lia|]. rewrite zlen_cons in *. pose proof (zlen_nonneg _ r). rewrite Z.pow_add_r in V by lia. replace (1 + zlen r - 1) with (zlen r) by lia. lia. }
      cbn [length bv]. split; [now rewrite L1|]. split; [constructor; [now left|exact D1]|]. lia.
    + destruct Bh as [|Eh]; [contradiction|]. subst h. pose proof (slide_one_ok 6 m 1 1 r ltac:(lia) eq_refl ltac:(lia) ltac:(lia) Br) as R.
      replace (1 + zlen r - 1) with (zlen r) in R by lia. specialize (R V). destruct (slide_one m 6 1 1 r) as [h' r']. destruct R as (O & M & L1 & B1 & V1 & U1).
      change (2 ^ 1) with 2 in V1. destruct (IH m r' Hm ltac:(lia) B1) as (L2 & D2 & V2).
      { replace (zlen r') with (zlen r) by (unfold zlen; now rewrite L1). exact U1. }
      cbn [length bv]. split; [now rewrite L2, L1|]. split; [constructor; [right; auto|exact D2]|]. lia.
Qed.
Lemma slidingwindow_ok : forall s k, lim56 32 s -> val56 s <= 2 ^ 255 -> 2 <= k ->
  let d := contract256_slidingwindow_modm s k in
  length d = 256%nat /\ Forall (digit (2 ^ (k - 1) - 1)) d /\ bv d = val56 s.
Proof.
  intros [[[[s0 s1] s2] s3] s4] k (L0 & L1 & L2 & L3 & L4) V Hk. unfold contract256_slidingwindow_modm. cbv zeta.
  rewrite Z.shiftl_mul_pow2, Z.mul_1_l by lia.
  destruct (limb_bits_ok 56 s0) as (A0 & B0 & V0). destruct (limb_bits_ok 56 s1) as (A1 & B1 & V1). destruct (limb_bits_ok 56 s2) as (A2 & B2 & V2).
  destruct (limb_bits_ok 56 s3) as (A3 & B3 & V3). destruct (limb_bits_ok 32 s4) as (A4 & B4 & V4).
  change (2 ^ Z.of_nat 56) with (2 ^ 56) in *. change (2 ^ Z.of_nat 32) with (2 ^ 32) in *. rewrite Z.mod_small in V0, V1, V2, V3, V4 by lia.
  set (l0 := limb_bits 56 s0) in *. set (l1 := limb_bits 56 s1) in *. set (l2 := limb_bits 56 s2) in *. set (l3 := limb_bits 56 s3) in *. set (l4 := limb_bits 32 s4) in *. clearbody l0 l1 l2 l3 l4.
  assert (LL : length (l0 ++ l1 ++ l2 ++ l3 ++ l4) = 256%nat) by (rewrite !app_length, A0, A1, A2, A3, A4; reflexivity).
  assert (BB : Forall bit (l0 ++ l1 ++ l2 ++ l3 ++ l4)) by (rewrite !Forall_app; auto).
  assert (VV : bv (l0 ++ l1 ++ l2 ++ l3 ++ l4) = val56 (s0, s1, s2, s3, s4)).
  { rewrite !bv_app. unfold zlen. rewrite A0, A1, A2, A3, V0, V1, V2, V3, V4. change (2 ^ Z.of_nat 56) with (2 ^ 56). unfold val56. ring. }
  set (r := l0 ++ l1 ++ l2 ++ l3 ++ l4) in *. clearbody r. rewrite <- VV in *.
  assert (Pk : 2 ^ 1 <= 2 ^ (k - 1)) by (apply Z.pow_le_mono_r; lia). change (2 ^ 1) with 2 in Pk.
  destruct (slide_all_ok 256 (2 ^ (k - 1) - 1) r) as (X & Y & Z); [lia|lia|exact BB|unfold zlen; rewrite LL; exact V|].
  rewrite X. auto.
Qed.
