(** Proofs about the Poly1305 code for 32-bit machines: whole messages *)
From Verif Require Import Base MHash MSha2 MBlake2 SSha2 SBlake2 PSha2 PSha2b PBlake2 PChaCha MPoly1305 SPoly1305 PPoly1305 PPoly1305b MPoly32 PPoly32.
Require Import ZifyBool Lia.

Lemma full_block32_val : forall b, zlen b = 16 -> le_val (b ++ [1]) = mem_word b + 2 ^ 24 * 2 ^ 104.
Proof. intros b H. change le_val with mem_word. rewrite mem_word_app, H. reflexivity. Qed.

Section Width.
Variable lw : Z.
Hypothesis Hlw : lw = 32 \/ lw = 64.
Variable w : Z -> Z -> outcome Z.
Hypothesis Hw : exact_in_range w.

Lemma blocks_loop32_ok : forall r, r5_ok r -> forall count h m,
  h5_ok h -> bytes m -> 16 * Z.of_nat count <= zlen m ->
  exists h', poly32_blocks_loop lw w count (2 ^ 24) r (s5 r) h m = Ok h' /\ h5_ok h' /\
    val5 h' mod P1305 = horner (val5 r) (val5 h) (pieces 16 count m) mod P1305.
Proof.
  intros r Hr count. induction count as [|count IH]; intros h m Hh Hb Hl.
  - exists h. split; [reflexivity|]. split; [exact Hh|reflexivity].
  - cbn [poly32_blocks_loop pieces].
    destruct (block32_ok lw Hlw w Hw (2 ^ 24) r h m (or_intror eq_refl) Hr Hh Hb ltac:(lia)) as (h1 & E1 & K1 & V1).
    rewrite E1. cbn [obind].
    destruct (IH h1 (drop 16 m) K1 ltac:(now apply bytes_drop) ltac:(rewrite zlen_drop; lia)) as (h2 & E2 & K2 & V2).
    exists h2. split; [exact E2|]. split; [exact K2|]. rewrite V2.
    rewrite <- horner_mod, V1. unfold horner at 2. cbn [fold_left].
    change (firstn 16 m) with (take 16 m). change (skipn 16 m) with (drop 16 m).
    rewrite full_block32_val by (rewrite zlen_take; clear - Hl; lia). rewrite Z.add_assoc. reflexivity.
Qed.

(** ** The state after some input *)
Definition holding32 (key : list Z) (k : nat) (full rest : list Z) (st : poly32) : Prop :=
  zlen full = 16 * Z.of_nat k /\ zlen rest < 16 /\ q_leftover st = zlen rest /\
  zlen (q_buffer st) = 16 /\ bytes (q_buffer st) /\ take (zlen rest) (q_buffer st) = rest /\
  q_final st = false /\ r5_ok (q_r st) /\ val5 (q_r st) = clamp (mem_word (take 16 key)) /\ h5_ok (q_h st) /\
  val5 (q_h st) mod P1305 = horner (clamp (mem_word (take 16 key))) 0 (pieces 16 k full) mod P1305 /\
  q_pad st = key_pad key.

Lemma init_holding32 : forall buffer key, bytes key -> 32 <= zlen key -> bytes buffer -> zlen buffer = 16 ->
  holding32 key 0 [] [] (poly32_init buffer key).
Proof.
  intros buffer key Hk Lk Hb Lb. destruct (init32_r buffer key Hk ltac:(lia)) as [R V].
  unfold holding32. split; [reflexivity|]. split; [reflexivity|]. split; [reflexivity|].
  split; [exact Lb|]. split; [exact Hb|]. split; [reflexivity|]. split; [reflexivity|].
  split; [exact R|]. split; [exact V|]. split; [cbn [poly32_init q_h h5_ok]; lia|]. split; reflexivity.
Qed.
Lemma blocks_holding32 : forall key k full st m bytes',
  holding32 key k full [] st -> bytes m -> 16 * Z.of_nat bytes' <= zlen m ->
  exists st', poly32_blocks lw w st m (16 * Z.of_nat bytes') = Ok st' /\
    holding32 key (k + bytes') (full ++ take (16 * Z.of_nat bytes') m) [] st'.
Proof.
  intros key k full st m c (F & _ & L & LB & BB & _ & Fi & R & RV & H & HV & Pd) Hb Hl.
  assert (zlen (take (Z.of_nat c * 16) m) = 16 * Z.of_nat c) as Lt by (rewrite zlen_take; clear - Hl; lia).
  unfold poly32_blocks. rewrite Fi. destruct (q_r st) as [[[[r0 r1] r2] r3] r4] eqn:Er.
  cbn [r5_ok] in R. pose proof (wide lw Hlw) as W. do 4 (rewrite Hw by (clear - R W; lia); cbn [obind]).
  rewrite (Z.mul_comm 16), Z.div_mul, Nat2Z.id by discriminate. change (Z.shiftl 1 24) with (2 ^ 24).
  destruct (blocks_loop32_ok (r0, r1, r2, r3, r4) R c (q_h st) m H Hb Hl) as (h' & E & K & V).
  cbn [s5] in E. rewrite E. cbn [obind].
  eexists. split; [reflexivity|]. unfold holding32. cbn [q_leftover q_buffer q_final q_r q_h q_pad].
  split; [rewrite zlen_app, Lt; clear - F; lia|]. split; [reflexivity|]. split; [exact L|]. split; [exact LB|].
  split; [exact BB|]. split; [reflexivity|]. split; [reflexivity|]. split; [exact R|]. split; [exact RV|]. split; [exact K|].
  split; [|assumption]. rewrite V. rewrite <- horner_mod, HV, horner_mod, RV.
  rewrite pieces_app by (clear - F; lia). unfold horner. rewrite fold_left_app. fold (horner (clamp (mem_word (take 16 key))) 0 (pieces 16 k full)).
  f_equal. f_equal. rewrite <- (take_drop Z (Z.of_nat c * 16) m) at 1. apply pieces_exact. clear - Lt; lia.
Qed.

Lemma store_holding32 : forall key k full st m, holding32 key k full [] st -> bytes m -> zlen m < 16 ->
  holding32 key k full m (poly32_store st m).
Proof.
  intros key k full st m (F & _ & L & LB & BB & _ & Fi & R & RV & H & HV & Pd) Hb Hl.
  unfold poly32_store. destruct (zlen m =? 0) eqn:E.
  - assert (m = []) as -> by (apply zlen_0_nil; clear - E; lia).
    unfold holding32. auto 20.
  - change (zlen (@nil Z)) with 0 in L. rewrite L. rewrite splice_0.
    unfold holding32. cbn [q_leftover q_buffer q_final q_r q_h q_pad].
    split; [exact F|]. split; [exact Hl|]. split; [reflexivity|].
    split; [rewrite zlen_app, zlen_drop; clear - LB Hl; pose proof (zlen_nonneg Z m); lia|].
    split; [apply bytes_app; split; [exact Hb|now apply bytes_drop]|]. split; [apply take_app_exact|]. auto 10.
Qed.
Lemma full_holding32 : forall key k full st m, holding32 key k full [] st -> bytes m ->
  exists st' k' full' rest', poly32_full lw w st m = Ok st' /\ full' ++ rest' = full ++ m /\ holding32 key k' full' rest' st'.
Proof.
  intros key k full st m Hh Hb. unfold poly32_full. rewrite Z.geb_leb.
  destruct (16 <=? zlen m) eqn:E.
  - pose proof (Z.mod_pos_bound (zlen m) 16 eq_refl) as Mb.
    assert (exists n, zlen m - zlen m mod 16 = 16 * Z.of_nat n) as [n En].
    { exists (Z.to_nat (zlen m / 16)). pose proof (Z.div_mod (zlen m) 16 ltac:(discriminate)).
      rewrite Z2Nat.id; [clear Hh; lia|]. apply Z.div_pos; [apply zlen_nonneg|reflexivity]. }
    rewrite En. destruct (blocks_holding32 key k full st m n Hh Hb) as (st1 & E1 & H1); [clear Hh; lia|].
    rewrite E1. cbn [obind].
    exists (poly32_store st1 (drop (16 * Z.of_nat n) m)), (k + n)%nat, (full ++ take (16 * Z.of_nat n) m), (drop (16 * Z.of_nat n) m).
    split; [reflexivity|]. split; [rewrite <- app_assoc; f_equal; apply take_drop|].
    apply store_holding32; [exact H1|now apply bytes_drop|rewrite zlen_drop; clear - En Mb; lia].
  - exists (poly32_store st m), k, full, m. split; [reflexivity|]. split; [reflexivity|].
    apply store_holding32; auto. clear - E; lia.
Qed.
Lemma update_holding32 : forall key k full rest st m, holding32 key k full rest st -> bytes m ->
  exists st' k' full' rest', poly32_update lw w st m = Ok st' /\ full' ++ rest' = full ++ rest ++ m /\ holding32 key k' full' rest' st'.
Proof.
  intros key k full rest st m Hh Hb. unfold poly32_update.
  pose proof (zlen_nonneg Z rest) as Nr. pose proof (zlen_nonneg Z m) as Nm.
  assert (q_leftover st = zlen rest) as L by apply Hh. rewrite L.
  destruct (zlen rest =? 0) eqn:E.
  { assert (rest = []) as -> by (apply zlen_0_nil; clear - E; lia). cbn [app]. apply (full_holding32 key k full st m Hh Hb). }
  rewrite Z.gtb_ltb.
  set (want := if zlen m <? 16 - zlen rest then zlen m else 16 - zlen rest).
  assert (Hh' := Hh). destruct Hh' as (F & Lr & _ & LB & BB & TB & Fi & R & RV & H & HV & Pd).
  assert (0 <= want <= zlen m /\ want <= 16 - zlen rest /\ (want = zlen m \/ want = 16 - zlen rest)) as (W1 & W2 & W3).
  { unfold want. clear - Nm Lr Nr. destruct (zlen m <? 16 - zlen rest) eqn:X; lia. }
  assert (zlen (take want m) = want) as Lw by (rewrite zlen_take; clear - W1; lia).
  assert (splice (zlen rest) (take want m) (q_buffer st) = rest ++ take want m ++ drop (zlen rest + want) (q_buffer st)) as Es
    by (unfold splice; rewrite TB, Lw; reflexivity).
  cbn [q_leftover].
  match goal with |- context [if _ then Ok ?s else _] => set (s1 := s) end.
  destruct (zlen rest + want <? 16) eqn:E16.
  - assert (want = zlen m) as Ew by (clear - W3 E16; lia).
    exists s1, k, full, (rest ++ m). split; [reflexivity|]. split; [reflexivity|].
    assert (take want m = m) as Et by (apply take_all; clear - Ew; lia).
    unfold holding32, s1. cbn [q_leftover q_buffer q_final q_r q_h q_pad]. rewrite Es, Et.
    split; [exact F|]. split; [rewrite zlen_app; clear - E16 Ew; lia|]. split; [rewrite zlen_app, Ew; reflexivity|].
    split; [rewrite !zlen_app, zlen_drop; clear - E16 Ew LB Nr Nm; lia|].
    split; [apply bytes_app; split; [rewrite <- TB; now apply bytes_take|apply bytes_app; split; [exact Hb|now apply bytes_drop]]|].
    split; [rewrite app_assoc; apply take_app_exact|]. auto 10.
  - assert (want = 16 - zlen rest) as Ew by (clear - W2 E16; lia).
    assert (q_buffer s1 = rest ++ take want m) as Eb.
    { unfold s1. cbn [q_buffer]. rewrite Es. rewrite drop_all by (clear - LB Ew; lia). now rewrite app_nil_r. }
    assert (zlen (q_buffer s1) = 16) as Lb1 by (rewrite Eb, zlen_app, Lw; clear - Ew; lia).
    assert (bytes (q_buffer s1)) as Hb1.
    { rewrite Eb. apply bytes_app. split; [rewrite <- TB; now apply bytes_take|now apply bytes_take]. }
    pose (s0 := Poly32 (q_r s1) (q_h s1) (q_pad s1) 0 (q_buffer s1) (q_final s1)).
    assert (holding32 key k full [] s0) as H0.
    { unfold holding32, s0. cbn [q_leftover q_buffer q_final q_r q_h q_pad].
      split; [exact F|]. split; [reflexivity|]. split; [reflexivity|]. split; [exact Lb1|]. split; [exact Hb1|].
      split; [reflexivity|]. auto 10. }
    destruct (blocks_holding32 key k full s0 (q_buffer s1) 1 H0 Hb1) as (s2 & E2 & H2); [clear - Lb1; lia|].
    change (16 * Z.of_nat 1) with 16 in *.
    (* the leftover count has no effect on poly32_blocks *)
    assert (exists l, poly32_blocks lw w s1 (q_buffer s1) 16 = Ok (Poly32 (q_r s2) (q_h s2) (q_pad s2) l (q_buffer s2) (q_final s2))) as [l El].
    { revert E2. unfold poly32_blocks, s0. cbn [q_leftover q_buffer q_final q_r q_h q_pad].
      destruct (q_r s1) as [[[[r0 r1] r2] r3] r4]. 
      do 4 (destruct (w lw _); cbn [obind]; [|discriminate]).
      destruct (poly32_blocks_loop _ _ _ _ _ _ _ _); cbn [obind]; [|discriminate]. intros X. injection X as <-.
      cbn [q_leftover q_buffer q_final q_r q_h q_pad]. eexists. reflexivity. }
    rewrite El. cbn [obind q_leftover q_buffer q_final q_r q_h q_pad].
    assert (Poly32 (q_r s2) (q_h s2) (q_pad s2) 0 (q_buffer s2) (q_final s2) = s2) as ->.
    { destruct H2 as (_ & _ & L2 & _). destruct s2. cbn in *. change (zlen (@nil Z)) with 0 in L2. now rewrite L2. }
    assert (take 16 (q_buffer s1) = rest ++ take want m) as Et by (rewrite <- Eb; apply take_all; clear - Lb1; lia).
    rewrite Et in H2.
    destruct (full_holding32 key _ _ s2 (drop want m) H2) as (s3 & k3 & f3 & r3 & E3 & V3 & H3); [now apply bytes_drop|].
    exists s3, k3, f3, r3. split; [exact E3|]. split; [|exact H3].
    rewrite V3. rewrite <- !app_assoc. now rewrite take_drop.
Qed.
Lemma last32_ok : forall key k full rest st, bytes key -> 32 <= zlen key ->
  holding32 key k full rest st ->
  exists st', poly32_last lw w st = Ok st' /\ (h5_ok (q_h st') /\ q_pad st' = key_pad key /\
    val5 (q_h st') mod P1305 = horner (clamp (mem_word (take 16 key))) 0 (blocks16 (full ++ rest))).
Proof.
  intros key k full rest st Hk Lk (F & Lr & L & LB & BB & TB & Fi & R & RV & H & HV & Pd).
  pose proof (zlen_nonneg Z rest) as Nr.
  rewrite (blocks16_split k) by (clear HV; auto). unfold poly32_last. rewrite L.
  destruct (zlen rest =? 0) eqn:E.
  - exists st. split; [reflexivity|]. split; [exact H|]. split; [exact Pd|]. rewrite app_nil_r, HV. apply horner_range.
  - set (b1 := splice (zlen rest + 1) (zeros (16 - (zlen rest + 1))) (splice (zlen rest) [1] (q_buffer st))).
    assert (b1 = rest ++ [1] ++ zeros (15 - zlen rest)) as Eb.
    { assert (splice (zlen rest) [1] (q_buffer st) = (rest ++ [1]) ++ drop (zlen rest + 1) (q_buffer st)) as X.
      { unfold splice. rewrite TB. rewrite <- app_assoc. reflexivity. }
      unfold b1. rewrite X. unfold splice at 1.
      assert (zlen (rest ++ [1]) = zlen rest + 1) as Lx by (rewrite zlen_app; reflexivity).
      rewrite <- Lx at 1. rewrite take_app_exact. rewrite zlen_zeros by (clear - Lr; lia).
      rewrite drop_all; [rewrite app_nil_r, <- app_assoc; do 3 f_equal; clear; lia|].
      rewrite zlen_app, Lx, zlen_drop. clear - LB Nr Lr. lia. }
    assert (zlen b1 = 16) as Lb.
    { rewrite Eb, !zlen_app, zlen_zeros by (clear - Lr; lia). change (zlen [1]) with 1. clear; lia. }
    assert (bytes b1) as Hb.
    { rewrite Eb. apply bytes_app. split; [rewrite <- TB; now apply bytes_take|]. apply bytes_app. split; [|apply bytes_zeros].
      constructor; [unfold is_byte; lia|constructor]. }
    unfold poly32_blocks. cbn [q_leftover q_buffer q_final q_r q_h q_pad].
    destruct (q_r st) as [[[[r0 r1] r2] r3] r4] eqn:Er. assert (R' := R). unfold r5_ok in R'. pose proof (wide lw Hlw) as W.
    do 4 (rewrite Hw by (clear - R' W; lia); cbn [obind]).
    change (Z.to_nat (16 / 16)) with 1%nat. cbn [poly32_blocks_loop].
    destruct (block32_ok lw Hlw w Hw 0 (r0, r1, r2, r3, r4) (q_h st) b1 (or_introl eq_refl) R H Hb) as (h' & E1 & K1 & V1); [clear - Lb; lia|].
    cbn [s5] in E1. rewrite E1. cbn [obind]. eexists. split; [reflexivity|]. cbn [q_h q_pad]. split; [exact K1|]. split; [exact Pd|].
    rewrite V1, horner_snoc, RV. rewrite Z.mul_0_l, Z.add_0_r.
    assert (mem_word (take 16 b1) = le_val (rest ++ [1])) as ->.
    { rewrite take_all by (clear - Lb; lia). rewrite Eb, app_assoc, mem_word_app. unfold zeros. rewrite mem_word_zeros.
      change le_val with mem_word. clear. lia. }
    rewrite <- horner_range, <- HV.
    symmetry. rewrite <- Z.mul_mod_idemp_l by discriminate. rewrite Z.add_mod_idemp_l by discriminate.
    apply Z.mul_mod_idemp_l. discriminate.
Qed.
Lemma finish32_ok : forall key k full rest st, bytes key -> 32 <= zlen key ->
  holding32 key k full rest st ->
  exists st', poly32_finish lw w st = Ok (st', poly1305_mac key (full ++ rest)) /\
    (q_r st', q_h st', q_pad st') = ((0, 0, 0, 0, 0), (0, 0, 0, 0, 0), (0, 0, 0, 0)).
Proof.
  intros key k full rest st Hk Lk Hh. unfold poly32_finish.
  destruct (last32_ok key k full rest st Hk Lk Hh) as (s1 & E1 & K1 & P1 & V1). rewrite E1. cbn [obind].
  destruct (carry32_ok lw Hlw w Hw _ K1) as (h2 & E2 & G2 & V2). rewrite E2. cbn [obind].
  destruct (select32_ok lw Hlw w Hw _ G2) as (h3 & E3 & G3 & V3). rewrite E3. cbn [obind]. rewrite P1.
  destruct (key_pad_ok key Hk Lk) as [T0 T1].
  destruct (output32_ok lw Hlw w Hw _ h3 G3 T0) as (mac & E4 & V4). rewrite E4. cbn [obind].
  rewrite V4, T1. rewrite V3, V2, V1. eexists. split; reflexivity.
Qed.
End Width.
