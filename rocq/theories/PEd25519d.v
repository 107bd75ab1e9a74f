(** Base point multiplication of src/crypto/ed25519: the whole function *)
From Coq Require Import Field Ring.
From Verif Require Import Base MHash MSha2 MBlake2 SSha2 SBlake2 PSha2 PSha2b PBlake2 PChaCha PGhash MX25519 SX25519 PPoly1305 MEdTable MEd25519 PEdwards PEdRep PX25519 PX25519b PX25519c PX25519d PX25519e PX25519f PEd25519 PEd25519b PEdTable PEd25519c.
Local Close Scope fp_scope.
Local Open Scope Z_scope.

Lemma dp_nz : dp <> F0.
Proof. intros H. apply (dp_nonsquare F0). rewrite H. ring. Qed.
Lemma fv_1 : forall f, val f = 1 -> fv f = F1. Proof. intros f H. unfold fv. now rewrite H. Qed.
(** What the selection gives: the third number of the first block has no factor d *)
Definition sel (first : bool) (n : ge25519_niels) (Q : Point) : Prop :=
  lm 1 (ni_ysubx n) /\ lm 1 (ni_xaddy n) /\ lm 1 (ni_t2d n) /\
  fv (ni_ysubx n) = Fadd (snd Q) (Fmul im (fst Q)) /\ fv (ni_xaddy n) = Fsub (snd Q) (Fmul im (fst Q)) /\
  Fmul (if first then T dd else F1) (fv (ni_t2d n)) = Fmul (Fmul (Fmul (Fmul (Fadd F1 F1) dp) im) (fst Q)) (snd Q).
Lemma sel_ni : forall n Q, sel false n Q -> ni_of n Q.
Proof.
  intros n Q (A & B & C & D & E & G). unfold ni_of, niels. do 3 (split; [assumption|]). split; [exact D|]. split; [exact E|].
  rewrite <- G. ring.
Qed.
Lemma size_row : forall row, size_ok row = true -> exists a0 a1 a2 a3 b0 b1 b2 b3 c0 c1 c2 c3,
  row = [a0; a1; a2; a3; b0; b1; b2; b3; c0; c1; c2; c3] /\ row_size row /\
  four_w a0 a1 a2 a3 < 2 ^ 255 /\ four_w b0 b1 b2 b3 < 2 ^ 255 /\ four_w c0 c1 c2 c3 < 2 ^ 255.
Proof.
  intros row H. unfold size_ok in H. destruct (row_nums row) as [[a b] c] eqn:E.
  repeat (apply andb_true_iff in H; destruct H as [H ?]). apply Z.eqb_eq in H. unfold zlen in H.
  do 13 (destruct row as [|?x row]; [try (cbn [length] in H; lia)|]); [|cbn [length] in H; lia].
  cbn [row_nums] in E. injection E as <- <- <-. do 12 eexists. split; [reflexivity|].
  split; [|split; [now apply Z.ltb_lt|split; now apply Z.ltb_lt]]. split; [reflexivity|].
  rewrite Forall_forall. rewrite forallb_forall in H3. intros y Hy. specialize (H3 y Hy). unfold wordb in H3. apply andb_true_iff in H3. unfold word. lia.
Qed.
Lemma words_fv : forall a b c d, word a -> word b -> word c -> word d -> four_w a b c d < 2 ^ 255 ->
  lm 1 (ed_expand_words a b c d) /\ fv (ed_expand_words a b c d) = T (four_w a b c d).
Proof.
  intros a b c d A B C D H. destruct (ed_expand_words_ok a b c d A B C D) as [L V]. split; [exact L|]. unfold fv. rewrite V.
  unfold word, four_w in *. rewrite Z.mod_small by lia. f_equal. ring.
Qed.
Definition start : list Z := [1; 0; 0; 0; 1; 0; 0; 0; 0; 0; 0; 0].
Lemma start_size : row_size start.
Proof. split; [reflexivity|]. unfold start, word. repeat (constructor; [lia|]). constructor. Qed.
Definition of_row (row : list Z) : ge25519_niels :=
  let at_ (k : nat) := nth k row 0 in
  Niels (ed_expand_words (at_ 0%nat) (at_ 1%nat) (at_ 2%nat) (at_ 3%nat)) (ed_expand_words (at_ 4%nat) (at_ 5%nat) (at_ 6%nat) (at_ 7%nat))
    (ed_expand_words (at_ 8%nat) (at_ 9%nat) (at_ 10%nat) (at_ 11%nat)).
Lemma row_sel : forall first row Q, row_xy dp first row Q -> size_ok row = true -> sel first (of_row row) Q.
Proof.
  intros first row Q H S. destruct (size_row row S) as (a0 & a1 & a2 & a3 & b0 & b1 & b2 & b3 & c0 & c1 & c2 & c3 & -> & (_ & W) & Ha & Hb & Hc).
  apply (row_niels dp) in H. cbn [row_nums] in H. destruct H as (Ea & Eb & Ec).
  rewrite Forall_forall in W.
  destruct (words_fv a0 a1 a2 a3) as [La Va]; [apply W; cbn; tauto..|exact Ha|].
  destruct (words_fv b0 b1 b2 b3) as [Lb Vb]; [apply W; cbn; tauto..|exact Hb|].
  destruct (words_fv c0 c1 c2 c3) as [Lc Vc]; [apply W; cbn; tauto..|exact Hc|].
  unfold sel, of_row. cbn [nth ni_ysubx ni_xaddy ni_t2d]. rewrite Va, Vb, Vc. auto 10.
Qed.
Lemma start_sel : forall first, sel first (of_row start) O_.
Proof.
  intros first. unfold sel, of_row, start. cbn [nth ni_ysubx ni_xaddy ni_t2d].
  assert (E1 : fv (ed_expand_words 1 0 0 0) = F1) by (apply fv_1; reflexivity).
  assert (E0 : fv (ed_expand_words 0 0 0 0) = F0) by reflexivity.
  destruct (ed_expand_words_ok 1 0 0 0) as [L1 _]; [unfold word; lia..|]. destruct (ed_expand_words_ok 0 0 0 0) as [L0 _]; [unfold word; lia..|].
  do 3 (split; [assumption|]). rewrite E1, E0. unfold eO. cbn [fst snd]. split; [ring|]. split; [ring|]. destruct first; ring.
Qed.
Lemma sel_neg : forall first n Q c, sel first n Q -> lm 1 c -> fv c = Fopp (fv (ni_t2d n)) -> sel first (Niels (ni_xaddy n) (ni_ysubx n) c) (neg Q).
Proof.
  intros first n Q c (A & B & C & D & E & G) Lc Vc. unfold sel. cbn [ni_ysubx ni_xaddy ni_t2d]. do 3 (split; [assumption|]). unfold eneg. cbn [fst snd].
  rewrite D, E, Vc. split; [ring|]. split; [ring|]. transitivity (Fopp (Fmul (if first then T dd else F1) (fv (ni_t2d n)))); [destruct first; ring|]. rewrite G. ring.
Qed.

Section Exact.
Variable w : Z -> Z -> outcome Z.
Hypothesis Hw : exact_in_range w.
Lemma choose_ok : forall pos b, 0 <= pos < 32 -> -8 <= b <= 8 ->
  exists n, choose_niels w niels_base_multiples pos b = Ok n /\ sel (pos =? 0) n (zm (b * 256 ^ pos)).
Proof.
  intros pos b Hp Hb. unfold choose_niels. pose proof (digit_parts b Hb) as [Es Eu]. cbv zeta in *. rewrite Eu, Es. clear Es Eu.
  assert (Ht : forall j, 0 <= j < 8 -> exists row, nth_error niels_base_multiples (Z.to_nat (pos * 8 + j)) = Some row /\ row_size row).
  { intros j Hj. destruct (table_row pos j Hp Hj) as (row & E & R). exists row. split; [exact E|]. unfold row_xy in R. destruct (xyt (pos =? 0) row) as [[? ?] ?].
    destruct R as (_ & _ & S). destruct (size_row row S) as (? & ? & ? & ? & ? & ? & ? & ? & ? & ? & ? & ? & _ & RS & _). exact RS. }
  change [1; 0; 0; 0; 1; 0; 0; 0; 0; 0; 0; 0] with start.
  destruct (choose_loop_ok 8 niels_base_multiples pos (Z.abs b) 0 start ltac:(lia) ltac:(lia) ltac:(lia) start_size Ht) as (r & -> & R1 & _ & R3). cbn [obind]. clear Ht.
  assert (SQ : sel (pos =? 0) (of_row r) (zm (Z.abs b * 256 ^ pos))).
  { destruct (Z.eq_dec b 0) as [->|N].
    - rewrite R1 by (cbn; lia). change (Z.abs 0 * 256 ^ pos) with 0. change (zm 0) with (zmul B9 0). rewrite zmul_0. apply start_sel.
    - specialize (R3 ltac:(lia)). destruct (table_row pos (Z.abs b - 1) Hp ltac:(lia)) as (row & E & R). rewrite E in R3. injection R3 as ->.
      replace (Z.abs b - 1 + 1) with (Z.abs b) in R by lia. rewrite zm_nonneg by (apply Z.mul_nonneg_nonneg; [lia|apply Z.pow_nonneg; lia]).
      apply row_sel; [exact R|]. unfold row_xy in R. destruct (xyt (pos =? 0) r) as [[? ?] ?]. now destruct R as (_ & _ & S). }
  unfold of_row in SQ. cbv zeta in SQ.
  set (ys := ed_expand_words (nth 0 r 0) _ _ _) in *. set (xa := ed_expand_words (nth 4 r 0) _ _ _) in *. set (t2 := ed_expand_words (nth 8 r 0) _ _ _) in *.
  clearbody ys xa t2. pose proof SQ as (A & B & C & _). cbn [ni_ysubx ni_xaddy ni_t2d] in A, B, C.
  rewrite (swap_lm ys xa (b <? 0) A B). destruct (f_neg w Hw t2 C) as (c & Ec & Lc & Vc).
  destruct (Z.ltb_spec b 0) as [Ng|Ng].
  - rewrite Ec. cbn [obind]. rewrite (swap_lm t2 c true C Lc). eexists. split; [reflexivity|].
    replace (b * 256 ^ pos) with (- (Z.abs b * 256 ^ pos)) by (rewrite Z.abs_neq by lia; ring). rewrite zm_opp.
    exact (sel_neg _ _ _ _ SQ Lc Vc).
  - rewrite Ec. cbn [obind]. rewrite (swap_lm t2 c false C Lc). eexists. split; [reflexivity|].
    rewrite Z.abs_eq in SQ by lia. exact SQ.
Qed.
Lemma base_loop_ok : forall n b i r m, 2 <= i -> i / 2 + Z.of_nat n <= 32 -> Forall (fun x => -8 <= x <= 8) b -> i + 2 * Z.of_nat n <= zlen b + 1 ->
  ge_full r (zm m) -> exists g, base_loop w n niels_base_multiples b i r = Ok g /\ ge_full g (zm (m + steps n b i)).
Proof.
  induction n as [|n IH]; intros b i r m Hi Hn Hb Hl HF.
  - exists r. cbn [base_loop steps]. split; [reflexivity|]. rewrite Z.add_0_r. exact HF.
  - cbn [base_loop steps]. assert (D : 1 <= i / 2) by (apply Z.div_le_lower_bound; lia).
    assert (Rb : -8 <= byte_at b i <= 8).
    { unfold byte_at. rewrite Forall_forall in Hb. apply Hb. apply nth_In. unfold zlen in Hl. lia. }
    destruct (choose_ok (i / 2) (byte_at b i) ltac:(lia) Rb) as (t & -> & S). cbn [obind]. destruct (Z.eqb_spec (i / 2) 0) as [E0|_]; [lia|]. apply sel_ni in S.
    destruct (nielsadd2_ok w Hw r t _ _ HF S (zm_curve _) (zm_curve _)) as (g & -> & HG). cbn [obind]. rewrite <- zm_add in HG.
    assert (D2 : (i + 2) / 2 = i / 2 + 1) by (replace (i + 2) with (i + 1 * 2) by lia; now rewrite Z.div_add by lia).
    destruct (IH b (i + 2) g _ ltac:(lia) ltac:(lia) Hb ltac:(lia) HG) as (g' & E & HG'). exists g'. split; [exact E|].
    rewrite Z.add_assoc. exact HG'.
Qed.
Lemma steps_S : forall n b i, steps (S n) b i = byte_at b i * 256 ^ (i / 2) + steps n b (i + 2).
Proof. reflexivity. Qed.
Lemma two_fv : fv (2, 0, 0, 0, 0) = Fadd F1 F1.
Proof. unfold fv. rewrite <- T_2. f_equal. Qed.
Lemma first_alg : forall d (Q : Point) t', d <> F0 -> Fmul (Fopp d) t' = Fmul (Fmul (Fmul (Fmul (Fadd F1 F1) d) im) (fst Q)) (snd Q) ->
  Full (Fsub (Fsub (snd Q) (Fmul im (fst Q))) (Fadd (snd Q) (Fmul im (fst Q)))) (Fadd (Fsub (snd Q) (Fmul im (fst Q))) (Fadd (snd Q) (Fmul im (fst Q)))) (Fadd F1 F1) t' Q.
Proof.
  intros d Q t' Dn Vt. unfold full, part. split; [split; [exact two_nz|]; split; [|ring]|].
  - transitivity (Fmul (Fopp (Fmul im im)) (Fmul (Fadd F1 F1) (fst Q))); [rewrite im_sq; ring|ring].
  - apply (cancel F F0 F1 Fadd Fmul Fsub Fopp Fdiv Finv FT _ _ d Dn). transitivity (Fopp (Fmul (Fmul (Fopp d) t') (Fadd F1 F1))); [ring|]. rewrite Vt. ring.
Qed.
Lemma first_full : forall t x y Q, sel true t Q -> lm 1 x -> lm 1 y -> fv x = Fsub (fv (ni_xaddy t)) (fv (ni_ysubx t)) -> fv y = Fadd (fv (ni_xaddy t)) (fv (ni_ysubx t)) ->
  ge_full (GE x y (2, 0, 0, 0, 0) (ni_t2d t)) Q.
Proof.
  intros t x y Q (A & B & C & Va & Vx & Vt) Lx Ly Ex Ey. unfold ge_full. cbn [ge_x ge_y ge_z ge_t]. do 2 (split; [assumption|]). split; [unfold lm, U; lia|]. split; [exact C|].
  rewrite Ex, Ey, Va, Vx, two_fv. rewrite T_dd in Vt. exact (first_alg dp Q _ dp_nz Vt).
Qed.
Lemma ecd_lm : lm 1 ge25519_ecd. Proof. unfold ge25519_ecd, lm, U. lia. Qed.
Lemma ecd_val : val ge25519_ecd = dd. Proof. vm_compute. reflexivity. Qed.
Lemma zero_ni : forall t Q c, sel true t Q -> lm 1 c -> fv c = Fmul (fv (ni_t2d t)) (fv ge25519_ecd) -> ni_of (Niels (ni_ysubx t) (ni_xaddy t) c) Q.
Proof.
  intros t Q c (A & B & C & Va & Vx & Vt) Lc Vc. unfold ni_of, niels. cbn [ni_ysubx ni_xaddy ni_t2d]. do 3 (split; [assumption|]). split; [exact Va|]. split; [exact Vx|].
  rewrite Vc. unfold fv at 2. rewrite ecd_val. rewrite <- Vt. ring.
Qed.
(** 16 times a point *)
Lemma sixteen_ok : forall g m, ge_part g (zm m) -> exists g',
  (let! r := double_partial w g g in let! r := double_partial w r r in let! r := double_partial w r r in double_full w r) = Ok g' /\ ge_full g' (zm (16 * m)).
Proof.
  intros g m HG.
  destruct (double_partial_ok w Hw g g _ HG (zm_curve _)) as (g1 & -> & H1). cbn [obind]. rewrite zm_double in H1.
  destruct (double_partial_ok w Hw g1 g1 _ H1 (zm_curve _)) as (g2 & -> & H2). cbn [obind]. rewrite zm_double in H2.
  destruct (double_partial_ok w Hw g2 g2 _ H2 (zm_curve _)) as (g3 & -> & H3). cbn [obind]. rewrite zm_double in H3.
  destruct (double_full_ok w Hw g3 _ H3 (zm_curve _)) as (g4 & -> & H4). cbn [obind]. rewrite zm_double in H4.
  exists g4. split; [reflexivity|]. replace (16 * m) with (2 * (2 * (2 * (2 * m)))) by ring. exact H4.
Qed.
Lemma base_digits_ok : forall b, length b = 64%nat -> Forall (fun x => -8 <= x <= 8) b ->
  exists g, (let! t := choose_niels w niels_base_multiples 0 (byte_at b 1) in
    let! x := ed_sub_reduce w (ni_xaddy t) (ni_ysubx t) in
    let! y := ed_add_reduce w (ni_xaddy t) (ni_ysubx t) in
    base_loop w 31 niels_base_multiples b 3 (GE x y (2, 0, 0, 0, 0) (ni_t2d t))) = Ok g /\ ge_full g (zm (steps 32 b 1)).
Proof.
  intros b Lb Rb. assert (R1 : -8 <= byte_at b 1 <= 8) by (unfold byte_at; rewrite Forall_forall in Rb; apply Rb; apply nth_In; lia).
  destruct (choose_ok 0 (byte_at b 1) ltac:(lia) R1) as (t & -> & S). cbn [obind]. rewrite Z.eqb_refl in S. pose proof S as (A & B & C & _).
  destruct (f_sub_reduce w Hw _ _ B A) as (x & -> & Lx & Ex). cbn [obind]. destruct (f_add_reduce w Hw _ _ B A) as (y & -> & Ly & Ey). cbn [obind].
  pose proof (first_full t x y _ S Lx Ly Ex Ey) as HF.
  destruct (base_loop_ok 31 b 3 _ _ ltac:(lia) ltac:(cbn; lia) Rb ltac:(unfold zlen; rewrite Lb; cbn; lia) HF) as (g & -> & HG).
  exists g. split; [reflexivity|]. rewrite (steps_S 31 b 1). change (1 / 2) with 0. change (1 + 2) with 3. exact HG.
Qed.
Lemma even_digits_ok : forall b g m, length b = 64%nat -> Forall (fun x => -8 <= x <= 8) b -> ge_full g (zm m) ->
  exists g', (let! t := choose_niels w niels_base_multiples 0 (byte_at b 0) in
    let! t2d := ed_mul w (ni_t2d t) ge25519_ecd in
    let! r := nielsadd2 w g (Niels (ni_ysubx t) (ni_xaddy t) t2d) in
    base_loop w 31 niels_base_multiples b 2 r) = Ok g' /\ ge_full g' (zm (m + steps 32 b 0)).
Proof.
  intros b g m Lb Rb HG. assert (R1 : -8 <= byte_at b 0 <= 8) by (unfold byte_at; rewrite Forall_forall in Rb; apply Rb; apply nth_In; lia).
  destruct (choose_ok 0 (byte_at b 0) ltac:(lia) R1) as (t & -> & S). cbn [obind]. rewrite Z.eqb_refl in S. pose proof S as (A & B & C & _).
  destruct (f_mul w Hw 1 1 (ni_t2d t) ge25519_ecd C ecd_lm ltac:(lia) ltac:(lia)) as (c & -> & Lc & Vc). cbn [obind].
  pose proof (zero_ni t _ c S Lc Vc) as NI.
  destruct (nielsadd2_ok w Hw g _ _ _ HG NI (zm_curve _) (zm_curve _)) as (g5 & -> & H5). cbn [obind]. rewrite <- zm_add in H5.
  destruct (base_loop_ok 31 b 2 _ _ ltac:(lia) ltac:(cbn; lia) Rb ltac:(unfold zlen; rewrite Lb; cbn; lia) H5) as (g6 & -> & H6).
  exists g6. split; [reflexivity|]. rewrite (steps_S 31 b 0). change (0 / 2) with 0. change (0 + 2) with 2. rewrite Z.add_assoc. exact H6.
Qed.
Lemma obind_assoc : forall A B C (e : outcome A) (f : A -> outcome B) (g : B -> outcome C), obind (obind e f) g = obind e (fun x => obind (f x) g).
Proof. intros. destruct e; reflexivity. Qed.
Lemma base_any_ok : forall s v, (let b := contract256_window4_modm s in length b = 64%nat /\ Forall (fun x => -8 <= x <= 8) b /\ dval b = v) ->
  exists g, scalarmult_base_niels w niels_base_multiples s = Ok g /\ ge_full g (zm v).
Proof.
  intros s v D. unfold scalarmult_base_niels. cbv zeta in *. set (b := contract256_window4_modm s) in *. clearbody b.
  destruct D as (Lb & Rb & Vb). rewrite <- Vb. rewrite (steps_dval 32 b Lb). clear Vb v s.
  destruct (base_digits_ok b Lb Rb) as (g & E1 & HG).
  destruct (sixteen_ok g _ (full_part _ _ HG)) as (g4 & E2 & H4).
  destruct (even_digits_ok b g4 _ Lb Rb H4) as (g6 & E3 & H6).
  exists g6. rewrite (Z.add_comm (steps 32 b 0)). split; [|exact H6].
  revert E1 E2 E3. generalize niels_base_multiples. intros table E1 E2 E3. clear - E1 E2 E3.
  destruct (choose_niels w table 0 (byte_at b 1)) as [t|]; [|discriminate]. cbn [obind] in *.
  destruct (ed_sub_reduce w (ni_xaddy t) (ni_ysubx t)) as [x|]; [|discriminate]. cbn [obind] in *.
  destruct (ed_add_reduce w (ni_xaddy t) (ni_ysubx t)) as [y|]; [|discriminate]. cbn [obind] in *.
  rewrite E1. cbn [obind].
  destruct (double_partial w g g) as [r1|]; [|discriminate]. cbn [obind] in *. destruct (double_partial w r1 r1) as [r2|]; [|discriminate]. cbn [obind] in *.
  destruct (double_partial w r2 r2) as [r3|]; [|discriminate]. cbn [obind] in *. rewrite E2. cbn [obind]. exact E3.
Qed.
Lemma base_ok : forall p, bytes p -> zlen p = 32 -> mem_word p < 2 ^ 255 ->
  exists g, scalarmult_base_niels w niels_base_multiples (expand_raw256_modm p) = Ok g /\ ge_full g (zm (mem_word p)).
Proof. intros p Hb Hl Hr. apply base_any_ok. exact (digits_ok p Hb Hl Hr). Qed.
Theorem scalarmult_basepoint_ok : forall k, bytes k -> zlen k = 32 -> curved25519_scalarmult_basepoint w k = Ok (X25519 k nine).
Proof.
  intros k Hk Lk. unfold curved25519_scalarmult_basepoint. cbv zeta. destruct (clamp_ok k Hk Lk) as (C1 & C2 & C3).
  pose proof (scalar_range k) as R. rewrite <- C3 in R.
  destruct (base_ok (donna_clamp k) C1 C2 ltac:(lia)) as (g & -> & HG). cbn [obind]. apply full_part in HG. destruct HG as (Lx & Ly & Lz & HP).
  destruct (f_add w Hw 1 1 _ _ Ly Lz) as (a & -> & La & Va); [lia..|]. cbn [obind].
  destruct (f_sub w Hw 1 _ _ Lz Ly) as (s & -> & Ls & Vs); [lia|]. cbn [obind].
  destruct (f_recip w Hw _ s Ls ltac:(lia)) as (r & -> & Lr & Vr). cbn [obind].
  destruct (f_mul w Hw _ _ a r La Lr ltac:(lia) ltac:(lia)) as (u & -> & Lu & Vu). cbn [obind].
  rewrite (ed_contract_ok w Hw u Lu). f_equal. unfold X25519, encode_u. rewrite decode_nine. f_equal.
  apply T_eq. change (T (val u)) with (fv u). rewrite Vu, Va, Vr, Vs.
  rewrite (number_zmul B9 B9_curve B9_kum) by apply scalar_range. rewrite C3, zm_nonneg in HP by lia.
  exact (part_u F F0 F1 Fadd Fmul Fsub Fopp Fdiv Finv FT Fdec im Finv_0 _ _ _ _ HP).
Qed.
End Exact.
