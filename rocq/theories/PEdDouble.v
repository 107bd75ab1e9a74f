(** The sum of two multiples, for the check of signatures: ed25519-donna-impl-base.h:252-291 *)
From Coq Require Import Field Ring.
From Verif Require Import Base MHash MSha2 MBlake2 SSha2 SBlake2 PSha2 PSha2b PBlake2 PChaCha PGhash MX25519 SX25519 PPoly1305 MEdTable MEd25519 MEdSlide MEdSign PEdwards PEdRep PX25519 PX25519b PX25519c PX25519d PX25519e PX25519f PEd25519 PEd25519b PEdTable PEd25519c PEd25519d PModm PEdSlide.
Local Close Scope fp_scope.
Local Open Scope Z_scope.

(** ** Multiples of any point of the curve by any integer *)
Section Multiples.
Variable P : Point.
Hypothesis HP : curve dp P.
Definition zz (n : Z) : Point := if n <? 0 then neg (zmul P (- n)) else zmul P n.
Lemma zzc : forall n, curve dp (zmul P n). Proof. exact (zmul_curve P HP). Qed.
Lemma zz_curve : forall n, curve dp (zz n).
Proof. intros n. unfold zz. destruct (n <? 0); [apply (neg_curve dp)|]; apply zzc. Qed.
Lemma zz_nonneg : forall n, 0 <= n -> zz n = zmul P n.
Proof. intros n H. unfold zz. destruct (Z.ltb_spec n 0); [lia|reflexivity]. Qed.
Lemma zz_0 : zz 0 = O_. Proof. reflexivity. Qed.
Lemma zz_1 : zz 1 = P.
Proof. unfold zz. change (1 <? 0) with false. cbv iota. unfold zmul. change (Z.to_nat 1) with 1%nat. cbn [emul]. rewrite (add_comm dp). apply add_O. Qed.
Lemma zz_opp : forall n, zz (- n) = neg (zz n).
Proof.
  intros n. unfold zz. destruct (Z.ltb_spec (- n) 0), (Z.ltb_spec n 0); try lia.
  - rewrite Z.opp_involutive. reflexivity.
  - symmetry. apply neg_neg.
  - assert (n = 0) as -> by lia. change (- 0) with 0. change (zmul P 0) with (O_ : Point). symmetry. exact neg_O.
Qed.
Lemma zz_sub : forall a b, 0 <= b -> 0 <= a + b -> zz a = add (zmul P (a + b)) (neg (zmul P b)).
Proof.
  intros a b Hb Ha. unfold zz. destruct (Z.ltb_spec a 0).
  - replace b with (- a + (a + b)) at 2 by lia. rewrite (zmul_add P HP (- a) (a + b)) by lia. rewrite neg_add.
    rewrite (add_comm dp (neg (zmul P (- a)))). rewrite <- (add_assoc dp dp_nonsquare); [|apply zzc|apply (neg_curve dp), zzc|apply (neg_curve dp), zzc].
    rewrite (add_neg dp dp_nonsquare) by apply zzc. rewrite (add_comm dp). symmetry. apply add_O.
  - rewrite (zmul_add P HP) by lia. rewrite (add_assoc dp dp_nonsquare); [|apply zzc|apply zzc|apply (neg_curve dp), zzc].
    rewrite (add_neg dp dp_nonsquare) by apply zzc. symmetry. apply add_O.
Qed.
Lemma swap_middle : forall A B C D : Point, curve dp A -> curve dp B -> curve dp C -> curve dp D -> add (add A B) (add C D) = add (add A C) (add B D).
Proof.
  intros A B C D HA HB HC HD. assert (K : forall A B, curve dp A -> curve dp B -> curve dp (add A B)) by exact (add_curve dp dp_nonsquare).
  rewrite (add_assoc dp dp_nonsquare A B (add C D)) by auto. rewrite (add_assoc dp dp_nonsquare A C (add B D)) by auto. f_equal.
  rewrite <- (add_assoc dp dp_nonsquare B C D) by auto. rewrite <- (add_assoc dp dp_nonsquare C B D) by auto. f_equal. apply (add_comm dp).
Qed.
Lemma zz_add : forall a b, zz (a + b) = add (zz a) (zz b).
Proof.
  intros a b. set (k := Z.abs a). set (m := Z.abs b). assert (0 <= k /\ 0 <= a + k /\ 0 <= m /\ 0 <= b + m) as (K & AK & M & BM) by (unfold k, m; lia).
  clearbody k m. rewrite (zz_sub (a + b) (k + m)), (zz_sub a k), (zz_sub b m) by lia.
  replace (a + b + (k + m)) with ((a + k) + (b + m)) by ring. rewrite (zmul_add P HP (a + k) (b + m)), (zmul_add P HP k m) by lia. rewrite neg_add.
  apply swap_middle; try apply zzc; apply (neg_curve dp), zzc.
Qed.
End Multiples.
Lemma zz_B : forall n, zz B9 n = zm n. Proof. reflexivity. Qed.

(** ** The odd multiples of the base point *)
Definition lmb (f : felem) : bool := let '(a, b, c, d, e) := f in forallb (fun x => (0 <=? x) && (x <=? U)) [a; b; c; d; e].
Lemma lmb_ok : forall f, lmb f = true -> lm 1 f.
Proof.
  intros [[[[a b] c] d] e] H. unfold lmb in H. cbn [forallb] in H. unfold lm. repeat rewrite andb_true_iff in H. rewrite !Z.mul_1_l.
  destruct H as ((? & ?) & (? & ?) & (? & ?) & (? & ?) & (? & ?) & _). repeat split; now apply Z.leb_le.
Qed.
Definition two_x : Z := 49454826470213082005109149143351177669245536334795276913452847365042467216412.
Definition two_y : Z := 31099351160560380352705337420899084503099144132890121161014159186125286098834.
Definition nxyt (n : ge25519_niels) : Z * Z * Z := (val (ni_xaddy n) - val (ni_ysubx n), val (ni_ysubx n) + val (ni_xaddy n), val (ni_t2d n)).
Definition nrow_ok (n : ge25519_niels) : bool :=
  let '(X, Y, C) := nxyt n in lmb (ni_ysubx n) && lmb (ni_xaddy n) && lmb (ni_t2d n) && nullb (2 * C - rmult dd (rmult X Y)).
Fixpoint odd_ok (X1 Y1 C1 : Z) (rows : list ge25519_niels) : bool :=
  match rows with
  | [] => true
  | n :: rows => let '(X, Y, C) := nxyt n in
    sum_ok two_x two_y (rmult two_x two_y) X1 Y1 C1 X Y && nrow_ok n && odd_ok X Y C rows
  end.
Definition sliding_ok (rows : list ge25519_niels) : bool :=
  match rows with
  | [] => false
  | n :: rows => let '(X, Y, C) := nxyt n in
    nullb (X - 2 * base_x) && nullb (Y - 2 * base_y) && nrow_ok n && scale_ok (dbl (X, Y, 2)) two_x two_y && odd_ok X Y C rows
  end.
Lemma sliding_checked : sliding_ok niels_sliding_multiples = true.
Proof. vm_cast_no_check (eq_refl true). Qed.
Lemma sliding_len : length niels_sliding_multiples = 32%nat. Proof. reflexivity. Qed.
Definition nrow (d : F) (n : ge25519_niels) (P : Point) : Prop :=
  let '(X, Y, C) := nxyt n in Part (T X) (T Y) (Fadd F1 F1) P /\ Fmul (Fadd F1 F1) (T C) = Fopp (Fmul d (Fmul (T X) (T Y))) /\ lm 1 (ni_ysubx n) /\ lm 1 (ni_xaddy n) /\ lm 1 (ni_t2d n).
Lemma nrow_of : forall d n P, T dd = Fopp d -> let '(X, Y, C) := nxyt n in Part (T X) (T Y) (Fadd F1 F1) P -> nrow_ok n = true -> nrow d n P.
Proof.
  intros d n P Hd. unfold nrow, nrow_ok. destruct (nxyt n) as [[X Y] C]. intros HP H. repeat rewrite andb_true_iff in H. destruct H as (((H1 & H2) & H3) & H4).
  split; [exact HP|]. split; [|split; [|split]; now apply lmb_ok]. apply T_0_eq in H4. rewrite T_mul, T_2, !T_rmult, Hd in H4. rewrite H4. ring.
Qed.
Lemma nrow_niels : forall d n P, nrow d n P -> niels F F1 Fadd Fmul Fsub d im (fv (ni_ysubx n)) (fv (ni_xaddy n)) (fv (ni_t2d n)) P.
Proof.
  intros d n P. unfold nrow, nxyt, fv. intros (HP & HC & _).
  pose proof (part_x F F0 F1 Fadd Fmul Fsub Fopp Fdiv Finv FT im im_sq _ _ _ _ HP) as EX. destruct HP as (_ & _ & EY). rewrite <- EY, EX in HC. rewrite T_sub in EX. rewrite T_add in EY.
  pose proof (fun x y => cancel F F0 F1 Fadd Fmul Fsub Fopp Fdiv Finv FT x y (Fadd F1 F1) two_nz) as K.
  set (A := T (val (ni_ysubx n))) in *. set (B' := T (val (ni_xaddy n))) in *. unfold niels. repeat split.
  - apply K. transitivity (Fsub (Fadd A B') (Fsub B' A)); [ring|]. rewrite <- EY, EX. ring.
  - apply K. transitivity (Fadd (Fadd A B') (Fsub B' A)); [ring|]. rewrite <- EY, EX. ring.
  - apply K. transitivity (Fmul (Fadd F1 F1) (T (val (ni_t2d n)))); [ring|]. rewrite HC. ring.
Qed.
Lemma nrow_ni : forall n P, nrow dp n P -> ni_of n P.
Proof.
  intros n P H. pose proof (nrow_niels dp n P H) as N. unfold nrow in H. destruct (nxyt n) as [[X Y] C]. destruct H as (_ & _ & A & B & D). unfold ni_of. auto.
Qed.
Lemma odd_rows : forall rows X1 Y1 C1 m, Part (T two_x) (T two_y) (Fadd F1 F1) (zm 2) ->
  Part (T X1) (T Y1) (Fadd F1 F1) (zm m) -> Fmul (Fadd F1 F1) (T C1) = Fopp (Fmul dp (Fmul (T X1) (T Y1))) -> odd_ok X1 Y1 C1 rows = true ->
  forall i n, nth_error rows i = Some n -> ni_of n (zm (m + 2 * (Z.of_nat i + 1))).
Proof.
  induction rows as [|r rows IH]; intros X1 Y1 C1 m P2 P1 HC H i n E; [destruct i; discriminate|].
  cbn [odd_ok] in H. pose proof (nrow_of dp r (zm (m + 2)) T_dd) as R. pose proof (sum_row dp dp_nonsquare two_x two_y X1 Y1 C1) as S.
  destruct (nxyt r) as [[X Y] C] eqn:EN. apply andb_true_iff in H. destruct H as [H HR]. apply andb_true_iff in H. destruct H as [HS HN].
  assert (P3 : Part (T X) (T Y) (Fadd F1 F1) (zm (m + 2))).
  { rewrite zm_add. exact (S X Y (zm m) (zm 2) (zm_curve m) (zm_curve 2) P1 HC P2 HS). }
  specialize (R P3 HN). destruct i as [|i]; cbn [nth_error] in E.
  - injection E as <-. apply nrow_ni. exact R.
  - unfold nrow in R. rewrite EN in R. destruct R as (_ & HC3 & _). pose proof (IH X Y C (m + 2) P2 P3 HC3 HR i n E) as G.
    assert (E' : m + 2 * (Z.of_nat (Datatypes.S i) + 1) = m + 2 + 2 * (Z.of_nat i + 1)) by (clear; lia). rewrite E'. exact G.
Qed.
Theorem sliding_row : forall i, 0 <= i < 32 -> exists n, element niels_sliding_multiples i = Ok n /\ ni_of n (zm (2 * i + 1)).
Proof.
  intros i Hi. pose proof sliding_checked as H. pose proof sliding_len as L. unfold element. destruct (Z.ltb_spec i 0); [lia|].
  set (t := niels_sliding_multiples) in *. clearbody t. destruct t as [|r rows]; [discriminate|].
  destruct (nth_error (r :: rows) (Z.to_nat i)) as [n|] eqn:E; [|apply nth_error_None in E; rewrite L in E; lia].
  exists n. split; [reflexivity|]. unfold sliding_ok in H. pose proof (nrow_of dp r (zm 1) T_dd) as R. destruct (nxyt r) as [[X Y] C] eqn:EN.
  repeat rewrite andb_true_iff in H. destruct H as ((((HX & HY) & HN) & HS) & HO). apply T_0_eq in HX, HY. rewrite T_mul, T_2 in HX, HY.
  assert (M1 : zm 1 = B9) by exact (zz_1 B9).
  assert (P1 : Part (T X) (T Y) (Fadd F1 F1) (zm 1)).
  { rewrite M1, HX, HY. unfold B9. split; [exact two_nz|]. cbn [fst snd]. split; ring. }
  specialize (R P1 HN).
  assert (P2 : Part (T two_x) (T two_y) (Fadd F1 F1) (zm 2)).
  { pose proof (zm_double 1) as D2. change (2 * 1) with 2 in D2. rewrite <- D2. clear D2. apply (scale_row (dbl (X, Y, 2))); [|exact HS]. apply (dbl_ok dp dp_nonsquare); [apply zm_curve|]. unfold dbl_T. rewrite T_2. exact P1. }
  destruct (Z.to_nat i) as [|j] eqn:Ei; cbn [nth_error] in E.
  - injection E as <-. assert (i = 0) as -> by lia. apply nrow_ni. exact R.
  - unfold nrow in R. rewrite EN in R. destruct R as (_ & HC & _). pose proof (odd_rows rows X Y C 1 P2 P1 HC HO j n E) as G.
    assert (E' : 2 * i + 1 = 1 + 2 * (Z.of_nat j + 1)) by (clear - Ei Hi; lia). rewrite E'. exact G.
Qed.
