(** The table of multiples of the base point of Ed25519 *)
From Coq Require Import Field Ring.
From Verif Require Import Base SX25519 MEdTable PEdwards PEdRep PX25519 PX25519d PX25519e PEd25519b.
Local Close Scope fp_scope.
Local Open Scope Z_scope.

(** The d of the twisted curve of Ed25519 *)
Definition dd : Z := 37095705934669439343138083508754565189542113879843219016388785533085940283555.
Lemma T_dd : T dd = Fopp dp.
Proof.
  assert (E : Fmul (T dd) nb = Fopp na) by (unfold na, nb; rewrite <- T_mul, <- T_opp; apply T_eq; vm_compute; reflexivity).
  unfold dp. set (x := T dd) in *. clearbody x. transitivity (Fdiv (Fmul x nb) nb); [field; exact nb_nz|]. rewrite E. field. exact nb_nz.
Qed.

(** ** The check *)
Definition wordb (x : Z) : bool := (0 <=? x) && (x <? 18446744073709551616).
Definition four_w (a b c d : Z) : Z := a + 18446744073709551616 * (b + 18446744073709551616 * (c + 18446744073709551616 * d)).
Definition row_nums (row : list Z) : Z * Z * Z :=
  match row with
  | [a0; a1; a2; a3; b0; b1; b2; b3; c0; c1; c2; c3] => (four_w a0 a1 a2 a3, four_w b0 b1 b2 b3, four_w c0 c1 c2 c3)
  | _ => (0, 0, 0)
  end.
Definition nullb (z : Z) : bool := let z := red z in (z =? 0) || (z =? p25519).
(** 2 C = d X Y, in the first block 2 C = X Y *)
Definition xyt (first : bool) (row : list Z) : Z * Z * Z :=
  let '(a, b, c) := row_nums row in (b - a, a + b, if first then rmult dd c else c).
Definition t_ok (first : bool) (row : list Z) : bool :=
  let '(a, b, c) := row_nums row in
  let xy := rmult (b - a) (a + b) in nullb (2 * c - if first then xy else rmult dd xy).
Definition size_ok (row : list Z) : bool :=
  let '(a, b, c) := row_nums row in
  (zlen row =? 12) && forallb wordb row && (a <? 2 ^ 255) && (b <? 2 ^ 255) && (c <? 2 ^ 255).
Definition sum_ok (X2 Y2 M2 X1 Y1 C1 X3 Y3 : Z) : bool :=
  let m := 2 * rmult C1 M2 in
  nullb (X3 * (16 + m) - 8 * (X1 * Y2 + X2 * Y1)) && nullb (Y3 * (16 - m) - 8 * (Y1 * Y2 + X1 * X2)).
Definition dbl (P : Z * Z * Z) : Z * Z * Z :=
  let '(X, Y, Z) := P in
  let a := rmult X X in let b := rmult Y Y in let c := rmult Z Z in
  let ry := b + a in let rx := rmult (X + Y) (X + Y) - ry in let rz := b - a in let rt := c + c - rz in
  (rmult rx rt, rmult ry rz, rmult rz rt).
Definition scale_ok (P : Z * Z * Z) (X3 Y3 : Z) : bool :=
  let '(X, Y, Z) := P in nullb (X3 * Z - 2 * X) && nullb (Y3 * Z - 2 * Y).
Fixpoint rows_ok (first : bool) (j : nat) (X2 Y2 M2 X1 Y1 C1 : Z) (rows : list (list Z)) : bool :=
  match rows with
  | [] => true
  | row :: rows =>
    match j with
    | O => let '(X3, Y3, C3) := xyt false row in
      scale_ok (dbl (dbl (dbl (dbl (dbl (X1, Y1, 2)))))) X3 Y3 && t_ok false row && size_ok row && rows_ok false 7 X3 Y3 (rmult X3 Y3) X3 Y3 C3 rows
    | S j => let '(X3, Y3, C3) := xyt first row in
      sum_ok X2 Y2 M2 X1 Y1 C1 X3 Y3 && t_ok first row && size_ok row && rows_ok first j X2 Y2 M2 X3 Y3 C3 rows
    end
  end.
Definition table_ok (rows : list (list Z)) : bool :=
  match rows with
  | [] => false
  | row :: rows => let '(X, Y, C) := xyt true row in
    nullb (X - 2 * base_x) && nullb (Y - 2 * base_y) && t_ok true row && size_ok row && rows_ok true 7 X Y (rmult X Y) X Y C rows
  end.
Lemma table_checked : table_ok niels_base_multiples = true.
Proof. vm_cast_no_check (eq_refl true). Qed.

(** ** What the check says *)
Lemma T_0 : forall z, nullb z = true -> T z = F0.
Proof.
  intros z H. unfold nullb in H. cbv zeta in H. rewrite <- (T_red z). set (r := red z) in *. clearbody r. apply orb_true_iff in H. rewrite F0_T.
  destruct H as [H|H]; apply Z.eqb_eq in H; subst r; [reflexivity|]. apply T_eq. vm_compute. reflexivity.
Qed.
Lemma T_0_eq : forall a b, nullb (a - b) = true -> T a = T b.
Proof. intros a b H. apply T_0 in H. rewrite T_sub in H. now apply Fsub_0. Qed.
Lemma T_2 : T 2 = Fadd F1 F1. Proof. rewrite F1_T, <- T_add. reflexivity. Qed.
Lemma T_8 : T 8 = Fmul (Fadd F1 F1) (Fmul (Fadd F1 F1) (Fadd F1 F1)). Proof. rewrite F1_T, <- !T_add, <- !T_mul. reflexivity. Qed.
Lemma T_16 : T 16 = Fmul (Fadd F1 F1) (Fmul (Fadd F1 F1) (Fmul (Fadd F1 F1) (Fadd F1 F1))). Proof. rewrite F1_T, <- !T_add, <- !T_mul. reflexivity. Qed.

Section Table.
Variable d : F.
Variable T_d : T dd = Fopp d.
Hypothesis nonsquare : forall z, Fmul z z <> d.
Notation add := (eadd F F1 Fadd Fmul Fsub Fdiv d).
Notation two := (Fadd F1 F1).
(** A row with 2x and 2y of P *)
Definition row_xy (first : bool) (row : list Z) (P : Point) : Prop :=
  let '(X, Y, C) := xyt first row in
  Part (T X) (T Y) two P /\ Fmul two (T C) = Fopp (Fmul d (Fmul (T X) (T Y))) /\ size_ok row = true.
Lemma t_row : forall first row P, let '(X, Y, C) := xyt first row in
  Part (T X) (T Y) two P -> t_ok first row = true -> size_ok row = true -> row_xy first row P.
Proof.
  intros first row P. unfold row_xy, xyt, t_ok. destruct (row_nums row) as [[a b] c]. intros HP Ht Hs. split; [exact HP|]. split; [|exact Hs].
  destruct first.
  - apply T_0_eq in Ht. rewrite T_mul, T_2, T_rmult in Ht. rewrite T_rmult, T_d. transitivity (Fopp (Fmul d (Fmul two (T c)))); [ring|]. rewrite Ht. reflexivity.
  - apply T_0_eq in Ht. rewrite T_mul, T_2, !T_rmult, T_d in Ht. rewrite Ht. ring.
Qed.
Lemma sum_row : forall X2 Y2 X1 Y1 C1 X3 Y3 P Q, curve d P -> curve d Q ->
  Part (T X1) (T Y1) two P -> Fmul two (T C1) = Fopp (Fmul d (Fmul (T X1) (T Y1))) -> Part (T X2) (T Y2) two Q ->
  sum_ok X2 Y2 (rmult X2 Y2) X1 Y1 C1 X3 Y3 = true -> Part (T X3) (T Y3) two (add P Q).
Proof.
  intros X2 Y2 X1 Y1 C1 X3 Y3 P Q HP HQ P1 HC P2 H. unfold sum_ok in H. cbv zeta in H. apply andb_true_iff in H. destruct H as [HX HY].
  apply T_0_eq in HX, HY. rewrite !T_mul, T_add, T_16, T_8, T_add, !T_mul in HX. rewrite !T_mul, T_sub, T_16, T_8, T_add, !T_mul in HY.
  rewrite !T_rmult, T_2 in HX, HY.
  apply (sum_check F F0 F1 Fadd Fmul Fsub Fopp Fdiv Finv FT Fdec d two_nz nonsquare im im_sq (T X1) (T Y1) (T X2) (T Y2) _ _
    (Fmul two (Fmul (T C1) (Fmul (T X2) (T Y2)))) P Q HP HQ P1 P2); [|exact HX|exact HY].
  transitivity (Fmul (Fmul two (T C1)) (Fmul (T X2) (T Y2))); [ring|]. rewrite HC. ring.
Qed.
Definition dbl_T (t : Z * Z * Z) (P : Point) : Prop := let '(X, Y, Z) := t in Part (T X) (T Y) (T Z) P.
Lemma dbl_ok : forall t P, curve d P -> dbl_T t P -> dbl_T (dbl t) (add P P).
Proof.
  intros [[X Y] Z] P HP H. unfold dbl_T in *. cbn [dbl]. cbv zeta.
  pose proof (part_double F F0 F1 Fadd Fmul Fsub Fopp Fdiv Finv FT Fdec d two_nz nonsquare im im_sq _ _ _ _ HP H) as [D _]. cbv zeta in D.
  repeat rewrite ?T_rmult, ?T_sub, ?T_add. exact D.
Qed.
Lemma add_curve : forall P Q, curve d P -> curve d Q -> curve d (add P Q).
Proof. exact (eadd_curve F F0 F1 Fadd Fmul Fsub Fopp Fdiv Finv FT Fdec d two_nz nonsquare). Qed.
Notation mult := (emul F F0 F1 Fadd Fmul Fsub Fdiv d).
Lemma dbl_step : forall n n' t P, curve d P -> (n + n)%nat = n' -> dbl_T t (mult n P) -> dbl_T (dbl t) (mult n' P).
Proof. intros n n' t P HP <- Ht. rewrite (mul_add d nonsquare n n P HP). apply dbl_ok; [|exact Ht]. now apply mul_curve. Qed.
Lemma mult_1 : forall P, mult 1 P = P. Proof. intros. cbn [emul]. rewrite (add_comm d). apply add_O. Qed.
Lemma dbl5 : forall t P, curve d P -> dbl_T t P -> dbl_T (dbl (dbl (dbl (dbl (dbl t))))) (mult 32 P).
Proof.
  intros t P HP H. rewrite <- mult_1 in H. apply (dbl_step 16 32); [exact HP|reflexivity|]. apply (dbl_step 8 16); [exact HP|reflexivity|].
  apply (dbl_step 4 8); [exact HP|reflexivity|]. apply (dbl_step 2 4); [exact HP|reflexivity|]. apply (dbl_step 1 2); [exact HP|reflexivity|exact H].
Qed.
Lemma scale_row : forall t X3 Y3 P, dbl_T t P -> scale_ok t X3 Y3 = true -> Part (T X3) (T Y3) two P.
Proof.
  intros [[X Y] Z] X3 Y3 P D0 H. unfold dbl_T in D0. unfold scale_ok in H. apply andb_true_iff in H. destruct H as [HX HY]. apply T_0_eq in HX, HY. rewrite !T_mul, T_2 in HX, HY.
  exact (part_scale F F0 F1 Fadd Fmul Fsub Fopp Fdiv Finv FT two_nz im _ _ _ _ _ _ D0 HX HY).
Qed.
Lemma link_row : forall X1 Y1 X3 Y3 P, curve d P -> Part (T X1) (T Y1) two P -> scale_ok (dbl (dbl (dbl (dbl (dbl (X1, Y1, 2)))))) X3 Y3 = true ->
  Part (T X3) (T Y3) two (mult 32 P).
Proof.
  intros X1 Y1 X3 Y3 P HP H1 H. apply (scale_row _ _ _ _ (dbl5 (X1, Y1, 2) P HP ltac:(unfold dbl_T; rewrite T_2; exact H1))). exact H.
Qed.

(** The multiples in the rows that follow *)
Fixpoint multiples (first : bool) (j : nat) (m2 m1 : Z) (n : nat) : list (bool * Z) :=
  match n with
  | O => []
  | S n => match j with
           | O => (false, 32 * m1) :: multiples false 7 (32 * m1) (32 * m1) n
           | S j => (first, m1 + m2) :: multiples first j m2 (m1 + m2) n
           end
  end.
Variable B : Point.
Hypothesis HB : curve d B.
Notation zm n := (emul F F0 F1 Fadd Fmul Fsub Fdiv d (Z.to_nat n) B).
Lemma zm_curve : forall n, curve d (zm n). Proof. intros. now apply mul_curve. Qed.
Definition holds_row (row : list Z) (m : bool * Z) : Prop := row_xy (fst m) row (zm (snd m)).
Lemma rows_hold : forall rows first j X2 Y2 X1 Y1 C1 m2 m1, 0 <= m2 -> 0 <= m1 ->
  Part (T X2) (T Y2) two (zm m2) -> Part (T X1) (T Y1) two (zm m1) -> Fmul two (T C1) = Fopp (Fmul d (Fmul (T X1) (T Y1))) ->
  rows_ok first j X2 Y2 (rmult X2 Y2) X1 Y1 C1 rows = true -> Forall2 holds_row rows (multiples first j m2 m1 (length rows)).
Proof.
  induction rows as [|row rows IH]; intros first j X2 Y2 X1 Y1 C1 m2 m1 M2 M1 P2 P1 HC H; [constructor|].
  cbn [rows_ok length multiples] in *. destruct j as [|j].
  - destruct (xyt false row) as [[X3 Y3] C3] eqn:E. apply andb_true_iff in H. destruct H as [H HR]. apply andb_true_iff in H. destruct H as [H Hs].
    apply andb_true_iff in H. destruct H as [Hl Ht].
    assert (P3 : Part (T X3) (T Y3) two (zm (32 * m1))).
    { replace (zm (32 * m1)) with (emul F F0 F1 Fadd Fmul Fsub Fdiv d 32 (zm m1)); [exact (link_row _ _ _ _ _ (zm_curve m1) P1 Hl)|].
      rewrite (emul_mul F F0 F1 Fadd Fmul Fsub Fopp Fdiv Finv FT Fdec d two_nz nonsquare 32 (Z.to_nat m1) B HB). now rewrite Z2Nat.inj_mul by lia. }
    pose proof (t_row false row (zm (32 * m1))) as R. rewrite E in R. specialize (R P3 Ht Hs). constructor; [exact R|].
    unfold row_xy in R. rewrite E in R. destruct R as (_ & HC3 & _). exact (IH false 7%nat X3 Y3 X3 Y3 C3 (32 * m1) (32 * m1) ltac:(lia) ltac:(lia) P3 P3 HC3 HR).
  - destruct (xyt first row) as [[X3 Y3] C3] eqn:E. apply andb_true_iff in H. destruct H as [H HR]. apply andb_true_iff in H. destruct H as [H Hs].
    apply andb_true_iff in H. destruct H as [Hl Ht].
    assert (P3 : Part (T X3) (T Y3) two (zm (m1 + m2))).
    { rewrite Z2Nat.inj_add by assumption. rewrite (mul_add d nonsquare _ _ B HB). exact (sum_row _ _ _ _ _ _ _ _ _ (zm_curve m1) (zm_curve m2) P1 HC P2 Hl). }
    pose proof (t_row first row (zm (m1 + m2))) as R. rewrite E in R. specialize (R P3 Ht Hs). constructor; [exact R|].
    unfold row_xy in R. rewrite E in R. destruct R as (_ & HC3 & _). exact (IH first j X2 Y2 X3 Y3 C3 m2 (m1 + m2) M2 ltac:(lia) P2 P3 HC3 HR).
Qed.
(** The three numbers of a row *)
Lemma row_niels : forall first row P, row_xy first row P -> let '(a, b, c) := row_nums row in
  T a = Fadd (snd P) (Fmul im (fst P)) /\ T b = Fsub (snd P) (Fmul im (fst P)) /\
  Fmul (if first then T dd else F1) (T c) = Fmul (Fmul (Fmul (Fmul two d) im) (fst P)) (snd P).
Proof.
  intros first row P. unfold row_xy, xyt. destruct (row_nums row) as [[a b] c]. intros (HP & HC & _).
  pose proof (part_x F F0 F1 Fadd Fmul Fsub Fopp Fdiv Finv FT im im_sq _ _ _ _ HP) as EX. destruct HP as (_ & _ & EY). rewrite <- EY, EX in HC. rewrite T_sub in EX. rewrite T_add in EY.
  pose proof (fun x y => cancel F F0 F1 Fadd Fmul Fsub Fopp Fdiv Finv FT x y two two_nz) as K.
  set (A := T a) in *. set (B' := T b) in *. repeat split.
  - apply K. transitivity (Fsub (Fadd A B') (Fsub B' A)); [ring|]. rewrite <- EY, EX. ring.
  - apply K. transitivity (Fadd (Fadd A B') (Fsub B' A)); [ring|]. rewrite <- EY, EX. ring.
  - assert (E : (if first then T (rmult dd c) else T c) = Fmul (if first then T dd else F1) (T c)) by (destruct first; [apply T_rmult|ring]).
    apply K. rewrite <- E. transitivity (Fmul two (T (if first then rmult dd c else c))); [destruct first; ring|]. rewrite HC. ring.
Qed.
End Table.

Lemma multiples_val : forallb (fun i => forallb (fun j =>
  match nth_error ((true, 1) :: multiples true 7 1 1 255) (8 * i + j) with
  | Some (f, m) => Bool.eqb f (Nat.eqb i 0) && (m =? Z.of_nat (S j) * 256 ^ Z.of_nat i)
  | None => false end) (seq 0 8)) (seq 0 32) = true.
Proof. vm_compute. reflexivity. Qed.
Lemma table_len : length niels_base_multiples = 256%nat. Proof. vm_compute. reflexivity. Qed.
Lemma table_holds : Forall2 (holds_row dp B9) niels_base_multiples ((true, 1) :: multiples true 7 1 1 255).
Proof.
  pose proof table_checked as H. pose proof table_len as L. set (t := niels_base_multiples) in *. clearbody t. destruct t as [|row rows]; [discriminate|].
  cbn [length] in L. injection L as L. rewrite <- L. unfold table_ok in H. destruct (xyt true row) as [[X Y] C] eqn:E.
  apply andb_true_iff in H. destruct H as [H HR]. apply andb_true_iff in H. destruct H as [H Hs]. apply andb_true_iff in H. destruct H as [H Ht]. apply andb_true_iff in H. destruct H as [HX HY].
  apply T_0_eq in HX, HY. rewrite T_mul, T_2 in HX, HY.
  assert (M1 : emul F F0 F1 Fadd Fmul Fsub Fdiv dp (Z.to_nat 1) B9 = B9) by (change (Z.to_nat 1) with 1%nat; cbn [emul]; rewrite (add_comm dp); apply add_O).
  assert (P1 : Part (T X) (T Y) (Fadd F1 F1) (emul F F0 F1 Fadd Fmul Fsub Fdiv dp (Z.to_nat 1) B9)).
  { rewrite M1, HX, HY. unfold B9. split; [exact two_nz|]. cbn [fst snd]. split; ring. }
  pose proof (t_row dp T_dd true row (emul F F0 F1 Fadd Fmul Fsub Fdiv dp (Z.to_nat 1) B9)) as R. rewrite E in R. specialize (R P1 Ht Hs). constructor; [exact R|].
  unfold row_xy in R. rewrite E in R. destruct R as (_ & HC & _).
  exact (rows_hold dp T_dd dp_nonsquare B9 B9_curve rows true 7%nat X Y X Y C 1 1 ltac:(lia) ltac:(lia) P1 P1 HC HR).
Qed.
(** Row 8i + j has the multiple (j+1) 256^i of the base point *)
Theorem table_row : forall i j, 0 <= i < 32 -> 0 <= j < 8 -> exists row,
  nth_error niels_base_multiples (Z.to_nat (i * 8 + j)) = Some row /\ row_xy dp (i =? 0) row (zmul B9 ((j + 1) * 256 ^ i)).
Proof.
  intros i j Hi Hj. pose proof multiples_val as V. rewrite forallb_forall in V. specialize (V (Z.to_nat i)). rewrite in_seq in V. specialize (V ltac:(lia)).
  rewrite forallb_forall in V. specialize (V (Z.to_nat j)). rewrite in_seq in V. specialize (V ltac:(lia)).
  replace (8 * Z.to_nat i + Z.to_nat j)%nat with (Z.to_nat (i * 8 + j)) in V by lia. set (r := Z.to_nat (i * 8 + j)) in *. clearbody r.
  pose proof table_holds as H. revert V H. generalize niels_base_multiples. generalize ((true, 1) :: multiples true 7 1 1 255). intros ms rows V H.
  destruct (nth_error ms r) as [[f m]|] eqn:E; [|discriminate].
  apply andb_true_iff in V. destruct V as [Vf Vm]. apply Bool.eqb_prop in Vf. apply Z.eqb_eq in Vm. rewrite Nat2Z.inj_succ, !Z2Nat.id in Vm by lia.
  assert (Z.succ j = j + 1) as Ej by lia. rewrite Ej in Vm.
  assert (Ef : f = (i =? 0)). { rewrite Vf. destruct (Z.eqb_spec i 0); [subst; reflexivity|]. apply Nat.eqb_neq. lia. }
  clear - H E Vm Ef. revert r E. induction H as [|row mm rows ms HR H IH]; intros r E; destruct r as [|r]; cbn [nth_error] in *; try discriminate.
  - injection E as ->. exists row. split; [reflexivity|]. unfold holds_row in HR. cbn [fst snd] in HR. rewrite <- Ef, <- Vm. exact HR.
  - apply IH. exact E.
Qed.
