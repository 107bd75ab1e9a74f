(** Extended coordinates on the curve of Ed25519, over any field with a square root
    i of -1.  The points are those of the curve x^2 + y^2 = 1 + d x^2 y^2; a point
    (x, y) has the coordinates X/Z = x/i, Y/Z = y, T/Z = x/i y. *)
From Coq Require Import Field Ring.
From Verif Require Import Base PEdwards.

Section Rep.
Variable F : Type.
Variables (f0 f1 : F) (fa fm fs : F -> F -> F) (fo : F -> F) (fd : F -> F -> F) (fi : F -> F).
Hypothesis FT : field_theory f0 f1 fa fm fs fo fd fi (@eq F).
Hypothesis Fdec : forall a b : F, a = b \/ a <> b.
Add Field FF : FT.
Declare Scope fr_scope.
Delimit Scope fr_scope with fr.
Notation "0" := f0 : fr_scope. Notation "1" := f1 : fr_scope.
Infix "+" := fa : fr_scope. Infix "*" := fm : fr_scope. Infix "-" := fs : fr_scope. Infix "/" := fd : fr_scope.
Notation "- x" := (fo x) : fr_scope.
Open Scope fr_scope.
Variable d : F.
Hypothesis two : 1 + 1 <> 0.
Hypothesis nonsquare : forall z, z * z <> d.
Variable i : F.
Hypothesis ii : i * i = - (1).
Notation curve := (on_curve F f1 fa fm d).
Notation add := (eadd F f1 fa fm fs fd d).
Notation nz := (f_mul_nz F f0 f1 fa fm fs fo fd fi FT Fdec).

Definition part (X Y Z : F) (P : point F) : Prop := Z <> 0 /\ fst P * Z = i * X /\ snd P * Z = Y.
Definition full (X Y Z T : F) (P : point F) : Prop := part X Y Z P /\ T * Z = X * Y.
(** y - x, y + x, 2 d' x y, where d' = -d *)
Definition niels (A B C : F) (Q : point F) : Prop :=
  A = snd Q + i * fst Q /\ B = snd Q - i * fst Q /\ C = (1 + 1) * d * i * fst Q * snd Q.

Lemma i_cancel : forall a b, i * a = i * b -> a = b.
Proof. intros a b H. transitivity (- (i * (i * a))); [replace (i * (i * a)) with (i * i * a) by ring; rewrite ii; ring|]. rewrite H. replace (i * (i * b)) with (i * i * b) by ring. rewrite ii. ring. Qed.
Lemma part_x : forall X Y Z P, part X Y Z P -> X = - (i * fst P * Z).
Proof. intros X Y Z P (_ & H & _). apply i_cancel. rewrite <- H. replace (i * - (i * fst P * Z)) with (- (i * i) * fst P * Z) by ring. rewrite ii. ring. Qed.
Lemma cancel : forall a b z, z <> 0 -> a * z = b * z -> a = b.
Proof. intros a b z Hz H. transitivity (a * z / z); [field; exact Hz|]. rewrite H. field. exact Hz. Qed.
Lemma full_t : forall X Y Z T P, full X Y Z T P -> T = - (i * fst P * snd P * Z).
Proof.
  intros X Y Z T P (H & HT). pose proof (part_x _ _ _ _ H) as HX. destruct H as (Hz & _ & HY). apply (cancel _ _ Z Hz). rewrite HT, HX, <- HY. ring.
Qed.

Lemma four : 1 + 1 + 1 + 1 <> 0.
Proof. replace (1 + 1 + 1 + 1) with ((1 + 1) * (1 + 1)) by ring. now apply nz. Qed.
Lemma full_niels : forall X Y Z T P A B C Q, curve P -> curve Q -> full X Y Z T P -> niels A B C Q ->
  let a := (Y - X) * A in let e := (Y + X) * B in let c := T * C in
  let h := e + a in let e := e - a in let g := Z + Z + c in let f := Z + Z - c in
  full (e * f) (h * g) (g * f) (e * h) (add P Q).
Proof.
  intros X Y Z T P A B C Q HP HQ HF (-> & -> & ->). pose proof (full_t _ _ _ _ _ HF) as ->. destruct HF as (H & _).
  pose proof (part_x _ _ _ _ H) as ->. destruct H as (Hz & _ & <-).
  destruct P as [p1 p2], Q as [q1 q2]. cbn [fst snd].
  destruct (complete F f0 f1 fa fm fs fo fd fi FT Fdec d two nonsquare _ _ _ _ HP HQ) as [D1 D2]. clear HP HQ.
  set (D := d * p1 * q1 * p2 * q2) in *. cbv zeta.
  assert (Ee : (p2 * Z + - (i * p1 * Z)) * (q2 - i * q1) - (p2 * Z - - (i * p1 * Z)) * (q2 + i * q1) = - ((1 + 1) * i * Z * (p1 * q2 + q1 * p2))) by ring.
  assert (Eh : (p2 * Z + - (i * p1 * Z)) * (q2 - i * q1) + (p2 * Z - - (i * p1 * Z)) * (q2 + i * q1) = (1 + 1) * Z * (p2 * q2 - p1 * q1)).
  { transitivity ((1 + 1) * Z * (p2 * q2 + (i * i) * p1 * q1)); [ring|]. rewrite ii. ring. }
  assert (Ec : - (i * p1 * p2 * Z) * ((1 + 1) * d * i * q1 * q2) = (1 + 1) * Z * D).
  { transitivity (- (i * i) * ((1 + 1) * Z * D)); [unfold D; ring|]. rewrite ii. ring. }
  rewrite Ee, Eh, Ec. clear Ee Eh Ec. unfold full, part. cbn [eadd fst snd]. fold D.
  assert (G : Z + Z + (1 + 1) * Z * D = (1 + 1) * Z * (1 + D)) by ring. assert (G' : Z + Z - (1 + 1) * Z * D = (1 + 1) * Z * (1 - D)) by ring.
  rewrite G, G'. clear G G'. clearbody D. repeat split.
  - repeat apply nz; assumption.
  - transitivity (- (i * i) * ((1 + 1) * (1 + 1) * Z * Z * (p1 * q2 + q1 * p2) * (1 - D))); [rewrite ii; field; assumption|ring].
  - field. assumption.
  - ring.
Qed.
Lemma part_double : forall X Y Z P, curve P -> part X Y Z P ->
  let a := X * X in let b := Y * Y in let c := Z * Z + Z * Z in
  let ry := b + a in let rx := (X + Y) * (X + Y) - ry in let rz := b - a in let rt := c - rz in
  full (rx * rt) (ry * rz) (rz * rt) (rx * ry) (add P P).
Proof.
  intros X Y Z P HP H. pose proof (part_x _ _ _ _ H) as ->. destruct H as (Hz & _ & <-).
  destruct P as [p1 p2]. cbn [fst snd].
  destruct (complete F f0 f1 fa fm fs fo fd fi FT Fdec d two nonsquare _ _ _ _ HP HP) as [D1 D2]. unfold on_curve in HP. cbv zeta.
  set (D := d * p1 * p1 * p2 * p2) in *.
  assert (Ea : - (i * p1 * Z) * - (i * p1 * Z) = - (p1 * p1 * Z * Z)) by (transitivity ((i * i) * p1 * p1 * Z * Z); [ring|rewrite ii; ring]).
  assert (Ez : p2 * Z * (p2 * Z) - - (p1 * p1 * Z * Z) = Z * Z * (1 + D)) by (rewrite <- HP; ring).
  rewrite Ea, Ez.
  assert (Ex : (- (i * p1 * Z) + p2 * Z) * (- (i * p1 * Z) + p2 * Z) - (p2 * Z * (p2 * Z) + - (p1 * p1 * Z * Z)) = - ((1 + 1) * i * p1 * p2 * Z * Z)).
  { transitivity ((i * i) * p1 * p1 * Z * Z + p1 * p1 * Z * Z - ((1 + 1) * i * p1 * p2 * Z * Z)); [ring|rewrite ii; ring]. }
  assert (Et : Z * Z + Z * Z - Z * Z * (1 + D) = Z * Z * (1 - D)) by ring.
  assert (Ey : p2 * Z * (p2 * Z) + - (p1 * p1 * Z * Z) = Z * Z * (p2 * p2 - p1 * p1)) by ring.
  rewrite Ex, Et, Ey. clear Ea Ez Ex Et Ey. unfold full, part. cbn [eadd fst snd]. fold D. clearbody D. repeat split.
  - repeat apply nz; assumption.
  - transitivity (- (i * i) * ((1 + 1) * Z * Z * p1 * p2 * (Z * Z * (1 - D)))); [rewrite ii; field; assumption|ring].
  - field. assumption.
  - ring.
Qed.
Lemma part_u : fi 0 = 0 -> forall X Y Z P, part X Y Z P -> (Y + Z) * fi (Z - Y) = (1 + snd P) * fi (1 * (1 - snd P)).
Proof.
  intros I0 X Y Z P (Hz & _ & <-). replace (Z - snd P * Z) with ((1 - snd P) * Z) by ring.
  destruct (Fdec (1 - snd P) 0) as [E|E].
  - rewrite E. replace (0 * Z) with 0 by ring. replace (1 * 0) with 0 by ring. rewrite I0. ring.
  - rewrite <- !(Fdiv_def FT). assert (1 * (1 - snd P) <> 0) by (replace (1 * (1 - snd P)) with (1 - snd P) by ring; exact E). field. auto.
Qed.
(** The opposite point *)
Lemma niels_neg : forall A B C Q, niels A B C Q -> niels B A (- C) (eneg F fo Q).
Proof. intros A B C Q (-> & -> & ->). unfold niels, eneg. cbn [fst snd]. repeat split; ring. Qed.
Lemma niels_O : niels 1 1 0 (eO F f0 f1).
Proof. unfold niels, eO. cbn [fst snd]. repeat split; ring. Qed.
(** The sum of two points given as 2x and 2y *)
Lemma sum_check : forall X1 Y1 X2 Y2 X3 Y3 m P Q, curve P -> curve Q ->
  part X1 Y1 (1 + 1) P -> part X2 Y2 (1 + 1) Q ->
  m = - (d * (X1 * Y1) * (X2 * Y2)) ->
  let s := (1 + 1) * ((1 + 1) * ((1 + 1) * (1 + 1))) in
  let t := (1 + 1) * ((1 + 1) * (1 + 1)) in
  X3 * (s + m) = t * (X1 * Y2 + X2 * Y1) -> Y3 * (s - m) = t * (Y1 * Y2 + X1 * X2) -> part X3 Y3 (1 + 1) (add P Q).
Proof.
  intros X1 Y1 X2 Y2 X3 Y3 m P Q HP HQ H1 H2 -> s t HX HY.
  pose proof (part_x _ _ _ _ H1) as E1. pose proof (part_x _ _ _ _ H2) as E2. destruct H1 as (_ & _ & <-), H2 as (_ & _ & <-). subst X1 X2.
  destruct P as [p1 p2], Q as [q1 q2]. cbn [fst snd] in *.
  destruct (complete F f0 f1 fa fm fs fo fd fi FT Fdec d two nonsquare _ _ _ _ HP HQ) as [D1 D2]. clear HP HQ.
  assert (Em : - (d * (- (i * p1 * (1 + 1)) * (p2 * (1 + 1))) * (- (i * q1 * (1 + 1)) * (q2 * (1 + 1)))) = s * (d * p1 * q1 * p2 * q2)).
  { transitivity (- (i * i) * (s * (d * p1 * q1 * p2 * q2))); [unfold s; ring|]. rewrite ii. ring. }
  rewrite Em in HX, HY. clear Em. unfold part. cbn [eadd fst snd]. set (D := d * p1 * q1 * p2 * q2) in *. clearbody D.
  assert (S0 : s <> 0) by (unfold s; repeat apply nz; exact two).
  split; [exact two|]. split.
  - assert (E : X3 = - (i * ((1 + 1) * (p1 * q2 + q1 * p2))) / (1 + D)).
    { apply (cancel _ _ (s * (1 + D))); [now apply nz|]. transitivity (X3 * (s + s * D)); [ring|]. rewrite HX. unfold t, s. field. exact D1. }
    rewrite E. transitivity (- (i * i) * ((1 + 1) * (p1 * q2 + q1 * p2)) / (1 + D)); [rewrite ii; field; exact D1|field; exact D1].
  - apply (cancel _ _ (s * (1 - D))); [now apply nz|]. symmetry. transitivity (Y3 * (s - s * D)); [ring|]. rewrite HY.
    transitivity (s * (1 + 1) * (p2 * q2 + (i * i) * (p1 * q1))); [unfold t, s; ring|]. rewrite ii. field. exact D2.
Qed.
Lemma part_scale : forall X Y Z X' Y' P, part X Y Z P -> X' * Z = (1 + 1) * X -> Y' * Z = (1 + 1) * Y -> part X' Y' (1 + 1) P.
Proof.
  intros X Y Z X' Y' P (Hz & HX & HY) EX EY. split; [exact two|]. split; apply (cancel _ _ Z Hz).
  - transitivity ((1 + 1) * (fst P * Z)); [ring|]. rewrite HX. transitivity (i * (X' * Z)); [rewrite EX; ring|ring].
  - rewrite EY, <- HY. ring.
Qed.
End Rep.
