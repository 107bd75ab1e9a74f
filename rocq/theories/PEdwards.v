(** The group law of a complete Edwards curve over any field *)
From Coq Require Import Field Ring.
From Verif Require Import Base.

Section Edwards.
Variable F : Type.
Variables (f0 f1 : F) (fa fm fs : F -> F -> F) (fo : F -> F) (fd : F -> F -> F) (fi : F -> F).
Hypothesis FT : field_theory f0 f1 fa fm fs fo fd fi (@eq F).
Hypothesis Fdec : forall a b : F, a = b \/ a <> b.
Add Field FF : FT.
Declare Scope ff_scope.
Delimit Scope ff_scope with ff.
Notation "0" := f0 : ff_scope. Notation "1" := f1 : ff_scope.
Infix "+" := fa : ff_scope. Infix "*" := fm : ff_scope. Infix "-" := fs : ff_scope. Infix "/" := fd : ff_scope.
Notation "- x" := (fo x) : ff_scope.
Open Scope ff_scope.

Variable δ : F.
Hypothesis two : 1 + 1 <> 0.
Hypothesis nonsquare : forall z, z * z <> δ.

Lemma f_one : 1 <> 0. Proof. exact (F_1_neq_0 FT). Qed.
Lemma f_integral : forall a b, a * b = 0 -> a = 0 \/ b = 0.
Proof.
  intros a b H. destruct (Fdec a 0) as [E|E]; [now left|right].
  replace b with (1 / a * (a * b)) by (field; exact E). rewrite H. ring.
Qed.
Lemma f_mul_nz : forall a b, a <> 0 -> b <> 0 -> a * b <> 0.
Proof. intros a b A B H. destruct (f_integral a b H); contradiction. Qed.
Lemma f_square_0 : forall a, a * a = 0 -> a = 0.
Proof. intros a H. destruct (f_integral a a H); assumption. Qed.
Lemma f_sub_0 : forall a b, a - b = 0 -> a = b.
Proof. intros a b H. replace a with (a - b + b) by ring. rewrite H. ring. Qed.

Definition point : Type := (F * F)%type.
Definition on_curve (P : point) : Prop := let '(x, y) := P in x*x + y*y = 1 + δ*x*x*y*y.
Definition eadd (P Q : point) : point :=
  let '(x1, y1) := P in let '(x2, y2) := Q in
  ((x1*y2 + x2*y1) / (1 + δ*x1*x2*y1*y2), (y1*y2 - x1*x2) / (1 - δ*x1*x2*y1*y2)).
Definition eO : point := (0, 1).
Definition eT : point := (0, - (1)).
Definition eneg (P : point) : point := (- fst P, snd P).

Lemma nonsquare_ratio : forall w v, w * w = δ * (v * v) -> v = 0 /\ w = 0.
Proof.
  intros w v H. destruct (Fdec v 0) as [E|E].
  - split; auto. apply f_square_0. rewrite H, E. ring.
  - exfalso. apply (nonsquare (w / v)). replace (w / v * (w / v)) with (w * w / (v * v)) by (field; exact E). rewrite H. field. exact E.
Qed.
(** The denominators never vanish *)
Lemma complete1 : forall x1 y1 x2 y2, on_curve (x1, y1) -> on_curve (x2, y2) -> 
  δ*x1*x2*y1*y2 * (δ*x1*x2*y1*y2) <> 1.
Proof.
  intros x1 y1 x2 y2 H1 H2 He. unfold on_curve in *. set (e := δ*x1*x2*y1*y2) in *.
  assert (S1 : (x1 + e*y1) * (x1 + e*y1) = δ * ((x1*y1*(x2 + y2)) * (x1*y1*(x2 + y2)))).
  { replace ((x1 + e*y1) * (x1 + e*y1)) with (x1*x1 + (e*e)*(y1*y1) + (1+1)*e*x1*y1) by ring. rewrite He.
    replace (x1*x1 + 1*(y1*y1)) with (x1*x1 + y1*y1) by ring. rewrite H1.
    replace (δ * ((x1*y1*(x2 + y2)) * (x1*y1*(x2 + y2)))) with (δ*x1*x1*y1*y1*(x2*x2+y2*y2) + (1+1)*(δ*x1*x2*y1*y2)*x1*y1) by ring.
    rewrite H2. replace (δ*x1*x1*y1*y1*(1 + δ*x2*x2*y2*y2)) with (δ*x1*x1*y1*y1 + e*e) by (unfold e; ring). rewrite He. fold e. ring. }
  assert (S2 : (x1 - e*y1) * (x1 - e*y1) = δ * ((x1*y1*(x2 - y2)) * (x1*y1*(x2 - y2)))).
  { replace ((x1 - e*y1) * (x1 - e*y1)) with (x1*x1 + (e*e)*(y1*y1) - (1+1)*e*x1*y1) by ring. rewrite He.
    replace (x1*x1 + 1*(y1*y1)) with (x1*x1 + y1*y1) by ring. rewrite H1.
    replace (δ * ((x1*y1*(x2 - y2)) * (x1*y1*(x2 - y2)))) with (δ*x1*x1*y1*y1*(x2*x2+y2*y2) - (1+1)*(δ*x1*x2*y1*y2)*x1*y1) by ring.
    rewrite H2. replace (δ*x1*x1*y1*y1*(1 + δ*x2*x2*y2*y2)) with (δ*x1*x1*y1*y1 + e*e) by (unfold e; ring). rewrite He. fold e. ring. }
  apply nonsquare_ratio in S1. apply nonsquare_ratio in S2. destruct S1 as [_ S1], S2 as [_ S2].
  assert (X : x1 = 0).
  { destruct (f_integral (1+1) x1) as [E|E]; auto; [|contradiction].
    replace ((1+1)*x1) with ((x1 + e*y1) + (x1 - e*y1)) by ring. rewrite S1, S2. ring. }
  apply f_one. rewrite <- He. unfold e. rewrite X. ring.
Qed.
Lemma complete : forall x1 y1 x2 y2, on_curve (x1, y1) -> on_curve (x2, y2) ->
  1 + δ*x1*x2*y1*y2 <> 0 /\ 1 - δ*x1*x2*y1*y2 <> 0.
Proof.
  intros x1 y1 x2 y2 H1 H2. pose proof (complete1 _ _ _ _ H1 H2) as C. set (e := δ*x1*x2*y1*y2) in *. split; intros H; apply C.
  - replace e with ((1 + e) - 1) by ring. rewrite H. ring.
  - replace e with (1 - (1 - e)) by ring. rewrite H. ring.
Qed.

Lemma f_div_eq : forall a b c d, b <> 0 -> d <> 0 -> a * d = c * b -> a / b = c / d.
Proof. intros a b c d B D H. replace (a / b) with (a * d / (b * d)) by (field; auto). rewrite H. field. auto. Qed.
Lemma pair_eq : forall (a b c d : F), a = c -> b = d -> (a, b) = (c, d).
Proof. intros. subst. reflexivity. Qed.

Lemma eadd_comm : forall P Q, eadd P Q = eadd Q P.
Proof. intros [x1 y1] [x2 y2]. unfold eadd. f_equal; f_equal; ring. Qed.
Lemma eO_curve : on_curve eO. Proof. cbn. ring. Qed.
Lemma eT_curve : on_curve eT. Proof. cbn. ring. Qed.
Lemma eneg_curve : forall P, on_curve P -> on_curve (eneg P).
Proof. intros [x y] H. unfold on_curve, eneg in *. cbn [fst snd]. replace (- x * - x + y*y) with (x*x + y*y) by ring. rewrite H. ring. Qed.
Lemma eadd_O : forall P, eadd P eO = P.
Proof. intros [x y]. unfold eadd, eO. f_equal; field; repeat split; try exact f_one; intros H; apply f_one; rewrite <- H; ring. Qed.
Lemma eadd_neg : forall P, on_curve P -> eadd P (eneg P) = eO.
Proof.
  intros [x y] H. pose proof (complete _ _ _ _ H (eneg_curve _ H)) as [C1 C2]. unfold eadd, eneg, eO. cbn [fst snd] in *.
  apply pair_eq.
  - replace (x*y + - x*y) with 0 by ring. field. exact C1.
  - replace (y*y - x * - x) with (x*x + y*y) by ring. cbn in H. rewrite H. replace (1 - δ*x* -x*y*y) with (1 + δ*x*x*y*y) in * by ring. field. exact C2.
Qed.
(** Closure *)
Lemma eadd_curve : forall P Q, on_curve P -> on_curve Q -> on_curve (eadd P Q).
Proof.
  intros [x1 y1] [x2 y2] H1 H2. destruct (complete _ _ _ _ H1 H2) as [C1 C2]. unfold eadd, on_curve in *.
  set (n := x1*y2 + x2*y1). set (m := y1*y2 - x1*x2). set (p := 1 + δ*x1*x2*y1*y2) in *. set (q := 1 - δ*x1*x2*y1*y2) in *.
  apply f_sub_0. replace (n/p*(n/p) + m/q*(m/q) - (1 + δ*(n/p)*(n/p)*(m/q)*(m/q))) with
    ((n*n*(q*q) + m*m*(p*p) - (p*p*(q*q) + δ*(n*n)*(m*m))) / (p*p*(q*q))) by (field; auto).
  assert (Z : n*n*(q*q) + m*m*(p*p) - (p*p*(q*q) + δ*(n*n)*(m*m)) = 0); [|rewrite Z; field; auto].
  assert (E1 : x1*x1 + y1*y1 - 1 - δ*x1*x1*y1*y1 = 0) by (rewrite H1; ring).
  assert (E2 : x2*x2 + y2*y2 - 1 - δ*x2*x2*y2*y2 = 0) by (rewrite H2; ring).
  transitivity ((y2*y2*y2*y2 +(1+1+1+1)*x2*x2*y2*y2 -(1+1)*x2*x2*y2*y2*δ -(1+1)*x2*x2*y2*y2*y2*y2 +x2*x2*x2*x2 -(1+1)*x2*x2*x2*x2*y2*y2 +(1+1)*x2*x2*x2*x2*y2*y2*y2*y2*δ -x2*x2*x2*x2*y2*y2*y2*y2*δ*δ -y1*y1*x2*x2*y2*y2*y2*y2*δ -y1*y1*x2*x2*x2*x2*y2*y2*δ +y1*y1*x2*x2*x2*x2*y2*y2*y2*y2*δ*δ -x1*x1*x2*x2*y2*y2*y2*y2*δ -x1*x1*x2*x2*x2*x2*y2*y2*δ +x1*x1*x2*x2*x2*x2*y2*y2*y2*y2*δ*δ +x1*x1*y1*y1*x2*x2*x2*x2*y2*y2*y2*y2*δ*δ*δ) * (x1*x1 + y1*y1 - 1 - δ*x1*x1*y1*y1) + (1 +y2*y2 +x2*x2 -(1+1)*x2*x2*y2*y2 +x2*x2*y2*y2*δ -y1*y1*y2*y2 -y1*y1*x2*x2 +(1+1)*y1*y1*x2*x2*y2*y2 -(1+1)*y1*y1*x2*x2*y2*y2*δ +y1*y1*y1*y1*x2*x2*y2*y2*δ -x1*x1*y2*y2 -x1*x1*x2*x2 +(1+1)*x1*x1*x2*x2*y2*y2 -(1+1)*x1*x1*x2*x2*y2*y2*δ +x1*x1*x1*x1*x2*x2*y2*y2*δ) * (x2*x2 + y2*y2 - 1 - δ*x2*x2*y2*y2)); [unfold n, m, p, q; ring|].
  rewrite E1, E2. ring.
Qed.

(** Associativity: the cross products agree modulo the three curve equations *)
Lemma assoc_x : forall x1 y1 x2 y2 x3 y3,
  x1*x1 + y1*y1 - 1 - δ*x1*x1*y1*y1 = 0 -> x2*x2 + y2*y2 - 1 - δ*x2*x2*y2*y2 = 0 -> x3*x3 + y3*y3 - 1 - δ*x3*x3*y3*y3 = 0 ->
  let n := x1*y2 + x2*y1 in let m := y1*y2 - x1*x2 in let p := 1 + δ*x1*x2*y1*y2 in let q := 1 - δ*x1*x2*y1*y2 in
  let n' := x2*y3 + x3*y2 in let m' := y2*y3 - x2*x3 in let p' := 1 + δ*x2*x3*y2*y3 in let q' := 1 - δ*x2*x3*y2*y3 in
  (n*q*y3 + x3*(m*p)) * (p'*q' + δ*x1*n'*y1*m') = (x1*(m'*p') + n'*q'*y1) * (p*q + δ*n*x3*m*y3).
Proof.
  intros x1 y1 x2 y2 x3 y3 E1 E2 E3 n m p q n' m' p' q'. apply f_sub_0. subst n m p q n' m' p' q'.
  transitivity (
    (-y1*x2*y2*y2*y2*y2*x3*x3*y3*δ -y1*x2*x2*y2*y2*y2*x3*δ +y1*x2*x2*y2*y2*y2*x3*x3*x3*δ -y1*x2*x2*x2*y2*y2*y3*δ +y1*x2*x2*x2*y2*y2*y3*y3*y3*δ +y1*x2*x2*x2*y2*y2*y2*y2*x3*x3*y3*δ*δ -y1*x2*x2*x2*x2*y2*x3*y3*y3*δ +y1*x2*x2*x2*x2*y2*y2*y2*x3*y3*y3*δ*δ +x1*x2*y2*y2*y2*y2*x3*y3*y3*δ -x1*x2*x2*y2*y2*y2*y3*δ +x1*x2*x2*y2*y2*y2*y3*y3*y3*δ +x1*x2*x2*x2*y2*y2*x3*δ -x1*x2*x2*x2*y2*y2*x3*x3*x3*δ -x1*x2*x2*x2*y2*y2*y2*y2*x3*y3*y3*δ*δ -x1*x2*x2*x2*x2*y2*x3*x3*y3*δ +x1*x2*x2*x2*x2*y2*y2*y2*x3*x3*y3*δ*δ) * (x1*x1 + y1*y1 - 1 - δ*x1*x1*y1*y1)
  + (y1*y2*x3 -y1*y2*x3*y3*y3 -y1*y2*x3*x3*x3 +y1*y2*x3*x3*x3*y3*y3*δ +y1*x2*y3 -y1*x2*y3*y3*y3 -y1*x2*x3*x3*y3 +y1*x2*x3*x3*y3*y3*y3*δ -y1*x2*y2*y2*x3*x3*y3*δ -y1*x2*x2*y2*x3*y3*y3*δ -y1*y1*y1*y2*x3 +y1*y1*y1*y2*x3*y3*y3 +y1*y1*y1*y2*x3*x3*x3 -y1*y1*y1*y2*x3*x3*x3*y3*y3*δ -y1*y1*y1*x2*y3 +y1*y1*y1*x2*y3*y3*y3 +y1*y1*y1*x2*x3*x3*y3 -y1*y1*y1*x2*x3*x3*y3*y3*y3*δ +y1*y1*y1*x2*y2*y2*x3*x3*y3*δ +y1*y1*y1*x2*x2*y2*x3*y3*y3*δ +x1*y2*y3 -x1*y2*y3*y3*y3 -x1*y2*x3*x3*y3 +x1*y2*x3*x3*y3*y3*y3*δ -x1*x2*x3 +x1*x2*x3*y3*y3 +x1*x2*x3*x3*x3 -x1*x2*x3*x3*x3*y3*y3*δ +x1*x2*y2*y2*x3*y3*y3*δ -x1*x2*x2*y2*x3*x3*y3*δ -x1*y1*y1*y2*y3 +x1*y1*y1*y2*y3*y3*y3 +x1*y1*y1*y2*x3*x3*y3 -x1*y1*y1*y2*x3*x3*y3*y3*y3*δ +x1*y1*y1*x2*x3 -x1*y1*y1*x2*x3*y3*y3 -x1*y1*y1*x2*x3*x3*x3 +x1*y1*y1*x2*x3*x3*x3*y3*y3*δ -x1*y1*y1*x2*y2*y2*x3*y3*y3*δ +x1*y1*y1*x2*y2*y2*x3*x3*x3*y3*y3*δ*δ +x1*y1*y1*x2*x2*y2*x3*x3*y3*δ -x1*y1*y1*x2*x2*y2*x3*x3*y3*y3*y3*δ*δ -x1*x1*y1*y2*x3 +x1*x1*y1*y2*x3*y3*y3 +x1*x1*y1*y2*x3*x3*x3 -x1*x1*y1*y2*x3*x3*x3*y3*y3*δ -x1*x1*y1*x2*y3 +x1*x1*y1*x2*y3*y3*y3 +x1*x1*y1*x2*x3*x3*y3 -x1*x1*y1*x2*x3*x3*y3*y3*y3*δ +x1*x1*y1*x2*y2*y2*x3*x3*y3*δ -x1*x1*y1*x2*y2*y2*x3*x3*y3*y3*y3*δ*δ +x1*x1*y1*x2*x2*y2*x3*y3*y3*δ -x1*x1*y1*x2*x2*y2*x3*x3*x3*y3*y3*δ*δ -x1*x1*x1*y2*y3 +x1*x1*x1*y2*y3*y3*y3 +x1*x1*x1*y2*x3*x3*y3 -x1*x1*x1*y2*x3*x3*y3*y3*y3*δ +x1*x1*x1*x2*x3 -x1*x1*x1*x2*x3*y3*y3 -x1*x1*x1*x2*x3*x3*x3 +x1*x1*x1*x2*x3*x3*x3*y3*y3*δ -x1*x1*x1*x2*y2*y2*x3*y3*y3*δ +x1*x1*x1*x2*x2*y2*x3*x3*y3*δ) * (x2*x2 + y2*y2 - 1 - δ*x2*x2*y2*y2)
  + (-y1*y2*x3 +y1*y2*y2*y2*x3 -y1*x2*y3 +y1*x2*y2*y2*y3 +y1*x2*x2*y2*x3 +y1*x2*x2*x2*y3 +y1*y1*y1*y2*x3 -y1*y1*y1*y2*y2*y2*x3 +y1*y1*y1*x2*y3 -y1*y1*y1*x2*y2*y2*y3 -y1*y1*y1*x2*x2*y2*x3 -y1*y1*y1*x2*x2*x2*y3 -x1*y2*y3 +x1*y2*y2*y2*y3 +x1*x2*x3 -x1*x2*y2*y2*x3 +x1*x2*x2*y2*y3 -x1*x2*x2*x2*x3 +x1*y1*y1*y2*y3 -x1*y1*y1*y2*y2*y2*y3 -x1*y1*y1*x2*x3 +x1*y1*y1*x2*y2*y2*x3 -x1*y1*y1*x2*y2*y2*x3*δ -x1*y1*y1*x2*x2*y2*y3 +x1*y1*y1*x2*x2*y2*y3*δ +x1*y1*y1*x2*x2*x2*x3 +x1*x1*y1*y2*x3 -x1*x1*y1*y2*y2*y2*x3 +x1*x1*y1*x2*y3 -x1*x1*y1*x2*y2*y2*y3 +x1*x1*y1*x2*y2*y2*y3*δ -x1*x1*y1*x2*x2*y2*x3 +x1*x1*y1*x2*x2*y2*x3*δ -x1*x1*y1*x2*x2*x2*y3 +x1*x1*x1*y2*y3 -x1*x1*x1*y2*y2*y2*y3 -x1*x1*x1*x2*x3 +x1*x1*x1*x2*y2*y2*x3 -x1*x1*x1*x2*x2*y2*y3 +x1*x1*x1*x2*x2*x2*x3) * (x3*x3 + y3*y3 - 1 - δ*x3*x3*y3*y3)); [ring|].
  rewrite E1, E2, E3. ring.
Qed.
Lemma assoc_y : forall x1 y1 x2 y2 x3 y3,
  x1*x1 + y1*y1 - 1 - δ*x1*x1*y1*y1 = 0 -> x2*x2 + y2*y2 - 1 - δ*x2*x2*y2*y2 = 0 -> x3*x3 + y3*y3 - 1 - δ*x3*x3*y3*y3 = 0 ->
  let n := x1*y2 + x2*y1 in let m := y1*y2 - x1*x2 in let p := 1 + δ*x1*x2*y1*y2 in let q := 1 - δ*x1*x2*y1*y2 in
  let n' := x2*y3 + x3*y2 in let m' := y2*y3 - x2*x3 in let p' := 1 + δ*x2*x3*y2*y3 in let q' := 1 - δ*x2*x3*y2*y3 in
  (m*p*y3 - n*q*x3) * (p'*q' - δ*x1*n'*y1*m') = (y1*(m'*p') - x1*(n'*q')) * (p*q - δ*n*x3*m*y3).
Proof.
  intros x1 y1 x2 y2 x3 y3 E1 E2 E3 n m p q n' m' p' q'. apply f_sub_0. subst n m p q n' m' p' q'.
  transitivity (
    (y1*x2*y2*y2*y2*y2*x3*y3*y3*δ -y1*x2*x2*y2*y2*y2*y3*δ +y1*x2*x2*y2*y2*y2*y3*y3*y3*δ +y1*x2*x2*x2*y2*y2*x3*δ -y1*x2*x2*x2*y2*y2*x3*x3*x3*δ -y1*x2*x2*x2*y2*y2*y2*y2*x3*y3*y3*δ*δ -y1*x2*x2*x2*x2*y2*x3*x3*y3*δ +y1*x2*x2*x2*x2*y2*y2*y2*x3*x3*y3*δ*δ +x1*x2*y2*y2*y2*y2*x3*x3*y3*δ +x1*x2*x2*y2*y2*y2*x3*δ -x1*x2*x2*y2*y2*y2*x3*x3*x3*δ +x1*x2*x2*x2*y2*y2*y3*δ -x1*x2*x2*x2*y2*y2*y3*y3*y3*δ -x1*x2*x2*x2*y2*y2*y2*y2*x3*x3*y3*δ*δ +x1*x2*x2*x2*x2*y2*x3*y3*y3*δ -x1*x2*x2*x2*x2*y2*y2*y2*x3*y3*y3*δ*δ) * (x1*x1 + y1*y1 - 1 - δ*x1*x1*y1*y1)
  + (y1*y2*y3 -y1*y2*y3*y3*y3 -y1*y2*x3*x3*y3 +y1*y2*x3*x3*y3*y3*y3*δ -y1*x2*x3 +y1*x2*x3*y3*y3 +y1*x2*x3*x3*x3 -y1*x2*x3*x3*x3*y3*y3*δ +y1*x2*y2*y2*x3*y3*y3*δ -y1*x2*x2*y2*x3*x3*y3*δ -y1*y1*y1*y2*y3 +y1*y1*y1*y2*y3*y3*y3 +y1*y1*y1*y2*x3*x3*y3 -y1*y1*y1*y2*x3*x3*y3*y3*y3*δ +y1*y1*y1*x2*x3 -y1*y1*y1*x2*x3*y3*y3 -y1*y1*y1*x2*x3*x3*x3 +y1*y1*y1*x2*x3*x3*x3*y3*y3*δ -y1*y1*y1*x2*y2*y2*x3*y3*y3*δ +y1*y1*y1*x2*x2*y2*x3*x3*y3*δ -x1*y2*x3 +x1*y2*x3*y3*y3 +x1*y2*x3*x3*x3 -x1*y2*x3*x3*x3*y3*y3*δ -x1*x2*y3 +x1*x2*y3*y3*y3 +x1*x2*x3*x3*y3 -x1*x2*x3*x3*y3*y3*y3*δ +x1*x2*y2*y2*x3*x3*y3*δ +x1*x2*x2*y2*x3*y3*y3*δ +x1*y1*y1*y2*x3 -x1*y1*y1*y2*x3*y3*y3 -x1*y1*y1*y2*x3*x3*x3 +x1*y1*y1*y2*x3*x3*x3*y3*y3*δ +x1*y1*y1*x2*y3 -x1*y1*y1*x2*y3*y3*y3 -x1*y1*y1*x2*x3*x3*y3 +x1*y1*y1*x2*x3*x3*y3*y3*y3*δ -x1*y1*y1*x2*y2*y2*x3*x3*y3*δ +x1*y1*y1*x2*y2*y2*x3*x3*y3*y3*y3*δ*δ -x1*y1*y1*x2*x2*y2*x3*y3*y3*δ +x1*y1*y1*x2*x2*y2*x3*x3*x3*y3*y3*δ*δ -x1*x1*y1*y2*y3 +x1*x1*y1*y2*y3*y3*y3 +x1*x1*y1*y2*x3*x3*y3 -x1*x1*y1*y2*x3*x3*y3*y3*y3*δ +x1*x1*y1*x2*x3 -x1*x1*y1*x2*x3*y3*y3 -x1*x1*y1*x2*x3*x3*x3 +x1*x1*y1*x2*x3*x3*x3*y3*y3*δ -x1*x1*y1*x2*y2*y2*x3*y3*y3*δ +x1*x1*y1*x2*y2*y2*x3*x3*x3*y3*y3*δ*δ +x1*x1*y1*x2*x2*y2*x3*x3*y3*δ -x1*x1*y1*x2*x2*y2*x3*x3*y3*y3*y3*δ*δ +x1*x1*x1*y2*x3 -x1*x1*x1*y2*x3*y3*y3 -x1*x1*x1*y2*x3*x3*x3 +x1*x1*x1*y2*x3*x3*x3*y3*y3*δ +x1*x1*x1*x2*y3 -x1*x1*x1*x2*y3*y3*y3 -x1*x1*x1*x2*x3*x3*y3 +x1*x1*x1*x2*x3*x3*y3*y3*y3*δ -x1*x1*x1*x2*y2*y2*x3*x3*y3*δ -x1*x1*x1*x2*x2*y2*x3*y3*y3*δ) * (x2*x2 + y2*y2 - 1 - δ*x2*x2*y2*y2)
  + (-y1*y2*y3 +y1*y2*y2*y2*y3 +y1*x2*x3 -y1*x2*y2*y2*x3 +y1*x2*x2*y2*y3 -y1*x2*x2*x2*x3 +y1*y1*y1*y2*y3 -y1*y1*y1*y2*y2*y2*y3 -y1*y1*y1*x2*x3 +y1*y1*y1*x2*y2*y2*x3 -y1*y1*y1*x2*x2*y2*y3 +y1*y1*y1*x2*x2*x2*x3 +x1*y2*x3 -x1*y2*y2*y2*x3 +x1*x2*y3 -x1*x2*y2*y2*y3 -x1*x2*x2*y2*x3 -x1*x2*x2*x2*y3 -x1*y1*y1*y2*x3 +x1*y1*y1*y2*y2*y2*x3 -x1*y1*y1*x2*y3 +x1*y1*y1*x2*y2*y2*y3 -x1*y1*y1*x2*y2*y2*y3*δ +x1*y1*y1*x2*x2*y2*x3 -x1*y1*y1*x2*x2*y2*x3*δ +x1*y1*y1*x2*x2*x2*y3 +x1*x1*y1*y2*y3 -x1*x1*y1*y2*y2*y2*y3 -x1*x1*y1*x2*x3 +x1*x1*y1*x2*y2*y2*x3 -x1*x1*y1*x2*y2*y2*x3*δ -x1*x1*y1*x2*x2*y2*y3 +x1*x1*y1*x2*x2*y2*y3*δ +x1*x1*y1*x2*x2*x2*x3 -x1*x1*x1*y2*x3 +x1*x1*x1*y2*y2*y2*x3 -x1*x1*x1*x2*y3 +x1*x1*x1*x2*y2*y2*y3 +x1*x1*x1*x2*x2*y2*x3 +x1*x1*x1*x2*x2*x2*y3) * (x3*x3 + y3*y3 - 1 - δ*x3*x3*y3*y3)); [ring|].
  rewrite E1, E2, E3. ring.
Qed.

Theorem eadd_assoc : forall P Q R, on_curve P -> on_curve Q -> on_curve R -> eadd (eadd P Q) R = eadd P (eadd Q R).
Proof.
  intros [x1 y1] [x2 y2] [x3 y3] H1 H2 H3.
  assert (E1 : x1*x1 + y1*y1 - 1 - δ*x1*x1*y1*y1 = 0) by (unfold on_curve in H1; rewrite H1; ring).
  assert (E2 : x2*x2 + y2*y2 - 1 - δ*x2*x2*y2*y2 = 0) by (unfold on_curve in H2; rewrite H2; ring).
  assert (E3 : x3*x3 + y3*y3 - 1 - δ*x3*x3*y3*y3 = 0) by (unfold on_curve in H3; rewrite H3; ring).
  pose proof (assoc_x _ _ _ _ _ _ E1 E2 E3) as AX. pose proof (assoc_y _ _ _ _ _ _ E1 E2 E3) as AY. cbv zeta in AX, AY. clear E1 E2 E3.
  destruct (complete _ _ _ _ H1 H2) as [C1 C2]. destruct (complete _ _ _ _ H2 H3) as [D1 D2].
  pose proof (eadd_curve _ _ H1 H2) as G. pose proof (eadd_curve _ _ H2 H3) as G'. cbn [eadd] in G, G' |- *.
  set (n := x1*y2 + x2*y1) in *. set (m := y1*y2 - x1*x2) in *. set (p := 1 + δ*x1*x2*y1*y2) in *. set (q := 1 - δ*x1*x2*y1*y2) in *.
  set (n' := x2*y3 + x3*y2) in *. set (m' := y2*y3 - x2*x3) in *. set (p' := 1 + δ*x2*x3*y2*y3) in *. set (q' := 1 - δ*x2*x3*y2*y3) in *.
  destruct (complete _ _ _ _ G H3) as [K1 K2]. destruct (complete _ _ _ _ H1 G') as [J1 J2].
  clearbody n m p q n' m' p' q'. clear H1 H2 H3 G G'.
  assert (M : forall a b c, c <> 0 -> b <> 0 -> b = a / c -> a <> 0).
  { intros a b c Hc Hb E Ha. apply Hb. rewrite E, Ha. field. exact Hc. }
  assert (K1' : p*q + δ*n*x3*m*y3 <> 0) by (apply (M _ _ (p*q) (f_mul_nz _ _ C1 C2) K1); field; auto).
  assert (K2' : p*q - δ*n*x3*m*y3 <> 0) by (apply (M _ _ (p*q) (f_mul_nz _ _ C1 C2) K2); field; auto).
  assert (J1' : p'*q' + δ*x1*n'*y1*m' <> 0) by (apply (M _ _ (p'*q') (f_mul_nz _ _ D1 D2) J1); field; auto).
  assert (J2' : p'*q' - δ*x1*n'*y1*m' <> 0) by (apply (M _ _ (p'*q') (f_mul_nz _ _ D1 D2) J2); field; auto).
  apply pair_eq.
  - transitivity ((n*q*y3 + x3*(m*p)) / (p*q + δ*n*x3*m*y3)); [field; auto|].
    transitivity ((x1*(m'*p') + n'*q'*y1) / (p'*q' + δ*x1*n'*y1*m')); [|field; auto].
    apply f_div_eq; auto.
  - transitivity ((m*p*y3 - n*q*x3) / (p*q - δ*n*x3*m*y3)); [field; auto|].
    transitivity ((y1*(m'*p') - x1*(n'*q')) / (p'*q' - δ*x1*n'*y1*m')); [|field; auto].
    apply f_div_eq; auto.
Qed.

(** Multiples *)
Fixpoint emul (n : nat) (P : point) : point := match n with O => eO | S n => eadd (emul n P) P end.
Lemma emul_curve : forall n P, on_curve P -> on_curve (emul n P).
Proof. induction n as [|n IH]; intros P H; cbn [emul]; [exact eO_curve|]. apply eadd_curve; auto. Qed.
Lemma eadd_O_l : forall P, eadd eO P = P. Proof. intros. rewrite eadd_comm. apply eadd_O. Qed.
Lemma emul_add : forall n m P, on_curve P -> emul (n + m) P = eadd (emul n P) (emul m P).
Proof.
  intros n m P H. induction m as [|m IH].
  - rewrite Nat.add_0_r. cbn [emul]. now rewrite eadd_O.
  - rewrite Nat.add_succ_r. cbn [emul]. rewrite IH. apply eadd_assoc; auto using emul_curve.
Qed.
Lemma emul_mul : forall n m P, on_curve P -> emul n (emul m P) = emul (n * m) P.
Proof.
  intros n m P H. induction n as [|n IH]; [reflexivity|]. cbn [emul Nat.mul]. rewrite IH, emul_add by exact H. apply eadd_comm.
Qed.
Theorem emul_comm : forall n m P, on_curve P -> emul n (emul m P) = emul m (emul n P).
Proof. intros. rewrite !emul_mul by assumption. now rewrite Nat.mul_comm. Qed.
(** ** The y-coordinate only: X : Z = 1 + y : e (1 - y), with e = 1 or -1 *)
Definition kum (e : F) (P : point) (X Z : F) : Prop :=
  exists l, l <> 0 /\ X = l * (1 + snd P) /\ Z = e * (l * (1 - snd P)).
Lemma kum_cross : forall e P X Z, e * e = 1 -> X <> 0 \/ Z <> 0 -> (1 + snd P) * Z = e * ((1 - snd P) * X) -> kum e P X Z.
Proof.
  intros e [x y] X Z He N H. cbn [snd] in *. exists ((X + e * Z) / (1 + 1)). cbn [snd].
  assert (H1 : (1 + y) * (e * Z) = (1 - y) * X) by (replace ((1+y)*(e*Z)) with (e*((1+y)*Z)) by ring; rewrite H; replace (e * (e * ((1 - y) * X))) with ((e*e)*((1-y)*X)) by ring; rewrite He; ring).
  assert (EX : (X + e * Z) / (1 + 1) * (1 + y) = X).
  { replace ((X + e * Z) / (1 + 1) * (1 + y)) with (((1 + y) * X + (1 + y) * (e * Z)) / (1 + 1)) by (field; exact two). rewrite H1. field. exact two. }
  assert (EZ : e * ((X + e * Z) / (1 + 1) * (1 - y)) = Z).
  { replace ((X + e * Z) / (1 + 1) * (1 - y)) with (((1 - y) * X + (1 - y) * (e * Z)) / (1 + 1)) by (field; exact two). rewrite <- H1.
    replace (e * (((1 + y) * (e * Z) + (1 - y) * (e * Z)) / (1 + 1))) with ((e * e) * Z) by (field; exact two). rewrite He. ring. }
  split; [|split; congruence]. intros L. rewrite L in EX, EZ.
  destruct N as [N|N]; apply N; [rewrite <- EX|rewrite <- EZ]; ring.
Qed.

Definition dbl_x (X Z : F) : F := ((X + Z)*(X + Z)) * ((X - Z)*(X - Z)).
Definition dbl_z (a24 X Z : F) : F :=
  ((X + Z)*(X + Z) - (X - Z)*(X - Z)) * ((X + Z)*(X + Z) + a24 * ((X + Z)*(X + Z) - (X - Z)*(X - Z))).
Definition dadd_x (X2 Z2 X3 Z3 : F) : F :=
  ((X3 - Z3)*(X2 + Z2) + (X3 + Z3)*(X2 - Z2)) * ((X3 - Z3)*(X2 + Z2) + (X3 + Z3)*(X2 - Z2)).
Definition dadd_z (u X2 Z2 X3 Z3 : F) : F :=
  u * (((X3 - Z3)*(X2 + Z2) - (X3 + Z3)*(X2 - Z2)) * ((X3 - Z3)*(X2 + Z2) - (X3 + Z3)*(X2 - Z2))).

Lemma four : (1+1)*(1+1) <> 0. Proof. now apply f_mul_nz. Qed.
(** y of the double, in terms of y *)
Lemma dbl_y : forall P, on_curve P -> let y := snd P in let y' := snd (eadd P P) in
  (1 + y') * ((1 - y*y) * (1 - δ*y*y)) = (1 - y') * ((y*y) * (1 - δ)).
Proof.
  intros [x y] H. cbn [snd eadd]. destruct (complete _ _ _ _ H H) as [_ C2]. unfold on_curve in H. apply f_sub_0.
  transitivity (((1 - δ*x*x*y*y + (y*y - x*x)) * ((1 - y*y) * (1 - δ*y*y)) - (1 - δ*x*x*y*y - (y*y - x*x)) * ((y*y) * (1 - δ))) / (1 - δ*x*x*y*y)); [field; exact C2|].
  assert (Z : (1 - δ*x*x*y*y + (y*y - x*x)) * ((1 - y*y) * (1 - δ*y*y)) - (1 - δ*x*x*y*y - (y*y - x*x)) * ((y*y) * (1 - δ)) = 0); [|rewrite Z; field; exact C2].
  transitivity ((1 + δ*x*x*y*y - (x*x + y*y)) * (1 - δ*y*y*y*y)); [ring|]. rewrite H. ring.
Qed.
Section Kummer.
Variables e a24 : F.
Hypothesis sign : (e = 1 /\ (1 + a24) * (1 - δ) = 1) \/ (e = - (1) /\ a24 * (1 - δ) = - (1)).
Hypothesis a24_nz : a24 <> 0 /\ 1 + a24 <> 0.
Lemma ee : e * e = 1. Proof. destruct sign as [[-> _]|[-> _]]; ring. Qed.
Lemma e_nz : e <> 0. Proof. intros H. apply f_one. rewrite <- ee, H. ring. Qed.

Lemma dbl_ok : forall P X Z, on_curve P -> kum e P X Z -> kum e (eadd P P) (dbl_x X Z) (dbl_z a24 X Z).
Proof.
  intros P X Z HP (l & L & -> & ->). pose proof (dbl_y P HP) as D. cbv zeta in D. set (y := snd P) in *.
  set (y' := snd (eadd P P)) in *. set (K := (1+1)*(1+1)*((1+1)*(1+1))*(l*l*(l*l))).
  assert (KN : K <> 0) by (unfold K; repeat apply f_mul_nz; try exact two; exact L).
  assert (DX : dbl_x (l * (1 + y)) (e * (l * (1 - y))) = K * (y*y)) by (unfold dbl_x, K; destruct sign as [[-> _]|[-> _]]; ring).
  assert (DZ : dbl_z a24 (l * (1 + y)) (e * (l * (1 - y))) * (1 - δ) = e * (K * ((1 - y*y) * (1 - δ*y*y)))).
  { unfold dbl_z, K. destruct sign as [[-> S]|[-> S]].
    - assert (S' : a24 * (1 - δ) = δ) by (replace (a24 * (1 - δ)) with ((1 + a24) * (1 - δ) - 1 + δ) by ring; rewrite S; ring).
      transitivity ((1+1)*(1+1)*((1+1)*(1+1))*(l*l*(l*l)) * ((1 - y*y) * ((1 + a24) * (1 - δ) - a24 * (1 - δ) * (y*y)))); [ring|]. rewrite S, S'. ring.
    - assert (S' : (1 + a24) * (1 - δ) = - δ) by (replace ((1 + a24) * (1 - δ)) with (a24 * (1 - δ) + 1 - δ) by ring; rewrite S; ring).
      transitivity ((1+1)*(1+1)*((1+1)*(1+1))*(l*l*(l*l)) * ((1 - y*y) * (a24 * (1 - δ) - (1 + a24) * (1 - δ) * (y*y)))); [ring|]. rewrite S, S'. ring. }
  assert (ND : 1 - δ <> 0).
  { intros N. destruct sign as [[_ S]|[_ S]]; rewrite N in S.
    - apply f_one. rewrite <- S. ring.
    - apply f_one. replace 1 with (- - (1)) by ring. rewrite <- S. ring. }
  apply kum_cross; [exact ee| |].
  - destruct (Fdec y 0) as [Y|Y].
    + right. intros Z. rewrite Z in DZ. rewrite Y in DZ. apply (f_mul_nz _ _ e_nz KN).
      transitivity (e * (K * ((1 - 0*0) * (1 - δ*0*0)))); [ring|]. rewrite <- DZ. ring.
    + left. rewrite DX. repeat apply f_mul_nz; assumption.
  - fold y'. rewrite DX. apply f_sub_0. 
    assert (T : ((1 + y') * dbl_z a24 (l * (1 + y)) (e * (l * (1 - y))) - e * ((1 - y') * (K * (y * y)))) * (1 - δ) = 0).
    { transitivity ((1 + y') * (dbl_z a24 (l * (1 + y)) (e * (l * (1 - y))) * (1 - δ)) - e * K * ((1 - y') * ((y * y) * (1 - δ)))); [ring|].
      rewrite DZ, <- D. ring. }
    apply f_integral in T. destruct T as [T|T]; [exact T|contradiction].
Qed.

Lemma dadd_y : forall P Q, on_curve P -> on_curve Q ->
  let s := snd (eadd P Q) in let t := snd (eadd Q (eneg P)) in let y1 := snd P in let y2 := snd Q in
  (1 + s) * ((1 + t) * ((y2 - y1)*(y2 - y1))) = (1 - s) * ((1 - t) * ((y1 + y2)*(y1 + y2))).
Proof.
  intros [x1 y1] [x2 y2] H1 H2. cbn [snd fst eadd eneg]. destruct (complete _ _ _ _ H1 H2) as [C1 C2]. unfold on_curve in *. apply f_sub_0.
  assert (C1' : 1 - δ*x2* - x1*y2*y1 <> 0) by (replace (1 - δ*x2* - x1*y2*y1) with (1 + δ*x1*x2*y1*y2) by ring; exact C1).
  transitivity (
   ( ((1+y1*y2)*(1+y1*y2) - x1*x2*x1*x2*((1+δ*y1*y2)*(1+δ*y1*y2)))*((y2-y1)*(y2-y1)) - ((1-y1*y2)*(1-y1*y2) - x1*x2*x1*x2*((1-δ*y1*y2)*(1-δ*y1*y2)))*((y1+y2)*(y1+y2)) )
   / ((1 + δ*x1*x2*y1*y2) * (1 - δ*x1*x2*y1*y2))); [field; auto|].
  assert (Z : ((1+y1*y2)*(1+y1*y2) - x1*x2*x1*x2*((1+δ*y1*y2)*(1+δ*y1*y2)))*((y2-y1)*(y2-y1)) - ((1-y1*y2)*(1-y1*y2) - x1*x2*x1*x2*((1-δ*y1*y2)*(1-δ*y1*y2)))*((y1+y2)*(y1+y2)) = 0); [|rewrite Z; field; auto].
  assert (E1 : x1*x1 + y1*y1 - 1 - δ*x1*x1*y1*y1 = 0) by (rewrite H1; ring).
  assert (E2 : x2*x2 + y2*y2 - 1 - δ*x2*x2*y2*y2 = 0) by (rewrite H2; ring).
  transitivity (((1+1+1+1)*y1*x2*x2*y2 -(1+1+1+1)*y1*x2*x2*y2*y2*y2*δ) * (x1*x1 + y1*y1 - 1 - δ*x1*x1*y1*y1) + ((1+1+1+1)*y1*y2 -(1+1+1+1)*y1*y1*y1*y2) * (x2*x2 + y2*y2 - 1 - δ*x2*x2*y2*y2)); [ring|].
  rewrite E1, E2. ring.
Qed.
Lemma dadd_ok : forall P Q D u X2 Z2 X3 Z3, on_curve P -> on_curve Q -> D = eadd Q (eneg P) ->
  u <> 0 -> kum e D u 1 -> kum e P X2 Z2 -> kum e Q X3 Z3 ->
  kum e (eadd P Q) (dadd_x X2 Z2 X3 Z3) (dadd_z u X2 Z2 X3 Z3).
Proof.
  intros P Q D u X2 Z2 X3 Z3 HP HQ HD Hu (ld & Ld & U & V) (l & L & -> & ->) (m & M & -> & ->).
  pose proof (dadd_y P Q HP HQ) as Y. cbv zeta in Y. rewrite <- HD in Y.
  set (y1 := snd P) in *. set (y2 := snd Q) in *. set (s := snd (eadd P Q)) in *. set (t := snd D) in *.
  set (K := (1+1)*(1+1)*(l*m)). assert (KN : K <> 0) by (unfold K; repeat apply f_mul_nz; try exact two; assumption).
  assert (DX : dadd_x (l * (1 + y1)) (e * (l * (1 - y1))) (m * (1 + y2)) (e * (m * (1 - y2))) = K * K * ((y1 + y2)*(y1 + y2))).
  { unfold dadd_x, K. destruct sign as [[-> _]|[-> _]]; ring. }
  assert (DZ : dadd_z u (l * (1 + y1)) (e * (l * (1 - y1))) (m * (1 + y2)) (e * (m * (1 - y2))) = u * (K * K * ((y2 - y1)*(y2 - y1)))).
  { unfold dadd_z, K. destruct sign as [[-> _]|[-> _]]; ring. }
  rewrite DX, DZ. apply kum_cross; [exact ee| |].
  - destruct (Fdec (y1 + y2) 0) as [S|S]; [|left; repeat apply f_mul_nz; assumption].
    destruct (Fdec (y2 - y1) 0) as [T|T]; [|right; repeat apply f_mul_nz; assumption]. exfalso.
    assert (Y1 : y1 = 0).
    { destruct (f_integral (1+1) y1) as [W|W]; auto; [|contradiction]. replace ((1+1)*y1) with ((y1 + y2) - (y2 - y1)) by ring. rewrite S, T. ring. }
    assert (Y2 : y2 = 0) by (replace y2 with ((y2 - y1) + y1) by ring; rewrite T, Y1; ring).
    destruct P as [x1 y1'], Q as [x2 y2']. unfold y1, y2 in Y1, Y2. cbn [snd] in Y1, Y2. subst y1' y2'. unfold on_curve in HP, HQ.
    assert (X1 : x1 * x1 = 1) by (transitivity (x1*x1 + 0*0); [ring|]; rewrite HP; ring).
    assert (X2 : x2 * x2 = 1) by (transitivity (x2*x2 + 0*0); [ring|]; rewrite HQ; ring).
    assert (TT : t = x1 * x2). { unfold t. rewrite HD. cbn [eadd eneg fst snd]. field. intros N. apply f_one. rewrite <- N. ring. }
    assert (Z : (1 + t) * (1 - t) = 0) by (transitivity (1 - (x1*x1)*(x2*x2)); [rewrite TT; ring|]; rewrite X1, X2; ring).
    apply f_integral in Z. destruct Z as [Z|Z]; [apply Hu; rewrite U, Z; ring|apply f_one; rewrite V, Z; ring].
  - fold s. apply f_sub_0.
    assert (UT : e * (u * (1 - t)) = 1 + t).
    { transitivity ((1 + t) * (e * (ld * (1 - t)))); [rewrite U; ring|]. rewrite <- V. ring. }
    assert (ET : u * (1 - t) = e * (1 + t)) by (rewrite <- UT; transitivity ((e * e) * (u * (1 - t))); [rewrite ee; ring|ring]).
    assert (NT : 1 - t <> 0) by (intros N; apply f_one; rewrite V, N; ring).
    assert (T : ((1 + s) * (u * (K * K * ((y2 - y1) * (y2 - y1)))) - e * ((1 - s) * (K * K * ((y1 + y2) * (y1 + y2))))) * (1 - t) = 0).
    { transitivity (K * K * ((u * (1 - t)) * ((1 + s) * ((y2 - y1) * (y2 - y1)))) - K * K * e * ((1 - s) * ((1 - t) * ((y1 + y2) * (y1 + y2))))); [ring|].
      rewrite ET, <- Y. ring. }
    apply f_integral in T. destruct T as [T|T]; [exact T|contradiction].
Qed.
End Kummer.
End Edwards.
