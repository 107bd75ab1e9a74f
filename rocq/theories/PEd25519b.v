(** The group operations of src/crypto/ed25519 *)
From Coq Require Import Field Ring.
From Verif Require Import Base MX25519 SX25519 PPoly1305 MEd25519 PEdwards PEdRep PX25519 PX25519b PX25519d PEd25519.
Local Close Scope fp_scope.
Local Open Scope Z_scope.

Lemma eqp_T : forall a b, eqp a b -> T a = T b.
Proof. intros a b H. apply T_eq. now apply eqp_mod. Qed.
Definition fv (f : felem) : F := T (val f).
Notation "'Part'" := (part F F0 Fmul im).
Notation "'Full'" := (full F F0 Fmul im).
Notation "'NielsOf'" := (niels F F1 Fadd Fmul Fsub dp im).
Notation eadd_ := (eadd F F1 Fadd Fmul Fsub Fdiv dp).
Lemma full_niels_dp : forall X Y Z t P A B C Q, curve dp P -> curve dp Q -> Full X Y Z t P -> NielsOf A B C Q ->
  let a := Fmul (Fsub Y X) A in let e := Fmul (Fadd Y X) B in let c := Fmul t C in
  let h := Fadd e a in let e := Fsub e a in let g := Fadd (Fadd Z Z) c in let f := Fsub (Fadd Z Z) c in
  Full (Fmul e f) (Fmul h g) (Fmul g f) (Fmul e h) (eadd_ P Q).
Proof. exact (full_niels F F0 F1 Fadd Fmul Fsub Fopp Fdiv Finv FT Fdec dp two_nz dp_nonsquare im im_sq). Qed.
Lemma part_double_dp : forall X Y Z P, curve dp P -> Part X Y Z P ->
  let a := Fmul X X in let b := Fmul Y Y in let c := Fadd (Fmul Z Z) (Fmul Z Z) in
  let ry := Fadd b a in let rx := Fsub (Fmul (Fadd X Y) (Fadd X Y)) ry in let rz := Fsub b a in let rt := Fsub c rz in
  Full (Fmul rx rt) (Fmul ry rz) (Fmul rz rt) (Fmul rx ry) (eadd_ P P).
Proof. exact (part_double F F0 F1 Fadd Fmul Fsub Fopp Fdiv Finv FT Fdec dp two_nz dp_nonsquare im im_sq). Qed.

Section Exact.
Variable w : Z -> Z -> outcome Z.
Hypothesis Hw : exact_in_range w.
Lemma f_add : forall i j a b, lm i a -> lm j b -> 0 <= i -> 0 <= j -> i + j <= 16 -> exists c, ed_add w a b = Ok c /\ lm (i + j) c /\ fv c = Fadd (fv a) (fv b).
Proof. intros i j a b A B I J K. destruct (ed_add_ok w Hw i j a b A B I J K) as (c & E & L & V). exists c. split; [exact E|]. split; [exact L|]. unfold fv. rewrite V. apply T_add. Qed.
Lemma f_sub : forall i a b, lm i a -> lm 1 b -> 0 <= i <= 12 -> exists c, ed_sub w a b = Ok c /\ lm (i + 2) c /\ fv c = Fsub (fv a) (fv b).
Proof. intros i a b A B I. destruct (ed_sub_ok w Hw i a b A B I) as (c & E & L & V). exists c. split; [exact E|]. split; [exact L|]. unfold fv. rewrite (eqp_T _ _ V). apply T_sub. Qed.
Lemma f_sub_after : forall i a b, lm i a -> lm 3 b -> 0 <= i <= 12 -> exists c, ed_sub_after_basic w a b = Ok c /\ lm (i + 4) c /\ fv c = Fsub (fv a) (fv b).
Proof. intros i a b A B I. destruct (ed_sub_after_basic_ok w Hw i a b A B I) as (c & E & L & V). exists c. split; [exact E|]. split; [exact L|]. unfold fv. rewrite (eqp_T _ _ V). apply T_sub. Qed.
Lemma f_add_reduce : forall a b, lm 1 a -> lm 1 b -> exists c, ed_add_reduce w a b = Ok c /\ lm 1 c /\ fv c = Fadd (fv a) (fv b).
Proof. intros a b A B. destruct (ed_add_reduce_ok w Hw 1 1 a b A B) as (c & E & L & V); [lia..|]. exists c. split; [exact E|]. split; [exact L|]. unfold fv. rewrite (eqp_T _ _ V). apply T_add. Qed.
Lemma f_sub_reduce : forall a b, lm 1 a -> lm 1 b -> exists c, ed_sub_reduce w a b = Ok c /\ lm 1 c /\ fv c = Fsub (fv a) (fv b).
Proof. intros a b A B. destruct (ed_sub_reduce_ok w Hw 1 a b A (lm_mono 1 3 b B ltac:(lia)) ltac:(lia)) as (c & E & L & V). exists c. split; [exact E|]. split; [exact L|]. unfold fv. rewrite (eqp_T _ _ V). apply T_sub. Qed.
Lemma f_neg : forall a, lm 1 a -> exists c, ed_neg w a = Ok c /\ lm 1 c /\ fv c = Fopp (fv a).
Proof. intros a A. destruct (ed_neg_ok w Hw a A) as (c & E & L & V). exists c. split; [exact E|]. split; [exact L|]. unfold fv. rewrite (eqp_T _ _ V). apply T_opp. Qed.
Lemma f_mul : forall i j a b, lm i a -> lm j b -> i <= 6 -> j <= 6 -> exists c, ed_mul w a b = Ok c /\ lm 1 c /\ fv c = Fmul (fv a) (fv b).
Proof. intros i j a b A B I J. destruct (ed_mul_ok w Hw a b (lm_mono i 6 a A I) (lm_mono j 6 b B J)) as (c & E & L & V). exists c. split; [exact E|]. split; [exact L|]. unfold fv. rewrite (eqp_T _ _ V). apply T_mul. Qed.
Lemma f_square : forall i a, lm i a -> i <= 6 -> exists c, ed_square w a = Ok c /\ lm 1 c /\ fv c = Fmul (fv a) (fv a).
Proof. intros i a A I. destruct (ed_square_ok w Hw a (lm_mono i 6 a A I)) as (c & E & L & V). exists c. split; [exact E|]. split; [exact L|]. unfold fv. rewrite (eqp_T _ _ V). apply T_mul. Qed.
Lemma f_recip : forall i a, lm i a -> i <= 6 -> exists c, ed_recip w a = Ok c /\ lm 1 c /\ fv c = Finv (fv a).
Proof.
  intros i a A I. destruct (ed_recip_ok w Hw a (lm_mono i 6 a A I)) as (c & E & L & V). exists c. split; [exact E|]. split; [exact L|].
  unfold fv. rewrite (eqp_T _ _ V), <- T_inv. unfold fpow. symmetry. apply T_mod.
Qed.
Ltac op H := let c := fresh "c" in let E := fresh "E" in let L := fresh "L" in let V := fresh "V" in
  destruct H as (c & E & L & V); rewrite E; cbn [obind]; clear E.

Definition ge_part (g : ge25519) (P : Point) : Prop :=
  lm 1 (ge_x g) /\ lm 1 (ge_y g) /\ lm 1 (ge_z g) /\ Part (fv (ge_x g)) (fv (ge_y g)) (fv (ge_z g)) P.
Definition ge_full (g : ge25519) (P : Point) : Prop :=
  lm 1 (ge_x g) /\ lm 1 (ge_y g) /\ lm 1 (ge_z g) /\ lm 1 (ge_t g) /\ Full (fv (ge_x g)) (fv (ge_y g)) (fv (ge_z g)) (fv (ge_t g)) P.
Definition ni_of (n : ge25519_niels) (Q : Point) : Prop :=
  lm 1 (ni_ysubx n) /\ lm 1 (ni_xaddy n) /\ lm 1 (ni_t2d n) /\ NielsOf (fv (ni_ysubx n)) (fv (ni_xaddy n)) (fv (ni_t2d n)) Q.
Lemma full_part : forall g P, ge_full g P -> ge_part g P.
Proof. intros g P (A & B & C & _ & D & _). unfold ge_part. auto. Qed.

Lemma nielsadd2_ok : forall r q P Q, ge_full r P -> ni_of q Q -> curve dp P -> curve dp Q ->
  exists g, nielsadd2 w r q = Ok g /\ ge_full g (eadd_ P Q).
Proof.
  intros r q P Q (Lx & Ly & Lz & Lt & HF) (La & Lb & Lc & HN) HP HQ. unfold nielsadd2.
  op (f_sub 1 (ge_y r) (ge_x r) Ly Lx ltac:(lia)). op (f_add 1 1 (ge_y r) (ge_x r) Ly Lx ltac:(lia) ltac:(lia) ltac:(lia)).
  op (f_mul (1 + 2) 1 c (ni_ysubx q) L La ltac:(lia) ltac:(lia)). op (f_mul (1 + 1) 1 c0 (ni_xaddy q) L0 Lb ltac:(lia) ltac:(lia)).
  op (f_add 1 1 c2 c1 L2 L1 ltac:(lia) ltac:(lia) ltac:(lia)). op (f_sub 1 c2 c1 L2 L1 ltac:(lia)).
  op (f_mul 1 1 (ge_t r) (ni_t2d q) Lt Lc ltac:(lia) ltac:(lia)). op (f_add 1 1 (ge_z r) (ge_z r) Lz Lz ltac:(lia) ltac:(lia) ltac:(lia)).
  op (f_add (1 + 1) 1 c6 c5 L6 L5 ltac:(lia) ltac:(lia) ltac:(lia)). op (f_sub_after (1 + 1) c6 c5 L6 (lm_mono 1 3 _ L5 ltac:(lia)) ltac:(lia)).
  op (f_mul _ _ c4 c8 L4 L8 ltac:(lia) ltac:(lia)). op (f_mul _ _ c3 c7 L3 L7 ltac:(lia) ltac:(lia)).
  op (f_mul _ _ c7 c8 L7 L8 ltac:(lia) ltac:(lia)). op (f_mul _ _ c4 c3 L4 L3 ltac:(lia) ltac:(lia)).
  eexists. split; [reflexivity|]. unfold ge_full. cbn [ge_x ge_y ge_z ge_t]. do 4 (split; [assumption|]).
  rewrite V9, V10, V11, V12, V8, V7, V6, V5, V4, V3, V2, V1, V0, V. exact (full_niels_dp _ _ _ _ _ _ _ _ _ HP HQ HF HN).
Qed.
Lemma double_p1p1_ok : forall p P, ge_part p P -> curve dp P ->
  exists t, double_p1p1 w p = Ok t /\ lm 5 (pp_x t) /\ lm 2 (pp_y t) /\ lm 3 (pp_z t) /\ lm 5 (pp_t t) /\
    Full (Fmul (fv (pp_x t)) (fv (pp_t t))) (Fmul (fv (pp_y t)) (fv (pp_z t))) (Fmul (fv (pp_z t)) (fv (pp_t t))) (Fmul (fv (pp_x t)) (fv (pp_y t))) (eadd_ P P).
Proof.
  intros p P (Lx & Ly & Lz & HF) HP. unfold double_p1p1.
  op (f_square 1 (ge_x p) Lx ltac:(lia)). op (f_square 1 (ge_y p) Ly ltac:(lia)). op (f_square 1 (ge_z p) Lz ltac:(lia)).
  op (f_add_reduce c1 c1 L1 L1). op (f_add 1 1 (ge_x p) (ge_y p) Lx Ly ltac:(lia) ltac:(lia) ltac:(lia)). op (f_square _ c3 L3 ltac:(lia)).
  op (f_add 1 1 c0 c L0 L ltac:(lia) ltac:(lia) ltac:(lia)). op (f_sub 1 c0 c L0 L ltac:(lia)).
  op (f_sub_after 1 c4 c5 L4 (lm_mono _ 3 _ L5 ltac:(lia)) ltac:(lia)). op (f_sub_after 1 c2 c6 L2 L6 ltac:(lia)).
  eexists. split; [reflexivity|]. cbn [pp_x pp_y pp_z pp_t]. do 4 (split; [assumption|]).
  rewrite V8, V7, V6, V5, V4, V3, V2, V1, V0, V. exact (part_double_dp _ _ _ _ HP HF).
Qed.
Lemma double_partial_ok : forall r p P, ge_part p P -> curve dp P -> exists g, double_partial w r p = Ok g /\ ge_part g (eadd_ P P).
Proof.
  intros r p P H HP. unfold double_partial, p1p1_to_partial. destruct (double_p1p1_ok p P H HP) as (t & -> & Lx & Ly & Lz & Lt & (HF & _)). cbn [obind].
  op (f_mul _ _ (pp_x t) (pp_t t) Lx Lt ltac:(lia) ltac:(lia)). op (f_mul _ _ (pp_y t) (pp_z t) Ly Lz ltac:(lia) ltac:(lia)). op (f_mul _ _ (pp_z t) (pp_t t) Lz Lt ltac:(lia) ltac:(lia)).
  eexists. split; [reflexivity|]. unfold ge_part. cbn [ge_x ge_y ge_z]. do 3 (split; [assumption|]). rewrite V, V0, V1. exact HF.
Qed.
Lemma double_full_ok : forall p P, ge_part p P -> curve dp P -> exists g, double_full w p = Ok g /\ ge_full g (eadd_ P P).
Proof.
  intros p P H HP. unfold double_full, p1p1_to_full. destruct (double_p1p1_ok p P H HP) as (t & -> & Lx & Ly & Lz & Lt & HF). cbn [obind].
  op (f_mul _ _ (pp_x t) (pp_t t) Lx Lt ltac:(lia) ltac:(lia)). op (f_mul _ _ (pp_y t) (pp_z t) Ly Lz ltac:(lia) ltac:(lia)). op (f_mul _ _ (pp_z t) (pp_t t) Lz Lt ltac:(lia) ltac:(lia)).
  op (f_mul _ _ (pp_x t) (pp_y t) Lx Ly ltac:(lia) ltac:(lia)).
  eexists. split; [reflexivity|]. unfold ge_full. cbn [ge_x ge_y ge_z ge_t]. do 4 (split; [assumption|]). rewrite V, V0, V1, V2. exact HF.
Qed.
End Exact.
