(** The sum of two multiples: the additions and the loop *)
From Coq Require Import Field Ring.
From Verif Require Import Base MHash MSha2 MBlake2 SSha2 SBlake2 PSha2 PSha2b PBlake2 PChaCha PGhash MX25519 SX25519 PPoly1305 PPrimeL MEdTable MEd25519 MEdSlide MEdSign PEdwards PEdRep PX25519 PX25519b PX25519c PX25519d PX25519e PX25519f PEd25519 PEd25519b PEdTable PEd25519c PEd25519d PModm PEdSlide PEdDouble.
Local Close Scope fp_scope.
Local Open Scope Z_scope.

(** ** The form of ge25519_pniels: that of ge25519_niels times z *)
Section Form.
Variable d : F.
Hypothesis nonsquare : forall z, Fmul z z <> d.
Notation dadd := (eadd F F1 Fadd Fmul Fsub Fdiv d).
Notation dniels := (niels F F1 Fadd Fmul Fsub d im).
Definition pnf (A B z C : F) (Q : Point) : Prop :=
  z <> F0 /\ exists A0 B0 C0, dniels A0 B0 C0 Q /\ A = Fmul A0 z /\ B = Fmul B0 z /\ C = Fmul C0 z.
Lemma full_scale : forall k X Y Z t (P : Point), k <> F0 -> Full X Y Z t P -> Full (Fmul k X) (Fmul k Y) (Fmul k Z) (Fmul k t) P.
Proof.
  intros k X Y Z t P Hk ((Hz & HX & HY) & Ht). unfold full, part. repeat split.
  - now apply Fmul_nz.
  - transitivity (Fmul k (Fmul (fst P) Z)); [ring|]. rewrite HX. ring.
  - transitivity (Fmul k (Fmul (snd P) Z)); [ring|]. rewrite HY. reflexivity.
  - transitivity (Fmul (Fmul k k) (Fmul t Z)); [ring|]. rewrite Ht. ring.
Qed.
Lemma full_pnf : forall X Y Z t P A B z C Q, curve d P -> curve d Q -> Full X Y Z t P -> pnf A B z C Q ->
  let a := Fmul (Fsub Y X) A in let e := Fmul (Fadd Y X) B in let c := Fmul t C in let u := Fmul Z z in
  let h := Fadd e a in let e := Fsub e a in let g := Fadd (Fadd u u) c in let f := Fsub (Fadd u u) c in
  Full (Fmul e f) (Fmul h g) (Fmul g f) (Fmul e h) (dadd P Q).
Proof.
  intros X Y Z t P A B z C Q HP HQ HF (Hz & A0 & B0 & C0 & HN & -> & -> & ->). cbv zeta.
  pose proof (full_niels F F0 F1 Fadd Fmul Fsub Fopp Fdiv Finv FT Fdec d two_nz nonsquare im im_sq _ _ _ _ _ _ _ _ _ HP HQ HF HN) as G. cbv zeta in G.
  pose proof (full_scale (Fmul z z) _ _ _ _ _ (Fmul_nz z z Hz Hz) G) as G'. clear G.
  match goal with G : Full ?a ?b ?c ?e _ |- Full ?a' ?b' ?c' ?e' _ => replace a' with a by ring; replace b' with b by ring; replace c' with c by ring; replace e' with e by ring end.
  exact G'.
Qed.
Lemma pnf_neg : forall A B z C Q, pnf A B z C Q -> pnf B A z (Fopp C) (neg Q).
Proof.
  intros A B z C Q (Hz & A0 & B0 & C0 & HN & -> & -> & ->). split; [exact Hz|]. exists B0, A0, (Fopp C0).
  split; [exact (niels_neg F F0 F1 Fadd Fmul Fsub Fopp Fdiv Finv FT d im _ _ _ _ HN)|]. repeat split; ring.
Qed.
Lemma pnf_full : forall X Y Z t P, Full X Y Z t P -> pnf (Fsub Y X) (Fadd Y X) Z (Fmul t (Fopp (Fmul (Fadd F1 F1) d))) P.
Proof.
  intros X Y Z t P HF. pose proof (full_t F F0 F1 Fadd Fmul Fsub Fopp Fdiv Finv FT im im_sq _ _ _ _ _ HF) as ->. destruct HF as (H & _).
  pose proof (part_x F F0 F1 Fadd Fmul Fsub Fopp Fdiv Finv FT im im_sq _ _ _ _ H) as ->. destruct H as (Hz & _ & <-). split; [exact Hz|].
  do 3 eexists. split; [repeat split|]. repeat split; ring.
Qed.
End Form.
Lemma ec2d_lm : lm 1 ge25519_ec2d. Proof. unfold ge25519_ec2d, lm, U. lia. Qed.
Lemma ec2d_fv : fv ge25519_ec2d = Fopp (Fmul (Fadd F1 F1) dp).
Proof.
  assert (E : fv ge25519_ec2d = Fmul (T 2) (T dd)). { unfold fv. rewrite <- T_mul. apply T_eq. vm_compute. reflexivity. }
  rewrite E, T_2, T_dd. ring.
Qed.

Section Exact.
Variable w : Z -> Z -> outcome Z.
Hypothesis Hw : exact_in_range w.
Ltac op H := let c := fresh "c" in let E := fresh "E" in let L := fresh "L" in let V := fresh "V" in
  destruct H as (c & E & L & V); rewrite E; cbn [obind]; clear E.
Notation f_add := (f_add w Hw). Notation f_sub := (f_sub w Hw). Notation f_mul := (f_mul w Hw). Notation f_sub_after := (f_sub_after w Hw). Notation f_add_reduce := (f_add_reduce w Hw).
Definition pn_of (n : ge25519_pniels) (Q : Point) : Prop :=
  lm 3 (pn_ysubx n) /\ lm 2 (pn_xaddy n) /\ lm 1 (pn_z n) /\ lm 1 (pn_t2d n) /\ pnf dp (fv (pn_ysubx n)) (fv (pn_xaddy n)) (fv (pn_z n)) (fv (pn_t2d n)) Q.
Definition pp_of (t : ge25519_p1p1) (P : Point) : Prop :=
  lm 6 (pp_x t) /\ lm 6 (pp_y t) /\ lm 6 (pp_z t) /\ lm 6 (pp_t t) /\
    Full (Fmul (fv (pp_x t)) (fv (pp_t t))) (Fmul (fv (pp_y t)) (fv (pp_z t))) (Fmul (fv (pp_z t)) (fv (pp_t t))) (Fmul (fv (pp_x t)) (fv (pp_y t))) P.
Lemma double_pp : forall p P, ge_part p P -> curve dp P -> exists t, double_p1p1 w p = Ok t /\ pp_of t (add P P).
Proof.
  intros p P H HP. destruct (double_p1p1_ok w Hw p P H HP) as (t & E & A & B & C & D & G). exists t. split; [exact E|]. unfold pp_of.
  split; [exact (lm_mono 5 6 _ A ltac:(lia))|]. split; [exact (lm_mono 2 6 _ B ltac:(lia))|]. split; [exact (lm_mono 3 6 _ C ltac:(lia))|]. split; [exact (lm_mono 5 6 _ D ltac:(lia))|]. exact G.
Qed.
Lemma p1p1_to_full_ok : forall t P, pp_of t P -> exists g, p1p1_to_full w t = Ok g /\ ge_full g P.
Proof.
  intros t P (Lx & Ly & Lz & Lt & HF). unfold p1p1_to_full.
  op (f_mul 6 6 (pp_x t) (pp_t t) Lx Lt ltac:(lia) ltac:(lia)). op (f_mul 6 6 (pp_y t) (pp_z t) Ly Lz ltac:(lia) ltac:(lia)). op (f_mul 6 6 (pp_z t) (pp_t t) Lz Lt ltac:(lia) ltac:(lia)).
  op (f_mul 6 6 (pp_x t) (pp_y t) Lx Ly ltac:(lia) ltac:(lia)).
  eexists. split; [reflexivity|]. unfold ge_full. cbn [ge_x ge_y ge_z ge_t]. do 4 (split; [assumption|]). rewrite V, V0, V1, V2. exact HF.
Qed.
Lemma p1p1_to_partial_ok : forall r t P, pp_of t P -> exists g, p1p1_to_partial w r t = Ok g /\ ge_part g P.
Proof.
  intros r t P (Lx & Ly & Lz & Lt & HF & _). unfold p1p1_to_partial.
  op (f_mul 6 6 (pp_x t) (pp_t t) Lx Lt ltac:(lia) ltac:(lia)). op (f_mul 6 6 (pp_y t) (pp_z t) Ly Lz ltac:(lia) ltac:(lia)). op (f_mul 6 6 (pp_z t) (pp_t t) Lz Lt ltac:(lia) ltac:(lia)).
  eexists. split; [reflexivity|]. unfold ge_part. cbn [ge_x ge_y ge_z]. do 3 (split; [assumption|]). rewrite V, V0, V1. exact HF.
Qed.
Lemma full_to_pniels_ok : forall g P, ge_full g P -> exists q, full_to_pniels w g = Ok q /\ pn_of q P.
Proof.
  intros g P (Lx & Ly & Lz & Lt & HF). unfold full_to_pniels.
  op (f_sub 1 (ge_y g) (ge_x g) Ly Lx ltac:(lia)). op (f_add 1 1 (ge_y g) (ge_x g) Ly Lx ltac:(lia) ltac:(lia) ltac:(lia)).
  op (f_mul 1 1 (ge_t g) ge25519_ec2d Lt ec2d_lm ltac:(lia) ltac:(lia)).
  eexists. split; [reflexivity|]. unfold pn_of. cbn [pn_ysubx pn_xaddy pn_z pn_t2d]. do 4 (split; [assumption|]). rewrite V, V0, V1, ec2d_fv. exact (pnf_full dp _ _ _ _ _ HF).
Qed.
Lemma pnielsadd_ok : forall p q P Q, ge_full p P -> pn_of q Q -> curve dp P -> curve dp Q -> exists g, pnielsadd w p q = Ok g /\ pn_of g (add P Q).
Proof.
  intros r q P Q (Lx & Ly & Lz & Lt & HF) (La & Lb & Lq & Lc & HN) HP HQ. unfold pnielsadd.
  op (f_sub 1 (ge_y r) (ge_x r) Ly Lx ltac:(lia)). op (f_add 1 1 (ge_y r) (ge_x r) Ly Lx ltac:(lia) ltac:(lia) ltac:(lia)).
  op (f_mul (1 + 2) 3 c (pn_ysubx q) L La ltac:(lia) ltac:(lia)). op (f_mul (1 + 1) 2 c0 (pn_xaddy q) L0 Lb ltac:(lia) ltac:(lia)).
  op (f_add 1 1 c2 c1 L2 L1 ltac:(lia) ltac:(lia) ltac:(lia)). op (f_sub 1 c2 c1 L2 L1 ltac:(lia)).
  op (f_mul 1 1 (ge_t r) (pn_t2d q) Lt Lc ltac:(lia) ltac:(lia)). op (f_mul 1 1 (ge_z r) (pn_z q) Lz Lq ltac:(lia) ltac:(lia)).
  op (f_add 1 1 c6 c6 L6 L6 ltac:(lia) ltac:(lia) ltac:(lia)).
  op (f_add (1 + 1) 1 c7 c5 L7 L5 ltac:(lia) ltac:(lia) ltac:(lia)). op (f_sub_after (1 + 1) c7 c5 L7 (lm_mono 1 3 _ L5 ltac:(lia)) ltac:(lia)).
  op (f_mul _ _ c4 c9 L4 L9 ltac:(lia) ltac:(lia)). op (f_mul _ _ c3 c8 L3 L8 ltac:(lia) ltac:(lia)).
  op (f_mul _ _ c8 c9 L8 L9 ltac:(lia) ltac:(lia)). op (f_mul _ _ c4 c3 L4 L3 ltac:(lia) ltac:(lia)).
  op (f_sub 1 c11 c10 L11 L10 ltac:(lia)). op (f_add 1 1 c10 c11 L10 L11 ltac:(lia) ltac:(lia) ltac:(lia)).
  op (f_mul 1 1 c13 ge25519_ec2d L13 ec2d_lm ltac:(lia) ltac:(lia)).
  eexists. split; [reflexivity|]. unfold pn_of. cbn [pn_ysubx pn_xaddy pn_z pn_t2d]. do 4 (split; [assumption|]).
  assert (G : Full (fv c10) (fv c11) (fv c12) (fv c13) (add P Q)).
  { rewrite V13, V12, V11, V10, V9, V8, V7, V6, V5, V4, V3, V2, V1, V0, V. exact (full_pnf dp dp_nonsquare _ _ _ _ _ _ _ _ _ _ HP HQ HF HN). }
  pose proof (pnf_full dp _ _ _ _ _ G) as G'. rewrite V14, V15, V16, ec2d_fv.
  replace (Fadd (fv c10) (fv c11)) with (Fadd (fv c11) (fv c10)) by ring. exact G'.
Qed.
(** The sum with the point or with its opposite *)
Definition signed (signbit : bool) (Q : Point) : Point := if signbit then neg Q else Q.
Lemma finish_ok : forall x y zt c s, lm 6 x -> lm 6 y -> lm 1 zt -> lm 1 c -> exists t, p1p1_finish w x y zt c s = Ok t /\
  lm 6 (pp_x t) /\ lm 6 (pp_y t) /\ lm 6 (pp_z t) /\ lm 6 (pp_t t) /\ pp_x t = x /\ pp_y t = y /\
  fv (pp_z t) = Fadd (fv zt) (if s then Fopp (fv c) else fv c) /\ fv (pp_t t) = Fsub (fv zt) (if s then Fopp (fv c) else fv c).
Proof.
  intros x y zt c s Lx Ly Lz Lc. unfold p1p1_finish. op (f_add 1 1 zt c Lz Lc ltac:(lia) ltac:(lia) ltac:(lia)). op (f_sub 1 zt c Lz Lc ltac:(lia)).
  eexists. split; [reflexivity|]. pose proof (lm_mono _ 6 _ L ltac:(lia)). pose proof (lm_mono _ 6 _ L0 ltac:(lia)).
  destruct s; cbn [pp_x pp_y pp_z pp_t]; do 6 (split; [assumption || reflexivity|]); rewrite V, V0; split; ring.
Qed.
Lemma pnielsadd_p1p1_ok : forall p q s P Q, ge_full p P -> pn_of q Q -> curve dp P -> curve dp Q -> exists t, pnielsadd_p1p1 w p q s = Ok t /\ pp_of t (add P (signed s Q)).
Proof.
  intros r q s P Q (Lx & Ly & Lz & Lt & HF) (La & Lb & Lq & Lc & HN) HP HQ. unfold pnielsadd_p1p1.
  assert (SN : lm 3 (if s then pn_xaddy q else pn_ysubx q) /\ lm 3 (if s then pn_ysubx q else pn_xaddy q) /\
    pnf dp (fv (if s then pn_xaddy q else pn_ysubx q)) (fv (if s then pn_ysubx q else pn_xaddy q)) (fv (pn_z q)) (if s then Fopp (fv (pn_t2d q)) else fv (pn_t2d q)) (signed s Q)).
  { pose proof (lm_mono 2 3 _ Lb ltac:(lia)). destruct s; unfold signed; (split; [assumption|]; split; [assumption|]); [now apply pnf_neg|exact HN]. }
  assert (CS : curve dp (signed s Q)) by (destruct s; unfold signed; [now apply (neg_curve dp)|exact HQ]).
  set (qa := if s then pn_xaddy q else pn_ysubx q) in *. set (qb := if s then pn_ysubx q else pn_xaddy q) in *. clearbody qa qb. destruct SN as (Lqa & Lqb & SN).
  op (f_sub 1 (ge_y r) (ge_x r) Ly Lx ltac:(lia)). op (f_add 1 1 (ge_y r) (ge_x r) Ly Lx ltac:(lia) ltac:(lia) ltac:(lia)).
  op (f_mul (1 + 2) 3 c qa L Lqa ltac:(lia) ltac:(lia)). op (f_mul (1 + 1) 3 c0 qb L0 Lqb ltac:(lia) ltac:(lia)).
  op (f_add 1 1 c2 c1 L2 L1 ltac:(lia) ltac:(lia) ltac:(lia)). op (f_sub 1 c2 c1 L2 L1 ltac:(lia)).
  op (f_mul 1 1 (ge_t r) (pn_t2d q) Lt Lc ltac:(lia) ltac:(lia)). op (f_mul 1 1 (ge_z r) (pn_z q) Lz Lq ltac:(lia) ltac:(lia)).
  op (f_add_reduce c6 c6 L6 L6).
  destruct (finish_ok c4 c3 c7 c5 s (lm_mono _ 6 _ L4 ltac:(lia)) (lm_mono _ 6 _ L3 ltac:(lia)) L7 L5) as (t & -> & K1 & K2 & K3 & K4 & Ex & Ey & Ez & Et).
  exists t. split; [reflexivity|]. unfold pp_of. do 4 (split; [assumption|]). rewrite Ex, Ey, Ez, Et, V7, V6, V5, V4, V3, V2, V1, V0, V.
  pose proof (full_pnf dp dp_nonsquare _ _ _ _ _ _ _ _ _ _ HP CS HF SN) as G. cbv zeta in G.
  replace (Fmul (fv (ge_t r)) (if s then Fopp (fv (pn_t2d q)) else fv (pn_t2d q))) with (if s then Fopp (Fmul (fv (ge_t r)) (fv (pn_t2d q))) else Fmul (fv (ge_t r)) (fv (pn_t2d q))) in G by (destruct s; ring).
  exact G.
Qed.
Lemma nielsadd2_p1p1_ok : forall p q s P Q, ge_full p P -> ni_of q Q -> curve dp P -> curve dp Q -> exists t, nielsadd2_p1p1 w p q s = Ok t /\ pp_of t (add P (signed s Q)).
Proof.
  intros r q s P Q (Lx & Ly & Lz & Lt & HF) (La & Lb & Lc & HN) HP HQ. unfold nielsadd2_p1p1.
  assert (SN : lm 1 (if s then ni_xaddy q else ni_ysubx q) /\ lm 1 (if s then ni_ysubx q else ni_xaddy q) /\
    NielsOf (fv (if s then ni_xaddy q else ni_ysubx q)) (fv (if s then ni_ysubx q else ni_xaddy q)) (if s then Fopp (fv (ni_t2d q)) else fv (ni_t2d q)) (signed s Q)).
  { destruct s; unfold signed; (split; [assumption|]; split; [assumption|]); [|exact HN]. exact (niels_neg F F0 F1 Fadd Fmul Fsub Fopp Fdiv Finv FT dp im _ _ _ _ HN). }
  assert (CS : curve dp (signed s Q)) by (destruct s; unfold signed; [now apply (neg_curve dp)|exact HQ]).
  set (qa := if s then ni_xaddy q else ni_ysubx q) in *. set (qb := if s then ni_ysubx q else ni_xaddy q) in *. clearbody qa qb. destruct SN as (Lqa & Lqb & SN).
  op (f_sub 1 (ge_y r) (ge_x r) Ly Lx ltac:(lia)). op (f_add 1 1 (ge_y r) (ge_x r) Ly Lx ltac:(lia) ltac:(lia) ltac:(lia)).
  op (f_mul (1 + 2) 1 c qa L Lqa ltac:(lia) ltac:(lia)). op (f_mul (1 + 1) 1 c0 qb L0 Lqb ltac:(lia) ltac:(lia)).
  op (f_add 1 1 c2 c1 L2 L1 ltac:(lia) ltac:(lia) ltac:(lia)). op (f_sub 1 c2 c1 L2 L1 ltac:(lia)).
  op (f_mul 1 1 (ge_t r) (ni_t2d q) Lt Lc ltac:(lia) ltac:(lia)). op (f_add_reduce (ge_z r) (ge_z r) Lz Lz).
  destruct (finish_ok c4 c3 c6 c5 s (lm_mono _ 6 _ L4 ltac:(lia)) (lm_mono _ 6 _ L3 ltac:(lia)) L6 L5) as (t & -> & K1 & K2 & K3 & K4 & Ex & Ey & Ez & Et).
  exists t. split; [reflexivity|]. unfold pp_of. do 4 (split; [assumption|]). rewrite Ex, Ey, Ez, Et, V6, V5, V4, V3, V2, V1, V0, V.
  pose proof (full_niels_dp _ _ _ _ _ _ _ _ _ HP CS HF SN) as G. cbv zeta in G.
  replace (Fmul (fv (ge_t r)) (if s then Fopp (fv (ni_t2d q)) else fv (ni_t2d q))) with (if s then Fopp (Fmul (fv (ge_t r)) (fv (ni_t2d q))) else Fmul (fv (ge_t r)) (fv (ni_t2d q))) in G by (destruct s; ring).
  exact G.
Qed.

(** ** The loop *)
Section Point.
Variable A : Point.
Hypothesis HA : curve dp A.
Notation za := (zz A).
Definition table_of (pre1 : list ge25519_pniels) : Prop := forall i, 0 <= i < 8 -> exists q, element pre1 i = Ok q /\ pn_of q (za (2 * i + 1)).
Lemma pniels_table_ok : forall n d1 q m, ge_full d1 (za 2) -> pn_of q (za m) -> exists l, pniels_table w n d1 q = Ok l /\ length l = Datatypes.S n /\
  forall i p, nth_error l i = Some p -> pn_of p (za (m + 2 * Z.of_nat i)).
Proof.
  induction n as [|n IH]; intros d1 q m Hd Hq; cbn [pniels_table].
  - exists [q]. split; [reflexivity|]. split; [reflexivity|]. intros [|i] p E; cbn in E; [|destruct i; discriminate]. injection E as <-. assert (E' : m + 2 * Z.of_nat 0 = m) by (clear; lia). rewrite E'. exact Hq.
  - destruct (pnielsadd_ok d1 q (za 2) (za m) Hd Hq (zz_curve A HA 2) (zz_curve A HA m)) as (q' & -> & Hq'). cbn [obind].
    rewrite <- (zz_add A HA) in Hq'. destruct (IH d1 q' (2 + m) Hd Hq') as (l & -> & L & G). cbn [obind]. exists (q :: l). split; [reflexivity|]. split; [cbn [length]; now rewrite L|].
    intros [|i] p E; cbn [nth_error] in E.
    + injection E as <-. assert (E' : m + 2 * Z.of_nat 0 = m) by (clear; lia). rewrite E'. exact Hq.
    + pose proof (G i p E) as K. assert (E' : m + 2 * Z.of_nat (Datatypes.S i) = 2 + m + 2 * Z.of_nat i) by (clear; lia). rewrite E'. exact K.
Qed.
Definition at_ (n1 n2 : Z) : Point := add (za n1) (zm n2).
Lemma at_curve : forall n1 n2, curve dp (at_ n1 n2).
Proof. intros. apply (add_curve dp dp_nonsquare); [exact (zz_curve A HA n1)|apply zm_curve]. Qed.
Lemma at_double : forall n1 n2, add (at_ n1 n2) (at_ n1 n2) = at_ (2 * n1) (2 * n2).
Proof.
  intros n1 n2. unfold at_. rewrite swap_middle; [|exact (zz_curve A HA n1)|apply zm_curve|exact (zz_curve A HA n1)|apply zm_curve]. rewrite <- (zz_add A HA), <- zm_add. do 2 f_equal; lia.
Qed.
Lemma at_1 : forall n1 n2 s, add (at_ n1 n2) (za s) = at_ (n1 + s) n2.
Proof.
  intros n1 n2 s. unfold at_. rewrite (zz_add A HA). rewrite !(add_assoc dp dp_nonsquare) by (exact (zz_curve A HA _) || apply zm_curve). f_equal. apply (add_comm dp).
Qed.
Lemma at_2 : forall n1 n2 s, add (at_ n1 n2) (zm s) = at_ n1 (n2 + s).
Proof. intros n1 n2 s. unfold at_. rewrite zm_add. rewrite !(add_assoc dp dp_nonsquare) by (exact (zz_curve A HA _) || apply zm_curve). reflexivity. Qed.
Lemma digit_index : forall m s, digit m s -> s <> 0 -> 2 * (Z.abs s / 2) + 1 = Z.abs s /\ 0 <= Z.abs s / 2 /\ 2 * (Z.abs s / 2) + 1 <= m.
Proof.
  intros m s [H|[O H]] N; [contradiction|]. assert (Oa : Z.odd (Z.abs s) = true) by (destruct (Z.abs_eq_or_opp s) as [->| ->]; [exact O|now rewrite Z.odd_opp]).
  pose proof (Zmod_odd (Z.abs s)) as M. rewrite Oa in M. pose proof (Z.div_mod (Z.abs s) 2 ltac:(lia)) as D. lia.
Qed.
Lemma signed_za : forall s, signed (s <? 0) (za (Z.abs s)) = za s.
Proof.
  intros s. unfold signed. destruct (Z.ltb_spec s 0).
  - rewrite Z.abs_neq by lia. rewrite (zz_opp A). apply neg_neg.
  - now rewrite Z.abs_eq by lia.
Qed.
Lemma signed_zm : forall s, signed (s <? 0) (zm (Z.abs s)) = zm s.
Proof.
  intros s. unfold signed. destruct (Z.ltb_spec s 0).
  - rewrite Z.abs_neq by lia. rewrite zm_opp. apply neg_neg.
  - now rewrite Z.abs_eq by lia.
Qed.
Lemma step_ok : forall pre1 s1 s2 r n1 n2, table_of pre1 -> digit 15 s1 -> digit 63 s2 -> ge_part r (at_ n1 n2) ->
  exists g, double_scalarmult_step w pre1 s1 s2 r = Ok g /\ ge_part g (at_ (2 * n1 + s1) (2 * n2 + s2)).
Proof.
  intros pre1 s1 s2 r n1 n2 HT D1 D2 HR. unfold double_scalarmult_step. destruct (double_pp r (at_ n1 n2) HR (at_curve n1 n2)) as (t & -> & Ht). cbn [obind].
  rewrite at_double in Ht.
  assert (S1 : exists r1 t1, (if s1 =? 0 then Ok (r, t) else let! r := p1p1_to_full w t in let! q := element pre1 (Z.abs s1 / 2) in let! t := pnielsadd_p1p1 w r q (s1 <? 0) in Ok (r, t)) = Ok (r1, t1) /\
    pp_of t1 (at_ (2 * n1 + s1) (2 * n2))).
  { destruct (Z.eqb_spec s1 0) as [->|N]; [exists r, t; split; [reflexivity|]; rewrite Z.add_0_r; exact Ht|].
    destruct (digit_index 15 s1 D1 N) as (I1 & I2 & I3). destruct (p1p1_to_full_ok t _ Ht) as (r1 & -> & Hr1). cbn [obind].
    destruct (HT (Z.abs s1 / 2) ltac:(clear - I2 I3; lia)) as (q & -> & Hq). cbn [obind]. rewrite I1 in Hq.
    destruct (pnielsadd_p1p1_ok r1 q (s1 <? 0) _ _ Hr1 Hq (at_curve _ _) (zz_curve A HA _)) as (t1 & -> & Ht1). cbn [obind]. exists r1, t1. split; [reflexivity|].
    rewrite signed_za, at_1 in Ht1. exact Ht1. }
  destruct S1 as (r1 & t1 & -> & Ht1). cbn [obind].
  assert (S2 : exists r2 t2, (if s2 =? 0 then Ok (r1, t1) else let! r := p1p1_to_full w t1 in let! q := element niels_sliding_multiples (Z.abs s2 / 2) in let! t := nielsadd2_p1p1 w r q (s2 <? 0) in Ok (r, t)) = Ok (r2, t2) /\
    pp_of t2 (at_ (2 * n1 + s1) (2 * n2 + s2))).
  { destruct (Z.eqb_spec s2 0) as [->|N]; [exists r1, t1; split; [reflexivity|]; rewrite (Z.add_0_r (2 * n2)); exact Ht1|].
    destruct (digit_index 63 s2 D2 N) as (I1 & I2 & I3). destruct (p1p1_to_full_ok t1 _ Ht1) as (r2 & -> & Hr2). cbn [obind].
    destruct (sliding_row (Z.abs s2 / 2) ltac:(clear - I2 I3; lia)) as (q & -> & Hq). cbn [obind]. rewrite I1 in Hq.
    destruct (nielsadd2_p1p1_ok r2 q (s2 <? 0) _ _ Hr2 Hq (at_curve _ _) (zm_curve _)) as (t2 & -> & Ht2). cbn [obind]. exists r2, t2. split; [reflexivity|].
    rewrite signed_zm, at_2 in Ht2. exact Ht2. }
  destruct S2 as (r2 & t2 & -> & Ht2). cbn [obind]. exact (p1p1_to_partial_ok r2 t2 _ Ht2).
Qed.
Definition hval (l : list Z) (n : Z) : Z := fold_left (fun n s => 2 * n + s) l n.
Lemma hval_rev : forall l n, hval (rev l) n = n * 2 ^ zlen l + bv l.
Proof.
  induction l as [|x l IH]; intros n; cbn [rev bv]; [unfold hval; cbn; rewrite zlen_nil; lia|]. unfold hval in *. rewrite fold_left_app, IH. cbn [fold_left].
  rewrite zlen_cons, Z.pow_add_r by (pose proof (zlen_nonneg _ l); lia). lia.
Qed.
Lemma loop_ok : forall pre1 digits skip r n1 n2, table_of pre1 -> Forall (fun d => digit 15 (fst d) /\ digit 63 (snd d)) digits ->
  (skip = true -> n1 = 0 /\ n2 = 0) -> ge_part r (at_ n1 n2) ->
  exists g, double_scalarmult_loop w pre1 digits skip r = Ok g /\ ge_part g (at_ (hval (map fst digits) n1) (hval (map snd digits) n2)).
Proof.
  intros pre1 digits. induction digits as [|[s1 s2] digits IH]; intros skip r n1 n2 HT HD HS HR; cbn [double_scalarmult_loop].
  - exists r. split; [reflexivity|exact HR].
  - pose proof (Forall_inv HD) as D. pose proof (Forall_inv_tail HD) as HD'. cbn [fst snd] in D. destruct D as [D1 D2]. unfold hval. cbn [map fst snd fold_left].
    destruct (skip && (Z.lor s1 s2 =? 0)) eqn:E.
    + apply andb_true_iff in E. destruct E as [E1 E2]. destruct (HS E1) as [-> ->]. apply Z.eqb_eq, Z.lor_eq_0_iff in E2. destruct E2 as [-> ->].
      exact (IH true r 0 0 HT HD' (fun _ => conj eq_refl eq_refl) HR).
    + destruct (step_ok pre1 s1 s2 r n1 n2 HT D1 D2 HR) as (g & -> & Hg). cbn [obind]. apply (IH false g _ _ HT HD'); [discriminate|exact Hg].
Qed.
Lemma map_combine : forall (a b : list Z), length a = length b -> map fst (combine a b) = a /\ map snd (combine a b) = b.
Proof.
  induction a as [|x a IH]; intros [|y b] H; try discriminate; [split; reflexivity|]. cbn [combine map fst snd]. injection H as H. destruct (IH b H) as [-> ->]. split; reflexivity.
Qed.
Lemma fv_zero : fv (0, 0, 0, 0, 0) = F0. Proof. reflexivity. Qed.
Lemma O_part : ge_part (GE (0, 0, 0, 0, 0) (1, 0, 0, 0, 0) (1, 0, 0, 0, 0) (0, 0, 0, 0, 0)) (at_ 0 0).
Proof.
  assert (E : at_ 0 0 = O_). { unfold at_. rewrite zz_0. change (zm 0) with (O_ : Point). apply add_O. }
  rewrite E. unfold ge_part. cbn [ge_x ge_y ge_z]. assert (L0 : lm 1 (0, 0, 0, 0, 0)) by (unfold lm, U; lia). assert (L1 : lm 1 (1, 0, 0, 0, 0)) by (unfold lm, U; lia).
  do 3 (split; [assumption|]). rewrite fv_zero, (fv_1 (1, 0, 0, 0, 0)) by reflexivity. unfold part, eO. cbn [fst snd]. split; [exact one_nz|]. split; ring.
Qed.
Theorem double_scalarmult_ok : forall g s1 s2, ge_full g A -> scalar_mod s1 -> scalar_mod s2 ->
  exists r, double_scalarmult_vartime w g s1 s2 = Ok r /\ ge_part r (at_ (val56 s1) (val56 s2)).
Proof.
  intros g s1 s2 HG [L1 V1] [L2 V2]. unfold double_scalarmult_vartime. cbv zeta.
  destruct (slidingwindow_ok s1 5 L1) as (A1 & B1 & C1); [unfold order_l in V1; lia|lia|]. destruct (slidingwindow_ok s2 7 L2) as (A2 & B2 & C2); [unfold order_l in V2; lia|lia|].
  change (2 ^ (5 - 1) - 1) with 15 in B1. change (2 ^ (7 - 1) - 1) with 63 in B2.
  set (l1 := contract256_slidingwindow_modm s1 5) in *. set (l2 := contract256_slidingwindow_modm s2 7) in *. clearbody l1 l2.
  destruct (double_full_ok w Hw g A (full_part g A HG) HA) as (d1 & -> & Hd). cbn [obind].
  assert (E2 : add A A = za 2) by (change 2 with (1 + 1); rewrite (zz_add A HA), (zz_1 A); reflexivity). rewrite E2 in Hd.
  destruct (full_to_pniels_ok g A HG) as (q & -> & Hq). cbn [obind]. rewrite <- (zz_1 A) in Hq.
  destruct (pniels_table_ok 7 d1 q 1 Hd Hq) as (l & -> & L & HL). cbn [obind].
  assert (HT : table_of l).
  { intros i Hi. unfold element. destruct (Z.ltb_spec i 0); [lia|]. destruct (nth_error l (Z.to_nat i)) as [p|] eqn:E; [|apply nth_error_None in E; rewrite L in E; lia].
    exists p. split; [reflexivity|]. pose proof (HL _ _ E) as K. rewrite Z2Nat.id in K by lia. assert (E' : 2 * i + 1 = 1 + 2 * i) by (clear; lia). rewrite E'. exact K. }
  destruct (map_combine l1 l2 ltac:(now rewrite A1, A2)) as [M1 M2].
  assert (HD : Forall (fun d => digit 15 (fst d) /\ digit 63 (snd d)) (rev (combine l1 l2))).
  { apply Forall_rev. rewrite Forall_forall in *. intros [x y] I. split; cbn [fst snd]; [apply B1; exact (in_combine_l _ _ _ _ I)|apply B2; exact (in_combine_r _ _ _ _ I)]. }
  destruct (loop_ok l (rev (combine l1 l2)) true _ 0 0 HT HD (fun _ => conj eq_refl eq_refl) O_part) as (r & E & Hr). exists r. split; [exact E|].
  rewrite !map_rev, M1, M2, !hval_rev, C1, C2 in Hr. rewrite !Z.mul_0_l, !Z.add_0_l in Hr. exact Hr.
Qed.
End Point.
End Exact.
