(** X25519 computes multiples of a point: two scalars may be applied in either order *)
From Coq Require Import Znumtheory Field Ring.
From Verif Require Import Base SBlake2 SX25519 PPrime PField PEdwards.

Notation F := (fz p25519).
Definition T (z : Z) : F := fz_of p25519 prime_p25519 z.
Definition Fadd : F -> F -> F := zadd p25519 prime_p25519.
Definition Fmul : F -> F -> F := zmul p25519 prime_p25519.
Definition Fsub : F -> F -> F := zsub p25519 prime_p25519.
Definition Fopp : F -> F := zopp p25519 prime_p25519.
Definition Fdiv : F -> F -> F := zdiv p25519 prime_p25519.
Definition Finv : F -> F := zinv p25519 prime_p25519.
Definition Fpow : F -> Z -> F := zpow p25519 prime_p25519.
Definition F0 : F := T 0.
Definition F1 : F := T 1.
Lemma FT : field_theory F0 F1 Fadd Fmul Fsub Fopp Fdiv Finv (@eq F).
Proof. exact (fz_field p25519 prime_p25519). Qed.
Lemma Fdec : forall a b : F, a = b \/ a <> b. Proof. exact (fz_dec p25519). Qed.
Lemma T_eq : forall a b, T a = T b <-> a mod p25519 = b mod p25519. Proof. exact (fz_of_eq p25519 prime_p25519). Qed.
Lemma T_add : forall a b, T (a + b) = Fadd (T a) (T b). Proof. exact (of_add p25519 prime_p25519). Qed.
Lemma T_mul : forall a b, T (a * b) = Fmul (T a) (T b). Proof. exact (of_mul p25519 prime_p25519). Qed.
Lemma T_sub : forall a b, T (a - b) = Fsub (T a) (T b). Proof. exact (of_sub p25519 prime_p25519). Qed.
Lemma T_opp : forall a, T (- a) = Fopp (T a). Proof. exact (of_opp p25519 prime_p25519). Qed.
Lemma T_mod : forall a, T (a mod p25519) = T a. Proof. exact (of_mod p25519 prime_p25519). Qed.
Lemma T_inv : forall a, T (fpow a (p25519 - 2)) = Finv (T a).
Proof. intros. unfold fpow. rewrite T_mod. exact (of_pow p25519 prime_p25519 a (p25519 - 2)). Qed.
Lemma Fpow_add : forall a n m, 0 <= n -> 0 <= m -> Fpow a (n + m) = Fmul (Fpow a n) (Fpow a m). Proof. exact (zpow_add p25519 prime_p25519). Qed.
Lemma Fpow_mul : forall a n m, 0 <= n -> 0 <= m -> Fpow a (n * m) = Fpow (Fpow a n) m. Proof. exact (zpow_mul p25519 prime_p25519). Qed.
Lemma Fpow_mul_l : forall a b n, Fpow (Fmul a b) n = Fmul (Fpow a n) (Fpow b n). Proof. exact (zpow_mul_l p25519 prime_p25519). Qed.
Lemma Fpow_1 : forall a, Fpow a 1 = a. Proof. exact (zpow_1 p25519 prime_p25519). Qed.
Lemma Fpow_2 : forall a, Fpow a 2 = Fmul a a. Proof. exact (zpow_2 p25519 prime_p25519). Qed.
Lemma Fpow_one : forall n, 0 <= n -> Fpow F1 n = F1.
Proof. intros n Hn. change (Fpow F1 n) with (zpow p25519 prime_p25519 (fz_of p25519 prime_p25519 1) n). rewrite <- of_pow, Z.pow_1_l by exact Hn. reflexivity. Qed.
Lemma Fermat : forall a, a <> F0 -> Fpow a (p25519 - 1) = F1. Proof. exact (zpow_fermat p25519 prime_p25519). Qed.
Lemma Finv_0 : Finv F0 = F0.
Proof. change F0 with (T 0). rewrite <- T_inv. unfold fpow. rewrite T_mod, Z.pow_0_l by reflexivity. reflexivity. Qed.
Lemma F0_T : F0 = T 0. Proof. reflexivity. Qed.
Lemma F1_T : F1 = T 1. Proof. reflexivity. Qed.
Global Opaque T Fadd Fmul Fsub Fopp Fdiv Finv Fpow F0 F1.

Add Field F25519 : FT.
Declare Scope fp_scope.
Delimit Scope fp_scope with fp.
Notation "0" := F0 : fp_scope. Notation "1" := F1 : fp_scope.
Infix "+" := Fadd : fp_scope. Infix "*" := Fmul : fp_scope. Infix "-" := Fsub : fp_scope. Infix "/" := Fdiv : fp_scope.
Notation "- x" := (Fopp x) : fp_scope.

(** ** Squares *)
Open Scope fp_scope.
Definition sqrt_m1 : Z := 19681161376707505956807079304988542015446066515923890162744021073123829784752%Z.
Definition im : F := T sqrt_m1.
Lemma im_sq : im * im = - (1).
Proof. unfold im. rewrite <- T_mul. transitivity (T (-1)%Z); [apply T_eq; vm_compute; reflexivity|]. rewrite F1_T. exact (T_opp 1). Qed.
Definition root_d : F := T 15209458581528902619753748516768018567527828769127274871395435605172547299093%Z.
Definition na : F := T 121665%Z.
Definition nb : F := T 121666%Z.
Lemma root_sq : root_d * root_d = na * nb * im.
Proof. unfold root_d, na, nb, im. rewrite <- !T_mul. apply T_eq. vm_compute. reflexivity. Qed.
Lemma na_nz : na <> 0. Proof. intros H. rewrite F0_T in H. apply T_eq in H. vm_compute in H. discriminate. Qed.
Lemma nb_nz : nb <> 0. Proof. intros H. rewrite F0_T in H. apply T_eq in H. vm_compute in H. discriminate. Qed.
Lemma na_1 : nb = 1 + na. Proof. unfold na, nb. rewrite F1_T, <- T_add. reflexivity. Qed.
Lemma two_nz : 1 + 1 <> 0.
Proof. rewrite F0_T, F1_T, <- T_add. intros H. apply T_eq in H. vm_compute in H. discriminate. Qed.
Lemma one_nz : 1 <> 0. Proof. exact (F_1_neq_0 FT). Qed.
Lemma Fintegral : forall a b, a * b = 0 -> a = 0 \/ b = 0. Proof. exact (f_integral F F0 F1 Fadd Fmul Fsub Fopp Fdiv Finv FT Fdec). Qed.
Lemma Fmul_nz : forall a b, a <> 0 -> b <> 0 -> a * b <> 0. Proof. intros a b A B H. destruct (Fintegral a b H); contradiction. Qed.
Lemma Fsub_0 : forall a b, a - b = 0 -> a = b. Proof. exact (f_sub_0 F F0 F1 Fadd Fmul Fsub Fopp Fdiv Finv FT). Qed.
Lemma m1_1 : - (1) <> 1.
Proof. intros H. apply two_nz. rewrite <- H at 1. ring. Qed.
Lemma Fpow_m1 : forall k, (0 <= k)%Z -> Fpow (- (1)) (2 * k + 1) = - (1).
Proof.
  intros k Hk. rewrite Fpow_add by lia. rewrite Fpow_1, Fpow_mul, Fpow_2 by lia. replace (- (1) * - (1)) with 1 by ring.
  rewrite Fpow_one by lia. ring.
Qed.
(** (p - 1) / 4, an odd number *)
Definition qe : Z := (2^253 - 5)%Z.
Lemma qe_4 : (p25519 - 1 = 2 * 2 * qe)%Z. Proof. reflexivity. Qed.
Lemma qe_odd : (qe = 2 * (2^252 - 3) + 1)%Z. Proof. reflexivity. Qed.
Lemma qe_pos : (0 <= qe)%Z. Proof. discriminate. Qed.
Lemma im_nonsquare : forall z, z * z <> im.
Proof.
  intros z H. assert (Z : z <> 0). { intros ->. apply one_nz. apply Fsub_0. transitivity (1 * - - (1) - 0); [ring|]. rewrite <- im_sq, <- H. ring. }
  pose proof (Fermat z Z) as E. rewrite qe_4 in E. rewrite Fpow_mul in E by (exact qe_pos || lia). rewrite Fpow_mul in E by lia. rewrite !Fpow_2, H, im_sq in E.
  rewrite qe_odd, Fpow_m1 in E by discriminate. exact (m1_1 E).
Qed.
Lemma sq_factor : forall w, w * w = 1 -> w = 1 \/ w = - (1).
Proof.
  intros w H. assert (E : (w - 1) * (w + 1) = 0) by (transitivity (w*w - 1); [ring|]; rewrite H; ring).
  apply Fintegral in E. destruct E as [E|E]; [left; now apply Fsub_0|right; apply Fsub_0; rewrite <- E; ring].
Qed.
Lemma sqrt_pm : forall b, Fpow b qe = 1 \/ Fpow b qe = - (1) -> exists s, s * s = b.
Proof.
  intros b H. assert (S : Fpow b (2^252 - 2) * Fpow b (2^252 - 2) = Fpow b qe * b).
  { rewrite <- Fpow_2, <- Fpow_mul by discriminate. change ((2^252 - 2) * 2)%Z with (qe + 1)%Z. rewrite Fpow_add, Fpow_1 by (exact qe_pos || lia). reflexivity. }
  destruct H as [H|H]; rewrite H in S.
  - eexists. rewrite S. ring.
  - exists (im * Fpow b (2^252 - 2)). transitivity (im * im * (Fpow b (2^252 - 2) * Fpow b (2^252 - 2))); [ring|]. rewrite S, im_sq. ring.
Qed.
Lemma im_pow : Fpow im qe = - im.
Proof.
  rewrite qe_odd, Fpow_add, Fpow_1, Fpow_mul, Fpow_2, im_sq by discriminate.
  change (2^252 - 3)%Z with (2 * (2^251 - 2) + 1)%Z. rewrite Fpow_m1 by discriminate. ring.
Qed.
Lemma square_or : forall a, a <> 0 -> exists s, s * s = a \/ s * s = a * im.
Proof.
  intros a Ha. pose proof (Fermat a Ha) as E. replace (p25519 - 1)%Z with (qe * (2 * 2))%Z in E by reflexivity.
  rewrite Fpow_mul in E by (exact qe_pos || lia). rewrite Fpow_mul, !Fpow_2 in E by lia. apply sq_factor in E. destruct E as [E|E].
  - apply sq_factor in E. destruct (sqrt_pm a E) as (s & S). exists s. now left.
  - assert (E2 : (Fpow a qe * - im) * (Fpow a qe * - im) = 1) by (transitivity ((Fpow a qe * Fpow a qe) * (im * im)); [ring|]; rewrite E, im_sq; ring).
    apply sq_factor in E2. destruct (sqrt_pm (a * im)) as (s & S); [rewrite Fpow_mul_l, im_pow; exact E2|]. exists s. now right.
Qed.

(** ** The two Edwards curves *)
Definition dp : F := na / nb.
Definition dm : F := nb / na.
Lemma no_root : forall z, z * z <> na * nb.
Proof.
  intros z H. assert (Z : z <> 0). { intros ->. apply (Fmul_nz _ _ na_nz nb_nz). rewrite <- H. ring. }
  apply (im_nonsquare (root_d / z)). transitivity (root_d * root_d / (z * z)); [field; exact Z|]. rewrite root_sq, H. field. split; [exact nb_nz|exact na_nz].
Qed.
Lemma dp_nonsquare : forall z, z * z <> dp.
Proof. intros z H. apply (no_root (z * nb)). transitivity ((z*z)*(nb*nb)); [ring|]. rewrite H. unfold dp. field. exact nb_nz. Qed.
Lemma dm_nonsquare : forall z, z * z <> dm.
Proof. intros z H. apply (no_root (z * na)). transitivity ((z*z)*(na*na)); [ring|]. rewrite H. unfold dm. field. exact na_nz. Qed.
Notation curve := (on_curve F F1 Fadd Fmul).
Notation Kum := (kum F F0 F1 Fadd Fmul Fsub).
Notation Point := (point F).

Lemma base_point : forall u, u <> 0 ->
  (exists P : Point, curve dp P /\ Kum 1 P u 1) \/ (exists P : Point, curve dm P /\ Kum (- (1)) P u 1).
Proof.
  intros u Hu. pose proof (kum_cross F F0 F1 Fadd Fmul Fsub Fopp Fdiv Finv FT two_nz) as KC.
  assert (M1 : - (1) * - (1) = 1) by ring. assert (P1 : 1 * 1 = 1) by ring.
  destruct (Fdec u 1) as [U1|U1]; [|destruct (Fdec u (- (1))) as [U2|U2]].
  - left. exists (1, 0). split; [unfold on_curve; ring|]. apply KC; [exact P1|now left|]. cbn [snd]. rewrite U1. ring.
  - right. exists (1, 0). split; [unfold on_curve; ring|]. apply KC; [exact M1|now left|]. cbn [snd]. rewrite U2. ring.
  - assert (N1 : u - 1 <> 0) by (intros H; apply U1; now apply Fsub_0).
    assert (N2 : u + 1 <> 0) by (intros H; apply U2; apply Fsub_0; rewrite <- H; ring).
    set (y := (u - 1) / (u + 1)).
    assert (Y1 : 1 - y * y <> 0).
    { replace (1 - y * y) with ((1+1)*(1+1)*u / ((u+1)*(u+1))) by (unfold y; field; exact N2). intros H.
      assert (Z : (1+1)*(1+1)*u = 0); [|revert Z; repeat apply Fmul_nz; try exact two_nz; exact Hu].
      transitivity ((1+1)*(1+1)*u / ((u+1)*(u+1)) * ((u+1)*(u+1))); [field; exact N2|]. rewrite H. ring. }
    assert (Y2 : nb - na * (y * y) <> 0).
    { intros H. apply (dm_nonsquare y). unfold dm. apply Fsub_0. transitivity (- (nb - na * (y*y)) / na); [field; exact na_nz|]. rewrite H. field. exact na_nz. }
    assert (Ey : y <> 0).
    { intros H. apply N1. transitivity (y * (u + 1)); [unfold y; field; exact N2|]. rewrite H. ring. }
    set (a := nb * (1 - y * y) / (nb - na * (y * y))).
    assert (Ha : a <> 0).
    { intros H. apply (Fmul_nz _ _ nb_nz Y1). transitivity (a * (nb - na * (y*y))); [unfold a; field; exact Y2|]. rewrite H. ring. }
    assert (A1 : a * (nb - na * (y*y)) = nb * (1 - y*y)) by (unfold a; field; exact Y2).
    destruct (square_or a Ha) as (s & [S|S]).
    + left. exists (s, y). split.
      * unfold on_curve. apply Fsub_0. transitivity ((s*s) * (1 - dp * (y*y)) + y*y - 1); [ring|]. rewrite S. unfold dp.
        transitivity ((a * (nb - na * (y*y)) - nb * (1 - y*y)) / nb); [field; exact nb_nz|]. rewrite A1. field. exact nb_nz.
      * apply KC; [exact P1|now left|]. cbn [snd]. unfold y. field. exact N2.
    + right. set (x := im * s * root_d / nb). exists (x, 1 / y).
      assert (X : x * x = a * (na / nb)).
      { unfold x. transitivity (im * im * (s * s) * (root_d * root_d) / (nb * nb)); [field; exact nb_nz|]. rewrite S, root_sq.
        transitivity ((im * im) * (im * im) * a * na / nb); [field; exact nb_nz|]. rewrite im_sq. field. exact nb_nz. }
      split.
      * unfold on_curve. apply Fsub_0. transitivity ((x*x) * (1 - dm / (y*y)) + 1 / (y*y) - 1); [field; exact Ey|]. rewrite X. unfold dm.
        transitivity ((nb * (1 - y*y) - a * (nb - na * (y*y))) / (nb * (y*y))); [field; repeat split; first [exact Ey|exact na_nz|exact nb_nz]|].
        rewrite A1. field. repeat split; first [exact Ey|exact nb_nz].
      * apply KC; [exact M1|now left|]. cbn [snd]. unfold y. field. repeat split; first [exact N2|exact N1].
Qed.

(** ** The ladder *)
Lemma T_fadd : forall a b, T (fadd a b) = T a + T b. Proof. intros. unfold fadd. now rewrite T_mod, T_add. Qed.
Lemma T_fsub : forall a b, T (fsub a b) = T a - T b. Proof. intros. unfold fsub. now rewrite T_mod, T_sub. Qed.
Lemma T_fmult : forall a b, T (fmult a b) = T a * T b. Proof. intros. unfold fmult. now rewrite T_mod, T_mul. Qed.
Notation Dblx := (dbl_x F Fadd Fmul Fsub).
Notation Dblz := (dbl_z F Fadd Fmul Fsub na).
Notation Daddx := (dadd_x F Fadd Fmul Fsub).
Notation Daddz := (dadd_z F Fadd Fmul Fsub).
Lemma step_T : forall x1 b s, let s' := cswap (xorb (ls_swap s) b) s in let r := ladder_step x1 b s in
  T (ls_x2 r) = Dblx (T (ls_x2 s')) (T (ls_z2 s')) /\ T (ls_z2 r) = Dblz (T (ls_x2 s')) (T (ls_z2 s')) /\
  T (ls_x3 r) = Daddx (T (ls_x2 s')) (T (ls_z2 s')) (T (ls_x3 s')) (T (ls_z3 s')) /\
  T (ls_z3 r) = Daddz (T x1) (T (ls_x2 s')) (T (ls_z2 s')) (T (ls_x3 s')) (T (ls_z3 s')) /\ ls_swap r = b.
Proof.
  intros x1 b s s' r. unfold r, ladder_step. fold s'. cbv zeta. cbn [ls_x2 ls_z2 ls_x3 ls_z3 ls_swap].
  unfold dbl_x, dbl_z, dadd_x, dadd_z. rewrite ?T_fmult, ?T_fadd, ?T_fsub, ?T_fmult, ?T_fadd, ?T_fsub, ?T_fmult, ?T_fadd, ?T_fsub, ?T_fmult, ?T_fadd, ?T_fsub. change (T a24) with na. auto.
Qed.

Section Ladder.
Variables (e d : F).
Hypothesis sign : (e = 1 /\ (1 + na) * (1 - d) = 1) \/ (e = - (1) /\ na * (1 - d) = - (1)).
Hypothesis nonsq : forall z, z * z <> d.
Notation add := (eadd F F1 Fadd Fmul Fsub Fdiv d).
Notation mul := (emul F F0 F1 Fadd Fmul Fsub Fdiv d).
Notation neg := (eneg F Fopp).
Notation KumE := (Kum e).
Let a24_nz : na <> 0 /\ 1 + na <> 0.
Proof. split; [exact na_nz|]. rewrite <- na_1. exact nb_nz. Qed.
Lemma add_assoc : forall P Q R, curve d P -> curve d Q -> curve d R -> add (add P Q) R = add P (add Q R).
Proof. exact (eadd_assoc F F0 F1 Fadd Fmul Fsub Fopp Fdiv Finv FT Fdec d two_nz nonsq). Qed.
Lemma add_comm : forall P Q, add P Q = add Q P. Proof. exact (eadd_comm F F0 F1 Fadd Fmul Fsub Fopp Fdiv Finv FT d). Qed.
Lemma mul_curve : forall n P, curve d P -> curve d (mul n P).
Proof. exact (emul_curve F F0 F1 Fadd Fmul Fsub Fopp Fdiv Finv FT Fdec d two_nz nonsq). Qed.
Lemma mul_add : forall n m P, curve d P -> mul (n + m)%nat P = add (mul n P) (mul m P).
Proof. exact (emul_add F F0 F1 Fadd Fmul Fsub Fopp Fdiv Finv FT Fdec d two_nz nonsq). Qed.
Lemma mul_comm : forall n m P, curve d P -> mul n (mul m P) = mul m (mul n P).
Proof. exact (emul_comm F F0 F1 Fadd Fmul Fsub Fopp Fdiv Finv FT Fdec d two_nz nonsq). Qed.
Lemma neg_curve : forall P, curve d P -> curve d (neg P).
Proof. exact (eneg_curve F F0 F1 Fadd Fmul Fsub Fopp Fdiv Finv FT d). Qed.
Lemma add_neg : forall P, curve d P -> add P (neg P) = eO F F0 F1.
Proof. exact (eadd_neg F F0 F1 Fadd Fmul Fsub Fopp Fdiv Finv FT Fdec d two_nz nonsq). Qed.
Lemma add_O : forall P, add P (eO F F0 F1) = P. Proof. exact (eadd_O F F0 F1 Fadd Fmul Fsub Fopp Fdiv Finv FT d). Qed.
Lemma kum_dbl : forall P X Z, curve d P -> KumE P X Z -> KumE (add P P) (Dblx X Z) (Dblz X Z).
Proof. exact (dbl_ok F F0 F1 Fadd Fmul Fsub Fopp Fdiv Finv FT Fdec d two_nz nonsq e na sign). Qed.
Lemma kum_dadd : forall P Q D u X2 Z2 X3 Z3, curve d P -> curve d Q -> D = add Q (neg P) ->
  u <> 0 -> KumE D u 1 -> KumE P X2 Z2 -> KumE Q X3 Z3 -> KumE (add P Q) (Daddx X2 Z2 X3 Z3) (Daddz u X2 Z2 X3 Z3).
Proof. exact (dadd_ok F F0 F1 Fadd Fmul Fsub Fopp Fdiv Finv FT Fdec d two_nz nonsq e na sign). Qed.

Variable P : Point.
Variable u : Z.
Hypothesis HP : curve d P.
Hypothesis Hu : T u <> 0.
Hypothesis HK : KumE P (T u) 1.
Lemma diff_1 : forall n, add (mul (S n) P) (neg (mul n P)) = P.
Proof.
  intros n. cbn [emul]. rewrite (add_comm (mul n P) P), add_assoc by auto using mul_curve, neg_curve. rewrite add_neg by auto using mul_curve. apply add_O.
Qed.
Lemma diff_2 : forall n, snd (add (mul n P) (neg (mul (S n) P))) = snd P.
Proof.
  intros n. assert (E : snd (add (mul n P) (neg (mul (S n) P))) = snd (add (mul (S n) P) (neg (mul n P)))).
  { destruct (mul n P) as [x1 y1]. destruct (mul (S n) P) as [x2 y2]. cbn [eadd eneg fst snd]. f_equal; ring. }
  rewrite E. now rewrite diff_1.
Qed.
Definition holds (s : ladder_state) (n : nat) : Prop :=
  let s := cswap (ls_swap s) s in
  KumE (mul n P) (T (ls_x2 s)) (T (ls_z2 s)) /\ KumE (mul (S n) P) (T (ls_x3 s)) (T (ls_z3 s)).
Lemma holds_step : forall b s n, holds s n -> holds (ladder_step u b s) (2 * n + Nat.b2n b)%nat.
Proof.
  intros b s n [H1 H2]. destruct (step_T u b s) as (E1 & E2 & E3 & E4 & E5).
  assert (Es : cswap (xorb (ls_swap s) b) s = let s' := cswap (ls_swap s) s in if b then LS (ls_x3 s') (ls_z3 s') (ls_x2 s') (ls_z2 s') (ls_swap s) else s').
  { destruct s as [? ? ? ? []], b; reflexivity. }
  rewrite Es in E1, E2, E3, E4. cbv zeta in *. set (s' := cswap (ls_swap s) s) in *. set (r := ladder_step u b s) in *.
  unfold holds. rewrite E5. clear Es E5. clearbody s' r.
  assert (D0 : mul (2 * n) P = add (mul n P) (mul n P)) by (replace (2 * n)%nat with (n + n)%nat by lia; now apply mul_add).
  assert (D1 : mul (2 * n + 1) P = add (mul n P) (mul (S n) P)) by (replace (2 * n + 1)%nat with (n + S n)%nat by lia; now apply mul_add).
  assert (D2 : mul (S (2 * n + 1)) P = add (mul (S n) P) (mul (S n) P)) by (replace (S (2 * n + 1))%nat with (S n + S n)%nat by lia; now apply mul_add).
  destruct b; cbn [Nat.b2n cswap ls_x2 ls_z2 ls_x3 ls_z3] in *.
  - rewrite D1, D2, E1, E2, E3, E4. split.
    + rewrite add_comm. apply (kum_dadd (mul (S n) P) (mul n P) (add (mul n P) (neg (mul (S n) P)))); auto using mul_curve.
      unfold kum in *. rewrite diff_2. exact HK.
    + apply kum_dbl; auto using mul_curve.
  - rewrite Nat.add_0_r. replace (S (2 * n)) with (2 * n + 1)%nat by lia. rewrite D0, D1, E1, E2, E3, E4. split.
    + apply kum_dbl; auto using mul_curve.
    + apply (kum_dadd (mul n P) (mul (S n) P) P); auto using mul_curve. symmetry. apply diff_1.
Qed.
Lemma holds_ladder : forall t k s n, (0 <= k)%Z -> holds s n ->
  holds (ladder t k u s) (n * 2 ^ t + Z.to_nat (k mod 2 ^ Z.of_nat t))%nat.
Proof.
  induction t as [|t IH]; intros k s n Hk H; cbn [ladder].
  - change (2 ^ Z.of_nat 0)%Z with 1%Z. rewrite Z.mod_1_r. cbn [Nat.pow Z.to_nat]. now rewrite Nat.mul_1_r, Nat.add_0_r.
  - pose proof (holds_step (Z.testbit k (Z.of_nat t)) s n H) as H1. apply (IH k) in H1; [|exact Hk].
    match type of H1 with holds _ ?a => match goal with |- holds _ ?b => replace b with a end end; [exact H1|].
    rewrite Nat2Z.inj_succ, <- Z.add_1_r, Z.pow_add_r by lia. change (2 ^ 1)%Z with 2%Z.
    rewrite Z.rem_mul_r by lia. rewrite Z2Nat.inj_add by (try apply Z.mul_nonneg_nonneg; try apply Z.mod_pos_bound; lia).
    rewrite Z2Nat.inj_mul by (try apply Z.mod_pos_bound; lia). rewrite Z.testbit_spec' || idtac.
    assert (B : Z.to_nat ((k / 2 ^ Z.of_nat t) mod 2) = Nat.b2n (Z.testbit k (Z.of_nat t))).
    { rewrite <- Z.testbit_spec' by lia. destruct (Z.testbit k (Z.of_nat t)); reflexivity. }
    rewrite B. assert (Q : Z.to_nat (2 ^ Z.of_nat t) = (2 ^ t)%nat) by (rewrite <- (Nat2Z.id (2 ^ t)%nat); f_equal; rewrite Nat2Z.inj_pow; reflexivity).
    rewrite Q. cbn [Nat.pow]. lia.
Qed.

(** The u-coordinate, 0 for the neutral point *)
Definition ucoord (Q : Point) : F := (1 + snd Q) * Finv (e * (1 - snd Q)).
Lemma e_nz' : e <> 0. Proof. exact (e_nz F F0 F1 Fadd Fmul Fsub Fopp Fdiv Finv FT d e na sign). Qed.
Lemma ucoord_kum : forall Q X Z, KumE Q X Z -> X * Finv Z = ucoord Q.
Proof.
  intros Q X Z (l & L & -> & ->). unfold ucoord. destruct (Fdec (1 - snd Q) 0) as [E|E].
  - rewrite E. replace (e * (l * 0)) with 0 by ring. replace (e * 0) with 0 by ring. rewrite Finv_0. ring.
  - field. repeat split; auto using e_nz'.
Qed.
Lemma start_holds : holds (LS 1 0 u 1 false) 0.
Proof.
  unfold holds. cbn [cswap ls_x2 ls_z2 ls_x3 ls_z3 ls_swap emul]. split.
  - exists (1 / (1 + 1)). split; [|cbn [eO snd]; rewrite <- F0_T, <- F1_T; split; [field|field]; exact two_nz].
    intros H. apply one_nz. transitivity ((1 + 1) * (1 / (1 + 1))); [field; exact two_nz|]. rewrite H. ring.
  - rewrite add_comm, add_O. rewrite <- F1_T. exact HK.
Qed.
Lemma number_ucoord : forall k, (0 <= k < 2^255)%Z -> T (x25519_number k u) = ucoord (mul (Z.to_nat k) P).
Proof.
  intros k Hk. unfold x25519_number. cbv zeta. pose proof (holds_ladder 255 k _ 0%nat (proj1 Hk) start_holds) as [H _].
  rewrite Nat.mul_0_l, Nat.add_0_l in H. change (2 ^ Z.of_nat 255)%Z with (2 ^ 255)%Z in H. rewrite Z.mod_small in H by exact Hk.
  rewrite T_fmult, T_inv. now apply ucoord_kum.
Qed.
End Ladder.

(** ** u = 0 *)
Lemma zero_ladder : forall t k u s, T u = 0 -> T (ls_z2 s) = 0 -> T (ls_z3 s) = 0 ->
  T (ls_z2 (ladder t k u s)) = 0 /\ T (ls_z3 (ladder t k u s)) = 0.
Proof.
  induction t as [|t IH]; intros k u s Hu H2 H3; cbn [ladder]; [auto|].
  destruct (step_T u (Z.testbit k (Z.of_nat t)) s) as (_ & E2 & _ & E4 & _). apply IH; [exact Hu| |].
  - rewrite E2. assert (Z : T (ls_z2 (cswap (xorb (ls_swap s) (Z.testbit k (Z.of_nat t))) s)) = 0) by (unfold cswap; destruct (xorb _ _); assumption).
    rewrite Z. unfold dbl_z. ring.
  - rewrite E4, Hu. unfold dadd_z. ring.
Qed.
Lemma zero_first : forall t k u, T u = 0 -> T (ls_z2 (ladder (S t) k u (LS 1 0 u 1 false))) = 0 /\ T (ls_z3 (ladder (S t) k u (LS 1 0 u 1 false))) = 0.
Proof.
  intros t k u Hu. cbn [ladder].
  destruct (step_T u (Z.testbit k (Z.of_nat t)) (LS 1 0 u 1 false)) as (_ & E2 & _ & E4 & _).
  set (s := ladder_step u (Z.testbit k (Z.of_nat t)) (LS 1 0 u 1 false)) in *.
  apply zero_ladder; [exact Hu| |].
  - rewrite E2. destruct (Z.testbit k (Z.of_nat t)); cbn [xorb cswap ls_swap ls_x2 ls_z2 ls_x3 ls_z3]; rewrite ?Hu, <- ?F0_T, <- ?F1_T; unfold dbl_z; ring.
  - rewrite E4, Hu. unfold dadd_z. ring.
Qed.
Lemma zero_number : forall k u, T u = 0 -> T (x25519_number k u) = 0.
Proof.
  intros k u Hu. unfold x25519_number. cbv zeta. destruct (zero_first 254 k u Hu) as [Z2 Z3]. set (r := ladder _ _ _ _) in *. clearbody r.
  rewrite T_fmult, T_inv. assert (Z : T (ls_z2 (cswap (ls_swap r) r)) = 0) by (unfold cswap; destruct (ls_swap r); assumption).
  rewrite Z, Finv_0. ring.
Qed.

(** ** Two scalars *)
Lemma div_1 : forall a, a / 1 = a.
Proof. intros a. transitivity (a * (Finv 1 * 1)); [rewrite (Fdiv_def FT); ring|]. rewrite (Finv_l FT) by exact one_nz. ring. Qed.
Section Two.
Variables (e d : F).
Hypothesis sign : (e = 1 /\ (1 + na) * (1 - d) = 1) \/ (e = - (1) /\ na * (1 - d) = - (1)).
Hypothesis nonsq : forall z, z * z <> d.
Notation mul := (emul F F0 F1 Fadd Fmul Fsub Fdiv d).
Definition low (Q : Point) : Prop := fst Q = 0 /\ (snd Q = 1 \/ snd Q = - (1)).
Lemma low_mul : forall n Q, low Q -> low (mul n Q).
Proof.
  intros n [x y] [X Y]. cbn [fst snd] in *. subst x. induction n as [|n [IX IY]]; cbn [emul].
  - split; [reflexivity|now left].
  - destruct (mul n (0, y)) as [x1 y1]. cbn [fst snd eadd] in *. subst x1.
    split; cbn [fst snd].
    + transitivity (0 / 1); [f_equal; ring|apply div_1].
    + assert (E : (y1 * y - 0 * 0) / (1 - d * 0 * 0 * y1 * y) = y1 * y) by (transitivity ((y1 * y) / 1); [f_equal; ring|apply div_1]).
      rewrite E. destruct IY as [->| ->], Y as [->| ->]; [left|right|right|left]; ring.
Qed.
Lemma low_ucoord : forall Q, low Q -> ucoord e Q = 0.
Proof.
  intros [x y] [X Y]. cbn [fst snd] in *. unfold ucoord. cbn [snd]. destruct Y as [->| ->].
  - replace (e * (1 - 1)) with 0 by ring. rewrite Finv_0. ring.
  - ring.
Qed.
Lemma ucoord_low : forall Q, curve d Q -> ucoord e Q = 0 -> low Q.
Proof.
  intros [x y] HQ H. unfold ucoord in H. cbn [snd] in H. assert (N1 : 1 - d <> 0) by (intros N; apply (nonsq 1); apply Fsub_0; rewrite <- N; ring).
  pose proof (e_nz' e d sign) as He.
  assert (Y : y = 1 \/ y = - (1)).
  { apply Fintegral in H. destruct H as [H|H]; [right; apply Fsub_0; rewrite <- H; ring|left].
    destruct (Fdec (1 - y) 0) as [E|E]; [symmetry; now apply Fsub_0|]. exfalso. apply one_nz.
    transitivity ((e * (1 - y)) * Finv (e * (1 - y))); [field; auto|]. rewrite H. ring. }
  split; [|exact Y]. cbn [fst]. unfold on_curve in HQ. assert (YY : y * y = 1) by (destruct Y as [->| ->]; ring).
  assert (X : x * x * (1 - d) = 0).
  { transitivity (x*x + y*y - (1 + d*x*x*y*y)); [transitivity (x*x + 1 - (1 + d*x*x*1)); [ring|rewrite <- YY; ring]|rewrite HQ; ring]. }
  apply Fintegral in X. destruct X as [X|X]; [|contradiction]. apply Fintegral in X. now destruct X.
Qed.
Lemma number_twice : forall P u a b, curve d P -> T u <> 0 -> Kum e P (T u) 1 -> (0 <= a < 2^255)%Z -> (0 <= b < 2^255)%Z ->
  T (x25519_number a (x25519_number b u)) = ucoord e (mul (Z.to_nat a) (mul (Z.to_nat b) P)).
Proof.
  intros P u a b HP Hu HK Ha Hb. pose proof (number_ucoord e d sign nonsq P u HP Hu HK b Hb) as Hv.
  pose proof (mul_curve d nonsq (Z.to_nat b) P HP) as HQ. set (Q := mul (Z.to_nat b) P) in *. set (v := x25519_number b u) in *. clearbody v Q.
  destruct (Fdec (T v) 0) as [E|E].
  - rewrite zero_number by exact E. symmetry. apply low_ucoord, low_mul, ucoord_low; [exact HQ|]. now rewrite <- Hv.
  - apply (number_ucoord e d sign nonsq Q v HQ E); [|exact Ha]. pose proof (e_nz' e d sign) as He.
    assert (N : 1 - snd Q <> 0).
    { intros N. apply E. rewrite Hv. unfold ucoord. rewrite N. replace (e * 0) with 0 by ring. rewrite Finv_0. ring. }
    exists (1 / (e * (1 - snd Q))). split; [|split].
    + intros Z. apply one_nz. transitivity ((e * (1 - snd Q)) * (1 / (e * (1 - snd Q)))); [field; auto|]. rewrite Z. ring.
    + rewrite Hv. unfold ucoord. field. auto.
    + field. auto.
Qed.
Lemma number_swap : forall P u a b, curve d P -> T u <> 0 -> Kum e P (T u) 1 -> (0 <= a < 2^255)%Z -> (0 <= b < 2^255)%Z ->
  T (x25519_number a (x25519_number b u)) = T (x25519_number b (x25519_number a u)).
Proof. intros P u a b HP Hu HK Ha Hb. rewrite !(number_twice P u) by assumption. f_equal. now apply mul_comm. Qed.
End Two.

Lemma sign_p : (1 + na) * (1 - dp) = 1.
Proof. rewrite <- na_1. unfold dp. transitivity (nb - na); [field; exact nb_nz|]. rewrite na_1. ring. Qed.
Lemma sign_m : na * (1 - dm) = - (1).
Proof. unfold dm. transitivity (na - nb); [field; exact na_nz|]. rewrite na_1. ring. Qed.
Lemma number_comm_T : forall a b u, (0 <= a < 2^255)%Z -> (0 <= b < 2^255)%Z ->
  T (x25519_number a (x25519_number b u)) = T (x25519_number b (x25519_number a u)).
Proof.
  intros a b u Ha Hb. destruct (Fdec (T u) 0) as [Z|Z].
  - rewrite (zero_number a), (zero_number b); [reflexivity| |]; apply zero_number; exact Z.
  - destruct (base_point (T u) Z) as [(P & HP & HK)|(P & HP & HK)].
    + exact (number_swap 1 dp (or_introl (conj eq_refl sign_p)) dp_nonsquare P u a b HP Z HK Ha Hb).
    + exact (number_swap (- (1)) dm (or_intror (conj eq_refl sign_m)) dm_nonsquare P u a b HP Z HK Ha Hb).
Qed.
Lemma number_range : forall k u, (0 <= x25519_number k u < p25519)%Z.
Proof. intros k u. unfold x25519_number. cbv zeta. unfold fmult. apply Z.mod_pos_bound. reflexivity. Qed.
Theorem number_comm : forall a b u, (0 <= a < 2^255)%Z -> (0 <= b < 2^255)%Z ->
  x25519_number a (x25519_number b u) = x25519_number b (x25519_number a u).
Proof.
  intros a b u Ha Hb. pose proof (number_comm_T a b u Ha Hb) as E. apply T_eq in E.
  pose proof (number_range a (x25519_number b u)) as R1. pose proof (number_range b (x25519_number a u)) as R2.
  rewrite !Z.mod_small in E by assumption. exact E.
Qed.
