(** The point with u = 9 has order l, so the multiples of it that X25519
    computes are not null. *)
From Coq Require Import Znumtheory Field Ring.
From Verif Require Import Base SBlake2 SX25519 PPrime PPrimeL PField PEdwards PX25519d.
Local Close Scope fp_scope.
Local Open Scope Z_scope.

(** ** A ladder that is fast to compute
    The numbers are reduced below 2^256 or so only. *)
Definition red (z : Z) : Z := let z := Z.land z (Z.ones 255) + 19 * Z.shiftr z 255 in Z.land z (Z.ones 255) + 19 * Z.shiftr z 255.
Lemma T_red1 : forall z, T (Z.land z (Z.ones 255) + 19 * Z.shiftr z 255) = T z.
Proof.
  intros z. apply T_eq. rewrite Z.land_ones, Z.shiftr_div_pow2 by lia. rewrite (Z_div_mod_eq_full z (2^255)) at 3.
  unfold p25519. set (q := z / 2^255). set (r := z mod 2^255).
  replace (2^255 * q + r) with (r + 19 * q + q * (2^255 - 19)) by ring. symmetry. apply Z_mod_plus_full.
Qed.
Lemma T_red : forall z, T (red z) = T z.
Proof. intros z. unfold red. cbv zeta. now rewrite !T_red1. Qed.
Definition rmult (a b : Z) : Z := red (a * b).
Lemma T_rmult : forall a b, T (rmult a b) = Fmul (T a) (T b).
Proof. intros. unfold rmult. now rewrite T_red, T_mul. Qed.
Definition fast_step (x_1 : Z) (k_t : bool) (s : ladder_state) : ladder_state :=
  let swap := xorb (ls_swap s) k_t in
  let s := cswap swap s in
  let A := ls_x2 s + ls_z2 s in
  let AA := rmult A A in
  let B := ls_x2 s - ls_z2 s in
  let BB := rmult B B in
  let E := AA - BB in
  let C := ls_x3 s + ls_z3 s in
  let D := ls_x3 s - ls_z3 s in
  let DA := rmult D A in
  let CB := rmult C B in
  LS (rmult AA BB) (rmult E (AA + a24 * E)) (rmult (DA + CB) (DA + CB)) (rmult x_1 (rmult (DA - CB) (DA - CB))) k_t.
Fixpoint fast (bits : nat) (k x_1 : Z) (s : ladder_state) : ladder_state :=
  match bits with O => s | S t => fast t k x_1 (fast_step x_1 (Z.testbit k (Z.of_nat t)) s) end.
Definition same (s s' : ladder_state) : Prop :=
  T (ls_x2 s) = T (ls_x2 s') /\ T (ls_z2 s) = T (ls_z2 s') /\ T (ls_x3 s) = T (ls_x3 s') /\ T (ls_z3 s) = T (ls_z3 s') /\ ls_swap s = ls_swap s'.
Lemma same_cswap : forall b s s', same s s' -> same (cswap b s) (cswap b s').
Proof. intros b s s' (H1 & H2 & H3 & H4 & H5). destruct b; unfold same, cswap; cbn [ls_x2 ls_z2 ls_x3 ls_z3 ls_swap]; auto. Qed.
Lemma same_step : forall x b s s', same s s' -> same (fast_step x b s) (ladder_step x b s').
Proof.
  intros x b s s' H. destruct (step_T x b s') as (E1 & E2 & E3 & E4 & E5). pose proof H as (_ & _ & _ & _ & Hs). rewrite <- Hs in *.
  apply (same_cswap (xorb (ls_swap s) b)) in H. destruct H as (H1 & H2 & H3 & H4 & _).
  unfold same. rewrite E1, E2, E3, E4, E5. unfold fast_step. cbv zeta. cbn [ls_x2 ls_z2 ls_x3 ls_z3 ls_swap].
  set (c := cswap (xorb (ls_swap s) b) s) in *. set (c' := cswap (xorb (ls_swap s) b) s') in *. clearbody c c'.
  unfold dbl_x, dbl_z, dadd_x, dadd_z. rewrite <- H1, <- H2, <- H3, <- H4.
  repeat rewrite ?T_rmult, ?T_add, ?T_sub, ?T_mul. change (T a24) with na. auto.
Qed.
Lemma same_fast : forall t k x s s', same s s' -> same (fast t k x s) (ladder t k x s').
Proof. induction t as [|t IH]; intros k x s s' H; cbn [fast ladder]; [exact H|]. apply IH. now apply same_step. Qed.

(** ** A ladder ending in X = 0 or Z = 0 gives the null value *)
Definition ends_null (s : ladder_state) : bool :=
  let s := cswap (ls_swap s) s in (ls_x2 s mod p25519 =? 0) || (ls_z2 s mod p25519 =? 0).
Lemma T_null : forall z, z mod p25519 = 0 -> T z = F0.
Proof. intros z H. rewrite F0_T. apply T_eq. now rewrite H. Qed.
Lemma number_null : forall k u r, r = ladder 255 k u (LS 1 0 u 1 false) -> ends_null r = true -> T (x25519_number k u) = F0.
Proof.
  intros k u r R H. unfold x25519_number. cbv zeta. rewrite <- R. clear R. unfold ends_null in H. set (s := cswap (ls_swap r) r) in *. clearbody s.
  cbv zeta in H. rewrite T_fmult, T_inv.
  apply orb_true_iff in H. destruct H as [H|H]; apply Z.eqb_eq in H; apply T_null in H; rewrite H.
  - ring.
  - rewrite Finv_0. ring.
Qed.
Lemma ends_same : forall s s', same s s' -> ends_null s = ends_null s'.
Proof.
  intros s s' H. unfold ends_null. cbv zeta. pose proof H as (_ & _ & _ & _ & E). rewrite <- E. apply (same_cswap (ls_swap s)) in H.
  destruct H as (H1 & H2 & _). apply T_eq in H1, H2. now rewrite H1, H2.
Qed.
Definition ends_O (s : ladder_state) : bool :=
  let s := cswap (ls_swap s) s in ls_z2 s mod p25519 =? 0.
Lemma order_O : ends_O (fast 255 order_l 9 (LS 1 0 9 1 false)) = true.
Proof. vm_cast_no_check (eq_refl true). Qed.
Lemma ends_O_null : forall s, ends_O s = true -> ends_null s = true.
Proof. intros s H. unfold ends_O in H. unfold ends_null. cbv zeta in *. rewrite H. apply orb_true_r. Qed.
Lemma ends_O_T : forall s s', same s s' -> ends_O s = true -> T (ls_z2 (cswap (ls_swap s') s')) = F0.
Proof.
  intros s s' S H. unfold ends_O in H. cbv zeta in H. pose proof S as (_ & _ & _ & _ & E). rewrite <- E. apply (same_cswap (ls_swap s)) in S.
  destruct S as (_ & S & _). rewrite <- S. apply T_null. now apply Z.eqb_eq.
Qed.
Lemma order_null : ends_null (fast 255 order_l 9 (LS 1 0 9 1 false)) = true.
Proof. exact (ends_O_null _ order_O). Qed.
Lemma order_same : same (fast 255 order_l 9 (LS 1 0 9 1 false)) (ladder 255 order_l 9 (LS 1 0 9 1 false)).
Proof. apply same_fast. unfold same. auto. Qed.
Lemma order_T : T (ls_z2 (cswap (ls_swap (ladder 255 order_l 9 (LS 1 0 9 1 false))) (ladder 255 order_l 9 (LS 1 0 9 1 false)))) = F0.
Proof. exact (ends_O_T _ _ order_same order_O). Qed.
Lemma order_number : T (x25519_number order_l 9) = F0.
Proof.
  apply (number_null _ _ _ eq_refl). rewrite <- (ends_same (fast 255 order_l 9 (LS 1 0 9 1 false))); [exact order_null|].
  apply same_fast. unfold same. auto.
Qed.

(** ** Multiples of the point *)
Notation add := (eadd F F1 Fadd Fmul Fsub Fdiv dp).
Notation mul := (emul F F0 F1 Fadd Fmul Fsub Fdiv dp).
Notation neg := (eneg F Fopp).
Notation O_ := (eO F F0 F1).
Lemma low_double_at : forall d Q, low Q -> eadd F F1 Fadd Fmul Fsub Fdiv d Q Q = O_.
Proof.
  intros d [x y] [X Y]. cbn [fst snd] in X, Y. subst x. unfold eO. cbn [eadd]. apply (f_equal2 pair).
  - transitivity (Fdiv F0 F1); [f_equal; ring|]. apply div_1.
  - transitivity (Fdiv F1 F1); [f_equal; destruct Y as [->| ->]; ring|]. apply div_1.
Qed.
Lemma low_double : forall Q, low Q -> add Q Q = O_. Proof. exact (low_double_at dp). Qed.
Lemma mul_O : forall n, mul n O_ = O_.
Proof. induction n as [|n IH]; [reflexivity|]. cbn [emul]. rewrite IH. apply add_O. Qed.
Section Nine.
Variable P : Point.
Hypothesis HP : curve dp P.
Lemma mul_mul' : forall n m, mul n (mul m P) = mul (n * m)%nat P.
Proof. intros. exact (emul_mul F F0 F1 Fadd Fmul Fsub Fopp Fdiv Finv FT Fdec dp two_nz dp_nonsquare n m P HP). Qed.
Definition zmul (n : Z) : Point := mul (Z.to_nat n) P.
Lemma zmul_add : forall a b, 0 <= a -> 0 <= b -> zmul (a + b) = add (zmul a) (zmul b).
Proof. intros a b A B. unfold zmul. rewrite Z2Nat.inj_add by lia. now apply (mul_add dp dp_nonsquare). Qed.
Lemma zmul_null : forall a c, 0 <= a -> 0 <= c -> zmul a = O_ -> zmul (c * a) = O_.
Proof. intros a c A C H. unfold zmul in *. rewrite Z2Nat.inj_mul, <- mul_mul', H by lia. apply mul_O. Qed.
Lemma zmul_gcd : forall a b u v, 0 <= a -> 0 <= b -> u * a + v * b = 1 -> zmul (2 * a) = O_ -> zmul (2 * b) = O_ -> zmul 2 = O_.
Proof.
  intros a b u v A B E Ha Hb. set (t := Z.abs u + Z.abs v).
  assert (E2 : (u + t * b) * a = 1 + (t * a - v) * b) by (rewrite <- E; ring).
  destruct (Z.eq_dec b 0) as [->|B0]; [|destruct (Z.eq_dec a 0) as [->|A0]].
  - assert (A1 : a = 1) by (apply Z.divide_1_r_nonneg; [exact A|exists u; lia]). subst a. exact Ha.
  - assert (B1 : b = 1) by (apply Z.divide_1_r_nonneg; [exact B|exists v; lia]). subst b. exact Hb.
  - assert (U : 0 <= u + t * b) by (unfold t; clear - B0 B; nia). assert (V : 0 <= t * a - v) by (unfold t; clear - A0 A; nia).
    assert (X : zmul ((u + t * b) * (2 * a)) = O_) by (apply zmul_null; [lia|exact U|exact Ha]).
    assert (Y : zmul ((t * a - v) * (2 * b)) = O_) by (apply zmul_null; [lia|exact V|exact Hb]).
    replace ((u + t * b) * (2 * a)) with (2 + (t * a - v) * (2 * b)) in X.
    + rewrite zmul_add, Y, add_O in X; [exact X|lia|]. apply Z.mul_nonneg_nonneg; [exact V|lia].
    + replace ((u + t * b) * (2 * a)) with (2 * ((u + t * b) * a)) by ring. rewrite E2. ring.
Qed.
Hypothesis HK : Kum F1 P (T 9) F1.
Notation sgn := (or_introl (conj eq_refl sign_p) : (F1 = F1 /\ Fmul (Fadd F1 na) (Fsub F1 dp) = F1) \/ (F1 = Fopp F1 /\ Fmul na (Fsub F1 dp) = Fopp F1)).
Lemma nine_nz : T 9 <> F0.
Proof. rewrite F0_T. intros H. apply T_eq in H. vm_compute in H. discriminate. Qed.
Lemma number_zmul : forall k, 0 <= k < 2^255 -> T (x25519_number k 9) = ucoord F1 (zmul k).
Proof. intros k Hk. exact (number_ucoord F1 dp sgn dp_nonsquare P 9 HP nine_nz HK k Hk). Qed.
Lemma zmul_curve : forall k, curve dp (zmul k).
Proof. intros. now apply mul_curve; [exact dp_nonsquare|]. Qed.
Lemma null_zmul : forall k, 0 <= k < 2^255 -> T (x25519_number k 9) = F0 -> zmul (2 * k) = O_.
Proof.
  intros k Hk H. rewrite number_zmul in H by exact Hk. apply (ucoord_low F1 dp sgn dp_nonsquare) in H; [|apply zmul_curve].
  replace (2 * k) with (k + k) by lia. rewrite zmul_add by lia. now apply low_double.
Qed.
(** A multiple of the order is the neutral point *)
Lemma dp_not_1 : Fsub F1 dp <> F0.
Proof. intros H. apply (dp_nonsquare F1). transitivity F1; [ring|]. symmetry. transitivity (Fsub F1 (Fsub F1 dp)); [ring|]. rewrite H. ring. Qed.
Lemma snd_1 : forall d Q, Fsub F1 d <> F0 -> curve d Q -> Fsub F1 (snd Q) = F0 -> Q = O_.
Proof.
  intros d [x y] D C H. cbn [snd] in H. assert (Y : y = F1) by (transitivity (Fsub F1 (Fsub F1 y)); [ring|rewrite H; ring]). subst y.
  unfold on_curve in C. unfold eO. apply (f_equal2 pair); [|reflexivity].
  assert (X : Fmul (Fmul x x) (Fsub F1 d) = F0).
  { transitivity (Fsub (Fadd (Fmul x x) (Fmul F1 F1)) (Fadd F1 (Fmul (Fmul (Fmul (Fmul d x) x) F1) F1))); [ring|]. rewrite C. ring. }
  apply Fintegral in X. destruct X as [X|X]; [|contradiction]. apply Fintegral in X. destruct X; assumption.
Qed.
Lemma zmul_end : forall k, 0 <= k < 2^255 -> T (ls_z2 (cswap (ls_swap (ladder 255 k 9 (LS 1 0 9 1 false))) (ladder 255 k 9 (LS 1 0 9 1 false)))) = F0 -> zmul k = O_.
Proof.
  intros k Hk Hz.
  pose proof (holds_ladder F1 dp sgn dp_nonsquare P 9 HP nine_nz HK 255 k _ 0%nat (proj1 Hk) (start_holds F1 dp P 9 HK)) as [(l & L & _ & HZ) _].
  rewrite Nat.mul_0_l, Nat.add_0_l in HZ. change (2 ^ Z.of_nat 255) with (2 ^ 255) in HZ. rewrite Z.mod_small in HZ by exact Hk. fold (zmul k) in HZ.
  rewrite Hz in HZ. apply (snd_1 dp); [exact dp_not_1|apply zmul_curve|].
  assert (G : Fmul l (Fsub F1 (snd (zmul k))) = F0). { transitivity (Fmul F1 (Fmul l (Fsub F1 (snd (zmul k))))); [ring|]. symmetry. exact HZ. }
  apply Fintegral in G. destruct G as [G|G]; [contradiction|exact G].
Qed.
Lemma zmul_order : zmul order_l = O_.
Proof. apply zmul_end; [split; [discriminate|reflexivity]|exact order_T]. Qed.
Lemma two_null : zmul 2 <> O_.
Proof.
  intros H. change (zmul 2) with (zmul (1 + 1)) in H. rewrite zmul_add in H by lia. assert (E : zmul 1 = P) by (unfold zmul; change (Z.to_nat 1) with 1%nat; cbn [emul]; now rewrite (add_comm dp), add_O).
  rewrite E in H. assert (N : neg P = P).
  { transitivity (add (neg P) (add P P)); [now rewrite H, add_O|]. rewrite <- (add_assoc dp dp_nonsquare) by auto using neg_curve.
    rewrite (add_comm dp (neg P) P), (add_neg dp dp_nonsquare P HP), (add_comm dp). apply add_O. }
  destruct P as [x y]. unfold eneg in N. cbn [fst snd] in N. injection N as N. assert (X : x = F0).
  { assert (Z : Fmul (Fadd F1 F1) x = F0) by (transitivity (Fsub x (Fopp x)); [ring|rewrite N; ring]). apply Fintegral in Z. destruct Z as [Z|Z]; [|exact Z]. exact (False_ind _ (two_nz Z)). }
  apply nine_nz. pose proof (ucoord_kum F1 dp sgn (x, y) _ _ HK) as U.
  assert (L : low (x, y)).
  { split; [exact X|]. cbn [snd]. clear - HP X. unfold on_curve in HP. subst x. apply sq_factor. transitivity (Fadd (Fmul F0 F0) (Fmul y y)); [ring|]. rewrite HP. ring. }
  apply (low_ucoord F1) in L. rewrite L in U. rewrite <- U. transitivity (Fdiv (T 9) F1); [symmetry; apply div_1|apply (Fdiv_def FT)].
Qed.
Lemma clamped_not_null : forall m, 0 < m < 2^252 -> T (x25519_number (8 * m) 9) <> F0.
Proof.
  intros m Hm H. apply two_null. apply null_zmul in H; [|lia].
  assert (R : rel_prime (8 * m) order_l).
  { apply rel_prime_sym, prime_rel_prime; [exact prime_l|]. intros D. apply prime_mult in D; [|exact prime_l].
    destruct D as [D|D]; apply Z.divide_pos_le in D; try lia; unfold order_l in D; lia. }
  apply rel_prime_bezout in R. destruct R as [u v E].
  apply (zmul_gcd (8 * m) order_l u v); [lia|discriminate|exact E|exact H|]. apply null_zmul; [split; [discriminate|reflexivity]|exact order_number].
Qed.
End Nine.

(** The base point of Ed25519 on the curve with d = 121665/121666.  (The curve
    of Ed25519 itself has the x-coordinates divided by sqrt(-1).) *)
Definition base_x : Z := 15112221349535400772501151409588531511454012693041857206046113283949847762202.
Definition base_y : Z := 46316835694926478169428394003475163141307993866256225615783033603165251855960.
Definition B9 : Point := (Fmul im (T base_x), T base_y).
Lemma B9_curve : curve dp B9.
Proof.
  unfold on_curve, B9. assert (E : Fmul nb (Fadd (Fopp (Fmul (T base_x) (T base_x))) (Fmul (T base_y) (T base_y)))
    = Fsub nb (Fmul na (Fmul (Fmul (T base_x) (T base_x)) (Fmul (T base_y) (T base_y))))).
  { unfold na, nb. rewrite <- ?T_mul, <- ?T_opp, <- ?T_add, <- ?T_mul, <- ?T_sub. apply T_eq. vm_compute. reflexivity. }
  set (x := T base_x) in *. set (y := T base_y) in *. clearbody x y. unfold dp. apply Fsub_0.
  transitivity (Fdiv (Fsub (Fmul nb (Fadd (Fmul (Fmul im im) (Fmul x x)) (Fmul y y))) (Fadd nb (Fmul na (Fmul (Fmul (Fmul im im) (Fmul x x)) (Fmul y y))))) nb); [field; exact nb_nz|].
  rewrite im_sq. transitivity (Fdiv (Fsub (Fmul nb (Fadd (Fopp (Fmul x x)) (Fmul y y))) (Fsub nb (Fmul na (Fmul (Fmul x x) (Fmul y y))))) nb); [field; exact nb_nz|].
  rewrite E. field. exact nb_nz.
Qed.
Lemma B9_kum : Kum F1 B9 (T 9) F1.
Proof.
  apply (kum_cross F F0 F1 Fadd Fmul Fsub Fopp Fdiv Finv FT two_nz); [ring|right; exact one_nz|]. unfold B9. cbn [snd].
  rewrite F1_T, <- ?T_sub, <- ?T_add, <- ?T_mul. apply T_eq. vm_compute. reflexivity.
Qed.
(** The private keys of X25519 give public keys different from 0. *)
Theorem base_not_null : forall m, 0 < m < 2^252 -> x25519_number (8 * m) 9 <> 0.
Proof.
  intros m Hm H. apply (clamped_not_null B9 B9_curve B9_kum m Hm). rewrite H. symmetry. exact F0_T.
Qed.
