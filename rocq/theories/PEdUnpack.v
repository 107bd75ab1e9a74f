(** Decoding of points by src/crypto/ed25519: ed25519-donna-impl-base.h:191-239 *)
From Coq Require Import Field Ring.
From Verif Require Import Base MHash MSha2 MBlake2 SSha2 SBlake2 PSha2 PSha2b PBlake2 PChaCha PGhash PHash2 PField MX25519 SX25519 SEd25519 PPoly1305 PPrime PPrimeL MEdTable MEd25519 MEdSlide MEdSign PEdwards PEdRep PX25519 PX25519b PX25519c PX25519d PX25519e PX25519f PEd25519 PEd25519b PEdTable PEd25519c PEd25519d PModm PEdSpec.
Local Close Scope fp_scope.
Local Open Scope Z_scope.

(** ** The comparison *)
Lemma lor_byte : forall a b, 0 <= a < 256 -> 0 <= b < 256 -> 0 <= Z.lor a b < 256.
Proof.
  intros a b A B. split; [apply Z.lor_nonneg; lia|]. destruct (Z.eq_dec (Z.lor a b) 0) as [->|N]; [lia|].
  assert (0 <= Z.lor a b) by (apply Z.lor_nonneg; lia). change 256 with (2 ^ 8). apply Z.log2_lt_pow2; [lia|]. rewrite Z.log2_lor by lia.
  apply Z.max_lub_lt.
  - destruct (Z.eq_dec a 0) as [->|Na]; [reflexivity|]. apply Z.log2_lt_pow2; lia.
  - destruct (Z.eq_dec b 0) as [->|Nb]; [reflexivity|]. apply Z.log2_lt_pow2; lia.
Qed.
Lemma different_ok : forall x y d, bytes x -> bytes y -> length x = length y -> 0 <= d < 256 ->
  let r := fold_left (fun d xy => Z.lor d (Z.lxor (fst xy) (snd xy))) (combine x y) d in
  0 <= r < 256 /\ (r = 0 <-> d = 0 /\ x = y).
Proof.
  induction x as [|a x IH]; intros [|b y] d Bx By L Hd; try discriminate; cbn [combine fold_left fst snd].
  - split; [exact Hd|]. split; [intros ->; auto|intros [-> _]; reflexivity].
  - inversion Bx as [|? ? Ha Bx']; subst. inversion By as [|? ? Hb By']; subst. injection L as L. pose proof (lxor_byte a b Ha Hb) as X. unfold is_byte in X.
    destruct (IH y (Z.lor d (Z.lxor a b)) Bx' By' L (lor_byte d _ Hd X)) as [R E]. split; [exact R|]. rewrite E. rewrite Z.lor_eq_0_iff, Z.lxor_eq_0_iff. split.
    + intros ((-> & ->) & ->). auto.
    + intros (-> & Q). injection Q as -> ->. auto.
Qed.
Lemma verify_ok : forall x y, bytes x -> bytes y -> length x = length y -> ed25519_verify x y = true <-> x = y.
Proof.
  intros x y Bx By L. unfold ed25519_verify. destruct (different_ok x y 0 Bx By L ltac:(lia)) as [R E]. cbv zeta in *. set (r := fold_left _ _ _) in *. clearbody r. rewrite Z.eqb_eq.
  rewrite Z.land_comm. change 1 with (Z.ones 1) at 2. rewrite Z.land_ones, Z.shiftr_div_pow2 by lia. destruct (Z.eq_dec r 0) as [->|N].
  - split; [intros _; now apply E|intros _; reflexivity].
  - rewrite (Z.mod_small (r - 1)) by lia. rewrite Z.div_small by lia. split; [discriminate|]. intros ->. exfalso. apply N. apply E. auto.
Qed.

(** ** Square roots *)
Local Notation ee := (2 ^ 252 - 3).
Lemma T_pow : forall a n, T (a ^ n) = Fpow (T a) n. Proof. exact (of_pow p25519 prime_p25519). Qed.
Lemma half_exp : p25519 - 1 = 2 * (2 + 4 * ee). Proof. reflexivity. Qed.
Lemma exp_split : forall z n, 0 <= n -> Fmul (Fmul z z) (Fmul (Fpow (Fmul z z) n) (Fpow (Fmul z z) n)) = Fpow z (2 + 4 * n).
Proof.
  intros z n Hn. rewrite (Fpow_add z 2 (4 * n)) by lia. rewrite Fpow_2. f_equal. replace (4 * n) with (2 * (n + n)) by lia. rewrite (Fpow_mul z 2 (n + n)) by lia. rewrite Fpow_2. rewrite Fpow_add by lia. reflexivity.
Qed.
Lemma pm1 : forall z n, 0 <= n -> p25519 - 1 = 2 * n -> z <> F0 -> Fpow z n = F1 \/ Fpow z n = Fopp F1.
Proof.
  intros z n Hn E Hz. apply sq_factor. rewrite <- Fpow_2, <- Fpow_mul by lia. rewrite Z.mul_comm, <- E. now apply Fermat.
Qed.
Lemma root_alg : forall u v x t n, 0 <= n -> p25519 - 1 = 2 * (2 + 4 * n) -> v <> F0 ->
  x = Fmul (Fmul (Fpow (Fmul (Fmul (Fmul (Fmul (Fmul v v) v) (Fmul (Fmul v v) v)) v) u) n) (Fmul (Fmul v v) v)) u -> t = Fmul (Fmul x x) v ->
  (t = Fopp u -> Fmul (Fmul (Fmul x im) (Fmul x im)) v = u) /\ (forall s, Fmul (Fmul s s) v = u -> t = u \/ t = Fopp u).
Proof.
  intros u v x t n Hn En Hv Ex Et. split.
  - intros E. transitivity (Fmul (Fmul im im) (Fmul (Fmul x x) v)); [ring|]. rewrite <- Et, E, im_sq. ring.
  - intros s Hs. destruct (Fdec s F0) as [E|E].
    + left. subst s. assert (U : u = F0) by (rewrite <- Hs; ring). rewrite Et, Ex, U. ring.
    + set (v4 := Fmul (Fmul v v) (Fmul v v)). set (z := Fmul s v4).
      assert (Ez : Fmul (Fmul (Fmul (Fmul (Fmul v v) v) (Fmul (Fmul v v) v)) v) u = Fmul z z) by (unfold z, v4; rewrite <- Hs; ring).
      rewrite Ez in Ex. set (c := Fpow (Fmul z z) n) in *.
      assert (Tt : t = Fmul u (Fpow z (2 + 4 * n))).
      { rewrite <- exp_split by exact Hn. fold c. rewrite Et, Ex. rewrite <- Ez. ring. }
      assert (Hz : z <> F0). { unfold z, v4. apply Fmul_nz; [exact E|]. apply Fmul_nz; apply Fmul_nz; exact Hv. }
      destruct (pm1 z (2 + 4 * n) ltac:(lia) En Hz) as [K|K]; rewrite Tt, K; [left|right]; ring.
Qed.

(** ** Points on the curve *)
Lemma emb_curve_alg : forall d x y : F, on_curve F F1 Fadd Fmul d (Fmul im x, y) <->
  Fmul (Fmul x x) (Fadd (Fmul (Fmul y y) (Fopp d)) F1) = Fsub (Fmul y y) F1.
Proof.
  intros d x y. unfold on_curve.
  assert (E1 : Fadd (Fmul (Fmul im x) (Fmul im x)) (Fmul y y) = Fsub (Fmul y y) (Fmul x x)).
  { transitivity (Fadd (Fmul (Fmul im im) (Fmul x x)) (Fmul y y)); [ring|]. rewrite im_sq. ring. }
  assert (E2 : Fadd F1 (Fmul (Fmul (Fmul (Fmul d (Fmul im x)) (Fmul im x)) y) y) = Fsub F1 (Fmul d (Fmul (Fmul x x) (Fmul y y)))).
  { transitivity (Fadd F1 (Fmul (Fmul im im) (Fmul d (Fmul (Fmul x x) (Fmul y y))))); [ring|]. rewrite im_sq. ring. }
  rewrite E1, E2. split; intros H; apply Fsub_0.
  - transitivity (Fopp (Fsub (Fsub (Fmul y y) (Fmul x x)) (Fsub F1 (Fmul d (Fmul (Fmul x x) (Fmul y y)))))); [ring|]. rewrite H. ring.
  - transitivity (Fopp (Fsub (Fmul (Fmul x x) (Fadd (Fmul (Fmul y y) (Fopp d)) F1)) (Fsub (Fmul y y) F1))); [ring|]. rewrite H. ring.
Qed.
Lemma emb_curve : forall P, ed_on_curve P <-> curve dp (emb P).
Proof.
  intros [x y]. unfold emb. cbn [fst snd]. rewrite (emb_curve_alg dp). rewrite <- T_dd, F1_T, <- !T_mul, <- T_add, <- T_sub, <- T_mul, T_eq.
  unfold ed_on_curve. rewrite ed_d_dd. generalize dd. intros d. rewrite <- !eqp_mod. split; intros (k & H); exists (- k); lia.
Qed.
Lemma emb_opposite : forall P, emb (ed_opposite P) = neg (emb P).
Proof. intros [x y]. unfold emb, ed_opposite, eneg. cbn [fst snd]. rewrite T_mod, T_opp. apply (f_equal2 pair); [ring|reflexivity]. Qed.
Lemma opposite_reduced : forall P, ed_reduced P -> ed_reduced (ed_opposite P).
Proof. intros [x y] (A & B). unfold ed_reduced, ed_opposite in *. cbn [fst snd] in *. split; [apply Z.mod_pos_bound; reflexivity|exact B]. Qed.
(** No y makes the factor of x^2 null *)
Lemma den_nz_d : forall d, (forall z, Fmul z z <> d) -> forall y, Fadd (Fmul (Fmul y y) (Fopp d)) F1 <> F0.
Proof.
  intros d Hd y H. destruct (Fdec y F0) as [->|N].
  - apply one_nz. rewrite <- H. ring.
  - apply (Hd (Finv y)). assert (E : Fmul (Fmul y y) d = F1).
    { apply Fsub_0. transitivity (Fopp (Fadd (Fmul (Fmul y y) (Fopp d)) F1)); [ring|]. rewrite H. ring. }
    transitivity (Fmul (Fmul (Finv y) (Finv y)) (Fmul (Fmul y y) d)); [rewrite E; ring|]. field. exact N.
Qed.
Lemma den_nz : forall y, Fadd (Fmul (Fmul y y) (Fopp dp)) F1 <> F0. Proof. exact (den_nz_d dp dp_nonsquare). Qed.
(** The two roots *)
Lemma odd_opposite : forall x, 0 < x < p25519 -> ((- x) mod p25519) mod 2 = 1 - x mod 2.
Proof.
  intros x Hx. assert (E : (- x) mod p25519 = p25519 - x). { symmetry. apply (Z.mod_unique_pos (- x) p25519 (-1)); [lia|ring]. }
  rewrite E. assert (O : p25519 = 2 * (p25519 / 2) + 1) by reflexivity. set (q := p25519 / 2) in *. clearbody q. rewrite O.
  pose proof (Z.div_mod x 2 ltac:(lia)) as D. pose proof (Z.mod_pos_bound x 2 ltac:(lia)) as M.
  symmetry. apply (Z.mod_unique_pos _ 2 (q - x / 2)); lia.
Qed.
Lemma opens_unique : forall s P Q, ed_opens s P -> ed_opens s Q -> P = Q.
Proof.
  intros s [x y] [x' y'] (R & C & E & S) (R' & C' & E' & S'). cbn [fst snd] in *. rewrite <- E in E'. subst y'. apply (f_equal2 pair); [|reflexivity]. clear E.
  destruct R as [Rx _], R' as [Rx' _]. cbn [fst snd] in *.
  apply emb_curve in C, C'. unfold emb in C, C'. cbn [fst snd] in C, C'. apply (emb_curve_alg dp) in C, C'. rewrite <- C' in C.
  assert (G : Fmul (Fsub (T x) (T x')) (Fadd (T x) (T x')) = F0).
  { pose proof (den_nz (T y)) as N. set (v := Fadd _ F1) in *. clearbody v. assert (Z0 : Fmul (Fmul (Fsub (T x) (T x')) (Fadd (T x) (T x'))) v = F0).
    { transitivity (Fsub (Fmul (Fmul (T x) (T x)) v) (Fmul (Fmul (T x') (T x')) v)); [ring|]. rewrite C. ring. }
    apply Fintegral in Z0. destruct Z0; [assumption|contradiction]. }
  apply Fintegral in G. destruct G as [G|G].
  - apply Fsub_0 in G. now apply T_inj.
  - assert (G' : T x = T ((- x') mod p25519)).
    { rewrite T_mod, T_opp. apply Fsub_0. rewrite <- G. ring. }
    apply T_inj in G'; [|exact Rx|apply Z.mod_pos_bound; reflexivity].
    destruct (Z.eq_dec x' 0) as [->|N]; [exact G'|]. exfalso. pose proof (odd_opposite x' ltac:(lia)) as O. rewrite <- G' in O. destruct S as [S|S], S' as [S'|S']; try lia.
    subst x. assert (E : (- x') mod p25519 = p25519 - x'). { symmetry. apply (Z.mod_unique_pos (- x') p25519 (-1)); [lia|ring]. } rewrite E in G'. lia.
Qed.
(** The top bit *)
Lemma top_byte : forall s, bytes s -> zlen s = 32 -> exists r, bytes r /\ zlen r = 31 /\ is_byte (byte_at s 31) /\ le_val s = mem_word r + 2 ^ 248 * byte_at s 31.
Proof.
  intros s Bs Ls. assert (E : s = take 31 s ++ drop 31 s) by (symmetry; apply take_drop).
  assert (Lt : zlen (take 31 s) = 31) by (rewrite zlen_take; lia). assert (Ld : zlen (drop 31 s) = 1) by (rewrite zlen_drop; lia).
  exists (take 31 s). split; [now apply bytes_take|]. split; [exact Lt|].
  pose proof (bytes_drop 31 s Bs) as Bd. destruct (drop 31 s) as [|b [|? ?]]; [rewrite zlen_nil in Ld; discriminate| |rewrite !zlen_cons in Ld; pose proof (zlen_nonneg _ l); lia].
  assert (Eb : byte_at s 31 = b).
  { rewrite E. unfold byte_at. unfold zlen in Lt. rewrite app_nth2 by lia. replace (Z.to_nat 31 - length (take 31 s))%nat with 0%nat by lia. reflexivity. }
  rewrite Eb. split; [now inversion Bd|]. change (le_val s) with (mem_word s). rewrite E at 1. rewrite mem_word_app, Lt. change (256 ^ 31) with (2 ^ 248). unfold mem_word at 2. cbn [fold_right]. lia.
Qed.
Lemma parity_bit : forall s, bytes s -> zlen s = 32 -> Z.shiftr (byte_at s 31) 7 = le_val s / 2 ^ 255.
Proof.
  intros s Bs Ls. destruct (top_byte s Bs Ls) as (r & Br & Lr & Hb & ->). pose proof (mem_word_range r Br) as R. rewrite Lr in R. change (256 ^ 31) with (2 ^ 248) in R.
  rewrite Z.shiftr_div_pow2 by lia. pose proof (Z.div_mod (byte_at s 31) (2 ^ 7) ltac:(lia)) as D. pose proof (Z.mod_pos_bound (byte_at s 31) (2 ^ 7) ltac:(lia)) as M.
  apply (Z.div_unique_pos _ (2 ^ 255) _ (mem_word r + 2 ^ 248 * (byte_at s 31 mod 2 ^ 7))); [lia|lia].
Qed.
Lemma sign_range : forall s, bytes s -> zlen s = 32 -> 0 <= le_val s / 2 ^ 255 <= 1.
Proof.
  intros s Bs Ls. rewrite <- (parity_bit s Bs Ls). destruct (top_byte s Bs Ls) as (r & _ & _ & Hb & _). unfold is_byte in Hb. rewrite Z.shiftr_div_pow2 by lia.
  split; [apply Z.div_pos; lia|]. apply Z.lt_succ_r. apply Z.div_lt_upper_bound; lia.
Qed.
Lemma sqrtneg1_lm : lm 1 ge25519_sqrtneg1. Proof. unfold ge25519_sqrtneg1, lm, U. lia. Qed.
Lemma sqrtneg1_fv : fv ge25519_sqrtneg1 = im.
Proof. unfold fv, im. apply T_eq. vm_compute. reflexivity. Qed.

Section Exact.
Variable w : Z -> Z -> outcome Z.
Hypothesis Hw : exact_in_range w.
Ltac op H := let c := fresh "c" in let E := fresh "E" in let L := fresh "L" in let V := fresh "V" in
  destruct H as (c & E & L & V); rewrite E; cbn [obind]; clear E.
Lemma zero_check : forall f, lm 1 f -> exists b, ed_contract w f = Ok b /\ (ed25519_verify b (zeros 32) = true <-> fv f = F0).
Proof.
  intros f L. exists (le_bytes 32 (val f mod p25519)). split; [exact (ed_contract_ok w Hw f L)|].
  pose proof (Z.mod_pos_bound (val f) p25519 ltac:(reflexivity)) as R.
  assert (L1 : length (le_bytes 32 (val f mod p25519)) = 32%nat) by (pose proof (zlen_le_bytes 32 (val f mod p25519)) as Q; unfold zlen in Q; lia).
  rewrite verify_ok; [|apply bytes_le_bytes|apply bytes_zeros|rewrite L1; reflexivity]. unfold fv. rewrite F0_T, T_eq, (Z.mod_small 0) by (split; reflexivity || discriminate). split.
  - intros H. apply (f_equal mem_word) in H. change (mem_word (zeros 32)) with 0 in H. change (mem_word (le_bytes 32 (val f mod p25519))) with (le_val (le_bytes 32 (val f mod p25519))) in H. rewrite le_val_le_bytes in H. change (256 ^ Z.of_nat 32) with (2 ^ 256) in H. rewrite Z.mod_small in H; [exact H|]. unfold p25519 in *. lia.
  - intros ->. reflexivity.
Qed.
Theorem unpack_ok : forall s, bytes s -> zlen s = 32 ->
  (exists A g, ed_opens s A /\ unpack_negative_vartime w s = Ok (Some g) /\ ge_full g (emb (ed_opposite A))) \/
  ((forall A, ~ ed_opens s A) /\ unpack_negative_vartime w s = Ok None).
Proof.
  intros s Bs Ls. unfold unpack_negative_vartime. cbv zeta. destruct (ed_expand_ok s Bs Ls) as [Ly Vy].
  set (y := ed_expand s) in *. clearbody y.
  assert (L1 : lm 1 (1, 0, 0, 0, 0)) by (unfold lm, U; lia). assert (V1 : fv (1, 0, 0, 0, 0) = F1) by (apply fv_1; reflexivity).
  assert (Ecd : fv ge25519_ecd = Fopp dp) by (unfold fv; rewrite ecd_val; exact T_dd).
  assert (Hp : Z.shiftr (byte_at s 31) 7 = le_val s / 2 ^ 255) by exact (parity_bit s Bs Ls).
  rewrite Hp. clear Hp.
  op (f_square w Hw 1 y Ly ltac:(lia)). op (f_mul w Hw 1 1 c ge25519_ecd L ecd_lm ltac:(lia) ltac:(lia)). op (f_sub_reduce w Hw c (1, 0, 0, 0, 0) L L1).
  op (f_add w Hw 1 1 c0 (1, 0, 0, 0, 0) L0 L1 ltac:(lia) ltac:(lia) ltac:(lia)).
  set (num := c1) in *. set (den := c2) in *. rename L2 into Lnum. rename L3 into Lden.
  rename V2 into Vnum. rename V3 into Vden. rewrite V, V1 in Vnum. rewrite V0, V, V1, Ecd in Vden. clear V V0.
  op (f_square w Hw _ den Lden ltac:(lia)). op (f_mul w Hw _ _ c3 den L2 Lden ltac:(lia) ltac:(lia)).
  op (f_square w Hw _ c4 L3 ltac:(lia)). op (f_mul w Hw _ _ c5 den L4 Lden ltac:(lia) ltac:(lia)). op (f_mul w Hw _ _ c6 num L5 Lnum ltac:(lia) ltac:(lia)).
  destruct (ed_pow_two252m3_ok w Hw c7 (lm_mono 1 6 _ L6 ltac:(lia))) as (c8 & -> & L7 & E8). cbn [obind].
  assert (V5 : fv c8 = Fpow (fv c7) (2 ^ 252 - 3)). { unfold fv. rewrite (eqp_T _ _ E8). apply T_pow. } clear E8.
  op (f_mul w Hw _ _ c8 c4 L7 L3 ltac:(lia) ltac:(lia)). op (f_mul w Hw _ _ c9 num L8 Lnum ltac:(lia) ltac:(lia)).
  op (f_square w Hw _ c10 L9 ltac:(lia)). op (f_mul w Hw _ _ c11 den L10 Lden ltac:(lia) ltac:(lia)).
  assert (Ex : fv c10 = Fmul (Fmul (Fpow (Fmul (Fmul (Fmul (Fmul (Fmul (fv den) (fv den)) (fv den)) (Fmul (Fmul (fv den) (fv den)) (fv den))) (fv den)) (fv num)) (2 ^ 252 - 3)) (Fmul (Fmul (fv den) (fv den)) (fv den))) (fv num)) by (congruence).
  assert (Et : fv c12 = Fmul (Fmul (fv c10) (fv c10)) (fv den)) by congruence.
  assert (Hv : fv den <> F0) by (rewrite Vden; apply den_nz).
  destruct (root_alg (fv num) (fv den) (fv c10) (fv c12) (2 ^ 252 - 3) ltac:(discriminate) half_exp Hv Ex Et) as [RA RB].
  clear Ex L2 L3 L4 L5 L6 L7 L8 V V0 V2 V3 V4 V5 V6 V7 V8 V9. 
  op (f_sub_reduce w Hw c12 num L11 Lnum). destruct (zero_check c13 L2) as (b1 & -> & Z1). cbn [obind]. rewrite V in Z1. clear V.
  assert (H16 : 1 <= 6) by (clear; lia).
  (** The roots are what the two checks decide *)
  assert (Root : (exists x, (if ed25519_verify b1 (zeros 32) then Ok (Some c10) else let! t := ed_add_reduce w c12 num in let! check := ed_contract w t in
      if ed25519_verify check (zeros 32) then let! x := ed_mul w c10 ge25519_sqrtneg1 in Ok (Some x) else Ok None) = Ok (Some x) /\ lm 1 x /\ Fmul (Fmul (fv x) (fv x)) (fv den) = fv num) \/
    (if ed25519_verify b1 (zeros 32) then Ok (Some c10) else let! t := ed_add_reduce w c12 num in let! check := ed_contract w t in
      if ed25519_verify check (zeros 32) then let! x := ed_mul w c10 ge25519_sqrtneg1 in Ok (Some x) else Ok None) = Ok None /\ (forall x, Fmul (Fmul x x) (fv den) <> fv num)).
  { destruct (ed25519_verify b1 (zeros 32)) eqn:EB1.
    - left. exists c10. split; [reflexivity|]. split; [exact L9|]. rewrite <- Et. apply Fsub_0. now apply Z1.
    - op (f_add_reduce w Hw c12 num L11 Lnum). destruct (zero_check c14 L3) as (b2 & -> & Z2). cbn [obind]. rewrite V in Z2. destruct (ed25519_verify b2 (zeros 32)) eqn:EB2.
      + left. op (f_mul w Hw 1 1 c10 ge25519_sqrtneg1 L9 sqrtneg1_lm H16 H16). exists c15. split; [reflexivity|]. split; [exact L4|]. rewrite V0, sqrtneg1_fv. apply RA.
        apply Fsub_0. transitivity (Fadd (fv c12) (fv num)); [ring|]. now apply Z2.
      + right. split; [reflexivity|]. intros x Hx. destruct (RB x Hx) as [E|E].
        * assert (X : false = true); [apply Z1; rewrite E; ring|discriminate].
        * assert (X : false = true); [apply Z2; rewrite E; ring|discriminate]. }
  set (sel := if ed25519_verify b1 (zeros 32) then _ else _) in *. clearbody sel. clear Z1 RA RB Et L9 L10 L11.
  assert (Ry : T (le_val s mod 2 ^ 255) = fv y) by (unfold fv; rewrite Vy; reflexivity).
  assert (On : forall x, Fmul (Fmul (T x) (T x)) (fv den) = fv num <-> ed_on_curve (x, (le_val s mod 2 ^ 255) mod p25519)).
  { intros x. rewrite emb_curve. unfold emb. cbn [fst snd]. rewrite T_mod, Ry, (emb_curve_alg dp), <- Vden, <- Vnum. reflexivity. }
  destruct Root as [(x & -> & Lx & Hx)|(-> & Hx)]; cbn [obind].
  - left. rewrite (ed_contract_ok w Hw x Lx). cbn [obind]. rewrite parity_byte.
    set (xn := val x mod p25519). assert (Rx : 0 <= xn < p25519) by (apply Z.mod_pos_bound; reflexivity). assert (Tx : T xn = fv x) by (unfold xn, fv; apply T_mod).
    set (sg := le_val s / 2 ^ 255). assert (Hsg : 0 <= sg <= 1) by exact (sign_range s Bs Ls).
    set (yn := (le_val s mod 2 ^ 255) mod p25519). assert (Ryn : 0 <= yn < p25519) by (apply Z.mod_pos_bound; reflexivity).
    assert (Tyn : T yn = fv y) by (unfold yn; rewrite T_mod; exact Ry).
    assert (On' : forall x, Fmul (Fmul (T x) (T x)) (fv den) = fv num -> ed_on_curve (x, yn)) by (intros; now apply On).
    assert (Fin : forall x', lm 1 x' -> fv x' = T ((- ((- val x') mod p25519)) mod p25519)).
    { intros x' _. unfold fv. rewrite T_mod, T_opp, T_mod, T_opp. ring. }
    assert (Gen : forall A x', ed_opens s A -> lm 1 x' -> snd A = yn -> fv x' = Fopp (T (fst A)) ->
      exists g, (let! t := ed_mul w x' y in Ok (Some (GE x' y (1, 0, 0, 0, 0) t))) = Ok (Some g) /\ ge_full g (emb (ed_opposite A))).
    { intros [a b] x' HA Lx' EA E'. cbn [fst snd] in EA, E'. subst b. op (f_mul w Hw 1 1 x' y Lx' Ly H16 H16). eexists. split; [reflexivity|].
      unfold ge_full. cbn [ge_x ge_y ge_z ge_t]. do 4 (split; [assumption|]). rewrite V, V1, E'. unfold ed_opposite, emb, full, part. cbn [fst snd]. rewrite T_mod, T_opp, Tyn.
      split; [split; [exact one_nz|split; ring]|ring]. }
    assert (M2 : 0 <= xn mod 2 < 2) by (apply Z.mod_pos_bound; reflexivity).
    destruct (Z.eqb_spec (xn mod 2) sg) as [ES|NS].
    + op (f_neg w Hw x Lx). assert (HA : ed_opens s (xn, yn)).
      { split; [split; assumption|]. split; [apply On'; rewrite Tx; exact Hx|]. split; [reflexivity|left; exact ES]. }
      destruct (Gen (xn, yn) c14 HA L3 eq_refl) as (g & E & G); [cbn [fst]; rewrite V, Tx; reflexivity|]. exists (xn, yn), g. auto.
    + set (xm := (- xn) mod p25519). assert (Rm : 0 <= xm < p25519) by (apply Z.mod_pos_bound; reflexivity).
      assert (HA : ed_opens s (xm, yn)).
      { split; [split; assumption|]. split; [apply On'; unfold xm; rewrite T_mod, T_opp, Tx, <- Hx; ring|]. split; [reflexivity|]. cbn [fst].
        destruct (Z.eq_dec xn 0) as [E0|N0]; [right; unfold xm; rewrite E0; reflexivity|]. left. unfold xm. rewrite odd_opposite by (clear - Rx N0; lia). fold sg. clear - M2 NS Hsg. lia. }
      cbn [obind]. destruct (Gen (xm, yn) x HA Lx eq_refl) as (g & E & G); [cbn [fst]; unfold xm; rewrite T_mod, T_opp, Tx; ring|]. exists (xm, yn), g. auto.
  - right. split; [|reflexivity]. intros [a b] (RA & CA & EA & _). cbn [snd] in EA. subst b. apply (Hx (T a)). now apply On.
Qed.
End Exact.
