(** Proofs for TSha3.v. *)
From Verif Require Import Base MSha3 SSha3.

(** ** Lanes *)
Definition word (x : Z) : Prop := 0 <= x /\ forall z, 64 <= z -> Z.testbit x z = false.
Lemma word_lxor : forall a b, word a -> word b -> word (Z.lxor a b).
Proof.
  intros a b [A Ta] [B Tb]. split; [now apply Z.lxor_nonneg|]. intros z Hz. rewrite Z.lxor_spec, Ta, Tb by lia. reflexivity.
Qed.
Lemma word_andnot : forall a b, word b -> word (Z.land (Z.lnot a) b).
Proof.
  intros a b [B Tb]. split; [apply Z.land_nonneg; now right|]. intros z Hz. rewrite Z.land_spec, Tb by lia. apply andb_false_r.
Qed.
Lemma word_range : forall x, 0 <= x < 2^64 -> word x.
Proof.
  intros x H. split; [lia|]. intros z Hz. rewrite <- (Z.mod_small x (2^64)) by lia. apply Z.mod_pow2_bits_high. lia.
Qed.
Lemma rol_bit : forall a n z, word a -> (0 < n < 64)%nat -> (z < 64)%nat ->
  Z.testbit (ROL a n) (Z.of_nat z) = Z.testbit a (Z.of_nat ((z + 64 - n) mod 64)).
Proof.
  intros a n z [A Ta] Hn Hz. unfold ROL. rewrite Z.lxor_spec, Z.mod_pow2_bits_low, Z.shiftl_spec, Z.shiftr_spec by lia.
  destruct (Nat.lt_ge_cases z n) as [S|G].
  - rewrite (Z.testbit_neg_r a (Z.of_nat z - Z.of_nat n)) by lia. rewrite Nat.mod_small by lia. rewrite xorb_false_l. f_equal. lia.
  - rewrite (Ta (Z.of_nat z + (64 - Z.of_nat n))) by lia. rewrite xorb_false_r. f_equal.
    replace (z + 64 - n)%nat with (z - n + 1 * 64)%nat by lia. rewrite Nat.mod_add, Nat.mod_small by lia. lia.
Qed.
Lemma word_rol : forall a n, word a -> (0 < n < 64)%nat -> word (ROL a n).
Proof.
  intros a n [A Ta] Hn. apply word_lxor.
  - apply word_range. apply Z.mod_pos_bound. lia.
  - split; [now apply Z.shiftr_nonneg|]. intros z Hz. rewrite Z.shiftr_spec by lia. apply Ta. lia.
Qed.

(* the five steps on lanes *)
Definition lanes : Type := nat -> nat -> Z.
Definition C_l (L : lanes) (x : nat) : Z := Z.lxor (Z.lxor (Z.lxor (Z.lxor (L x 0%nat) (L x 1%nat)) (L x 2%nat)) (L x 3%nat)) (L x 4%nat).
Definition theta_l (L : lanes) : lanes := fun x y => Z.lxor (L x y) (Z.lxor (C_l L ((x + 4) mod 5)%nat) (ROL (C_l L ((x + 1) mod 5)%nat) 1)).
Definition rho_l (L : lanes) : lanes := fun x y => if (rho_offset x y =? 0)%nat then L x y else ROL (L x y) (rho_offset x y).
Definition pi_l (L : lanes) : lanes := fun x y => L ((x + 3 * y) mod 5)%nat x.
Definition chi_l (L : lanes) : lanes := fun x y => Z.lxor (L x y) (Z.land (Z.lnot (L ((x + 1) mod 5)%nat y)) (L ((x + 2) mod 5)%nat y)).
Definition iota_l (c : Z) (L : lanes) : lanes := fun x y => if (x =? 0)%nat && (y =? 0)%nat then Z.lxor (L x y) c else L x y.
Definition round_l (c : Z) (L : lanes) : lanes := iota_l c (chi_l (pi_l (rho_l (theta_l L)))).

Definition shows (L : lanes) (A : bit_state) : Prop := forall x y, (x < 5)%nat -> (y < 5)%nat ->
  word (L x y) /\ forall z, (z < 64)%nat -> Z.testbit (L x y) (Z.of_nat z) = A x y z.
Lemma mod5 : forall n, (n mod 5 < 5)%nat. Proof. intros n. apply Nat.mod_upper_bound. lia. Qed.
Lemma mod64 : forall n, (n mod 64 < 64)%nat. Proof. intros n. apply Nat.mod_upper_bound. lia. Qed.
Lemma theta_shows : forall L A, shows L A -> shows (theta_l L) (theta A).
Proof.
  intros L A H.
  assert (forall x, (x < 5)%nat -> word (C_l L x) /\ forall z, (z < 64)%nat -> Z.testbit (C_l L x) (Z.of_nat z) = theta_C A x z) as HC.
  { intros x Hx. unfold C_l, theta_C.
    destruct (H x 0%nat Hx ltac:(lia)) as [W0 T0]. destruct (H x 1%nat Hx ltac:(lia)) as [W1 T1]. destruct (H x 2%nat Hx ltac:(lia)) as [W2 T2].
    destruct (H x 3%nat Hx ltac:(lia)) as [W3 T3]. destruct (H x 4%nat Hx ltac:(lia)) as [W4 T4].
    split; [repeat apply word_lxor; assumption|]. intros z Hz. rewrite !Z.lxor_spec, T0, T1, T2, T3, T4 by assumption. reflexivity. }
  intros x y Hx Hy. destruct (H x y Hx Hy) as [W T]. destruct (HC _ (mod5 (x + 4))) as [W1 T1]. destruct (HC _ (mod5 (x + 1))) as [W2 T2].
  unfold theta_l, theta. split.
  - apply word_lxor; [assumption|]. apply word_lxor; [assumption|]. apply word_rol; [assumption|lia].
  - intros z Hz. rewrite !Z.lxor_spec, rol_bit, T, T1, T2 by (auto using mod64; lia).
    replace (z + 64 - 1)%nat with (z + 63)%nat by lia. reflexivity.
Qed.
Lemma walk_range : forall n t a b x y, (rho_walk n t a b x y < 64)%nat.
Proof.
  induction n as [|n IH]; intros t a b x y; cbn [rho_walk]; [lia|]. destruct ((a =? x)%nat && (b =? y)%nat); [apply mod64|apply IH].
Qed.
Lemma offset_range : forall x y, (x < 5)%nat -> (y < 5)%nat -> (rho_offset x y < 64)%nat.
Proof.
  intros x y _ _. apply walk_range.
Qed.
Lemma rho_shows : forall L A, shows L A -> shows (rho_l L) (rho A).
Proof.
  intros L A H x y Hx Hy. destruct (H x y Hx Hy) as [W T]. pose proof (offset_range x y Hx Hy) as O. unfold rho_l, rho.
  destruct (rho_offset x y =? 0)%nat eqn:E.
  - apply Nat.eqb_eq in E. rewrite E. split; [assumption|]. intros z Hz. rewrite T by assumption. f_equal.
    replace (z + 64 - 0)%nat with (z + 1 * 64)%nat by lia. rewrite Nat.mod_add, Nat.mod_small by lia. reflexivity.
  - apply Nat.eqb_neq in E. split; [apply word_rol; [assumption|lia]|]. intros z Hz. rewrite rol_bit by (auto; lia). apply T. apply mod64.
Qed.
Lemma pi_shows : forall L A, shows L A -> shows (pi_l L) (pi A).
Proof. intros L A H x y Hx Hy. apply (H _ _ (mod5 _) Hx). Qed.
Lemma chi_shows : forall L A, shows L A -> shows (chi_l L) (chi A).
Proof.
  intros L A H x y Hx Hy. destruct (H x y Hx Hy) as [W T]. destruct (H _ y (mod5 (x + 1)) Hy) as [W1 T1]. destruct (H _ y (mod5 (x + 2)) Hy) as [W2 T2].
  unfold chi_l, chi. split; [apply word_lxor; [assumption|]; now apply word_andnot|].
  intros z Hz. rewrite Z.lxor_spec, Z.land_spec, Z.lnot_spec, T, T1, T2 by (assumption || lia). reflexivity.
Qed.
Lemma iota_shows : forall L A c ir, word c -> (forall z, (z < 64)%nat -> Z.testbit c (Z.of_nat z) = RC ir z) -> shows L A -> shows (iota_l c L) (iota ir A).
Proof.
  intros L A c ir Wc Tc H x y Hx Hy. destruct (H x y Hx Hy) as [W T]. unfold iota_l, iota.
  destruct ((x =? 0)%nat && (y =? 0)%nat); [|now split]. split; [now apply word_lxor|].
  intros z Hz. rewrite Z.lxor_spec, T, Tc by assumption. reflexivity.
Qed.
Lemma constants : forall ir, (ir < 24)%nat -> word (nth ir KeccakF_RoundConstants 0) /\
  forall z, (z < 64)%nat -> Z.testbit (nth ir KeccakF_RoundConstants 0) (Z.of_nat z) = RC ir z.
Proof.
  assert (forallb (fun ir => let c := nth ir KeccakF_RoundConstants 0 in (0 <=? c) && (c <? 2^64) &&
    forallb (fun z => Bool.eqb (Z.testbit c (Z.of_nat z)) (RC ir z)) (seq 0 64)) (seq 0 24) = true) as H by (vm_compute; reflexivity).
  rewrite forallb_forall in H. intros ir Hir. specialize (H ir ltac:(apply in_seq; lia)). cbv zeta in H.
  apply andb_prop in H. destruct H as [R B]. split; [apply word_range; lia|]. rewrite forallb_forall in B.
  intros z Hz. apply Bool.eqb_prop. apply B. apply in_seq. lia.
Qed.
Lemma round_shows : forall L A ir, (ir < 24)%nat -> shows L A -> shows (round_l (nth ir KeccakF_RoundConstants 0) L) (Rnd A ir).
Proof.
  intros L A ir Hir H. destruct (constants ir Hir) as [W T]. apply iota_shows; [assumption|assumption|].
  now apply chi_shows, pi_shows, rho_shows, theta_shows.
Qed.

(** ** The unrolled rounds *)
Definition listed (L : lanes) : list Z := flat_map (fun y => map (fun x => L x y) (seq 0 5)) (seq 0 5).
Definition of_list (s : list Z) : lanes := fun x y => nth (5 * y + x) s 0.
Lemma round_A_E_lanes : forall c s, round_A_E c s = listed (round_l c (of_list s)).
Proof. intros c s. cbv -[Z.lxor Z.land Z.lnot ROL nth]. reflexivity. Qed.
Lemma round_E_A_lanes : forall c s, round_E_A c s = listed (round_l c (of_list s)).
Proof. intros c s. cbv -[Z.lxor Z.land Z.lnot ROL nth]. reflexivity. Qed.
Lemma of_listed : forall L x y, (x < 5)%nat -> (y < 5)%nat -> of_list (listed L) x y = L x y.
Proof.
  intros L x y Hx Hy. do 5 (destruct x as [|x]; [do 5 (destruct y as [|y]; [reflexivity|]); lia|]). lia.
Qed.
(* the array s holds the state A *)
Definition holds (s : list Z) (A : bit_state) : Prop := length s = 25%nat /\ shows (of_list s) A.
Lemma listed_holds : forall L A, shows L A -> holds (listed L) A.
Proof. intros L A H. split; [reflexivity|]. intros x y Hx Hy. rewrite of_listed by assumption. now apply H. Qed.
Lemma permute_holds : forall s A, holds s A -> holds (KeccakF1600_StatePermute s) (keccak_f A).
Proof.
  assert (forall n k s A, (k + 2 * n = 24)%nat -> holds s A -> holds (keccak_rounds (skipn k KeccakF_RoundConstants) s) (fold_left Rnd (seq k (2 * n)) A)) as G.
  { induction n as [|n IH]; intros k s A E H.
    - replace k with 24%nat by lia. exact H.
    - assert (skipn k KeccakF_RoundConstants = nth k KeccakF_RoundConstants 0 :: nth (S k) KeccakF_RoundConstants 0 :: skipn (S (S k)) KeccakF_RoundConstants) as ->.
      { clear - E. do 24 (destruct k as [|k]; [first [reflexivity | exfalso; lia]|]). lia. }
      replace (2 * S n)%nat with (S (S (2 * n))) by lia. cbn [seq fold_left keccak_rounds]. apply IH; [lia|].
      rewrite round_E_A_lanes, round_A_E_lanes. apply listed_holds. apply round_shows; [lia|].
      apply listed_holds. apply round_shows; [lia|]. apply H. }
  intros s A H. exact (G 12%nat 0%nat s A eq_refl H).
Qed.
