(** C61: the GHASH code computes the GHASH function of NIST SP 800-38D, however
    the input is split; and that function multiplies in the field of 2^128 elements. *)
From Verif Require Import Base MHash MSha2 MBlake2 MGhash SSha2 SBlake2 SGhash PSha2 PSha2b PBlake2 SChaCha PChaCha PPoly1305 PRand PGhash.

(** The calls *)
Inductive gh_op : Type :=
| GReset (key : cptr)      (* ghash_reset; NULL keeps the key *)
| GUpdate (d : list Z)     (* ghash_update *)
| GPad                     (* ghash_pad *)
| GFinalize (len : Z).     (* ghash_finalize *)
Definition gh_op_ok (op : gh_op) : Prop :=
  match op with
  | GReset (Some key) => bytes key /\ zlen key = 16
  | GReset None => True
  | GUpdate d => bytes d
  | GPad => True
  | GFinalize len => 0 <= len
  end.
(** what the calls to ghash_finalize store *)
Fixpoint gh_run (b : gh_build) (st : ghash_state) (ops : list gh_op) : list (list Z) :=
  match ops with
  | [] => []
  | GReset key :: ops => gh_run b (ghash_reset b st key) ops
  | GUpdate d :: ops => gh_run b (ghash_update b st d) ops
  | GPad :: ops => gh_run b (ghash_pad b st) ops
  | GFinalize len :: ops => let '(st, out) := ghash_finalize b st len in out :: gh_run b st ops
  end.
(** what they should store: [h] is the key as a number, [s] the input since the
    last reset, in which every padding has put the zeros that complete a block *)
Fixpoint gh_answers (h : Z) (s : list Z) (ops : list gh_op) : list (list Z) :=
  match ops with
  | [] => []
  | GReset (Some key) :: ops => gh_answers (be_val key) [] ops
  | GReset None :: ops => gh_answers h [] ops
  | GUpdate d :: ops => gh_answers h (s ++ d) ops
  | GPad :: ops => gh_answers h (s ++ zeros (- zlen s mod 16)) ops
  | GFinalize len :: ops =>
    take len (be_bytes 16 (GHASH h (blocks_of s))) :: gh_answers h (s ++ zeros (- zlen s mod 16)) ops
  end.

Lemma run_running : forall b ops h n full rest st, running b h n full rest st -> Forall gh_op_ok ops ->
  gh_run b st ops = gh_answers h (full ++ rest) ops.
Proof.
  intros b ops. induction ops as [|op ops IH]; intros h n full rest st HR Hok; [reflexivity|].
  inversion Hok as [|? ? H1 H2]; subst. destruct op as [[key|]|d| |len]; cbn [gh_run gh_answers].
  - destruct H1. apply (IH (be_val key) 0%nat [] []); [now apply reset_running|exact H2].
  - apply (IH h 0%nat [] []); [|exact H2]. eapply rereset_running. exact HR.
  - destruct (loop_running b h (S (length d)) n full rest st d ltac:(lia) HR H1) as (n' & full' & rest' & R' & E').
    rewrite <- app_assoc, <- E'. eapply IH; [exact R'|exact H2].
  - destruct (pad_running b h n full rest st HR) as (n' & R'). fold (filled (full ++ rest)).
    rewrite <- (app_nil_r (filled (full ++ rest))). eapply IH; [exact R'|exact H2].
  - destruct (pad_running b h n full rest st HR) as (n' & R'). unfold ghash_finalize. f_equal.
    + rewrite (running_hash b h n' _ _ R'). rewrite (blocks_of_filled n full rest) with (n' := n').
      * destruct (Z.gtb_spec len 16); [|reflexivity]. rewrite (take_all Z len) by (rewrite zlen_be_bytes; lia).
        apply take_all. rewrite zlen_be_bytes. lia.
      * apply HR.
      * apply HR.
      * apply R'.
    + fold (filled (full ++ rest)). rewrite <- (app_nil_r (filled (full ++ rest))). eapply IH; [exact R'|exact H2].
Qed.

(** After a reset with a key, whatever the state was before, on machines of either
    byte order and with either word size, every sequence of calls gives the
    results of SP 800-38D. *)
Theorem C61_is_sp800_38d : forall b st key ops, bytes key -> zlen key = 16 -> Forall gh_op_ok ops ->
  gh_run b st (GReset (Some key) :: ops) = gh_answers (be_val key) [] ops.
Proof.
  intros b st key ops Hk Lk Hok. cbn [gh_run]. apply (run_running b ops (be_val key) 0%nat [] []); [now apply reset_running|exact Hok].
Qed.
Print Assumptions C61_is_sp800_38d.
(** In particular the splitting does not matter. *)
Corollary C61_splitting : forall b st key chunks, bytes key -> zlen key = 16 -> Forall bytes chunks ->
  gh_run b st (GReset (Some key) :: map GUpdate chunks ++ [GFinalize 16])
  = [be_bytes 16 (GHASH (be_val key) (blocks_of (concat chunks)))].
Proof.
  intros b st key chunks Hk Lk Hc. rewrite C61_is_sp800_38d; [|assumption..|].
  - change (concat chunks) with ([] ++ concat chunks). generalize (@nil Z) as s. clear Hc.
    induction chunks as [|c chunks IH]; intros s.
    + cbn [map app gh_answers concat]. rewrite app_nil_r. rewrite take_all by (rewrite zlen_be_bytes; lia). reflexivity.
    + cbn [map app gh_answers concat]. rewrite IH. now rewrite app_assoc.
  - apply Forall_app. split; [|constructor; [cbn; lia|constructor]].
    apply Forall_map. eapply Forall_impl; [|exact Hc]. intros d Hd. exact Hd.
Qed.
Print Assumptions C61_splitting.

(** ** The field *)
Lemma poly_mul_lxor : forall n a b q, poly_mul n (Z.lxor a b) q = Z.lxor (poly_mul n a q) (poly_mul n b q).
Proof.
  intros n a b q. induction n as [|n IH]; [reflexivity|]. cbn [poly_mul]. rewrite IH, Z.lxor_spec.
  set (u := poly_mul n a q). set (v := poly_mul n b q). set (w := Z.shiftl q (Z.of_nat n)).
  apply Z.bits_inj'. intros k Hk. destruct (Z.testbit a (Z.of_nat n)), (Z.testbit b (Z.of_nat n)); cbn [xorb];
    rewrite !Z.lxor_spec, ?Z.bits_0; destruct (Z.testbit u k), (Z.testbit v k), (Z.testbit w k); reflexivity.
Qed.
Lemma poly_mul_more : forall n k m q, poly_mul (n + k) (m mod 2 ^ Z.of_nat n) q = poly_mul n m q.
Proof.
  assert (forall j n m q, (j <= n)%nat -> poly_mul j (m mod 2 ^ Z.of_nat n) q = poly_mul j m q) as L.
  { intros j. induction j as [|j IH]; intros n m q Hj; [reflexivity|]. cbn [poly_mul]. rewrite IH by lia.
    rewrite mod_pow2_bits by lia. destruct (Z.ltb_spec (Z.of_nat j) (Z.of_nat n)); [reflexivity|lia]. }
  intros n k m q. induction k as [|k IH].
  - rewrite Nat.add_0_r. now apply L.
  - rewrite Nat.add_succ_r. cbn [poly_mul]. rewrite IH. rewrite mod_pow2_bits by lia.
    destruct (Z.ltb_spec (Z.of_nat (n + k)) (Z.of_nat n)); [lia|]. cbn [andb]. apply Z.lxor_0_r.
Qed.
Lemma poly_mul_shift : forall n m q, poly_mul (S n) (2 * m) q = Z.shiftl (poly_mul n m q) 1.
Proof.
  intros n m q. induction n as [|n IH].
  - cbn [poly_mul]. change (Z.of_nat 0) with 0. rewrite Z.testbit_even_0. reflexivity.
  - change (poly_mul (S (S n)) (2 * m) q)
      with (Z.lxor (poly_mul (S n) (2 * m) q) (if Z.testbit (2 * m) (Z.of_nat (S n)) then Z.shiftl q (Z.of_nat (S n)) else 0)).
    rewrite IH. cbn [poly_mul]. rewrite Nat2Z.inj_succ. rewrite Z.double_bits_succ. rewrite Z.shiftl_lxor. f_equal.
    destruct (Z.testbit m (Z.of_nat n)); [|now rewrite Z.shiftl_0_l]. rewrite Z.shiftl_shiftl by lia. f_equal. 
Qed.
Lemma congruent_refl : forall p, congruent p p.
Proof. intros p. exists 0%nat, 0. now rewrite Z.lxor_nilpotent. Qed.
Lemma congruent_lxor : forall p q p' q', congruent p q -> congruent p' q' -> congruent (Z.lxor p p') (Z.lxor q q').
Proof.
  intros p q p' q' (n & m & E) (n' & m' & E'). exists (n + n')%nat, (Z.lxor (m mod 2 ^ Z.of_nat n) (m' mod 2 ^ Z.of_nat n')).
  rewrite poly_mul_lxor, poly_mul_more. rewrite (Nat.add_comm n n'), poly_mul_more. rewrite <- E, <- E'.
  apply Z.bits_inj'. intros k Hk. rewrite !Z.lxor_spec.
  destruct (Z.testbit p k), (Z.testbit q k), (Z.testbit p' k), (Z.testbit q' k); reflexivity.
Qed.
Lemma congruent_trans : forall p q r, congruent p q -> congruent q r -> congruent p r.
Proof.
  intros p q r H1 H2. pose proof (congruent_lxor _ _ _ _ H1 H2) as H. destruct H as (n & m & E). exists n, m. rewrite <- E.
  apply Z.bits_inj'. intros k Hk. rewrite !Z.lxor_spec. destruct (Z.testbit p k), (Z.testbit q k), (Z.testbit r k); reflexivity.
Qed.
Lemma congruent_shift : forall p q, congruent p q -> congruent (Z.shiftl p 1) (Z.shiftl q 1).
Proof.
  intros p q (n & m & E). exists (S n), (2 * m). rewrite poly_mul_shift, <- E. symmetry. apply Z.shiftl_lxor.
Qed.
Lemma congruent_modulus : forall p, congruent (Z.lxor p modulus) p.
Proof.
  intros p. exists 1%nat, 1. replace (poly_mul 1 1 modulus) with modulus by reflexivity. generalize modulus. intros q.
  apply Z.bits_inj'. intros k Hk. rewrite !Z.lxor_spec. destruct (Z.testbit p k), (Z.testbit q k); reflexivity.
Qed.

Lemma below_128 : forall p, 0 <= p -> (forall n, 128 <= n -> Z.testbit p n = false) -> p < 2 ^ 128.
Proof.
  intros p Hp H. replace p with (p mod 2 ^ 128); [apply Z.mod_pos_bound; lia|].
  apply Z.bits_inj'. intros n Hn. rewrite mod_pow2_bits by lia. destruct (Z.ltb_spec n 128); [reflexivity|]. cbn [andb].
  symmetry. apply H. lia.
Qed.
Lemma high_bits : forall p n, 0 <= p < 2 ^ 128 -> 128 <= n -> Z.testbit p n = false.
Proof. intros p n Hp Hn. replace p with (p mod 2 ^ 128) by (apply Z.mod_small; lia). now rewrite Z.mod_pow2_bits_high by lia. Qed.
Lemma modulus_bits : forall n, 0 <= n -> Z.testbit modulus n = ((n =? 128) || (n =? 7) || (n =? 2) || (n =? 1) || (n =? 0))%bool.
Proof.
  intros n Hn. destruct (Z.ltb_spec n 129) as [H|H].
  - assert (forallb (fun i => Bool.eqb (Z.testbit modulus (Z.of_nat i))
      (((Z.of_nat i =? 128) || (Z.of_nat i =? 7) || (Z.of_nat i =? 2) || (Z.of_nat i =? 1) || (Z.of_nat i =? 0))%bool)) (seq 0 129) = true) as C by reflexivity.
    rewrite forallb_forall in C. specialize (C (Z.to_nat n)). rewrite Z2Nat.id in C by lia. apply eqb_prop. apply C. apply in_seq. lia.
  - replace modulus with (modulus mod 2 ^ 129) by reflexivity. rewrite Z.mod_pow2_bits_high by lia.
    destruct (Z.eqb_spec n 128), (Z.eqb_spec n 7), (Z.eqb_spec n 2), (Z.eqb_spec n 1), (Z.eqb_spec n 0); try lia; reflexivity.
Qed.
Lemma R128_bits : forall i, (i < 128)%nat ->
  bit_of R128 i = ((Z.of_nat i =? 7) || (Z.of_nat i =? 2) || (Z.of_nat i =? 1) || (Z.of_nat i =? 0))%bool.
Proof.
  intros i Hi. assert (forallb (fun i => Bool.eqb (bit_of R128 i)
      (((Z.of_nat i =? 7) || (Z.of_nat i =? 2) || (Z.of_nat i =? 1) || (Z.of_nat i =? 0))%bool)) (seq 0 128) = true) as C by reflexivity.
  rewrite forallb_forall in C. apply eqb_prop. apply C. apply in_seq. lia.
Qed.

(** a shift to the right is a multiplication by t *)
Lemma times_t : forall v V, polynomial v V -> 0 <= V < 2 ^ 128 ->
  exists v', polynomial v' (if LSB1 V then Z.lxor (Z.shiftr V 1) R128 else Z.shiftr V 1) /\ congruent v' (Z.shiftl v 1).
Proof.
  intros v V [Rv Bv] RV.
  assert (Z.testbit v 127 = LSB1 V) as Top by (apply (Bv 127%nat); lia).
  destruct (LSB1 V) eqn:E.
  - exists (Z.lxor (Z.shiftl v 1) modulus). split; [|apply congruent_modulus]. split.
    + assert (0 <= Z.lxor (Z.shiftl v 1) modulus) as P by (apply Z.lxor_nonneg; split; intros _; [unfold modulus; lia|apply Z.shiftl_nonneg; lia]).
      split; [exact P|]. apply below_128; [exact P|]. intros n Hn. rewrite Z.lxor_spec, Z.shiftl_spec, modulus_bits by lia.
      destruct (Z.eqb_spec n 128) as [->|Hne].
      * change (128 - 1) with 127. rewrite Top. reflexivity.
      * rewrite high_bits by lia. destruct (Z.eqb_spec n 7), (Z.eqb_spec n 2), (Z.eqb_spec n 1), (Z.eqb_spec n 0); try lia; reflexivity.
    + intros i Hi. rewrite Z.lxor_spec, Z.shiftl_spec, modulus_bits by lia.
      destruct (Z.eqb_spec (Z.of_nat i) 128); [lia|]. cbn [orb]. unfold bit_of at 1. rewrite Z.lxor_spec. fold (bit_of R128 i).
      rewrite R128_bits by lia. f_equal. rewrite Z.shiftr_spec by lia. destruct i as [|i].
      * change (127 - Z.of_nat 0 + 1) with 128. rewrite (high_bits V) by lia. reflexivity.
      * replace (Z.of_nat (S i) - 1) with (Z.of_nat i) by lia. rewrite Bv by lia. unfold bit_of. f_equal. lia.
  - exists (Z.shiftl v 1). split; [|apply congruent_refl]. split.
    + assert (0 <= Z.shiftl v 1) as P by (apply Z.shiftl_nonneg; lia). split; [exact P|]. apply below_128; [exact P|].
      intros n Hn. rewrite Z.shiftl_spec by lia. destruct (Z.eqb_spec n 128) as [->|Hne].
      * change (128 - 1) with 127. exact Top.
      * apply high_bits; lia.
    + intros i Hi. rewrite Z.shiftl_spec by lia. unfold bit_of. rewrite Z.shiftr_spec by lia. destruct i as [|i].
      * change (127 - Z.of_nat 0 + 1) with 128. rewrite (high_bits V) by lia. reflexivity.
      * replace (Z.of_nat (S i) - 1) with (Z.of_nat i) by lia. rewrite Bv by lia. unfold bit_of. f_equal. lia.
Qed.
Lemma plus_poly : forall z Z1 v V, polynomial z Z1 -> polynomial v V -> polynomial (Z.lxor z v) (Z.lxor Z1 V).
Proof.
  intros z Z1 v V [Rz Bz] [Rv Bv]. split; [apply lxor_word; lia|]. intros i Hi. unfold bit_of. rewrite !Z.lxor_spec.
  rewrite Bz, Bv by lia. reflexivity.
Qed.
Lemma ZV_range : forall x y n, 0 <= y < 2 ^ 128 ->
  0 <= fst (mul_ZV x y n) < 2 ^ 128 /\ 0 <= snd (mul_ZV x y n) < 2 ^ 128.
Proof.
  intros x y n Hy. induction n as [|n IH]; [cbn [mul_ZV fst snd]; lia|]. cbn [mul_ZV].
  destruct (mul_ZV x y n) as [z v]. cbn [fst snd] in *. destruct IH as [I1 I2]. split.
  - destruct (bit_of x n); [apply lxor_word; lia|exact I1].
  - pose proof (shiftr1_word 128 v ltac:(lia) I2). destruct (LSB1 v); [apply lxor_word; [lia..|unfold R128; lia]|assumption].
Qed.
Lemma product_mod : forall x y px py n, polynomial px x -> polynomial py y -> 0 <= y < 2 ^ 128 -> (n <= 128)%nat ->
  exists z v, polynomial z (fst (mul_ZV x y n)) /\ polynomial v (snd (mul_ZV x y n)) /\
    congruent z (poly_mul n px py) /\ congruent v (Z.shiftl py (Z.of_nat n)).
Proof.
  intros x y px py n Hx Hy Ry. induction n as [|n IH]; intros Hn.
  - exists 0, py. cbn [mul_ZV fst snd poly_mul]. split.
    { split; [lia|]. intros i Hi. unfold bit_of. now rewrite !Z.bits_0. }
    split; [exact Hy|]. split; [apply congruent_refl|]. rewrite Z.shiftl_0_r. apply congruent_refl.
  - destruct (IH ltac:(lia)) as (z & v & Pz & Pv & Cz & Cv). pose proof (ZV_range x y n Ry) as [R1 R2].
    cbn [mul_ZV poly_mul]. destruct (mul_ZV x y n) as [zz vv]. cbn [fst snd] in *.
    destruct (times_t v vv Pv R2) as (v' & Pv' & Cv').
    exists (if bit_of x n then Z.lxor z v else z), v'. rewrite (proj2 Hx n) by lia.
    split; [destruct (bit_of x n); [now apply plus_poly|exact Pz]|]. split; [exact Pv'|]. split.
    + destruct (bit_of x n); [now apply congruent_lxor|]. now rewrite Z.lxor_0_r.
    + eapply congruent_trans; [exact Cv'|]. rewrite Nat2Z.inj_succ. unfold Z.succ. rewrite <- Z.shiftl_shiftl by lia.
      now apply congruent_shift.
Qed.

Lemma GHASH_one : forall h x, GHASH h [x] = gmul x h.
Proof. intros h x. unfold GHASH. generalize gmul. intros f. cbn [fold_left]. now rewrite Z.lxor_0_l. Qed.
Lemma gmul_fst : forall x y, gmul x y = fst (mul_ZV x y 128).
Proof. reflexivity. Qed.
Lemma gmul_range : forall x y, 0 <= y < 2 ^ 128 -> 0 <= gmul x y < 256 ^ Z.of_nat 16.
Proof. intros x y Hy. rewrite gmul_fst. replace (256 ^ Z.of_nat 16) with (2 ^ 128) by reflexivity. exact (proj1 (ZV_range x y 128 Hy)). Qed.

(** The block product of SP 800-38D, and so that of the code, is the product of
    polynomials reduced modulo t^128 + t^7 + t^2 + t + 1 to degree below 128. *)
Theorem C61_field : forall b Y key st px py, bytes Y -> zlen Y = 16 -> bytes key -> zlen key = 16 ->
  polynomial px (be_val Y) -> polynomial py (be_val key) ->
  exists out r, gh_run b st [GReset (Some key); GUpdate Y; GFinalize 16] = [out] /\
    bytes out /\ zlen out = 16 /\ polynomial r (be_val out) /\ congruent r (poly_mul 128 px py).
Proof.
  intros b Y key st px py HY LY Hk Lk Px Py.
  pose proof (C61_splitting b st key [Y] Hk Lk (Forall_cons _ HY (Forall_nil _))) as E. cbn [map app concat] in E.
  rewrite app_nil_r in E. assert (blocks_of Y = [be_val Y]) as B.
  { unfold blocks_of. rewrite LY. change (zeros (- (16) mod 16)) with (@nil Z). rewrite app_nil_r.
    change (Z.to_nat ((16 + 15) / 16)) with 1%nat. cbn [pieces map]. rewrite firstn_all2; [reflexivity|]. unfold zlen in LY. lia. }
  rewrite B, GHASH_one in E.
  pose proof (be_val_range key Hk) as Rk. rewrite Lk in Rk. change (256 ^ 16) with (2 ^ 128) in Rk.
  destruct (product_mod (be_val Y) (be_val key) px py 128 Px Py Rk ltac:(lia)) as (z & v & Pz & _ & Cz & _).
  pose proof (gmul_range (be_val Y) (be_val key) Rk) as R1. rewrite <- gmul_fst in Pz.
  exists (be_bytes 16 (gmul (be_val Y) (be_val key))), z. split; [exact E|]. split; [apply bytes_be_bytes|].
  split; [apply zlen_be_bytes|]. rewrite be_val_bytes by exact R1. split; [exact Pz|exact Cz].
Qed.
Print Assumptions C61_field.

(** ** Examples: test case 2 of the GCM specification, and a product in which the
    modulus matters *)
Definition gcm_H : list Z := [0x66; 0xe9; 0x4b; 0xd4; 0xef; 0x8a; 0x2c; 0x3b; 0x88; 0x4c; 0xfa; 0x59; 0xca; 0x34; 0x2b; 0x2e].
Definition gcm_C : list Z := [0x03; 0x88; 0xda; 0xce; 0x60; 0xb6; 0xa3; 0x92; 0xf3; 0x28; 0xc2; 0xb9; 0x71; 0xb2; 0xfe; 0x78].
Definition gcm_len : list Z := [0; 0; 0; 0; 0; 0; 0; 0; 0; 0; 0; 0; 0; 0; 0; 0x80].
Definition gcm_hash : list Z := [0xf3; 0x8c; 0xbb; 0x1a; 0xd6; 0x92; 0x23; 0xdc; 0xc3; 0x45; 0x7a; 0xe5; 0xb6; 0xb0; 0xf8; 0x85].
Definition any_state : ghash_state := GhashState [] [] 77.
Example C61_case :
  bytes gcm_H /\ zlen gcm_H = 16 /\ Forall gh_op_ok [GUpdate gcm_C; GUpdate gcm_len; GFinalize 16] /\
  gh_answers (be_val gcm_H) [] [GUpdate gcm_C; GUpdate gcm_len; GFinalize 16] = [gcm_hash] /\
  gh_run (GhBuild true false) any_state [GReset (Some gcm_H); GUpdate (take 5 gcm_C); GUpdate (drop 5 gcm_C ++ gcm_len); GFinalize 20] = [gcm_hash] /\
  gh_run (GhBuild false true) any_state [GReset (Some gcm_H); GUpdate (take 5 gcm_C); GUpdate (drop 5 gcm_C ++ gcm_len); GFinalize 20] = [gcm_hash].
Proof.
  assert (bytes gcm_H /\ bytes gcm_C /\ bytes gcm_len) as (B1 & B2 & B3).
  { split; [|split]; unfold gcm_H, gcm_C, gcm_len, bytes; repeat apply Forall_cons; try apply Forall_nil; unfold is_byte; lia. }
  split; [exact B1|]. split; [reflexivity|]. split; [apply Forall_cons; [exact B2|apply Forall_cons; [exact B3|apply Forall_cons; [cbn; lia|apply Forall_nil]]]|].
  split; [vm_compute; reflexivity|]. split; vm_compute; reflexivity.
Qed.
Example C61_padding_case :
  gh_run (GhBuild true false) any_state [GReset (Some gcm_H); GUpdate [1; 2; 3]; GPad; GUpdate [4]; GFinalize 4; GReset None; GUpdate gcm_C; GFinalize 16]
  = gh_answers (be_val gcm_H) [] [GUpdate [1; 2; 3]; GPad; GUpdate [4]; GFinalize 4; GReset None; GUpdate gcm_C; GFinalize 16] /\
  gh_run (GhBuild true false) any_state [GReset (Some gcm_H); GUpdate [1; 2; 3]; GPad; GUpdate [4]; GFinalize 4]
  <> gh_run (GhBuild true false) any_state [GReset (Some gcm_H); GUpdate [1; 2; 3; 4]; GFinalize 4].
Proof. split; vm_compute; [reflexivity|discriminate]. Qed.
(** t^127 times t is t^7 + t^2 + t + 1 *)
Example C61_field_case :
  polynomial (2 ^ 127) 1 /\ polynomial 2 (2 ^ 126) /\ gmul 1 (2 ^ 126) = 0xE1 * 2 ^ 120 /\ polynomial (2 ^ 7 + 2 ^ 2 + 2 + 1) (0xE1 * 2 ^ 120).
Proof.
  assert (forall p x, (forallb (fun i => Bool.eqb (Z.testbit p (Z.of_nat i)) (bit_of x i)) (seq 0 128) = true) ->
    0 <= p < 2 ^ 128 -> polynomial p x) as L.
  { intros p x C R. split; [exact R|]. intros i Hi. rewrite forallb_forall in C. apply eqb_prop. apply C. apply in_seq. lia. }
  repeat split; try (apply L; [vm_compute; reflexivity|lia]); vm_compute; try reflexivity; discriminate.
Qed.
