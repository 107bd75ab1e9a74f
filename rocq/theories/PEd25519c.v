(** Base point multiplication of src/crypto/ed25519 *)
From Coq Require Import Field Ring.
From Verif Require Import Base MHash MSha2 MBlake2 SSha2 SBlake2 PSha2 PSha2b PBlake2 PChaCha PGhash MX25519 SX25519 PPoly1305 PBlake2 MEdTable MEd25519 PEdwards PEdRep PX25519 PX25519b PX25519c PX25519d PX25519e PEd25519 PEd25519b PEdTable.
Local Close Scope fp_scope.
Local Open Scope Z_scope.

(** ** Selection from the table *)
Lemma swap_lm : forall a b (bit : bool), lm 1 a -> lm 1 b -> swap_conditional a b (Z.b2z bit) = if bit then (b, a) else (a, b).
Proof.
  intros [[[[a0 a1] a2] a3] a4] [[[[b0 b1] b2] b3] b4] bit A B. unfold lm, U in A, B.
  unfold swap_conditional. destruct bit.
  - change (- Z.b2z true mod 2 ^ 64) with (2 ^ 64 - 1). rewrite !swap_limb_1 by lia. reflexivity.
  - change (- Z.b2z false mod 2 ^ 64) with 0. rewrite !swap_limb_0. reflexivity.
Qed.
Lemma land_all : forall x, word x -> Z.land x (2 ^ 64 - 1) = x.
Proof. intros x H. change (2 ^ 64 - 1) with (Z.ones 64). rewrite Z.land_ones by lia. apply Z.mod_small. exact H. Qed.
Lemma move_ok : forall out inq (bit : bool), Forall word out -> Forall word inq -> length out = length inq ->
  move_conditional_words out inq (Z.b2z bit) = if bit then inq else out.
Proof.
  intros out inq bit Ho. revert inq. unfold move_conditional_words.
  assert (E : (Z.b2z bit - 1) mod 2 ^ 64 = if bit then 0 else 2 ^ 64 - 1) by (destruct bit; reflexivity). rewrite E. clear E.
  assert (E : Z.lxor (if bit then 0 else 2 ^ 64 - 1) (2 ^ 64 - 1) = if bit then 2 ^ 64 - 1 else 0) by (destruct bit; reflexivity). rewrite E. clear E.
  induction Ho as [|o out Hx Ho IH]; intros [|q inq] Hi L; try discriminate; [destruct bit; reflexivity|].
  inversion Hi as [|? ? Hq Hi']; subst. cbn [combine map fst snd]. cbn [length] in L. injection L as L. rewrite (IH inq Hi' L).
  destruct bit; rewrite land_all, Z.land_0_r by assumption; [now rewrite Z.lor_0_l|now rewrite Z.lor_0_r].
Qed.
Lemma equal_ok : forall u i, 0 <= u <= 8 -> 1 <= i <= 8 -> windowb_equal u i = Z.b2z (u =? i).
Proof.
  intros u i Hu Hi. assert (H : forallb (fun u => forallb (fun i => windowb_equal u i =? Z.b2z (u =? i)) [1;2;3;4;5;6;7;8]) [0;1;2;3;4;5;6;7;8] = true) by (vm_compute; reflexivity).
  rewrite forallb_forall in H. specialize (H u). assert (I : In u [0;1;2;3;4;5;6;7;8]) by (cbn; lia). specialize (H I). rewrite forallb_forall in H. specialize (H i).
  assert (J : In i [1;2;3;4;5;6;7;8]) by (cbn; lia). specialize (H J). now apply Z.eqb_eq.
Qed.
Definition row_size (row : list Z) : Prop := length row = 12%nat /\ Forall word row.
Lemma choose_loop_ok : forall n table pos u i packed, 0 <= u <= 8 -> 0 <= i -> i + Z.of_nat n <= 8 -> row_size packed ->
  (forall j, 0 <= j < 8 -> exists row, nth_error table (Z.to_nat (pos * 8 + j)) = Some row /\ row_size row) ->
  exists r, choose_loop n table pos u i packed = Ok r /\ (u <= i -> r = packed) /\ (i + Z.of_nat n < u -> r = packed) /\
    (i < u <= i + Z.of_nat n -> nth_error table (Z.to_nat (pos * 8 + (u - 1))) = Some r).
Proof.
  induction n as [|n IH]; intros table pos u i packed Hu Hi Hn Hp Ht.
  - exists packed. cbn [choose_loop]. split; [reflexivity|]. split; [auto|]. split; [auto|]. lia.
  - cbn [choose_loop]. destruct (Ht i ltac:(lia)) as (row & E & Hr). rewrite E. cbn [obind]. rewrite equal_ok by lia.
    rewrite move_ok by (try apply Hp; try apply Hr; destruct Hp as [-> _], Hr as [-> _]; reflexivity).
    assert (Hq : row_size (if u =? i + 1 then row else packed)) by (destruct (u =? i + 1); assumption).
    destruct (IH table pos u (i + 1) _ Hu ltac:(lia) ltac:(lia) Hq Ht) as (r & -> & R1 & R2 & R3). exists r. split; [reflexivity|].
    destruct (Z.eqb_spec u (i + 1)) as [->|N].
    + rewrite R1 by lia. split; [lia|]. split; [lia|]. intros _. rewrite <- E. do 2 f_equal. lia.
    + split; [intros; apply R1; lia|]. split; [intros; apply R2; lia|]. intros. apply R3. lia.
Qed.
(** The sign and the size of a digit *)
Lemma digit_parts : forall b, -8 <= b <= 8 -> let sign := Z.shiftr (b mod 256) 7 in
  let mask := Z.lxor ((sign - 1) mod 2^32) (2^32 - 1) in
  sign = Z.b2z (b <? 0) /\ Z.lxor ((b + mask) mod 2^32) mask = Z.abs b.
Proof.
  intros b Hb. assert (H : forallb (fun b => let sign := Z.shiftr (b mod 256) 7 in let mask := Z.lxor ((sign - 1) mod 2^32) (2^32 - 1) in
    (sign =? Z.b2z (b <? 0)) && (Z.lxor ((b + mask) mod 2^32) mask =? Z.abs b)) [-8;-7;-6;-5;-4;-3;-2;-1;0;1;2;3;4;5;6;7;8] = true) by (vm_compute; reflexivity).
  rewrite forallb_forall in H. specialize (H b). assert (I : In b [-8;-7;-6;-5;-4;-3;-2;-1;0;1;2;3;4;5;6;7;8]) by (cbn; lia). specialize (H I). cbv zeta in *.
  apply andb_true_iff in H. destruct H as [H1 H2]. apply Z.eqb_eq in H1, H2. split; assumption.
Qed.

(** Multiples of the base point by any integer *)
Definition zm (n : Z) : Point := if n <? 0 then neg (zmul B9 (- n)) else zmul B9 n.
Lemma zmc : forall n, curve dp (zmul B9 n). Proof. exact (zmul_curve B9 B9_curve). Qed.
Lemma zm_curve : forall n, curve dp (zm n).
Proof. intros n. unfold zm. destruct (n <? 0); [apply (neg_curve dp)|]; apply zmc. Qed.
Lemma neg_neg : forall P : Point, neg (neg P) = P.
Proof. intros [x y]. unfold eneg. cbn [fst snd]. apply (f_equal2 pair); [ring|reflexivity]. Qed.
Lemma neg_add_d : forall d (P Q : Point), neg (eadd F F1 Fadd Fmul Fsub Fdiv d P Q) = eadd F F1 Fadd Fmul Fsub Fdiv d (neg P) (neg Q).
Proof.
  intros d [x y] [u v]. unfold eneg. cbn [eadd fst snd]. rewrite !(Fdiv_def FT). apply (f_equal2 pair).
  - replace (Fmul (Fmul (Fmul (Fmul d (Fopp x)) (Fopp u)) y) v) with (Fmul (Fmul (Fmul (Fmul d x) u) y) v) by ring. ring.
  - replace (Fmul (Fmul (Fmul (Fmul d (Fopp x)) (Fopp u)) y) v) with (Fmul (Fmul (Fmul (Fmul d x) u) y) v) by ring. ring.
Qed.
Lemma neg_add : forall P Q, neg (add P Q) = add (neg P) (neg Q). Proof. exact (neg_add_d dp). Qed.
Lemma zmul_0 : zmul B9 0 = O_. Proof. reflexivity. Qed.
Lemma zm_nonneg : forall n, 0 <= n -> zm n = zmul B9 n.
Proof. intros n H. unfold zm. destruct (Z.ltb_spec n 0); [lia|reflexivity]. Qed.
Lemma neg_O : neg O_ = O_. Proof. unfold eneg, eO. cbn [fst snd]. apply (f_equal2 pair); [ring|reflexivity]. Qed.
Lemma zm_opp : forall n, zm (- n) = neg (zm n).
Proof.
  intros n. unfold zm. destruct (Z.ltb_spec (- n) 0), (Z.ltb_spec n 0); try lia.
  - rewrite Z.opp_involutive. reflexivity.
  - symmetry. apply neg_neg.
  - assert (n = 0) as -> by lia. change (- 0) with 0. rewrite zmul_0. symmetry. exact neg_O.
Qed.
Lemma zm_sub : forall a b, 0 <= b -> 0 <= a + b -> zm a = add (zmul B9 (a + b)) (neg (zmul B9 b)).
Proof.
  intros a b Hb Ha. unfold zm. destruct (Z.ltb_spec a 0).
  - replace b with (- a + (a + b)) at 2 by lia. rewrite (zmul_add B9 B9_curve (- a) (a + b)) by lia. rewrite neg_add.
    rewrite (add_comm dp (neg (zmul B9 (- a)))). rewrite <- (add_assoc dp dp_nonsquare); [|apply zmc|apply (neg_curve dp), zmc|apply (neg_curve dp), zmc].
    rewrite (add_neg dp dp_nonsquare) by apply zmc. rewrite (add_comm dp). symmetry. apply add_O.
  - rewrite (zmul_add B9 B9_curve) by lia. rewrite (add_assoc dp dp_nonsquare); [|apply zmc|apply zmc|apply (neg_curve dp), zmc].
    rewrite (add_neg dp dp_nonsquare) by apply zmc. symmetry. apply add_O.
Qed.
Lemma zm_add : forall a b, zm (a + b) = add (zm a) (zm b).
Proof.
  intros a b. set (k := Z.abs a). set (m := Z.abs b). assert (0 <= k /\ 0 <= a + k /\ 0 <= m /\ 0 <= b + m) as (K & AK & M & BM) by (unfold k, m; lia).
  clearbody k m. rewrite (zm_sub (a + b) (k + m)), (zm_sub a k), (zm_sub b m) by lia.
  replace (a + b + (k + m)) with ((a + k) + (b + m)) by ring. rewrite (zmul_add B9 B9_curve (a + k) (b + m)), (zmul_add B9 B9_curve k m) by lia. rewrite neg_add.
  set (P := zmul B9 (a + k)). set (Q := zmul B9 (b + m)). set (R := neg (zmul B9 k)). set (S := neg (zmul B9 m)).
  assert (HP : curve dp P) by apply zmc. assert (HQ : curve dp Q) by apply zmc.
  assert (HR : curve dp R) by (apply (neg_curve dp), zmc). assert (HS : curve dp S) by (apply (neg_curve dp), zmc). clearbody P Q R S.
  assert (C : forall A B, curve dp A -> curve dp B -> curve dp (add A B)) by exact (add_curve dp dp_nonsquare).
  rewrite (add_assoc dp dp_nonsquare P Q (add R S)) by auto. rewrite (add_assoc dp dp_nonsquare P R (add Q S)) by auto. f_equal.
  rewrite <- (add_assoc dp dp_nonsquare Q R S) by auto. rewrite <- (add_assoc dp dp_nonsquare R Q S) by auto. f_equal. apply (add_comm dp).
Qed.
Lemma zm_double : forall n, add (zm n) (zm n) = zm (2 * n).
Proof. intros n. rewrite <- zm_add. f_equal. lia. Qed.

(** ** The digits *)
Fixpoint dval (l : list Z) : Z := match l with [] => 0 | x :: l => x + 16 * dval l end.
Lemma quads_ok : forall m v, 0 <= v -> length (quads m v) = m /\ Forall (fun x => 0 <= x < 16) (quads m v) /\ dval (quads m v) = v mod 16 ^ Z.of_nat m.
Proof.
  induction m as [|m IH]; intros v Hv.
  - cbn [quads dval]. split; [reflexivity|]. split; [constructor|]. change (16 ^ Z.of_nat 0) with 1. now rewrite Z.mod_1_r.
  - cbn [quads]. rewrite Z.shiftr_div_pow2 by lia. change 15 with (Z.ones 4). rewrite Z.land_ones by lia. change (2 ^ 4) with 16.
    destruct (IH (v / 16)) as (L & R & V); [apply Z.div_pos; lia|]. split; [cbn [length]; now rewrite L|].
    split; [constructor; [apply Z.mod_pos_bound; lia|exact R]|]. cbn [dval]. rewrite V, Nat2Z.inj_succ, Z.pow_succ_r by lia. rewrite Z.rem_mul_r by lia. reflexivity.
Qed.
Lemma dval_app : forall a b, dval (a ++ b) = dval a + 16 ^ zlen a * dval b.
Proof.
  induction a as [|x a IH]; intros b; cbn [dval app].
  - change (zlen (@nil Z)) with 0. lia.
  - rewrite IH. rewrite zlen_cons. rewrite Z.pow_add_r by (pose proof (zlen_nonneg _ a); lia). ring.
Qed.
Lemma s8_id : forall x, -128 <= x < 128 -> s8 x = x.
Proof. intros x H. unfold s8. rewrite Z.mod_small by lia. lia. Qed.
Lemma make_signed_ok : forall r carry a, 0 <= a -> 0 <= carry -> a + carry <= 16 -> Forall (fun x => 0 <= x < 16) r -> last (a :: r) 0 <= 7 + (if r then 1 - carry else 0) ->
  length (make_signed carry a r) = S (length r) /\ Forall (fun b => -8 <= b <= 8) (make_signed carry a r) /\
  dval (make_signed carry a r) = a + carry + 16 * dval r.
Proof.
  induction r as [|b r IH]; intros carry a Ha Hc Hac Hr Hl.
  - cbn [make_signed dval length last] in *. rewrite s8_id by lia. split; [reflexivity|]. split; [|lia]. constructor; [lia|constructor].
  - cbn [make_signed]. cbv zeta. inversion Hr as [|? ? Hb Hr']; subst.
    rewrite (s8_id (a + carry)) by lia. rewrite !Z.shiftr_div_pow2, Z.shiftl_mul_pow2 by lia. change 15 with (Z.ones 4). rewrite Z.land_ones by lia.
    change (2 ^ 4) with 16. change (2 ^ 3) with 8. assert (T0 : 0 <= a + carry) by lia. set (t := a + carry) in *.
    pose proof (Z.div_mod t 16 ltac:(lia)) as D. pose proof (Z.mod_pos_bound t 16 ltac:(lia)) as M. set (q := t / 16) in *. set (m := t mod 16) in *. clearbody q m.
    pose proof (Z.div_mod m 8 ltac:(lia)) as D2. pose proof (Z.mod_pos_bound m 8 ltac:(lia)) as M2. set (c := m / 8) in *. set (e := m mod 8) in *. clearbody c e.
    clearbody t. rewrite (s8_id (b + q)), (s8_id (m - c * 16)) by lia.
    destruct (IH c (b + q)) as (L & R & V); [lia|lia|lia|exact Hr'| |].
    { destruct r as [|b2 r]; [cbn [last] in *; lia|exact Hl]. }
    cbn [length dval]. rewrite L, V. split; [reflexivity|]. split; [constructor; [lia|exact R]|]. lia.
Qed.

Lemma mid56 : forall a b s, word a -> word b -> 0 <= s < 56 -> 0 <= a / 2 ^ (64 - s) < 2 ^ s ->
  Z.land (Z.lor (Z.shiftr a (64 - s)) (Z.shiftl b s mod 2 ^ 64)) mask56 = a / 2 ^ (64 - s) + (b mod 2 ^ (56 - s)) * 2 ^ s.
Proof.
  intros a b s Ha Hb Hs H0. change mask56 with (Z.ones 56). rewrite Z.land_ones, Z.shiftr_div_pow2, Z.shiftl_mul_pow2 by lia.
  set (q := a / 2 ^ (64 - s)) in *. clearbody q.
  assert (E : (b * 2 ^ s) mod 2 ^ 64 = (b mod 2 ^ (64 - s)) * 2 ^ s).
  { replace (2 ^ 64) with (2 ^ (64 - s) * 2 ^ s) by (rewrite <- Z.pow_add_r by lia; f_equal; lia). apply Z.mul_mod_distr_r; apply Z.pow_nonzero; lia. }
  rewrite E. rewrite <- Z.shiftl_mul_pow2 by lia. rewrite Z.lor_comm, lor_add by lia.
  replace (2 ^ 56) with (2 ^ s * 2 ^ (56 - s)) by (rewrite <- Z.pow_add_r by lia; f_equal; lia).
  assert (P0 : 2 ^ s <> 0) by (apply Z.pow_nonzero; lia). set (m := b mod 2 ^ (64 - s)).
  assert (E1 : (m * 2 ^ s + q) mod 2 ^ s = q) by (rewrite Z.add_comm, Z.mod_add by exact P0; apply Z.mod_small; lia).
  assert (E2 : (m * 2 ^ s + q) / 2 ^ s = m) by (rewrite Z.div_add_l by exact P0; rewrite Z.div_small by lia; lia).
  rewrite Z.rem_mul_r by (try exact P0; apply Z.pow_pos_nonneg; lia). rewrite E1, E2. unfold m.
  rewrite (Z.mul_comm _ (2 ^ s)). f_equal. f_equal. symmetry. apply Znumtheory.Zmod_div_mod; try (apply Z.pow_pos_nonneg; lia).
  exists (2 ^ 8). rewrite <- Z.pow_add_r by lia. f_equal. lia.
Qed.
Lemma expand_raw_ok : forall p, bytes p -> zlen p = 32 -> let '(s0, s1, s2, s3, s4) := expand_raw256_modm p in
  0 <= s0 < 2 ^ 56 /\ 0 <= s1 < 2 ^ 56 /\ 0 <= s2 < 2 ^ 56 /\ 0 <= s3 < 2 ^ 56 /\ 0 <= s4 < 2 ^ 32 /\
  s0 + s1 * 2 ^ 56 + s2 * 2 ^ 112 + s3 * 2 ^ 168 + s4 * 2 ^ 224 = mem_word p.
Proof.
  intros p Hb Hl.
  destruct (load_word p 0 Hb) as [H0 E0]; [lia..|]. destruct (load_word p 8 Hb) as [H1 E1]; [lia..|].
  destruct (load_word p 16 Hb) as [H2 E2]; [lia..|]. destruct (load_word p 24 Hb) as [H3 E3]; [lia..|].
  pose proof (mem_word_range p Hb) as R. rewrite Hl in R. apply four_words in R.
  change (8 * 0) with 0 in E0. change (8 * 8) with 64 in E1. change (8 * 16) with 128 in E2. change (8 * 24) with 192 in E3.
  change (2 ^ 0) with 1 in E0. rewrite Z.div_1_r in E0. rewrite <- E0, <- E1, <- E2, <- E3 in R. rewrite <- R. clear R E0 E1 E2 E3.
  unfold expand_raw256_modm. cbv zeta.
  set (x0 := load_limb p 0) in *. set (x1 := load_limb p 8) in *. set (x2 := load_limb p 16) in *. set (x3 := load_limb p 24) in *. clearbody x0 x1 x2 x3.
  assert (D : forall a k, word a -> 0 <= k <= 64 -> 0 <= a / 2 ^ (64 - k) < 2 ^ k).
  { intros a k Ha Hk. unfold word in Ha. split; [apply Z.div_pos; [lia|apply Z.pow_pos_nonneg; lia]|].
    apply Z.div_lt_upper_bound; [apply Z.pow_pos_nonneg; lia|]. rewrite <- Z.pow_add_r by lia. replace (64 - k + k) with 64 by lia. lia. }
  pose proof (D x0 8 H0 ltac:(lia)). pose proof (D x1 16 H1 ltac:(lia)). pose proof (D x2 24 H2 ltac:(lia)). pose proof (D x3 32 H3 ltac:(lia)).
  pose proof (mid56 x0 x1 8 H0 H1 ltac:(lia) H) as L1. pose proof (mid56 x1 x2 16 H1 H2 ltac:(lia) H4) as L2. pose proof (mid56 x2 x3 24 H2 H3 ltac:(lia) H5) as L3.
  change (64 - 8) with 56 in *. change (64 - 16) with 48 in *. change (64 - 24) with 40 in *. change (64 - 32) with 32 in *.
  change (56 - 8) with 48 in *. change (56 - 16) with 40 in *. change (56 - 24) with 32 in *.
  rewrite L1, L2, L3. clear L1 L2 L3. change mask56 with (Z.ones 56). change 4294967295 with (Z.ones 32). rewrite !Z.land_ones, Z.shiftr_div_pow2 by lia.
  rewrite (Z.mod_small (x3 / 2 ^ 32)) by assumption. unfold word in *.
  pose proof (Z.div_mod x0 (2 ^ 56) ltac:(lia)) as Q0. pose proof (Z.mod_pos_bound x0 (2 ^ 56) ltac:(lia)) as M0.
  pose proof (Z.div_mod x1 (2 ^ 48) ltac:(lia)) as Q1. pose proof (Z.mod_pos_bound x1 (2 ^ 48) ltac:(lia)) as M1.
  pose proof (Z.div_mod x2 (2 ^ 40) ltac:(lia)) as Q2. pose proof (Z.mod_pos_bound x2 (2 ^ 40) ltac:(lia)) as M2.
  pose proof (Z.div_mod x3 (2 ^ 32) ltac:(lia)) as Q3. pose proof (Z.mod_pos_bound x3 (2 ^ 32) ltac:(lia)) as M3.
  set (q0 := x0 / 2 ^ 56) in *. set (m0 := x0 mod 2 ^ 56) in *. set (q1 := x1 / 2 ^ 48) in *. set (m1 := x1 mod 2 ^ 48) in *.
  set (q2 := x2 / 2 ^ 40) in *. set (m2 := x2 mod 2 ^ 40) in *. set (q3 := x3 / 2 ^ 32) in *. set (m3 := x3 mod 2 ^ 32) in *.
  clearbody q0 m0 q1 m1 q2 m2 q3 m3. clear D. repeat split; lia.
Qed.
Lemma last_le : forall l, l <> [] -> Forall (fun x => 0 <= x < 16) l -> last l 0 * 16 ^ (zlen l - 1) <= dval l.
Proof.
  induction l as [|x l IH]; intros N H; [congruence|]. inversion H; subst. destruct l as [|y l].
  - cbn [last dval]. change (zlen [x] - 1) with 0. lia.
  - cbn [dval] in *. change (last (x :: y :: l) 0) with (last (y :: l) 0). specialize (IH ltac:(discriminate) H3). rewrite zlen_cons.
    replace (1 + zlen (y :: l) - 1) with (Z.succ (zlen (y :: l) - 1)) by lia. rewrite Z.pow_succ_r by (rewrite zlen_cons; pose proof (zlen_nonneg _ l); lia). lia.
Qed.
Lemma digits_limbs_ok : forall s0 s1 s2 s3 s4, 0 <= s0 < 2 ^ 56 -> 0 <= s1 < 2 ^ 56 -> 0 <= s2 < 2 ^ 56 -> 0 <= s3 < 2 ^ 56 -> 0 <= s4 < 2 ^ 32 ->
  let v := s0 + s1 * 2 ^ 56 + s2 * 2 ^ 112 + s3 * 2 ^ 168 + s4 * 2 ^ 224 in v < 2 ^ 255 ->
  let b := contract256_window4_modm (s0, s1, s2, s3, s4) in
  length b = 64%nat /\ Forall (fun x => -8 <= x <= 8) b /\ dval b = v.
Proof.
  intros s0 s1 s2 s3 s4 R0 R1 R2 R3 R4 v Hr.
  unfold contract256_window4_modm. cbv zeta.
  destruct (quads_ok 14 s0 ltac:(lia)) as (L0 & F0 & V0). destruct (quads_ok 14 s1 ltac:(lia)) as (L1 & F1 & V1). destruct (quads_ok 14 s2 ltac:(lia)) as (L2 & F2 & V2).
  destruct (quads_ok 14 s3 ltac:(lia)) as (L3 & F3 & V3). destruct (quads_ok 8 s4 ltac:(lia)) as (L4 & F4 & V4).
  change (16 ^ Z.of_nat 14) with (2 ^ 56) in *. change (16 ^ Z.of_nat 8) with (2 ^ 32) in *. rewrite Z.mod_small in V0, V1, V2, V3, V4 by assumption.
  set (q0 := quads 14 s0) in *. set (q1 := quads 14 s1) in *. set (q2 := quads 14 s2) in *. set (q3 := quads 14 s3) in *. set (q4 := quads 8 s4) in *. clearbody q0 q1 q2 q3 q4.
  assert (LL : length (q0 ++ q1 ++ q2 ++ q3 ++ q4) = 64%nat) by (rewrite !app_length, L0, L1, L2, L3, L4; reflexivity).
  assert (FF : Forall (fun x => 0 <= x < 16) (q0 ++ q1 ++ q2 ++ q3 ++ q4)) by (rewrite !Forall_app; auto).
  assert (VV : dval (q0 ++ q1 ++ q2 ++ q3 ++ q4) = v).
  { rewrite !dval_app. unfold zlen. rewrite L0, L1, L2, L3, V0, V1, V2, V3, V4. change (16 ^ Z.of_nat 14) with (2 ^ 56). unfold v. ring. }
  set (r := q0 ++ q1 ++ q2 ++ q3 ++ q4) in *. clearbody r. clearbody v. clear - LL FF VV Hr.
  assert (LA : last r 0 <= 7).
  { pose proof (last_le r ltac:(intros ->; discriminate) FF) as A. unfold zlen in A. rewrite LL, VV in A. change (16 ^ (Z.of_nat 64 - 1)) with (2 ^ 252) in A. lia. }
  destruct r as [|x r]; [discriminate|]. cbn [hd tl]. pose proof (Forall_inv FF) as FX. pose proof (Forall_inv_tail FF) as FY. cbv beta in FX.
  destruct (make_signed_ok r 0 x) as (L & R & V); [lia|lia|lia|assumption| |].
  { destruct r; [discriminate|]. rewrite Z.add_0_r. exact LA. }
  split; [rewrite L; exact LL|]. split; [exact R|]. rewrite V, <- VV. cbn [dval]. lia.
Qed.
Lemma digits_ok : forall p, bytes p -> zlen p = 32 -> mem_word p < 2 ^ 255 ->
  let b := contract256_window4_modm (expand_raw256_modm p) in
  length b = 64%nat /\ Forall (fun x => -8 <= x <= 8) b /\ dval b = mem_word p.
Proof.
  intros p Hb Hl Hr. pose proof (expand_raw_ok p Hb Hl) as E. destruct (expand_raw256_modm p) as [[[[s0 s1] s2] s3] s4]. destruct E as (R0 & R1 & R2 & R3 & R4 & E).
  rewrite <- E in *. exact (digits_limbs_ok s0 s1 s2 s3 s4 R0 R1 R2 R3 R4 Hr).
Qed.
(** The sums that the two loops make *)
Fixpoint steps (n : nat) (b : list Z) (i : Z) : Z :=
  match n with O => 0 | S n => byte_at b i * 256 ^ (i / 2) + steps n b (i + 2) end.
Lemma byte_at_2 : forall x y b i, 0 <= i -> byte_at (x :: y :: b) (i + 2) = byte_at b i.
Proof. intros x y b i H. unfold byte_at. replace (Z.to_nat (i + 2)) with (S (S (Z.to_nat i))) by lia. reflexivity. Qed.
Lemma steps_2 : forall n x y b i, 0 <= i -> steps n (x :: y :: b) (i + 2) = 256 * steps n b i.
Proof.
  induction n as [|n IH]; intros x y b i H; cbn [steps]; [lia|]. rewrite byte_at_2, IH by lia.
  replace (i + 2) with (i + 1 * 2) at 1 by lia. rewrite Z.div_add by lia. rewrite Z.pow_add_r by (try lia; apply Z.div_pos; lia). ring.
Qed.
Lemma steps_dval : forall n b, length b = (2 * n)%nat -> dval b = steps n b 0 + 16 * steps n b 1.
Proof.
  induction n as [|n IH]; intros b L.
  - destruct b; [reflexivity|discriminate].
  - destruct b as [|x [|y b]]; try (cbn [length] in L; lia). cbn [steps dval]. change (0 + 2) with (0 + 2). rewrite (steps_2 n x y b 0), (steps_2 n x y b 1) by lia.
    change (byte_at (x :: y :: b) 0) with x. change (byte_at (x :: y :: b) 1) with y. change (0 / 2) with 0. change (1 / 2) with 0. rewrite IH by (cbn [length] in L; lia). lia.
Qed.
