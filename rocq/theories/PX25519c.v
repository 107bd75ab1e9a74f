(** Proofs about curve25519-donna-c64.c: the ladder *)
From Coq Require Import Setoid Morphisms Lia ZArith Zpow_facts Znumtheory.
From Verif Require Import Base MHash MSha2 MBlake2 SSha2 SBlake2 PSha2 PSha2b PBlake2 PChaCha MPoly1305 PPoly1305 PGhash MX25519 SX25519 PPrime PX25519 PX25519b.

(** ** Conditional swap *)
Lemma swap_limb_0 : forall a b, swap_limb 0 a b = (a, b).
Proof. intros a b. unfold swap_limb. cbv zeta. now rewrite Z.land_0_l, !Z.lxor_0_r. Qed.
Lemma swap_limb_1 : forall a b, 0 <= a < 2 ^ 64 -> 0 <= b < 2 ^ 64 -> swap_limb (2 ^ 64 - 1) a b = (b, a).
Proof.
  intros a b Ha Hb. unfold swap_limb. cbv zeta.
  assert (Z.land (2 ^ 64 - 1) (Z.lxor a b) = Z.lxor a b) as ->.
  { rewrite <- (Z.mod_small a (2 ^ 64)), <- (Z.mod_small b (2 ^ 64)) by assumption. change (2 ^ 64 - 1) with (Z.ones 64).
    rewrite <- !Z.land_ones by lia. apply Z.bits_inj'. intros n Hn. rewrite ?Z.lxor_spec, ?Z.land_spec, ?Z.lxor_spec, ?Z.land_spec.
    destruct (Z.testbit a n), (Z.testbit b n), (Z.testbit (Z.ones 64) n); reflexivity. }
  f_equal.
  - rewrite <- Z.lxor_assoc, Z.lxor_nilpotent. apply Z.lxor_0_l.
  - rewrite (Z.lxor_comm a b), <- Z.lxor_assoc, Z.lxor_nilpotent. apply Z.lxor_0_l.
Qed.
Lemma swap_ok : forall a b (bit : bool), lim 1 a -> lim 1 b ->
  swap_conditional a b (Z.b2z bit) = if bit then (b, a) else (a, b).
Proof.
  intros [[[[a0 a1] a2] a3] a4] [[[[b0 b1] b2] b3] b4] bit (A0 & A1 & A2 & A3 & A4) (B0 & B1 & B2 & B3 & B4).
  unfold swap_conditional. destruct bit.
  - change (- Z.b2z true mod 2 ^ 64) with (2 ^ 64 - 1). rewrite !swap_limb_1 by lia. reflexivity.
  - change (- Z.b2z false mod 2 ^ 64) with 0. rewrite !swap_limb_0. reflexivity.
Qed.

(** ** The ladder on numbers *)
Definition quad : Type := ((Z * Z) * (Z * Z))%type.
Definition mswap (b : bool) (v : quad) : quad := if b then (snd v, fst v) else v.
Definition mbit (x1 : Z) (v : quad) (b : bool) : quad :=
  let u := mswap b v in mswap b (mont x1 (fst (fst u)) (snd (fst u)) (fst (snd u)) (snd (snd u))).
Definition mbits (x1 : Z) (bs : list bool) (v : quad) : quad := fold_left (mbit x1) bs v.
Definition bits_down (n : nat) (k : Z) : list bool := map (fun i => Z.testbit k (Z.of_nat i)) (rev (seq 0 n)).
Lemma bits_down_S : forall n k, bits_down (S n) k = Z.testbit k (Z.of_nat n) :: bits_down n k.
Proof. intros. unfold bits_down. rewrite seq_S, rev_app_distr. reflexivity. Qed.

Section Exact.
Variable w : Z -> Z -> outcome Z.
Hypothesis Hw : exact_in_range w.
Section Q.
Variables (q : felem) (vq : Z).
Hypothesis Hq : like q vq.
Lemma bit_ok : forall st v bit, likes st v -> exists st', cmult_bit w q (Z.b2z bit) st = Ok st' /\ likes st' (mbit vq v bit).
Proof.
  intros [[x z] [x' z']] v bit (L1 & L2 & L3 & L4). cbn [fst snd] in L1, L2, L3, L4. unfold cmult_bit.
  rewrite swap_ok by (apply L1 || apply L3). rewrite swap_ok by (apply L2 || apply L4). unfold mbit, mswap. cbv zeta.
  destruct bit; cbn [fst snd].
  - destruct (fmonty_ok w Hw x' z' x z q _ _ _ _ _ L3 L4 L1 L2 Hq) as ([[a b] [c d]] & -> & (M1 & M2 & M3 & M4)). cbn [obind].
    cbn [fst snd] in M1, M2, M3, M4. change 1 with (Z.b2z true). rewrite (swap_ok a c true) by (apply M1 || apply M3). rewrite (swap_ok b d true) by (apply M2 || apply M4).
    eexists. split; [reflexivity|]. unfold likes. cbn [fst snd]. split; [exact M3|]. split; [exact M4|]. split; [exact M1|exact M2].
  - destruct (fmonty_ok w Hw x z x' z' q _ _ _ _ _ L1 L2 L3 L4 Hq) as ([[a b] [c d]] & -> & (M1 & M2 & M3 & M4)). cbn [obind].
    cbn [fst snd] in M1, M2, M3, M4. change 0 with (Z.b2z false). rewrite (swap_ok a c false) by (apply M1 || apply M3). rewrite (swap_ok b d false) by (apply M2 || apply M4).
    eexists. split; [reflexivity|]. unfold likes. cbn [fst snd]. split; [exact M1|]. split; [exact M2|]. split; [exact M3|exact M4].
Qed.
(** The [n] highest bits of a byte *)
Definition top_bits (n : nat) (b : Z) : list bool := map (fun i => Z.testbit b (7 - Z.of_nat i)) (seq 0 n).
Lemma top_bit : forall b, 0 <= b < 256 -> Z.shiftr b 7 = Z.b2z (Z.testbit b 7).
Proof. intros b H. rewrite Z.testbit_spec' by lia. rewrite Z.shiftr_div_pow2 by lia. symmetry. apply Z.mod_small. split; [apply Z.div_pos; lia|apply Z.div_lt_upper_bound; lia]. Qed.
Lemma byte_ok : forall n b st v, (n <= 8)%nat -> 0 <= b < 256 -> likes st v ->
  exists st', cmult_byte w q n b st = Ok st' /\ likes st' (mbits vq (top_bits n b) v).
Proof.
  induction n as [|n IH]; intros b st v Hn Hb H.
  - exists st. split; [reflexivity|exact H].
  - cbn [cmult_byte]. rewrite top_bit by exact Hb. destruct (bit_ok st v (Z.testbit b 7) H) as (st1 & -> & H1). cbn [obind].
    destruct (IH (Z.shiftl b 1 mod 256) st1 _ ltac:(lia) (Z.mod_pos_bound _ 256 eq_refl) H1) as (st2 & E & H2).
    exists st2. split; [exact E|]. replace (top_bits (S n) b) with (Z.testbit b 7 :: top_bits n (Z.shiftl b 1 mod 256)); [exact H2|].
    unfold top_bits. cbn [seq map]. change (7 - Z.of_nat 0) with 7. f_equal. rewrite <- seq_shift, map_map. apply map_ext_in. intros i Hi. apply in_seq in Hi.
    change 256 with (2 ^ 8). rewrite Z.mod_pow2_bits_low by lia. rewrite Z.shiftl_spec by lia. f_equal. lia.
Qed.
Lemma mbits_app : forall x1 a b v, mbits x1 (a ++ b) v = mbits x1 b (mbits x1 a v).
Proof. intros. unfold mbits. apply fold_left_app. Qed.
Lemma loop_ok : forall l st v, bytes l -> likes st v ->
  exists st', cmult_loop w q l st = Ok st' /\ likes st' (mbits vq (concat (map (top_bits 8) l)) v).
Proof.
  induction l as [|b l IH]; intros st v Hb H.
  - exists st. split; [reflexivity|exact H].
  - inversion Hb as [|? ? B1 B2]; subst. cbn [cmult_loop map concat]. unfold is_byte in B1.
    destruct (byte_ok 8 b st v (le_n 8) ltac:(lia) H) as (st1 & -> & H1). cbn [obind].
    destruct (IH st1 _ B2 H1) as (st2 & E & H2). exists st2. split; [exact E|]. rewrite mbits_app. exact H2.
Qed.
End Q.

Lemma bits_down_app : forall n m a b, 0 <= a < 2 ^ Z.of_nat m ->
  bits_down (n + m) (a + 2 ^ Z.of_nat m * b) = bits_down n b ++ bits_down m a.
Proof.
  intros n m a b Ha. induction n as [|n IH].
  - cbn [Nat.add app]. change (bits_down 0 b) with (@nil bool). cbn [app]. unfold bits_down. apply map_ext_in. intros i Hi.
    apply in_rev, in_seq in Hi. rewrite <- (Z.mod_pow2_bits_low (a + 2 ^ Z.of_nat m * b) (Z.of_nat m)) by lia.
    rewrite Z.mul_comm, Z_mod_plus_full, Z.mod_small by lia. reflexivity.
  - cbn [Nat.add]. rewrite !bits_down_S, IH. cbn [app]. f_equal.
    replace (Z.of_nat (n + m)) with (Z.of_nat n + Z.of_nat m) by lia. rewrite <- Z.div_pow2_bits by lia.
    rewrite (Z.mul_comm (2 ^ Z.of_nat m)), Z.div_add, Z.div_small by lia. reflexivity.
Qed.
Lemma top_bits_down : forall b, top_bits 8 b = bits_down 8 b.
Proof. reflexivity. Qed.
Lemma bits_of_bytes : forall l, bytes l -> concat (map (top_bits 8) (rev l)) = bits_down (8 * length l) (mem_word l).
Proof.
  induction l as [|b l IH]; intros Hb; [reflexivity|]. inversion Hb as [|? ? B1 B2]; subst. cbn [rev].
  rewrite map_app, concat_app, IH by exact B2. cbn [map concat]. rewrite app_nil_r, top_bits_down.
  change (mem_word (b :: l)) with (b + 2 ^ Z.of_nat 8 * mem_word l). replace (8 * length (b :: l))%nat with (8 * length l + 8)%nat by (cbn [length]; lia).
  rewrite bits_down_app; [reflexivity|]. unfold is_byte in B1. change (2 ^ Z.of_nat 8) with 256. lia.
Qed.
Lemma cmult_ok : forall n q vq, bytes n -> zlen n = 32 -> like q vq ->
  exists x z, cmult w n q = Ok (x, z) /\
    like x (fst (fst (mbits vq (bits_down 256 (mem_word n)) ((1, 0), (vq, 1))))) /\
    like z (snd (fst (mbits vq (bits_down 256 (mem_word n)) ((1, 0), (vq, 1))))).
Proof.
  intros n q vq Hb Hl Hq. unfold cmult.
  destruct (loop_ok q vq Hq (rev n) (((1, 0, 0, 0, 0), (0, 0, 0, 0, 0)), (q, (1, 0, 0, 0, 0))) ((1, 0), (vq, 1))) as ([[x z] r] & E & H).
  - unfold bytes. now apply Forall_rev.
  - unfold likes, like. cbn [fst snd]. split; [split; [unfold lim; lia|reflexivity]|]. split; [split; [unfold lim; lia|reflexivity]|].
    split; [exact Hq|]. split; [unfold lim; lia|reflexivity].
  - rewrite E. cbn [obind fst]. rewrite bits_of_bytes in H by exact Hb. replace (8 * length n)%nat with 256%nat in H by (unfold zlen in Hl; lia).
    exists x, z. destruct H as (H1 & H2 & _). cbn [fst snd] in H1, H2. auto.
Qed.
End Exact.

(** ** The ladder of RFC 7748 *)
Definition qeq (u v : quad) : Prop :=
  fst (fst u) == fst (fst v) /\ snd (fst u) == snd (fst v) /\ fst (snd u) == fst (snd v) /\ snd (snd u) == snd (snd v).
Definition unswapped (s : ladder_state) : quad :=
  let s := cswap (ls_swap s) s in ((ls_x2 s, ls_z2 s), (ls_x3 s, ls_z3 s)).
Lemma mont_eq : forall x1 a b c d a' b' c' d', a == a' -> b == b' -> c == c' -> d == d' -> qeq (mont x1 a b c d) (mont x1 a' b' c' d').
Proof.
  intros x1 a b c d a' b' c' d' A B C D. unfold qeq, mont. cbv zeta. cbn [fst snd].
  split; [|split; [|split]]; rewrite ?A, ?B, ?C, ?D; reflexivity.
Qed.
Lemma fadd_eq : forall a b, fadd a b == a + b. Proof. intros. apply mod_eqp. Qed.
Lemma fsub_eq : forall a b, fsub a b == a - b. Proof. intros. apply mod_eqp. Qed.
Lemma fmult_eq : forall a b, fmult a b == a * b. Proof. intros. apply mod_eqp. Qed.
Lemma fadd_c : forall a b a' b', a == a' -> b == b' -> fadd a b == a' + b'. Proof. intros a b a' b' A B. rewrite fadd_eq, A, B. reflexivity. Qed.
Lemma fsub_c : forall a b a' b', a == a' -> b == b' -> fsub a b == a' - b'. Proof. intros a b a' b' A B. rewrite fsub_eq, A, B. reflexivity. Qed.
Lemma fmult_c : forall a b a' b', a == a' -> b == b' -> fmult a b == a' * b'. Proof. intros a b a' b' A B. rewrite fmult_eq, A, B. reflexivity. Qed.
Lemma ladder_step_eq : forall x1 k s v, qeq (unswapped s) v -> qeq (unswapped (ladder_step x1 k s)) (mbit x1 v k).
Proof.
  intros x1 k [x2 z2 x3 z3 sw] [[a b] [c d]] (H1 & H2 & H3 & H4). unfold mbit, mswap.
  assert (M : forall x z x' z', qeq ((fmult (fmult (fadd x z) (fadd x z)) (fmult (fsub x z) (fsub x z)),
     fmult (fsub (fmult (fadd x z) (fadd x z)) (fmult (fsub x z) (fsub x z)))
       (fadd (fmult (fadd x z) (fadd x z)) (fmult a24 (fsub (fmult (fadd x z) (fadd x z)) (fmult (fsub x z) (fsub x z)))))),
    (fmult (fadd (fmult (fsub x' z') (fadd x z)) (fmult (fadd x' z') (fsub x z))) (fadd (fmult (fsub x' z') (fadd x z)) (fmult (fadd x' z') (fsub x z))),
     fmult x1 (fmult (fsub (fmult (fsub x' z') (fadd x z)) (fmult (fadd x' z') (fsub x z))) (fsub (fmult (fsub x' z') (fadd x z)) (fmult (fadd x' z') (fsub x z)))))) (mont x1 x z x' z')).
  { intros. unfold qeq, mont, a24. cbv zeta. cbn [fst snd]. split; [|split; [|split]]; repeat match goal with |- fmult _ _ == _ => apply fmult_c | |- fadd _ _ == _ => apply fadd_c | |- fsub _ _ == _ => apply fsub_c | |- _ => reflexivity end. }
  assert (T : forall u v x : quad, qeq u v -> qeq v x -> qeq u x).
  { intros u v x (? & ? & ? & ?) (? & ? & ? & ?). unfold qeq. split; [|split; [|split]]; etransitivity; eassumption. }
  unfold unswapped, ladder_step, cswap in *. cbn [ls_swap ls_x2 ls_z2 ls_x3 ls_z3 fst snd] in *.
  destruct sw, k; cbn [xorb fst snd ls_swap ls_x2 ls_z2 ls_x3 ls_z3] in *.
  - pose proof (T _ _ _ (M x2 z2 x3 z3) (mont_eq x1 _ _ _ _ c d a b H3 H4 H1 H2)) as X. destruct X as (X1 & X2 & X3 & X4). unfold qeq. cbn [fst snd] in *. auto.
  - exact (T _ _ _ (M x3 z3 x2 z2) (mont_eq x1 _ _ _ _ a b c d H1 H2 H3 H4)).
  - pose proof (T _ _ _ (M x3 z3 x2 z2) (mont_eq x1 _ _ _ _ c d a b H3 H4 H1 H2)) as X. destruct X as (X1 & X2 & X3 & X4). unfold qeq. cbn [fst snd] in *. auto.
  - exact (T _ _ _ (M x2 z2 x3 z3) (mont_eq x1 _ _ _ _ a b c d H1 H2 H3 H4)).
Qed.
Lemma ladder_eq : forall n k x1 s v, qeq (unswapped s) v -> qeq (unswapped (ladder n k x1 s)) (mbits x1 (bits_down n k) v).
Proof.
  induction n as [|n IH]; intros k x1 s v H; [exact H|]. rewrite bits_down_S. cbn [ladder]. unfold mbits. cbn [fold_left].
  apply IH. now apply ladder_step_eq.
Qed.

(** ** Scaling *)
Definition nonzero (a : Z) : Prop := ~ (p25519 | a).
Definition scaled (u v : quad) : Prop := exists a b, nonzero a /\ nonzero b /\
  fst (fst v) == a * fst (fst u) /\ snd (fst v) == a * snd (fst u) /\ fst (snd v) == b * fst (snd u) /\ snd (snd v) == b * snd (snd u).
Lemma nonzero_mul : forall a b, nonzero a -> nonzero b -> nonzero (a * b).
Proof. intros a b A B D. apply prime_mult in D; [|exact prime_p25519]. destruct D; contradiction. Qed.
Lemma scaled_swap : forall b u v, scaled u v -> scaled (mswap b u) (mswap b v).
Proof. intros [|] u v H; [|exact H]. destruct H as (a & b & A & B & H1 & H2 & H3 & H4). exists b, a. cbn [mswap fst snd]. auto 10. Qed.
Lemma eqp_ring : forall a b, a = b -> a == b. Proof. intros a b ->. reflexivity. Qed.
Lemma scaled_mont : forall x1 u v, scaled u v ->
  scaled (mont x1 (fst (fst u)) (snd (fst u)) (fst (snd u)) (snd (snd u))) (mont x1 (fst (fst v)) (snd (fst v)) (fst (snd v)) (snd (snd v))).
Proof.
  intros x1 [[x z] [x' z']] [[y t] [y' t']] (a & b & A & B & H1 & H2 & H3 & H4). cbn [fst snd] in *.
  exists (a * a * (a * a)), (a * a * (b * b)). split; [now repeat apply nonzero_mul|]. split; [now repeat apply nonzero_mul|].
  unfold mont. cbv zeta. cbn [fst snd]. split; [|split; [|split]]; rewrite ?H1, ?H2, ?H3, ?H4; apply eqp_ring; ring.
Qed.
Lemma scaled_bits : forall x1 bs u v, scaled u v -> scaled (mbits x1 bs u) (mbits x1 bs v).
Proof.
  intros x1 bs. induction bs as [|b bs IH]; intros u v H; [exact H|]. unfold mbits. cbn [fold_left]. apply IH.
  unfold mbit. cbv zeta. now apply scaled_swap, scaled_mont, scaled_swap.
Qed.

(** x * z^(p-2) does not depend on the scale *)
Lemma pow_nonzero : forall a, nonzero a -> a ^ (p25519 - 1) == 1.
Proof. intros a H. apply eqp_mod. rewrite (fermat p25519 a prime_p25519 H). reflexivity. Qed.
Lemma ratio_scaled : forall a x z, nonzero a -> (a * x) * (a * z) ^ (p25519 - 2) == x * z ^ (p25519 - 2).
Proof.
  intros a x z H. rewrite Z.pow_mul_l.
  assert (E : a * a ^ (p25519 - 2) = a ^ (p25519 - 1)).
  { replace (p25519 - 1) with (1 + (p25519 - 2)) by ring. rewrite Z.pow_add_r, Z.pow_1_r by (unfold p25519; lia). reflexivity. }
  transitivity ((a * a ^ (p25519 - 2)) * (x * z ^ (p25519 - 2))).
  - apply eqp_ring. generalize (a ^ (p25519 - 2)) (z ^ (p25519 - 2)). intros. ring.
  - rewrite E, (pow_nonzero a H). rewrite Z.mul_1_l. reflexivity.
Qed.

(** When x1 is zero, so is the result *)
Definition flat (v : quad) : Prop := fst (fst v) * snd (fst v) == 0 /\ fst (snd v) * snd (snd v) == 0.
Definition at_zero (v : quad) : Prop := snd (fst v) == 0 /\ snd (snd v) == 0.
Lemma zero_bit : forall x1 v b, x1 == 0 -> flat v -> at_zero (mbit x1 v b).
Proof.
  intros x1 [[x z] [x' z']] b H0 (H1 & H2). cbn [fst snd] in *. unfold mbit, mswap, mont, at_zero. cbv zeta.
  destruct b; cbn [fst snd].
  - split; [rewrite H0; apply eqp_ring; ring|]. transitivity (4 * (x' * z') * ((x' + z') * (x' + z') + 121665 * ((x' + z') * (x' + z') - (x' - z') * (x' - z')))).
    + apply eqp_ring. ring.
    + rewrite H2. apply eqp_ring. ring.
  - split; [|rewrite H0; apply eqp_ring; ring]. transitivity (4 * (x * z) * ((x + z) * (x + z) + 121665 * ((x + z) * (x + z) - (x - z) * (x - z)))).
    + apply eqp_ring. ring.
    + rewrite H1. apply eqp_ring. ring.
Qed.
Lemma zero_flat : forall v, at_zero v -> flat v.
Proof. intros v (H1 & H2). unfold flat. rewrite H1, H2. split; apply eqp_ring; ring. Qed.
Lemma zero_bits : forall x1 bs v, x1 == 0 -> flat v -> bs <> [] -> at_zero (mbits x1 bs v).
Proof.
  intros x1 bs. induction bs as [|b bs IH]; intros v H0 H Hne; [contradiction|]. unfold mbits. cbn [fold_left].
  pose proof (zero_bit x1 v b H0 H) as Z. destruct bs as [|c bs]; [exact Z|]. apply IH; [exact H0|now apply zero_flat|discriminate].
Qed.
Lemma eqp_divide : forall a, (p25519 | a) <-> a == 0.
Proof. intros a. split; [intros (k & ->); exists k; ring|intros (k & ->); exists k; ring]. Qed.

Definition start (u : Z) : quad := ((1, 0), (u, 1)).
Definition ratio (v : quad) : Z := fst (fst v) * snd (fst v) ^ (p25519 - 2).
Lemma ratio_fold : forall v, fst (fst v) * snd (fst v) ^ (p25519 - 2) == ratio v.
Proof. intros v. unfold ratio. reflexivity. Qed.
Lemma ratio_eq : forall u v, qeq u v -> ratio u == ratio v.
Proof. intros u v (H1 & H2 & _). unfold ratio. rewrite H1. rewrite (eqp_pow _ _ _ H2). reflexivity. Qed.
Lemma ratio_zero : forall v, snd (fst v) == 0 -> ratio v == 0.
Proof. intros v H. unfold ratio. rewrite (eqp_pow _ _ _ H). rewrite Z.pow_0_l by reflexivity. rewrite Z.mul_0_r. reflexivity. Qed.
(** A zero bit in front changes nothing *)
Lemma ratio_first : forall u bs, bs <> [] -> ratio (mbits u (false :: bs) (start u)) == ratio (mbits u bs (start u)).
Proof.
  intros u bs Hne. destruct (Zdivide_dec p25519 u) as [D|D].
  - apply (proj1 (eqp_divide u)) in D. assert (F : flat (start u)) by (unfold flat, start; cbn [fst snd]; rewrite D; split; apply eqp_ring; ring).
    pose proof (zero_bits u bs (start u) D F Hne) as (A & _). pose proof (zero_bits u (false :: bs) (start u) D F ltac:(discriminate)) as (B & _).
    rewrite (ratio_zero _ A), (ratio_zero _ B). reflexivity.
  - assert (S : scaled (start u) (mbit u (start u) false)).
    { exists 1, (4 * u). split; [|split].
      - intros (k & X). assert (k = 0 \/ k <= -1 \/ 1 <= k) by lia. unfold p25519 in X. lia.
      - apply nonzero_mul; [|exact D]. intros (k & X). unfold p25519 in X. lia.
      - unfold start, mbit, mswap, mont. cbv zeta. cbn [fst snd]. split; [|split; [|split]]; apply eqp_ring; ring. }
    unfold mbits. cbn [fold_left]. fold (mbits u bs (mbit u (start u) false)). fold (mbits u bs (start u)).
    destruct (scaled_bits u bs _ _ S) as (a & b & A & _ & H1 & H2 & _). unfold ratio. rewrite H1. rewrite (eqp_pow _ _ _ H2). now apply ratio_scaled.
Qed.
Lemma x25519_number_eq : forall k u, x25519_number k u == ratio (mbits u (bits_down 255 k) (start u)).
Proof.
  intros k u. unfold x25519_number. cbv zeta. rewrite fmult_eq. unfold fpow. rewrite mod_eqp.
  assert (Q : qeq (unswapped (LS 1 0 u 1 false)) (start u)) by (unfold qeq, unswapped, start, cswap; cbn [fst snd ls_swap ls_x2 ls_z2 ls_x3 ls_z3]; split; [|split; [|split]]; reflexivity).
  pose proof (ladder_eq 255 k u _ _ Q) as L. apply ratio_eq in L. rewrite <- L. unfold ratio, unswapped. cbn [fst snd]. reflexivity.
Qed.

(** ** The scalar *)
Lemma clamp_low : forall b, is_byte b -> Z.land b 248 = 8 * (b / 8).
Proof.
  intros b H. assert (forallb (fun b => Z.land (Z.of_nat b) 248 =? 8 * (Z.of_nat b / 8)) (seq 0 256) = true) as F by (vm_compute; reflexivity).
  rewrite forallb_forall in F. unfold is_byte in H. specialize (F (Z.to_nat b)). rewrite in_seq in F. specialize (F ltac:(lia)). rewrite Z2Nat.id in F by lia. now apply Z.eqb_eq.
Qed.
Lemma clamp_high : forall b, is_byte b -> Z.lor (Z.land b 127) 64 = b mod 64 + 64.
Proof.
  intros b H. assert (forallb (fun b => Z.lor (Z.land (Z.of_nat b) 127) 64 =? Z.of_nat b mod 64 + 64) (seq 0 256) = true) as F by (vm_compute; reflexivity).
  rewrite forallb_forall in F. unfold is_byte in H. specialize (F (Z.to_nat b)). rewrite in_seq in F. specialize (F ltac:(lia)). rewrite Z2Nat.id in F by lia. now apply Z.eqb_eq.
Qed.
Lemma ends : forall (l : list Z), zlen l = 32 -> exists m, l = byte_at l 0 :: m ++ [byte_at l 31] /\ m = sub 1 30 l /\ zlen m = 30.
Proof.
  intros l H. exists (sub 1 30 l). assert (L : zlen (sub 1 30 l) = 30) by (rewrite zlen_sub; lia). split; [|auto].
  unfold zlen in H. do 32 (destruct l as [|? l]; [cbn [length] in H; lia|]). destruct l; [reflexivity|cbn [length] in H; lia].
Qed.
Lemma clamp_ok : forall k, bytes k -> zlen k = 32 ->
  bytes (donna_clamp k) /\ zlen (donna_clamp k) = 32 /\ mem_word (donna_clamp k) = decode_scalar k.
Proof.
  intros k Hb Hl. destruct (ends k Hl) as (m & E & Em & Lm). unfold donna_clamp. rewrite <- Em.
  assert (B : bytes (byte_at k 0 :: m ++ [byte_at k 31])) by (rewrite <- E; exact Hb).
  inversion B as [|? ? B0 B1]; subst x l. apply Forall_app in B1. destruct B1 as [B1 B2]. inversion B2 as [|? ? B3 B4]; subst x l.
  rewrite clamp_low, clamp_high by assumption. unfold decode_scalar. change (le_val k) with (mem_word k). rewrite (f_equal mem_word E).
  set (b0 := byte_at k 0) in *. set (b31 := byte_at k 31) in *. clearbody b0 b31. clear Em E Hb Hl B B2 B4.
  unfold is_byte in B0, B3. split; [|split].
  - apply Forall_cons; [unfold is_byte; lia|]. apply Forall_app. split; [exact B1|]. apply Forall_cons; [unfold is_byte; lia|]. constructor.
  - rewrite !zlen_app, Lm. reflexivity.
  - cbn [app]. change (b0 :: m ++ [b31]) with ([b0] ++ m ++ [b31]). change (8 * (b0 / 8) :: m ++ [b31 mod 64 + 64]) with ([8 * (b0 / 8)] ++ m ++ [b31 mod 64 + 64]).
    rewrite !mem_word_app, Lm. change (zlen [_]) with 1. change (256 ^ 1) with 256. change (256 ^ 30) with (2 ^ 240).
    assert (S : forall x, mem_word [x] = x) by (intros; unfold mem_word; cbn [fold_right]; lia). rewrite !S.
    pose proof (mem_word_range m B1) as R. rewrite Lm in R. change (256 ^ 30) with (2 ^ 240) in R. set (M := mem_word m) in *. clearbody M.
    pose proof (Z.div_mod b0 8 ltac:(lia)). pose proof (Z.mod_pos_bound b0 8 eq_refl). pose proof (Z.div_mod b31 64 ltac:(lia)). pose proof (Z.mod_pos_bound b31 64 eq_refl).
    assert (Q : (b0 + 256 * (M + 2 ^ 240 * b31)) / 8 = b0 / 8 + 32 * (M + 2 ^ 240 * b31)) by (symmetry; apply Z.div_unique with (r := b0 mod 8); lia).
    rewrite Q. assert (Q2 : (b0 / 8 + 32 * (M + 2 ^ 240 * b31)) mod 2 ^ 251 = b0 / 8 + 32 * M + 2 ^ 245 * (b31 mod 64)) by (symmetry; apply Z.mod_unique with (q := b31 / 64); lia).
    rewrite Q2. lia.
Qed.

(** ** The whole function *)
Section Exact.
Variable w : Z -> Z -> outcome Z.
Hypothesis Hw : exact_in_range w.
Theorem donna_ok : forall k u, bytes k -> zlen k = 32 -> bytes u -> zlen u = 32 -> curve25519_donna w k u = Ok (X25519 k u).
Proof.
  intros k u Hk Lk Hu Lu. unfold curve25519_donna. cbv zeta. destruct (clamp_ok k Hk Lk) as (C1 & C2 & C3).
  destruct (fexpand_ok u Hu Lu) as (U1 & U2). set (bp := fexpand u) in *.
  destruct (cmult_ok w Hw (donna_clamp k) bp (decode_u u) C1 C2) as (x & z & -> & (Lx & Vx) & (Lz & Vz)).
  { split; [exact U1|]. rewrite U2. reflexivity. }
  cbn [obind]. destruct (crecip_ok w Hw z (lim19 _ Lz)) as (zi & -> & Li & Vi). cbn [obind].
  destruct (fmul_ok w Hw x zi (lim19 _ Lx) (lim19 _ Li)) as (r & -> & Lr & Vr). cbn [obind].
  rewrite (fcontract_ok w Hw r Lr). f_equal. unfold X25519, encode_u. f_equal. apply eqp_mod.
  rewrite Vr, Vi, Vx. rewrite (eqp_pow _ _ _ Vz). rewrite C3. fold (start (decode_u u)).
  etransitivity; [apply ratio_fold|].
  rewrite x25519_number_eq. change 256%nat with (S 255). rewrite bits_down_S.
  assert (Z.testbit (decode_scalar k) (Z.of_nat 255) = false) as ->.
  { unfold decode_scalar. pose proof (Z.mod_pos_bound (le_val k / 8) (2 ^ 251) eq_refl) as R. set (m := (le_val k / 8) mod 2 ^ 251) in *. clearbody m.
    apply Z.testbit_false; [lia|]. change (Z.of_nat 255) with 255. rewrite Z.div_small; [reflexivity|]. lia. }
  apply ratio_first. rewrite (bits_down_S 254). discriminate.
Qed.
End Exact.
