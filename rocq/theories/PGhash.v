(** Proofs about the model of ghash.c *)
From Verif Require Import Base MHash MSha2 MBlake2 MGhash SSha2 SBlake2 SGhash PSha2 PSha2b PBlake2 SChaCha PChaCha PPoly1305 PRand.

(** ** Bytes and words *)
Lemma be_val_rev : forall l, be_val l = mem_word (rev l).
Proof.
  intros l. unfold be_val, mem_word. rewrite <- fold_left_rev_right.
  generalize (rev l) as m. intros m. induction m as [|x m IH]; [reflexivity|]. cbn [fold_right]. rewrite IH. lia.
Qed.
Lemma be_val_app : forall a x, be_val (a ++ [x]) = 256 * be_val a + x.
Proof. intros a x. unfold be_val. now rewrite fold_left_app. Qed.
Lemma bytes_rev : forall l, bytes l -> bytes (rev l).
Proof. intros l H. now apply Forall_rev. Qed.
Lemma zlen_rev : forall (l : list Z), zlen (rev l) = zlen l.
Proof. intros l. unfold zlen. now rewrite rev_length. Qed.
Lemma be_val_range : forall l, bytes l -> 0 <= be_val l < 256 ^ zlen l.
Proof. intros l H. rewrite be_val_rev, <- zlen_rev. apply mem_word_range. now apply bytes_rev. Qed.
Lemma be_bytes_S : forall n v, be_bytes (S n) v = be_bytes n (v / 256) ++ [v mod 256].
Proof.
  intros n v. unfold be_bytes. rewrite seq_S, map_app. f_equal.
  - apply map_ext_in. intros i Hi. apply in_seq in Hi.
    replace (S n - 1 - i)%nat with (S (n - 1 - i)) by lia.
    rewrite Nat2Z.inj_succ, Z.pow_succ_r by lia. rewrite Z.div_div by lia. reflexivity.
  - cbn [map]. replace (S n - 1 - (0 + n))%nat with 0%nat by lia. change (256 ^ Z.of_nat 0) with 1. now rewrite Z.div_1_r.
Qed.
Lemma le_bytes_S : forall n v, le_bytes (S n) v = (v mod 256) :: le_bytes n (v / 256).
Proof.
  intros n v. unfold le_bytes. cbn [seq map]. change (256 ^ Z.of_nat 0) with 1. rewrite Z.div_1_r. f_equal.
  rewrite <- seq_shift, map_map. apply map_ext. intros i. rewrite Nat2Z.inj_succ, Z.pow_succ_r by lia.
  rewrite Z.div_div by lia. reflexivity.
Qed.
Lemma rev_le_bytes : forall n v, rev (le_bytes n v) = be_bytes n v.
Proof.
  intros n. induction n as [|n IH]; intros v; [reflexivity|]. rewrite le_bytes_S, be_bytes_S. cbn [rev]. now rewrite IH.
Qed.
Lemma be_bytes_val : forall l, bytes l -> be_bytes (length l) (be_val l) = l.
Proof.
  intros l H. rewrite <- rev_le_bytes, be_val_rev. rewrite <- (rev_length l).
  rewrite le_bytes_mem_word by now apply bytes_rev. apply rev_involutive.
Qed.
Lemma be_val_bytes : forall n v, 0 <= v < 256 ^ Z.of_nat n -> be_val (be_bytes n v) = v.
Proof.
  intros n. induction n as [|n IH]; intros v Hv.
  - cbn in Hv. replace v with 0 by lia. reflexivity.
  - rewrite Nat2Z.inj_succ, Z.pow_succ_r in Hv by lia.
    rewrite be_bytes_S.
    rewrite be_val_app, IH by (split; [apply Z.div_pos; lia|apply Z.div_lt_upper_bound; lia]).
    pose proof (Z.div_mod v 256). lia.
Qed.

Lemma land_field : forall y j, 0 <= j -> Z.land y (255 * 2 ^ j) = (y / 2 ^ j mod 256) * 2 ^ j.
Proof.
  intros y j Hj. change 256 with (2 ^ 8). rewrite <- Z.shiftr_div_pow2, <- !Z.shiftl_mul_pow2 by lia.
  change 255 with (Z.ones 8). rewrite <- Z.land_ones by lia.
  apply Z.bits_inj'. intros n Hn. rewrite Z.land_spec, !Z.shiftl_spec by lia. rewrite Z.land_spec.
  destruct (Z.ltb_spec n j).
  - rewrite !(Z.testbit_neg_r _ (n - j)) by lia. now rewrite andb_false_r.
  - rewrite Z.shiftr_spec by lia. do 2 f_equal. lia.
Qed.
Lemma field_r : forall x k j, 0 <= k -> 0 <= j -> Z.land (Z.shiftr x k) (255 * 2 ^ j) = (x / 2 ^ (k + j) mod 256) * 2 ^ j.
Proof.
  intros x k j Hk Hj. rewrite land_field by lia. rewrite Z.shiftr_div_pow2 by lia.
  rewrite Z.div_div by lia. now rewrite <- Z.pow_add_r by lia.
Qed.
Lemma field_l : forall x k w j, 0 <= k <= j -> j + 8 <= w ->
  Z.land (Z.shiftl x k mod 2 ^ w) (255 * 2 ^ j) = (x / 2 ^ (j - k) mod 256) * 2 ^ j.
Proof.
  intros x k w j Hk Hj. rewrite land_field by lia. f_equal.
  rewrite <- !Z.shiftr_div_pow2 by lia. change 256 with (2 ^ 8).
  apply Z.bits_inj'. intros n Hn. rewrite !mod_pow2_bits by lia.
  destruct (Z.ltb_spec n 8); [|reflexivity]. cbn [andb]. rewrite !Z.shiftr_spec by lia. rewrite mod_pow2_bits by lia.
  rewrite Z.shiftl_spec by lia. destruct (Z.ltb_spec (n + j) w); [|lia]. cbn [andb]. f_equal. lia.
Qed.
Lemma lor_low : forall a b k, 0 <= k -> 0 <= a < 2 ^ k -> Z.lor a (b * 2 ^ k) = a + b * 2 ^ k.
Proof.
  intros a b k Hk Ha. rewrite Z.lor_comm. rewrite <- Z.shiftl_mul_pow2 at 1 by lia. rewrite lor_add by lia. lia.
Qed.

Lemma swap64_spec : forall x, swap_endian64 false x = be_val (le_bytes 8 x).
Proof.
  intros x. unfold swap_endian64. cbv zeta.
  change 0x00000000000000FF with (255 * 2 ^ 0). change 0x000000000000FF00 with (255 * 2 ^ 8).
  change 0x0000000000FF0000 with (255 * 2 ^ 16). change 0x00000000FF000000 with (255 * 2 ^ 24).
  change 0x000000FF00000000 with (255 * 2 ^ 32). change 0x0000FF0000000000 with (255 * 2 ^ 40).
  change 0x00FF000000000000 with (255 * 2 ^ 48). change 0xFF00000000000000 with (255 * 2 ^ 56).
  rewrite (field_r x 56 0), (field_r x 40 8), (field_r x 24 16), (field_r x 8 24),
    (field_l x 8 64 32), (field_l x 24 64 40), (field_l x 40 64 48), (field_l x 56 64 56) by lia.
  unfold le_bytes. cbn [seq map be_val fold_left Z.of_nat Pos.of_succ_nat Pos.succ].
  change (56 + 0) with 56. change (40 + 8) with 48. change (24 + 16) with 40. change (8 + 24) with 32.
  change (32 - 8) with 24. change (40 - 24) with 16. change (48 - 40) with 8. change (56 - 56) with 0.
  change (256 ^ Z.of_nat 7) with (2 ^ 56). change (256 ^ Z.of_nat 6) with (2 ^ 48). change (256 ^ Z.of_nat 5) with (2 ^ 40). change (256 ^ Z.of_nat 4) with (2 ^ 32).
  change (256 ^ Z.of_nat 3) with (2 ^ 24). change (256 ^ Z.of_nat 2) with (2 ^ 16). change (256 ^ Z.of_nat 1) with (2 ^ 8). change (256 ^ Z.of_nat 0) with (2 ^ 0).
  pose proof (Z.mod_pos_bound (x / 2 ^ 56) 256 ltac:(lia)). pose proof (Z.mod_pos_bound (x / 2 ^ 48) 256 ltac:(lia)).
  pose proof (Z.mod_pos_bound (x / 2 ^ 40) 256 ltac:(lia)). pose proof (Z.mod_pos_bound (x / 2 ^ 32) 256 ltac:(lia)).
  pose proof (Z.mod_pos_bound (x / 2 ^ 24) 256 ltac:(lia)). pose proof (Z.mod_pos_bound (x / 2 ^ 16) 256 ltac:(lia)).
  pose proof (Z.mod_pos_bound (x / 2 ^ 8) 256 ltac:(lia)). pose proof (Z.mod_pos_bound (x / 2 ^ 0) 256 ltac:(lia)).
  generalize dependent (x / 2 ^ 56 mod 256). generalize dependent (x / 2 ^ 48 mod 256).
  generalize dependent (x / 2 ^ 40 mod 256). generalize dependent (x / 2 ^ 32 mod 256).
  generalize dependent (x / 2 ^ 24 mod 256). generalize dependent (x / 2 ^ 16 mod 256).
  generalize dependent (x / 2 ^ 8 mod 256). generalize dependent (x / 2 ^ 0 mod 256).
  intros a Ha b Hb c Hc d Hd e He f Hf g Hg h Hh.
  rewrite (lor_low _ g 8), (lor_low _ f 16), (lor_low _ e 24), (lor_low _ d 32), (lor_low _ c 40), (lor_low _ b 48), (lor_low _ a 56) by lia.
  lia.
Qed.
Lemma swap32_spec : forall x, swap_endian32 false x = be_val (le_bytes 4 x).
Proof.
  intros x. unfold swap_endian32. cbv zeta.
  change 0x000000FF with (255 * 2 ^ 0). change 0x0000FF00 with (255 * 2 ^ 8).
  change 0x00FF0000 with (255 * 2 ^ 16). change 0xFF000000 with (255 * 2 ^ 24).
  rewrite (field_r x 24 0), (field_r x 8 8), (field_l x 8 32 16), (field_l x 24 32 24) by lia.
  unfold le_bytes. cbn [seq map be_val fold_left Z.of_nat Pos.of_succ_nat Pos.succ].
  change (24 + 0) with 24. change (8 + 8) with 16. change (16 - 8) with 8. change (24 - 24) with 0.
  change (256 ^ Z.of_nat 3) with (2 ^ 24). change (256 ^ Z.of_nat 2) with (2 ^ 16). change (256 ^ Z.of_nat 1) with (2 ^ 8). change (256 ^ Z.of_nat 0) with (2 ^ 0).
  pose proof (Z.mod_pos_bound (x / 2 ^ 24) 256 ltac:(lia)). pose proof (Z.mod_pos_bound (x / 2 ^ 16) 256 ltac:(lia)).
  pose proof (Z.mod_pos_bound (x / 2 ^ 8) 256 ltac:(lia)). pose proof (Z.mod_pos_bound (x / 2 ^ 0) 256 ltac:(lia)).
  generalize dependent (x / 2 ^ 24 mod 256). generalize dependent (x / 2 ^ 16 mod 256).
  generalize dependent (x / 2 ^ 8 mod 256). generalize dependent (x / 2 ^ 0 mod 256).
  intros a Ha b Hb c Hc d Hd.
  rewrite (lor_low _ c 8), (lor_low _ b 16), (lor_low _ a 24) by lia. lia.
Qed.

Lemma store_le : forall n v, gh_store false n v = le_bytes n v.
Proof.
  intros n v. unfold gh_store, le_bytes. apply map_ext. intros k. rewrite Z.shiftr_div_pow2 by lia.
  now rewrite Z.pow_mul_r by lia.
Qed.
Lemma store_be : forall n v, gh_store true n v = be_bytes n v.
Proof. intros n v. rewrite <- rev_le_bytes, <- store_le. reflexivity. Qed.
Lemma rev_be_bytes : forall n v, rev (be_bytes n v) = le_bytes n v.
Proof. intros n v. rewrite <- rev_le_bytes. apply rev_involutive. Qed.
Lemma swap_store : forall n v, le_bytes n (be_val (le_bytes n v)) = be_bytes n v.
Proof.
  intros n v. rewrite <- rev_be_bytes.
  assert (length (le_bytes n v) = n) as L by (unfold le_bytes; now rewrite map_length, seq_length).
  rewrite <- L at 1. rewrite be_bytes_val by apply bytes_le_bytes. apply rev_le_bytes.
Qed.
Lemma out64 : forall big v, gh_store big 8 (swap_endian64 big v) = be_bytes 8 v.
Proof.
  intros [|] v.
  - apply store_be.
  - rewrite swap64_spec, store_le. apply swap_store.
Qed.
Lemma out32 : forall big v, gh_store big 4 (swap_endian32 big v) = be_bytes 4 v.
Proof.
  intros [|] v.
  - apply store_be.
  - rewrite swap32_spec, store_le. apply swap_store.
Qed.
Lemma in64 : forall big m, bytes m -> zlen m = 8 -> swap_endian64 big (gh_load big m) = be_val m.
Proof.
  intros [|] m Hm Lm.
  - cbn [swap_endian64 gh_load]. now rewrite be_val_rev.
  - rewrite swap64_spec. cbn [gh_load]. replace 8%nat with (length m) by (unfold zlen in Lm; lia).
    now rewrite le_bytes_mem_word.
Qed.
Lemma in32 : forall big m, bytes m -> zlen m = 4 -> swap_endian32 big (gh_load big m) = be_val m.
Proof.
  intros [|] m Hm Lm.
  - cbn [swap_endian32 gh_load]. now rewrite be_val_rev.
  - rewrite swap32_spec. cbn [gh_load]. replace 4%nat with (length m) by (unfold zlen in Lm; lia).
    now rewrite le_bytes_mem_word.
Qed.

(** ** Numbers made of two parts *)
Lemma pair_bits : forall k a b n, 0 <= k -> 0 <= b < 2 ^ k -> 0 <= n ->
  Z.testbit (a * 2 ^ k + b) n = if n <? k then Z.testbit b n else Z.testbit a (n - k).
Proof.
  intros k a b n Hk Hb Hn. rewrite <- lor_add by lia. rewrite Z.lor_spec, Z.shiftl_spec by lia.
  destruct (Z.ltb_spec n k).
  - now rewrite Z.testbit_neg_r by lia.
  - replace b with (b mod 2 ^ k) by (apply Z.mod_small; lia). rewrite Z.mod_pow2_bits_high by lia. apply orb_false_r.
Qed.
Lemma pair_lxor : forall k a b c d, 0 <= k -> 0 <= b < 2 ^ k -> 0 <= d < 2 ^ k ->
  Z.lxor (a * 2 ^ k + b) (c * 2 ^ k + d) = Z.lxor a c * 2 ^ k + Z.lxor b d.
Proof.
  intros k a b c d Hk Hb Hd. apply Z.bits_inj'. intros n Hn. pose proof (lxor_word k b d Hk Hb Hd).
  rewrite Z.lxor_spec, !pair_bits by lia. rewrite !Z.lxor_spec. now destruct (n <? k).
Qed.
(** a shift to the right by one place carries the lowest bit of the upper part *)
Lemma carry_word : forall k a b, 0 < k -> 0 <= b < 2 ^ k ->
  0 <= Z.lor (Z.shiftr b 1) (Z.shiftl a (k - 1) mod 2 ^ k) < 2 ^ k.
Proof.
  intros k a b Hk Hb.
  assert (Z.lor (Z.shiftr b 1) (Z.shiftl a (k - 1) mod 2 ^ k)
          = Z.lor (Z.shiftr b 1) (Z.shiftl a (k - 1) mod 2 ^ k) mod 2 ^ k) as ->; [|apply Z.mod_pos_bound; lia].
  apply Z.bits_inj'. intros n Hn. rewrite mod_pow2_bits by lia. rewrite Z.lor_spec, mod_pow2_bits, Z.shiftr_spec by lia.
  destruct (Z.ltb_spec n k); [reflexivity|]. cbn [andb]. rewrite orb_false_r.
  replace b with (b mod 2 ^ k) by (apply Z.mod_small; lia). now rewrite Z.mod_pow2_bits_high by lia.
Qed.
Lemma pair_shiftr : forall k a b, 0 < k -> 0 <= b < 2 ^ k ->
  Z.shiftr (a * 2 ^ k + b) 1 = Z.shiftr a 1 * 2 ^ k + Z.lor (Z.shiftr b 1) (Z.shiftl a (k - 1) mod 2 ^ k).
Proof.
  intros k a b Hk Hb. pose proof (carry_word k a b Hk Hb).
  apply Z.bits_inj'. intros n Hn. rewrite pair_bits by lia. rewrite Z.shiftr_spec by lia. rewrite pair_bits by lia.
  rewrite Z.lor_spec, !Z.shiftr_spec, mod_pow2_bits, Z.shiftl_spec by lia.
  destruct (Z.ltb_spec (n + 1) k), (Z.ltb_spec n k); try lia.
  - rewrite (Z.testbit_neg_r a (n - (k - 1))) by lia. now rewrite orb_false_r.
  - replace b with (b mod 2 ^ k) by (apply Z.mod_small; lia). rewrite Z.mod_pow2_bits_high by lia.
    cbn [andb orb]. f_equal. lia.
  - rewrite Z.shiftr_spec by lia. f_equal. lia.
Qed.
Lemma carry_pair : forall k a b j, 0 < k -> 0 <= b < 2 ^ k -> j = k - 1 ->
  Z.shiftl (a * 2 ^ k + b) j mod 2 ^ k = Z.shiftl b j mod 2 ^ k.
Proof.
  intros k a b j Hk Hb ->. rewrite !Z.shiftl_mul_pow2 by lia.
  replace ((a * 2 ^ k + b) * 2 ^ (k - 1)) with (b * 2 ^ (k - 1) + a * 2 ^ (k - 1) * 2 ^ k) by ring.
  apply Z_mod_plus_full.
Qed.
Lemma shiftr1_word : forall k a, 0 <= k -> 0 <= a < 2 ^ k -> 0 <= Z.shiftr a 1 < 2 ^ k.
Proof.
  intros k a Hk Ha. rewrite Z.shiftr_div_pow2 by lia. change (2 ^ 1) with 2.
  split; [apply Z.div_pos; lia|]. apply Z.div_lt_upper_bound; lia.
Qed.

(** ** The masks *)
Lemma mask_bit : forall bits v x, 0 < bits -> 0 <= v < 2 ^ bits -> (x = 0 \/ x = 1) ->
  Z.land v (neg_word bits x) = if x =? 1 then v else 0.
Proof.
  intros bits v x Hb Hv Hx. unfold neg_word. destruct Hx as [-> | ->].
  - replace (2 ^ bits - 1 - 0 + 1) with (1 * 2 ^ bits) by lia. rewrite Z_mod_mult. apply Z.land_0_r.
  - replace (2 ^ bits - 1 - 1 + 1) with (Z.ones bits) by (rewrite Z.ones_equiv; lia).
    rewrite (Z.mod_small (Z.ones bits)) by (rewrite Z.ones_equiv; lia).
    rewrite Z.land_ones by lia. change (1 =? 1) with true. cbv iota. now apply Z.mod_small.
Qed.
Lemma top_bit : forall v, 0 <= v < 256 -> Z.shiftr v 7 = if Z.testbit v 7 then 1 else 0.
Proof.
  intros v Hv.
  assert (Z.b2z (Z.testbit v 7) = Z.shiftr v 7) as <-; [|now destruct (Z.testbit v 7)].
  rewrite Z.testbit_spec' by lia. rewrite Z.shiftr_div_pow2 by lia. apply Z.mod_small.
  split; [apply Z.div_pos; lia|]. apply Z.div_lt_upper_bound; lia.
Qed.
Lemma low_bit : forall v, Z.land v 1 = if Z.testbit v 0 then 1 else 0.
Proof.
  intros v. change 1 with (Z.ones 1) at 1. rewrite Z.land_ones by lia. change (2 ^ 1) with 2.
  rewrite Z.bit0_odd. rewrite Zmod_odd. now destruct (Z.odd v).
Qed.

(** ** One bit of the multiplication *)
Definition gstep (b : bool) (zv : Z * Z) : Z * Z :=
  (if b then Z.lxor (fst zv) (snd zv) else fst zv,
   if LSB1 (snd zv) then Z.lxor (Z.shiftr (snd zv) 1) R128 else Z.shiftr (snd zv) 1).

Definition w_ok (k x : Z) : Prop := 0 <= x < 2 ^ k.
Definition abs64 (s : Z * Z * (Z * Z)) : Z * Z :=
  let '(z0, z1, (v0, v1)) := s in (z0 * 2 ^ 64 + z1, v0 * 2 ^ 64 + v1).
Definition inv64 (s : Z * Z * (Z * Z)) : Prop :=
  let '(z0, z1, (v0, v1)) := s in w_ok 64 z0 /\ w_ok 64 z1 /\ w_ok 64 v0 /\ w_ok 64 v1.

Lemma masked : forall k v value, 0 < k -> w_ok k v -> 0 <= value < 256 ->
  Z.land v (neg_word k (Z.shiftr value 7)) = if Z.testbit value 7 then v else 0.
Proof.
  intros k v value Hk Hv Hb. rewrite top_bit by lia. unfold w_ok in Hv.
  destruct (Z.testbit value 7); rewrite mask_bit by lia; reflexivity.
Qed.
Lemma w_xor : forall k a (b : bool) v, 0 <= k -> w_ok k a -> w_ok k v -> w_ok k (Z.lxor a (if b then v else 0)).
Proof. intros k a [|] v Hk Ha Hv; unfold w_ok in *; apply lxor_word; lia. Qed.
Lemma xor_if : forall (b : bool) a v, Z.lxor a (if b then v else 0) = if b then Z.lxor a v else a.
Proof. intros [|] a v; [reflexivity|]. apply Z.lxor_0_r. Qed.
Lemma poly64 : forall v, w_ok 64 v ->
  Z.land (neg_word 64 (Z.land v 1)) 0xE100000000000000 = if Z.testbit v 0 then 0xE100000000000000 else 0.
Proof. intros v Hv. rewrite low_bit. now destruct (Z.testbit v 0). Qed.
Lemma poly32 : forall v, w_ok 32 v ->
  Z.land (neg_word 32 (Z.land v 1)) 0xE1000000 = if Z.testbit v 0 then 0xE1000000 else 0.
Proof. intros v Hv. rewrite low_bit. now destruct (Z.testbit v 0). Qed.
Lemma pair_low : forall k a b, 0 < k -> 0 <= b < 2 ^ k -> LSB1 (a * 2 ^ k + b) = Z.testbit b 0.
Proof. intros k a b Hk Hb. unfold LSB1. rewrite pair_bits by lia. destruct (Z.ltb_spec 0 k); [reflexivity|lia]. Qed.

Lemma step64 : forall value s, 0 <= value < 256 -> inv64 s ->
  fst (mul_bit64 (value, s)) = 2 * value mod 256 /\ inv64 (snd (mul_bit64 (value, s))) /\
  abs64 (snd (mul_bit64 (value, s))) = gstep (Z.testbit value 7) (abs64 s).
Proof.
  intros value [[z0 z1] [v0 v1]] Hb (Hz0 & Hz1 & Hv0 & Hv1). cbn [mul_bit64 fst snd].
  rewrite (masked 64 v0), (masked 64 v1), poly64 by (first [assumption | lia]).
  split; [|split].
  - rewrite Z.shiftl_mul_pow2 by lia. f_equal. lia.
  - cbn [inv64]. split; [|split; [|split]].
    + now apply w_xor.
    + now apply w_xor.
    + unfold w_ok. apply lxor_word; [lia| |destruct (Z.testbit v1 0); lia]. apply shiftr1_word; [lia|exact Hv0].
    + apply (carry_word 64); [lia|exact Hv1].
  - cbn [abs64]. unfold gstep. cbn [fst snd]. rewrite (pair_low 64) by (first [lia | exact Hv1]).
    rewrite pair_shiftr by (first [lia | exact Hv1]). rewrite !xor_if. f_equal.
    + destruct (Z.testbit value 7); [|reflexivity]. now rewrite pair_lxor by (first [lia | assumption]).
    + destruct (Z.testbit v1 0); [|now rewrite ?Z.lxor_0_r].
      replace R128 with (0xE100000000000000 * 2 ^ 64 + 0) by reflexivity.
      rewrite pair_lxor; [now rewrite Z.lxor_0_r|lia| |lia]. apply (carry_word 64); [lia|exact Hv1].
Qed.

Definition abs32 (s : Z * Z * Z * Z * (Z * Z * Z * Z)) : Z * Z :=
  let '(z0, z1, z2, z3, (v0, v1, v2, v3)) := s in
  (((z0 * 2 ^ 32 + z1) * 2 ^ 32 + z2) * 2 ^ 32 + z3, ((v0 * 2 ^ 32 + v1) * 2 ^ 32 + v2) * 2 ^ 32 + v3).
Definition inv32 (s : Z * Z * Z * Z * (Z * Z * Z * Z)) : Prop :=
  let '(z0, z1, z2, z3, (v0, v1, v2, v3)) := s in
  w_ok 32 z0 /\ w_ok 32 z1 /\ w_ok 32 z2 /\ w_ok 32 z3 /\ w_ok 32 v0 /\ w_ok 32 v1 /\ w_ok 32 v2 /\ w_ok 32 v3.
Lemma step32 : forall value s, 0 <= value < 256 -> inv32 s ->
  fst (mul_bit32 (value, s)) = 2 * value mod 256 /\ inv32 (snd (mul_bit32 (value, s))) /\
  abs32 (snd (mul_bit32 (value, s))) = gstep (Z.testbit value 7) (abs32 s).
Proof.
  intros value [[[[z0 z1] z2] z3] [[[v0 v1] v2] v3]] Hb (Hz0 & Hz1 & Hz2 & Hz3 & Hv0 & Hv1 & Hv2 & Hv3).
  cbn [mul_bit32 fst snd].
  rewrite (masked 32 v0), (masked 32 v1), (masked 32 v2), (masked 32 v3), poly32 by (first [assumption | lia]).
  split; [|split].
  - rewrite Z.shiftl_mul_pow2 by lia. f_equal. lia.
  - cbn [inv32].
    refine (conj _ (conj _ (conj _ (conj _ (conj _ (conj _ (conj _ _))))))); try (apply w_xor; (first [assumption | lia]));
      try (apply (carry_word 32); [lia|assumption]);
      (unfold w_ok; apply lxor_word; [lia| |destruct (Z.testbit v3 0); lia]; apply shiftr1_word; [lia|exact Hv0]).
  - cbn [abs32]. unfold gstep. cbn [fst snd]. rewrite (pair_low 32) by (first [lia | exact Hv3]).
    rewrite !pair_shiftr by (first [lia | assumption]). rewrite !carry_pair by (first [lia | assumption | reflexivity]).
    rewrite !xor_if. f_equal.
    + destruct (Z.testbit value 7); [|reflexivity]. now rewrite !pair_lxor by (first [lia | assumption]).
    + destruct (Z.testbit v3 0); [|now rewrite ?Z.lxor_0_r].
      replace R128 with (((0xE1000000 * 2 ^ 32 + 0) * 2 ^ 32 + 0) * 2 ^ 32 + 0) by reflexivity.
      rewrite !pair_lxor by (first [lia | apply (carry_word 32); [lia|assumption]]). now rewrite !Z.lxor_0_r.
Qed.

(** ** All the bits *)
Definition byte_bits (x : Z) : list bool := map (fun j => Z.testbit x (7 - Z.of_nat j)) (seq 0 8).
Definition all_bits (l : list Z) : list bool := flat_map byte_bits l.
Definition gsteps (bs : list bool) (zv : Z * Z) : Z * Z := fold_left (fun st b => gstep b st) bs zv.

Lemma shift_bits : forall value j, 0 <= value -> 0 <= j < 7 -> Z.testbit (2 * value mod 256) (j + 1) = Z.testbit value j.
Proof.
  intros value j Hv Hj. change 256 with (2 ^ 8). rewrite Z.mod_pow2_bits_low by lia.
  replace (j + 1) with (Z.succ j) by lia. apply Z.double_bits_succ.
Qed.
Section Bits.
Variable St : Type.
Variable f : Z * St -> Z * St.
Variable inv : St -> Prop.
Variable abs : St -> Z * Z.
Hypothesis step : forall value s, 0 <= value < 256 -> inv s ->
  fst (f (value, s)) = 2 * value mod 256 /\ inv (snd (f (value, s))) /\
  abs (snd (f (value, s))) = gstep (Z.testbit value 7) (abs s).
Lemma some_bits : forall n a value s, (n <= 8)%nat -> 0 <= value < 256 -> inv s ->
  let r := fold_left (fun st _ => f st) (seq a n) (value, s) in
  inv (snd r) /\ abs (snd r) = gsteps (map (fun j => Z.testbit value (7 - Z.of_nat j)) (seq 0 n)) (abs s).
Proof.
  intros n. induction n as [|n IH]; intros a value s Hn Hv Hs; [cbn; auto|].
  cbn [seq fold_left]. destruct (step value s Hv Hs) as (E1 & E2 & E3).
  destruct (f (value, s)) as [value' s'] eqn:E. cbn [fst snd] in *. cbv zeta.
  destruct (IH (S a) value' s' ltac:(lia) ltac:(rewrite E1; apply Z.mod_pos_bound; lia) E2) as [I1 I2]. cbv zeta in I1, I2.
  split; [exact I1|]. rewrite I2. cbn [map]. unfold gsteps. cbn [fold_left]. rewrite E3.
  replace (7 - Z.of_nat 0) with 7 by lia. f_equal. rewrite <- seq_shift, map_map. apply map_ext_in. intros j Hj.
  apply in_seq in Hj. rewrite E1. replace (7 - Z.of_nat j) with ((7 - Z.of_nat (S j)) + 1) by lia.
  apply shift_bits; lia.
Qed.
Lemma every_bit : forall l s, bytes l -> inv s ->
  let r := fold_left (fun st value => snd (fold_left (fun st _ => f st) (seq 0 8) (value, st))) l s in
  inv r /\ abs r = gsteps (all_bits l) (abs s).
Proof.
  intros l. induction l as [|x l IH]; intros s Hl Hs; [cbn; auto|].
  inversion Hl as [|? ? Hx Hl']; subst. unfold is_byte in Hx.
  destruct (some_bits 8 0 x s ltac:(lia) ltac:(lia) Hs) as [I1 I2]. cbv zeta in I1, I2.
  cbn [fold_left]. generalize dependent (snd (fold_left (fun st _ => f st) (seq 0 8) (x, s))). intros s' I1 I2.
  destruct (IH s' Hl' I1) as [J1 J2]. cbv zeta in J1, J2 |- *. split; [exact J1|]. rewrite J2, I2.
  unfold gsteps, all_bits. cbn [flat_map]. rewrite fold_left_app. reflexivity.
Qed.
End Bits.

Lemma mul_ZV_steps : forall x y n, mul_ZV x y n = gsteps (map (bit_of x) (seq 0 n)) (0, y).
Proof.
  intros x y n. induction n as [|n IH]; [reflexivity|].
  rewrite seq_S, map_app. unfold gsteps. rewrite fold_left_app. fold (gsteps (map (bit_of x) (seq 0 n)) (0, y)).
  rewrite <- IH. cbn [mul_ZV map fold_left Nat.add]. destruct (mul_ZV x y n). reflexivity.
Qed.
Lemma bits_of_be : forall l, bytes l ->
  map (fun i => Z.testbit (be_val l) (8 * zlen l - 1 - Z.of_nat i)) (seq 0 (8 * length l)) = all_bits l.
Proof.
  intros l. induction l as [|x l IH] using rev_ind; intros H; [reflexivity|].
  apply bytes_app in H. destruct H as [Hl Hx]. inversion Hx as [|? ? Hx' ?]; subst. unfold is_byte in Hx'.
  unfold all_bits. rewrite flat_map_app. cbn [flat_map]. rewrite app_nil_r. fold (all_bits l). rewrite <- IH by exact Hl.
  rewrite app_length. cbn [length]. replace (8 * (length l + 1))%nat with (8 * length l + 8)%nat by lia.
  rewrite seq_app, map_app. rewrite be_val_app. replace (256 * be_val l + x) with (be_val l * 2 ^ 8 + x) by lia.
  rewrite zlen_app. change (zlen [x]) with 1. pose proof (eq_refl : zlen l = Z.of_nat (length l)) as L. f_equal.
  - apply map_ext_in. intros i Hi. apply in_seq in Hi. rewrite pair_bits by lia.
    destruct (Z.ltb_spec (8 * (zlen l + 1) - 1 - Z.of_nat i) 8); [lia|]. f_equal. lia.
  - unfold byte_bits. rewrite Nat.add_0_l. 
    assert (forall a n (g : nat -> bool) h, (forall i, (i < n)%nat -> g (a + i)%nat = h i) -> map g (seq a n) = map h (seq 0 n)) as R.
    { intros a n g h E. apply nth_ext with (d := g 0%nat) (d' := g 0%nat); [now rewrite !map_length, !seq_length|].
      intros i Hi. rewrite map_length, seq_length in Hi. rewrite map_nth, seq_nth by exact Hi.
      rewrite E by exact Hi. rewrite nth_indep with (d' := h 0%nat) by (now rewrite map_length, seq_length).
      rewrite map_nth, seq_nth by exact Hi. reflexivity. }
    apply R. intros i Hi. rewrite pair_bits by lia.
    destruct (Z.ltb_spec (8 * (zlen l + 1) - 1 - Z.of_nat (8 * length l + i)) 8); [|lia]. f_equal. lia.
Qed.
Lemma gmul_bits : forall l h, bytes l -> zlen l = 16 -> gmul (be_val l) h = fst (gsteps (all_bits l) (0, h)).
Proof.
  intros l h Hl Ll. unfold gmul. rewrite mul_ZV_steps, <- bits_of_be by exact Hl. rewrite Ll.
  replace (8 * length l)%nat with 128%nat by (unfold zlen in Ll; lia). reflexivity.
Qed.

(** ** The product *)
Lemma be_bytes_pair : forall m n a b, 0 <= b < 256 ^ Z.of_nat m ->
  be_bytes (n + m) (a * 256 ^ Z.of_nat m + b) = be_bytes n a ++ be_bytes m b.
Proof.
  intros m. induction m as [|m IH]; intros n a b Hb.
  - cbn in Hb. replace b with 0 by lia. change (256 ^ Z.of_nat 0) with 1. rewrite Nat.add_0_r. rewrite app_nil_r. f_equal. lia.
  - rewrite Nat.add_succ_r, !be_bytes_S, app_assoc.
    rewrite Nat2Z.inj_succ, Z.pow_succ_r in * by lia.
    replace (a * (256 * 256 ^ Z.of_nat m) + b) with (b + a * 256 ^ Z.of_nat m * 256) by ring.
    rewrite Z_mod_plus_full, Z_div_plus_full by lia. f_equal. rewrite Z.add_comm. apply IH.
    split; [apply Z.div_pos; lia|apply Z.div_lt_upper_bound; lia].
Qed.
Lemma be_val_cat : forall a b, be_val (a ++ b) = be_val a * 256 ^ zlen b + be_val b.
Proof.
  intros a b. induction b as [|x b IH] using rev_ind.
  - rewrite app_nil_r. change (zlen (@nil Z)) with 0. change (be_val []) with 0. rewrite Z.pow_0_r. lia.
  - rewrite app_assoc, !be_val_app, IH, zlen_app. change (zlen [x]) with 1.
    rewrite Z.pow_add_r by (pose proof (zlen_nonneg Z b); lia). lia.
Qed.
Definition holds_h (b : gh_build) (H : list Z) (h : Z) : Prop :=
  if gh_word64 b then
    w_ok 64 (word_at H 0) /\ w_ok 64 (word_at H 1) /\ h = word_at H 0 * 2 ^ 64 + word_at H 1
  else
    w_ok 32 (word_at H 0) /\ w_ok 32 (word_at H 1) /\ w_ok 32 (word_at H 2) /\ w_ok 32 (word_at H 3) /\
    h = ((word_at H 0 * 2 ^ 32 + word_at H 1) * 2 ^ 32 + word_at H 2) * 2 ^ 32 + word_at H 3.
Lemma word_of_bytes : forall k l, bytes l -> 8 * zlen l = k -> w_ok k (be_val l).
Proof.
  intros k l Hl Lk. pose proof (be_val_range l Hl) as R. unfold w_ok. rewrite <- Lk. rewrite Z.pow_mul_r by (pose proof (zlen_nonneg Z l); lia).
  exact R.
Qed.
Lemma cut_key : forall n k (key : list Z), zlen key = n + k -> 0 <= n -> 0 <= k -> key = take n key ++ drop n key.
Proof. intros. now rewrite take_drop. Qed.
Lemma mul_init_spec : forall b key, bytes key -> zlen key = 16 -> holds_h b (gf128_mul_init b key) (be_val key).
Proof.
  intros [[|] big] key Hk Lk; unfold holds_h, gf128_mul_init; cbn [gh_word64 gh_big].
  - assert (zlen (sub 0 8 key) = 8 /\ zlen (sub 8 8 key) = 8) as [L0 L1] by (split; rewrite zlen_sub; lia).
    assert (bytes (sub 0 8 key) /\ bytes (sub 8 8 key)) as [B0 B1]
      by (split; unfold sub; apply bytes_take; now apply bytes_drop).
    rewrite !in64 by assumption.
    change (w_ok 64 (be_val (sub 0 8 key)) /\ w_ok 64 (be_val (sub 8 8 key)) /\
      be_val key = be_val (sub 0 8 key) * 2 ^ 64 + be_val (sub 8 8 key)).
    split; [apply word_of_bytes; [exact B0|lia]|]. split; [apply word_of_bytes; [exact B1|lia]|].
    rewrite (cut_key 8 8 key) at 1 by lia. rewrite be_val_cat.
    replace (sub 0 8 key) with (take 8 key) by (unfold sub; now rewrite drop_le0 by lia).
    replace (sub 8 8 key) with (drop 8 key) by (unfold sub; rewrite take_all; [reflexivity|rewrite zlen_drop; lia]).
    rewrite zlen_drop, Lk. reflexivity.
  - assert (zlen (sub 0 4 key) = 4 /\ zlen (sub 4 4 key) = 4 /\ zlen (sub 8 4 key) = 4 /\ zlen (sub 12 4 key) = 4)
      as (L0 & L1 & L2 & L3) by (repeat split; rewrite zlen_sub; lia).
    assert (bytes (sub 0 4 key) /\ bytes (sub 4 4 key) /\ bytes (sub 8 4 key) /\ bytes (sub 12 4 key)) as (B0 & B1 & B2 & B3)
      by (refine (conj _ (conj _ (conj _ _))); unfold sub; apply bytes_take; now apply bytes_drop).
    rewrite !in32 by assumption.
    change (w_ok 32 (be_val (sub 0 4 key)) /\ w_ok 32 (be_val (sub 4 4 key)) /\ w_ok 32 (be_val (sub 8 4 key)) /\ w_ok 32 (be_val (sub 12 4 key)) /\
      be_val key = ((be_val (sub 0 4 key) * 2 ^ 32 + be_val (sub 4 4 key)) * 2 ^ 32 + be_val (sub 8 4 key)) * 2 ^ 32 + be_val (sub 12 4 key)).
    do 4 (split; [apply word_of_bytes; [assumption|lia]|]).
    assert (key = ((sub 0 4 key ++ sub 4 4 key) ++ sub 8 4 key) ++ sub 12 4 key) as E.
    { rewrite <- !app_assoc. unfold sub. rewrite drop_le0 by lia.
      rewrite <- (take_drop Z 4 key) at 1. f_equal. rewrite <- (take_drop Z 4 (drop 4 key)) at 1. f_equal.
      rewrite drop_drop by lia. change (4 + 4) with 8. rewrite <- (take_drop Z 4 (drop 8 key)) at 1. f_equal.
      rewrite drop_drop by lia. change (4 + 8) with 12. change (8 + 4) with 12. rewrite take_all; [reflexivity|rewrite zlen_drop; lia]. }
    rewrite E at 1. rewrite !be_val_cat. rewrite L1, L2, L3. reflexivity.
Qed.
Lemma mul_spec : forall b Y H h, bytes Y -> zlen Y = 16 -> holds_h b H h ->
  gf128_mul b Y H = be_bytes 16 (gmul (be_val Y) h) /\ 0 <= gmul (be_val Y) h < 2 ^ 128.
Proof.
  intros [[|] big] Y H h HY LY HH; unfold gf128_mul, holds_h in *; cbn [gh_word64 gh_big] in *.
  - destruct HH as (W0 & W1 & ->).
    destruct (every_bit _ mul_bit64 inv64 abs64 step64 Y (0, 0, (word_at H 0, word_at H 1)) HY) as [I1 I2].
    { cbn [inv64]. unfold w_ok in *. lia. }
    cbv zeta in I1, I2. rewrite gmul_bits by assumption. unfold gf128_mul64.
    change (abs64 (0, 0, (word_at H 0, word_at H 1))) with (0, word_at H 0 * 2 ^ 64 + word_at H 1) in I2.
    rewrite <- I2. clear I2. revert I1.
    generalize (fold_left (fun st value => snd (fold_left (fun st _ => mul_bit64 st) (seq 0 8) (value, st)))
              Y (0, 0, (word_at H 0, word_at H 1))). intros [[z0 z1] [v0 v1]] (I1 & I2 & _).
    cbn [abs64 fst]. rewrite !out64. unfold w_ok in I1, I2. split; [|lia].
    symmetry. apply (be_bytes_pair 8 8). exact I2.
  - destruct HH as (W0 & W1 & W2 & W3 & ->).
    destruct (every_bit _ mul_bit32 inv32 abs32 step32 Y
      (0, 0, 0, 0, (word_at H 0, word_at H 1, word_at H 2, word_at H 3)) HY) as [I1 I2].
    { cbn [inv32]. unfold w_ok in *. lia. }
    cbv zeta in I1, I2. rewrite gmul_bits by assumption. unfold gf128_mul32.
    change (abs32 (0, 0, 0, 0, (word_at H 0, word_at H 1, word_at H 2, word_at H 3)))
      with (0, ((word_at H 0 * 2 ^ 32 + word_at H 1) * 2 ^ 32 + word_at H 2) * 2 ^ 32 + word_at H 3) in I2.
    rewrite <- I2. clear I2. revert I1.
    generalize (fold_left (fun st value => snd (fold_left (fun st _ => mul_bit32 st) (seq 0 8) (value, st)))
              Y (0, 0, 0, 0, (word_at H 0, word_at H 1, word_at H 2, word_at H 3))).
    intros [[[[z0 z1] z2] z3] [[[v0 v1] v2] v3]] (I1 & I2 & I3 & I4 & _).
    cbn [abs32 fst]. rewrite !out32. unfold w_ok in I1, I2, I3, I4. split; [|lia].
    symmetry. rewrite (be_bytes_pair 4 12) by exact I4. rewrite (be_bytes_pair 4 8) by exact I3.
    rewrite (be_bytes_pair 4 4) by exact I2. now rewrite <- !app_assoc.
Qed.

(** ** The running hash *)
Lemma be_val_xors : forall a b, bytes a -> bytes b -> zlen a = zlen b -> be_val (xors a b) = Z.lxor (be_val a) (be_val b).
Proof.
  intros a. induction a as [|x a IH]; intros [|y b] Ha Hb L; try reflexivity.
  - rewrite zlen_cons in L. change (zlen (@nil Z)) with 0 in L. pose proof (zlen_nonneg Z b). lia.
  - rewrite zlen_cons in L. change (zlen (@nil Z)) with 0 in L. pose proof (zlen_nonneg Z a). lia.
  - inversion Ha; inversion Hb; subst. rewrite !zlen_cons in L.
    change (xors (x :: a) (y :: b)) with ([Z.lxor x y] ++ xors a b). change (x :: a) with ([x] ++ a). change (y :: b) with ([y] ++ b).
    rewrite !be_val_cat. rewrite IH by (first [assumption | lia]). rewrite zlen_xors by lia.
    replace (zlen a) with (zlen b) by lia.
    replace (256 ^ zlen b) with (2 ^ (8 * zlen b)) by (rewrite Z.pow_mul_r by (pose proof (zlen_nonneg Z b); lia); reflexivity).
    pose proof (zlen_nonneg Z b).
    rewrite pair_lxor; [reflexivity|lia| |].
    + apply (word_of_bytes (8 * zlen b)); [assumption|lia].
    + apply (word_of_bytes (8 * zlen b)); [assumption|lia].
Qed.
Lemma xors_zeros : forall a n, bytes a -> zlen a = n -> xors a (zeros n) = a.
Proof.
  intros a n Ha <-. unfold zeros, zlen. rewrite Nat2Z.id. induction Ha as [|x a Hx Ha IH]; [reflexivity|].
  cbn [length repeat]. unfold xors in *. cbn [combine map fst snd]. rewrite Z.lxor_0_r. f_equal. exact IH.
Qed.

(** the blocks of a text cut at a multiple of 16 *)
Definition whole (n : nat) (l : list Z) : list Z := map be_val (pieces 16 n l).
Lemma GHASH_app : forall h a b, GHASH h (a ++ b) = fold_left (fun y x => gmul (Z.lxor y x) h) b (GHASH h a).
Proof. intros h a b. unfold GHASH. apply fold_left_app. Qed.

(** [n] whole blocks [full] and an incomplete one [rest] have gone in *)
Definition running (b : gh_build) (h : Z) (n : nat) (full rest : list Z) (st : ghash_state) : Prop :=
  holds_h b (gh_H st) h /\ bytes full /\ bytes rest /\ zlen full = 16 * Z.of_nat n /\ zlen rest < 16 /\ gh_posn st = zlen rest /\
  0 <= GHASH h (whole n full) < 2 ^ 128 /\
  gh_Y st = xors (be_bytes 16 (GHASH h (whole n full))) (rest ++ zeros (16 - zlen rest)).

Lemma running_Y : forall b h n full rest st, running b h n full rest st -> bytes (gh_Y st) /\ zlen (gh_Y st) = 16.
Proof.
  intros b h n full rest st (_ & _ & Br & _ & Lr & _ & _ & ->). pose proof (zlen_nonneg Z rest). split.
  - apply bytes_xors; [apply bytes_be_bytes|]. apply bytes_app. split; [exact Br|apply bytes_zeros].
  - rewrite zlen_xors; rewrite zlen_app, zlen_zeros by lia; rewrite ?zlen_be_bytes; lia.
Qed.
Lemma mul_running : forall b h n full rest H Y, holds_h b H h -> bytes full -> bytes rest -> zlen full = 16 * Z.of_nat n ->
  zlen rest <= 16 -> 0 <= GHASH h (whole n full) < 2 ^ 128 ->
  Y = xors (be_bytes 16 (GHASH h (whole n full))) (rest ++ zeros (16 - zlen rest)) ->
  running b h (S n) (full ++ rest ++ zeros (16 - zlen rest)) [] (GhashState H (gf128_mul b Y H) 0).
Proof.
  intros b h n full rest H Y HH Bf Br Lf Lr HG ->. pose proof (zlen_nonneg Z rest) as Pr.
  assert (bytes (rest ++ zeros (16 - zlen rest))) as B16 by (apply bytes_app; split; [exact Br|apply bytes_zeros]).
  assert (zlen (rest ++ zeros (16 - zlen rest)) = 16) as L16 by (rewrite zlen_app, zlen_zeros by lia; lia).
  generalize dependent (rest ++ zeros (16 - zlen rest)). intros blk B16 L16.
  assert (whole (S n) (full ++ blk) = whole n full ++ [be_val blk]) as W.
  { unfold whole. replace (S n) with (n + 1)%nat by lia. rewrite (pieces_app 16 n full blk) by lia. rewrite map_app. cbn [pieces map].
    rewrite firstn_all2; [reflexivity|]. unfold zlen in L16. lia. }
  destruct (mul_spec b (xors (be_bytes 16 (GHASH h (whole n full))) blk) H h) as [M1 M2].
  { apply bytes_xors; [apply bytes_be_bytes|exact B16]. }
  { rewrite zlen_xors; rewrite ?zlen_be_bytes; lia. }
  { exact HH. }
  rewrite be_val_xors in M1, M2; [|apply bytes_be_bytes|exact B16|rewrite zlen_be_bytes; lia
    |apply bytes_be_bytes|exact B16|rewrite zlen_be_bytes; lia].
  rewrite be_val_bytes in M1, M2 by exact HG.
  assert (GHASH h (whole (S n) (full ++ blk)) = gmul (Z.lxor (GHASH h (whole n full)) (be_val blk)) h) as G.
  { rewrite W, GHASH_app. reflexivity. }
  unfold running. cbn [gh_H gh_Y gh_posn]. rewrite G.
  split; [exact HH|]. split; [apply bytes_app; split; assumption|]. split; [constructor|].
  split; [rewrite zlen_app; lia|]. split; [change (zlen (@nil Z)) with 0; lia|]. split; [reflexivity|]. split; [exact M2|].
  rewrite M1. cbn [app]. change (zlen (@nil Z)) with 0. rewrite xors_zeros; [reflexivity|apply bytes_be_bytes|apply zlen_be_bytes].
Qed.

Lemma split_at : forall n (a : list Z), 0 <= n <= zlen a -> exists u v, a = u ++ v /\ zlen u = n /\ zlen v = zlen a - n.
Proof.
  intros n a Hn. exists (take n a), (drop n a). rewrite take_drop, zlen_take, zlen_drop. split; [reflexivity|lia].
Qed.
Lemma xor_at_rest : forall a rest t, zlen a = 16 -> zlen rest + zlen t <= 16 ->
  xor_at (zlen rest) t (xors a (rest ++ zeros (16 - zlen rest))) = xors a ((rest ++ t) ++ zeros (16 - zlen (rest ++ t))).
Proof.
  intros a rest t La Lt. pose proof (zlen_nonneg Z rest). pose proof (zlen_nonneg Z t).
  destruct (split_at (zlen rest) a ltac:(lia)) as (a1 & a2 & -> & L1 & L2).
  destruct (split_at (zlen t) a2 ltac:(lia)) as (a3 & a4 & -> & L3 & L4).
  rewrite !zlen_app in *.
  replace (zeros (16 - zlen rest)) with (zeros (zlen t) ++ zeros (16 - zlen rest - zlen t)) by (rewrite zeros_app by lia; f_equal; lia).
  replace (16 - (zlen rest + zlen t)) with (16 - zlen rest - zlen t) by lia. rewrite <- !app_assoc.
  assert (forall (u v : list Z), zlen u = zlen v -> length u = length v) as Ln by (unfold zlen; lia).
  assert (zlen (zeros (zlen t)) = zlen t) as Lz by (apply zlen_zeros; lia).
  assert (zlen (zeros (16 - zlen rest - zlen t)) = 16 - zlen rest - zlen t) as Lz' by (apply zlen_zeros; lia).
  rewrite !xors_app by (apply Ln; lia).
  unfold xor_at. rewrite <- (zlen_xors a1 rest) at 2 by lia. rewrite drop_app_exact.
  fold (xors (xors a3 (zeros (zlen t)) ++ xors a4 (zeros (16 - zlen rest - zlen t))) t).
  assert (zlen (xors a3 (zeros (zlen t))) = zlen t) as L5 by (rewrite zlen_xors; lia).
  assert (xors (xors a3 (zeros (zlen t)) ++ xors a4 (zeros (16 - zlen rest - zlen t))) t = xors a3 t) as ->.
  { pose proof (xors_app (xors a3 (zeros (zlen t))) t (xors a4 (zeros (16 - zlen rest - zlen t))) [] ltac:(apply Ln; lia)) as E.
    rewrite app_nil_r in E. rewrite E. unfold xors at 3.
    replace (combine (xors a4 (zeros (16 - zlen rest - zlen t))) (@nil Z)) with (@nil (Z * Z)) by (destruct (xors a4 (zeros (16 - zlen rest - zlen t))); reflexivity).
    cbn [map]. rewrite app_nil_r. f_equal. rewrite <- L3.
    clear. unfold zeros, zlen. rewrite Nat2Z.id. unfold xors. induction a3 as [|x a IH]; [reflexivity|].
    cbn [length repeat combine map fst snd]. rewrite Z.lxor_0_r. f_equal. exact IH. }
  unfold splice. rewrite <- (zlen_xors a1 rest) at 1 2 by lia. rewrite take_app_exact. f_equal. f_equal.
  rewrite (zlen_xors a3 t) by lia.
  assert (drop (zlen rest + zlen t) (xors a1 rest ++ xors a3 (zeros (zlen t)) ++ xors a4 (zeros (16 - zlen rest - zlen t)))
    = xors a4 (zeros (16 - zlen rest - zlen t))) as ->; [|reflexivity].
  rewrite app_assoc. assert (zlen rest + zlen t = zlen (xors a1 rest ++ xors a3 (zeros (zlen t)))) as ->
    by (rewrite zlen_app, L5, (zlen_xors a1 rest); lia).
  apply drop_app_exact.
Qed.

Lemma loop_running : forall b h fuel n full rest st d, (length d < fuel)%nat -> running b h n full rest st -> bytes d ->
  exists n' full' rest', running b h n' full' rest' (ghash_loop b fuel st d) /\ full' ++ rest' = full ++ rest ++ d.
Proof.
  intros b h fuel. induction fuel as [|fuel IH]; intros n full rest st d Hf HR Hd; [lia|].
  cbn [ghash_loop]. destruct (Z.gtb_spec (zlen d) 0) as [Hl|Hl].
  2:{ exists n, full, rest. split; [exact HR|]. destruct d; [now rewrite app_nil_r|]. rewrite zlen_cons in Hl. pose proof (zlen_nonneg Z d). lia. }
  destruct HR as (HH & Bf & Br & Lf & Lr & EP & HG & EY). pose proof (zlen_nonneg Z rest) as Pr.
  rewrite EP. rewrite (Z.mod_small (16 - zlen rest)) by lia. cbv zeta.
  set (size := if 16 - zlen rest >? zlen d then zlen d else 16 - zlen rest).
  assert (1 <= size /\ size <= zlen d /\ size <= 16 - zlen rest /\ (size = zlen d \/ size = 16 - zlen rest)) as (S1 & S2 & S3 & S4).
  { unfold size. destruct (Z.gtb_spec (16 - zlen rest) (zlen d)); lia. }
  clearbody size. rewrite (Z.mod_small (zlen rest + size)) by lia.
  assert (zlen (take size d) = size) as Lt by (rewrite zlen_take; lia).
  rewrite EY. rewrite xor_at_rest by (rewrite ?zlen_be_bytes; lia).
  assert (bytes (rest ++ take size d)) as Brt by (apply bytes_app; split; [exact Br|now apply bytes_take]).
  assert (zlen (rest ++ take size d) = zlen rest + size) as Lrt by (rewrite zlen_app; lia).
  assert (length (drop size d) < fuel)%nat as Hf'.
  { pose proof (zlen_drop Z size d) as D. unfold zlen in *. lia. }
  destruct (Z.eqb_spec (zlen rest + size) 16) as [E16|E16].
  - pose proof (mul_running b h n full (rest ++ take size d) (gh_H st) _ HH Bf Brt Lf ltac:(lia) HG eq_refl) as R.
    destruct (IH _ _ _ _ (drop size d) Hf' R (bytes_drop size d Hd)) as (n' & full' & rest' & R' & E').
    exists n', full', rest'. split; [exact R'|]. rewrite E'. rewrite Lrt, E16. change (zeros (16 - 16)) with (@nil Z).
    rewrite app_nil_r. cbn [app]. rewrite <- !app_assoc. now rewrite take_drop.
  - assert (running b h n full (rest ++ take size d) (GhashState (gh_H st)
      (xors (be_bytes 16 (GHASH h (whole n full))) ((rest ++ take size d) ++ zeros (16 - zlen (rest ++ take size d)))) (zlen rest + size))) as R.
    { unfold running. cbn [gh_H gh_Y gh_posn]. split; [exact HH|]. split; [exact Bf|]. split; [exact Brt|]. split; [exact Lf|].
      split; [lia|]. split; [lia|]. split; [exact HG|]. reflexivity. }
    destruct (IH _ _ _ _ (drop size d) Hf' R (bytes_drop size d Hd)) as (n' & full' & rest' & R' & E').
    exists n', full', rest'. split; [exact R'|]. rewrite E'. rewrite <- !app_assoc. now rewrite take_drop.
Qed.

Lemma reset_running : forall b st key, bytes key -> zlen key = 16 -> running b (be_val key) 0 [] [] (ghash_reset b st (Some key)).
Proof.
  intros b st key Hk Lk. unfold running, ghash_reset. cbn [gh_H gh_Y gh_posn].
  split; [now apply mul_init_spec|]. repeat split; try constructor; try lia. reflexivity.
Qed.
Lemma rereset_running : forall b h n full rest st, running b h n full rest st -> running b h 0 [] [] (ghash_reset b st None).
Proof.
  intros b h n full rest st (HH & _). unfold running, ghash_reset. cbn [gh_H gh_Y gh_posn].
  split; [exact HH|]. repeat split; try constructor; try lia. reflexivity.
Qed.
(** filling up with zeros *)
Definition filled (s : list Z) : list Z := s ++ zeros (- zlen s mod 16).
Lemma fill_length : forall (full rest : list Z) (n : nat), zlen full = 16 * Z.of_nat n -> zlen rest < 16 ->
  - zlen (full ++ rest) mod 16 = if zlen rest =? 0 then 0 else 16 - zlen rest.
Proof.
  intros full rest n Lf Lr. rewrite zlen_app, Lf. pose proof (zlen_nonneg Z rest).
  destruct (Z.eqb_spec (zlen rest) 0) as [E|E].
  - rewrite E. symmetry. apply Z.mod_unique with (q := - Z.of_nat n); lia.
  - symmetry. apply Z.mod_unique with (q := - Z.of_nat n - 1); lia.
Qed.
Lemma pad_running : forall b h n full rest st, running b h n full rest st ->
  exists n', running b h n' (filled (full ++ rest)) [] (ghash_pad b st).
Proof.
  intros b h n full rest st HR. pose proof HR as (HH & Bf & Br & Lf & Lr & EP & HG & EY). pose proof (zlen_nonneg Z rest) as Pr.
  unfold filled. rewrite (fill_length full rest n Lf Lr). unfold ghash_pad. rewrite EP.
  destruct (Z.eqb_spec (zlen rest) 0) as [E|E]; cbn [negb].
  - exists n. destruct rest as [|x r]; [|rewrite zlen_cons in E; pose proof (zlen_nonneg Z r); lia].
    change (zeros 0) with (@nil Z). rewrite !app_nil_r. exact HR.
  - exists (S n). rewrite <- app_assoc. apply mul_running; try assumption. lia.
Qed.
Lemma running_hash : forall b h n full st, running b h n full [] st -> gh_Y st = be_bytes 16 (GHASH h (whole n full)).
Proof.
  intros b h n full st (_ & _ & _ & _ & _ & _ & _ & ->). change (zlen (@nil Z)) with 0. cbn [app].
  apply xors_zeros; [apply bytes_be_bytes|apply zlen_be_bytes].
Qed.
Lemma blocks_of_filled : forall n (full rest : list Z), zlen full = 16 * Z.of_nat n -> zlen rest < 16 ->
  forall n', zlen (filled (full ++ rest)) = 16 * Z.of_nat n' -> blocks_of (full ++ rest) = whole n' (filled (full ++ rest)).
Proof.
  intros n full rest Lf Lr n' L'. unfold blocks_of, whole. f_equal. fold (filled (full ++ rest)). f_equal.
  unfold filled in L'. rewrite zlen_app, (fill_length full rest n Lf Lr) in L'. pose proof (zlen_nonneg Z rest).
  assert ((zlen (full ++ rest) + 15) / 16 = Z.of_nat n'); [|lia].
  rewrite zlen_app in *. destruct (Z.eqb_spec (zlen rest) 0) as [E|E].
  - rewrite zlen_zeros in L' by lia. symmetry. apply Z.div_unique with (r := 15); lia.
  - rewrite zlen_zeros in L' by lia. symmetry. apply Z.div_unique with (r := zlen rest - 1); lia.
Qed.
