(** Proofs for TSha3.v: absorbing and squeezing. *)
From Verif Require Import Base MSha3 SSha3 PSha3.

(** ** Words in memory *)
Lemma byte_bits : forall b k, is_byte b -> k < 0 \/ 8 <= k -> Z.testbit b k = false.
Proof.
  intros b k [B0 B1] [N|G]; [now apply Z.testbit_neg_r|]. rewrite <- (Z.mod_small b (2^8)) by (change (2^8) with 256; lia).
  apply Z.mod_pow2_bits_high. lia.
Qed.
Lemma byte_at_byte : forall l i, bytes l -> is_byte (byte_at l i).
Proof.
  intros l i B. unfold byte_at. destruct (nth_in_or_default (Z.to_nat i) l 0) as [I | ->]; [|unfold is_byte; lia].
  unfold bytes in B. rewrite Forall_forall in B. now apply B.
Qed.
Lemma shifted_bit : forall b j z, is_byte b -> (z < 64)%nat ->
  Z.testbit (Z.shiftl b (8 * Z.of_nat j)) (Z.of_nat z) = if (z / 8 =? j)%nat then Z.testbit b (Z.of_nat (z mod 8)) else false.
Proof.
  intros b j z B Hz. rewrite Z.shiftl_spec by lia. pose proof (Nat.div_mod z 8 ltac:(lia)) as D. pose proof (Nat.mod_upper_bound z 8 ltac:(lia)) as U.
  destruct (z / 8 =? j)%nat eqn:E.
  - apply Nat.eqb_eq in E. f_equal. lia.
  - apply Nat.eqb_neq in E. apply byte_bits; [assumption|]. assert (z / 8 < j \/ j < z / 8)%nat as [?|?] by lia; lia.
Qed.
Lemma load64_bit : forall m off z, bytes m -> 0 <= off -> (z < 64)%nat ->
  Z.testbit (load64 m off) (Z.of_nat z) = Z.testbit (byte_at m (off + Z.of_nat (z / 8))) (Z.of_nat (z mod 8)).
Proof.
  intros m off z B Ho Hz. unfold load64. cbn [seq fold_left]. rewrite !Z.lor_spec, Z.testbit_0_l.
  rewrite !shifted_bit by (assumption || now apply byte_at_byte).
  assert (z / 8 < 8)%nat as Q by (apply Nat.div_lt_upper_bound; lia). generalize dependent (z / 8)%nat. intros q Q.
  do 8 (destruct q as [|q]; [cbn [Nat.eqb]; rewrite ?orb_false_l, ?orb_false_r; reflexivity|]). lia.
Qed.
Lemma load64_word : forall m off, bytes m -> word (load64 m off).
Proof.
  intros m off B. unfold load64. cbn [seq fold_left].
  assert (forall a b, word a -> word b -> word (Z.lor a b)) as L.
  { intros a b [A Ta] [B0 Tb]. split; [now apply Z.lor_nonneg|]. intros z Hz. rewrite Z.lor_spec, Ta, Tb by lia. reflexivity. }
  assert (forall i j, (j < 8)%nat -> word (Z.shiftl (byte_at m i) (8 * Z.of_nat j))) as S.
  { intros i j Hj. pose proof (byte_at_byte m i B) as Bi. split; [apply Z.shiftl_nonneg; apply Bi|].
    intros z Hz. rewrite Z.shiftl_spec by lia. apply byte_bits; [assumption|lia]. }
  repeat apply L; try (apply S; lia). split; [lia|]. intros. apply Z.testbit_0_l.
Qed.
Lemma lane_index : forall x y z, (z < 64)%nat -> ((64 * (5 * y + x) + z) / 8 = 8 * (5 * y + x) + z / 8 /\ (64 * (5 * y + x) + z) mod 8 = z mod 8)%nat.
Proof.
  intros x y z Hz. replace (64 * (5 * y + x) + z)%nat with (z + (8 * (5 * y + x)) * 8)%nat by lia.
  rewrite Nat.div_add, Nat.mod_add by lia. lia.
Qed.
Lemma xor_words_holds : forall k s m A, holds s A -> bytes m -> (k <= 25)%nat ->
  holds (xor_words k s m) (xor_state A (state_of (take (8 * Z.of_nat k) m))).
Proof.
  intros k s m A [L H] B Hk. split; [unfold xor_words; now rewrite map_length, seq_length|].
  intros x y Hx Hy. destruct (H x y Hx Hy) as [W T]. unfold of_list in *.
  assert (nth (5 * y + x) (xor_words k s m) 0 = if (5 * y + x <? k)%nat then Z.lxor (nth (5 * y + x) s 0) (load64 m (8 * Z.of_nat (5 * y + x))) else nth (5 * y + x) s 0) as ->.
  { unfold xor_words. match goal with |- nth _ (map ?f _) _ = _ => rewrite (nth_indep _ 0 (f 0%nat)), (map_nth f) by (rewrite map_length, seq_length; lia) end.
    rewrite seq_nth by lia. reflexivity. }
  assert (forall z, (z < 64)%nat -> state_of (take (8 * Z.of_nat k) m) x y z =
    if (5 * y + x <? k)%nat then Z.testbit (byte_at m (8 * Z.of_nat (5 * y + x) + Z.of_nat (z / 8))) (Z.of_nat (z mod 8)) else false) as S.
  { intros z Hz. unfold state_of. destruct (lane_index x y z Hz) as [-> ->]. assert (z / 8 < 8)%nat as Q by (apply Nat.div_lt_upper_bound; lia).
    unfold take. replace (Z.to_nat (8 * Z.of_nat k)) with (8 * k)%nat by lia.
    destruct (5 * y + x <? k)%nat eqn:E; [apply Nat.ltb_lt in E|apply Nat.ltb_ge in E].
    - unfold byte_at. replace (Z.to_nat (8 * Z.of_nat (5 * y + x) + Z.of_nat (z / 8))) with (8 * (5 * y + x) + z / 8)%nat by lia.
      f_equal. rewrite <- (firstn_skipn (8 * k) m) at 2. destruct (Nat.lt_ge_cases (8 * (5 * y + x) + z / 8) (length (firstn (8 * k) m))) as [I|O].
      + now rewrite app_nth1.
      + rewrite (nth_overflow (firstn _ _)) by assumption. rewrite firstn_length in O.
        rewrite nth_overflow; [reflexivity|]. rewrite firstn_skipn. lia.
    - rewrite nth_overflow; [apply Z.testbit_0_l|]. rewrite firstn_length. lia. }
  destruct (5 * y + x <? k)%nat.
  - split; [apply word_lxor; [assumption|now apply load64_word]|]. intros z Hz. unfold xor_state.
    rewrite Z.lxor_spec, T, load64_bit, S by (assumption || lia). reflexivity.
  - split; [assumption|]. intros z Hz. unfold xor_state. rewrite T, S, xorb_false_r by assumption. reflexivity.
Qed.

(** ** Absorbing *)
Lemma zeros_split : forall n, 1 <= n -> zeros n = zeros (n - 1) ++ [0].
Proof.
  intros n H. unfold zeros. replace (Z.to_nat n) with (Z.to_nat (n - 1) + 1)%nat by lia. now rewrite repeat_app.
Qed.
Lemma zeros_front : forall n, 1 <= n -> zeros n = 0 :: zeros (n - 1).
Proof. intros n H. unfold zeros. replace (Z.to_nat n) with (S (Z.to_nat (n - 1))) by lia. reflexivity. Qed.
Lemma splice_here : forall A (a : list A) d e f, zlen d = zlen e -> splice (zlen a) d (a ++ e ++ f) = a ++ d ++ f.
Proof.
  intros A a d e f E. unfold splice. rewrite take_app_exact, drop_app_ge by (pose proof (zlen_nonneg A d); lia).
  replace (zlen a + zlen d - zlen a) with (zlen e) by lia. now rewrite drop_app_exact.
Qed.
Lemma drop_zeros : forall k n, 0 <= k <= n -> drop k (zeros n) = zeros (n - k).
Proof.
  intros k n H. replace (zeros n) with (zeros k ++ zeros (n - k)).
  - rewrite <- (zlen_zeros k) at 1 by lia. apply drop_app_exact.
  - unfold zeros. rewrite <- repeat_app. f_equal. lia.
Qed.
Lemma last_block_padded : forall r p m, 0 < r -> zlen m < r -> p = 0x06 \/ p = 0x1f -> last_block r m p = padded r p m.
Proof.
  intros r p m Hr L Hp. pose proof (zlen_nonneg Z m) as N. unfold last_block, padded. rewrite (Z.mod_small (zlen m)) by lia.
  rewrite splice_0, drop_zeros by lia. rewrite (zeros_front (r - zlen m)) by lia.
  change (0 :: zeros (r - zlen m - 1)) with ([0] ++ zeros (r - zlen m - 1)). rewrite splice_here by reflexivity.
  destruct (r - zlen m =? 1) eqn:E.
  - replace (r - zlen m - 1) with 0 by lia. change (zeros 0) with (@nil Z). rewrite app_nil_r.
    replace (r - 1) with (zlen m) by lia.
    assert (byte_at (m ++ [p]) (zlen m) = p) as -> by (unfold byte_at, zlen; rewrite Nat2Z.id, app_nth2, Nat.sub_diag by lia; reflexivity).
    change (m ++ [p]) with (m ++ [p] ++ []). rewrite splice_here by reflexivity. rewrite app_nil_r. destruct Hp; subst p; reflexivity.
  - rewrite (zeros_split (r - zlen m - 1)) by lia. replace (r - zlen m - 1 - 1) with (r - zlen m - 2) by lia.
    set (z := zeros (r - zlen m - 2)). assert (zlen z = r - zlen m - 2) as Lz by (apply zlen_zeros; lia).
    replace (m ++ [p] ++ z ++ [0]) with ((m ++ [p] ++ z) ++ [0]) by (now rewrite <- !app_assoc).
    assert (r - 1 = zlen (m ++ [p] ++ z)) as -> by (rewrite !zlen_app, Lz; change (zlen [p]) with 1; lia).
    assert (byte_at ((m ++ [p] ++ z) ++ [0]) (zlen (m ++ [p] ++ z)) = 0) as -> by (unfold byte_at, zlen; rewrite Nat2Z.id, app_nth2, Nat.sub_diag by lia; reflexivity).
    change ((m ++ [p] ++ z) ++ [0]) with ((m ++ [p] ++ z) ++ [0] ++ []). rewrite splice_here by reflexivity. rewrite app_nil_r, <- !app_assoc. reflexivity.
Qed.
Lemma padded_step : forall r p m, 0 < r -> r <= zlen m -> padded r p m = take r m ++ padded r p (drop r m).
Proof.
  intros r p m Hr L. unfold padded. rewrite zlen_drop. replace (Z.max 0 (zlen m - Z.max 0 r)) with (zlen m + (-1) * r) by lia.
  rewrite Z_mod_plus_full, (app_assoc (take r m) (drop r m)), take_drop. reflexivity.
Qed.
Lemma padded_bytes : forall r p m, p = 0x06 \/ p = 0x1f -> bytes m -> bytes (padded r p m).
Proof.
  intros r p m Hp B. unfold padded. apply bytes_app; split; [assumption|]. destruct (_ =? 1); [destruct Hp; subst p; repeat constructor; unfold is_byte; lia|].
  apply bytes_app; split; [destruct Hp; subst p; repeat constructor; unfold is_byte; lia|]. apply bytes_app; split; [apply bytes_zeros|].
  repeat constructor; unfold is_byte; lia.
Qed.
Lemma padded_length : forall r p m, 0 < r -> zlen (padded r p m) = (zlen m / r + 1) * r.
Proof.
  intros r p m Hr. unfold padded. pose proof (Z.div_mod (zlen m) r ltac:(lia)) as D. pose proof (Z.mod_pos_bound (zlen m) r Hr) as B.
  rewrite zlen_app. destruct (r - zlen m mod r =? 1) eqn:E.
  - change (zlen [p + 128]) with 1. nia.
  - rewrite !zlen_app, zlen_zeros by lia. change (zlen [p]) with 1. change (zlen [128]) with 1. nia.
Qed.
Section Sponge.
Variable r p : Z.
Hypothesis rate : r = 136 \/ r = 168.
Hypothesis suffix : p = 0x06 \/ p = 0x1f.
Definition absorb_step (A : bit_state) (b : list Z) : bit_state := keccak_f (xor_state A (state_of b)).
Lemma step_holds : forall s m A, holds s A -> bytes m ->
  holds (KeccakF1600_StatePermute (xor_words (Z.to_nat (r / 8)) s m)) (absorb_step A (take r m)).
Proof.
  intros s m A H B. apply permute_holds.
  replace (take r m) with (take (8 * Z.of_nat (Z.to_nat (r / 8))) m) by (destruct rate as [-> | ->]; reflexivity).
  apply xor_words_holds; [assumption|assumption|]. destruct rate as [-> | ->]; cbn; lia.
Qed.
Lemma absorb_holds : forall n fuel s A m, holds s A -> bytes m -> zlen m / r = Z.of_nat n -> (n < fuel)%nat ->
  holds (let '(s', m') := absorb_loop fuel r s m in KeccakF1600_StatePermute (xor_words (Z.to_nat (r / 8)) s' (last_block r m' p)))
        (fold_left absorb_step (blocks_of (S n) r (padded r p m)) A).
Proof.
  assert (0 < r) as Hr by (destruct rate; lia).
  induction n as [|n IH]; intros fuel s A m H B E F; (destruct fuel as [|fuel]; [lia|]); cbn [absorb_loop];
    pose proof (Z.div_mod (zlen m) r ltac:(lia)) as D; pose proof (Z.mod_pos_bound (zlen m) r Hr) as M.
  - assert (zlen m < r) as L by nia. replace (zlen m >=? r) with false by lia.
    cbn [blocks_of fold_left]. rewrite last_block_padded by assumption. apply step_holds; [assumption|now apply padded_bytes].
  - assert (r <= zlen m) as L by nia. replace (zlen m >=? r) with true by lia.
    assert (zlen (drop r m) / r = Z.of_nat n) as E'.
    { rewrite zlen_drop. replace (Z.max 0 (zlen m - Z.max 0 r)) with (zlen m + (-1) * r) by lia. rewrite Z.div_add by lia. lia. }
    specialize (IH fuel _ _ (drop r m) (step_holds s m A H B) (bytes_drop r m B) E' ltac:(lia)).
    rewrite (padded_step r p m Hr L). change (blocks_of (S (S n)) r (take r m ++ padded r p (drop r m)))
      with (take r (take r m ++ padded r p (drop r m)) :: blocks_of (S n) r (drop r (take r m ++ padded r p (drop r m)))).
    assert (zlen (take r m) = r) as Lt by (rewrite zlen_take; lia).
    replace (take r (take r m ++ padded r p (drop r m))) with (take r m) by (rewrite <- Lt at 2; now rewrite take_app_exact).
    replace (drop r (take r m ++ padded r p (drop r m))) with (padded r p (drop r m)) by (rewrite <- Lt at 3; now rewrite drop_app_exact).
    exact IH.
Qed.
Lemma zero_holds : holds (zeros 25) (fun _ _ _ => false).
Proof.
  split; [reflexivity|]. intros x y _ _. unfold of_list, zeros. rewrite nth_repeat. split; [split; [lia|intros; apply Z.testbit_0_l]|]. intros. apply Z.testbit_0_l.
Qed.
Lemma keccak_absorb_ok : forall m, bytes m -> holds (KeccakF1600_StatePermute (keccak_absorb r m p)) (absorbed r p m).
Proof.
  intros m B. assert (0 < r) as Hr by (destruct rate; lia). unfold keccak_absorb, absorbed. rewrite padded_length, Z.div_mul by lia.
  pose proof (zlen_nonneg Z m) as N. pose proof (Z.div_pos (zlen m) r N Hr) as Q.
  assert (zlen m / r <= zlen m) as U by (apply Z.div_le_upper_bound; nia).
  pose proof (absorb_holds (Z.to_nat (zlen m / r)) (S (length m)) (zeros 25) _ m zero_holds B ltac:(lia) ltac:(unfold zlen in *; lia)) as H.
  replace (Z.to_nat (zlen m / r + 1)) with (S (Z.to_nat (zlen m / r))) by lia. destruct (absorb_loop _ _ _ _). exact H.
Qed.
End Sponge.

(** ** Squeezing *)
Lemma low_byte : forall x, x mod 2^8 = fold_right (fun j acc => Z.b2z (Z.testbit x (Z.of_nat j)) * 2^(Z.of_nat j) + acc) 0 (seq 0 8).
Proof.
  intros x. assert (forall n, x mod 2^(Z.of_nat n) = fold_right (fun j acc => Z.b2z (Z.testbit x (Z.of_nat j)) * 2^(Z.of_nat j) + acc) 0 (seq 0 n)) as G; [|exact (G 8%nat)].
  induction n as [|n IH]; [apply Z.mod_1_r|].
  assert (forall l a, fold_right (fun j acc => Z.b2z (Z.testbit x (Z.of_nat j)) * 2^(Z.of_nat j) + acc) a l
    = fold_right (fun j acc => Z.b2z (Z.testbit x (Z.of_nat j)) * 2^(Z.of_nat j) + acc) 0 l + a) as F
    by (intros l a; induction l as [|j l IHl]; cbn [fold_right]; [lia|rewrite IHl; lia]).
  rewrite seq_S, fold_right_app, F, <- IH. cbn [fold_right]. rewrite Nat.add_0_l, Z.testbit_spec' by lia.
  replace (Z.of_nat (S n)) with (Z.of_nat n + 1) by lia. rewrite Z.pow_add_r by lia. change (2^1) with 2.
  rewrite Z.rem_mul_r by lia. lia.
Qed.
Lemma concat_eights : forall (g : nat -> Z) k, concat (map (fun i => map (fun j => g (8 * i + j)%nat) (seq 0 8)) (seq 0 k)) = map g (seq 0 (8 * k)).
Proof.
  intros g. induction k as [|k IH]; [reflexivity|]. rewrite (seq_S k 0), map_app, concat_app, IH. cbn [map concat]. rewrite app_nil_r, Nat.add_0_l.
  replace (8 * S k)%nat with (8 * k + 8)%nat by lia. rewrite (seq_app (8 * k) 8 0), map_app. f_equal. rewrite Nat.add_0_l. cbn [seq map].
  repeat (apply f_equal2; [f_equal; lia|]). reflexivity.
Qed.
Lemma block_out : forall s A k, holds s A -> (k <= 25)%nat -> concat (map (fun i => store64 (nth i s 0)) (seq 0 k)) = first_bytes (8 * k) A.
Proof.
  intros s A k [L H] Hk. unfold first_bytes. rewrite <- concat_eights. f_equal. apply map_ext_in. intros i Hi. apply in_seq in Hi.
  unfold store64. apply map_ext_in. intros j Hj. apply in_seq in Hj. rewrite low_byte. cbn [seq fold_right].
  destruct (H (i mod 5)%nat (i / 5)%nat (mod5 i) ltac:(apply Nat.div_lt_upper_bound; lia)) as [_ T]. unfold of_list in T.
  rewrite <- (Nat.div_mod i 5) in T by lia.
  assert (forall b, (b < 8)%nat -> Z.testbit (Z.shiftr (nth i s 0) (8 * Z.of_nat j)) (Z.of_nat b) = state_bit A (8 * (8 * i + j) + b)) as G.
  { intros b Hb. rewrite Z.shiftr_spec by lia. unfold state_bit. replace (8 * (8 * i + j) + b)%nat with (8 * j + b + i * 64)%nat by lia.
    rewrite Nat.div_add, Nat.mod_add, (Nat.div_small (8 * j + b)), (Nat.mod_small (8 * j + b)), Nat.add_0_l by lia. rewrite <- T by lia. f_equal. lia. }
  rewrite !G by lia. reflexivity.
Qed.
Lemma squeeze_ok : forall r n s A, r = 136 \/ r = 168 -> holds (KeccakF1600_StatePermute s) A ->
  fst (keccak_squeezeblocks n s r) = squeezed n (Z.to_nat r) A.
Proof.
  intros r n s A Hr. revert s A. induction n as [|n IH]; intros s A H; [reflexivity|]. cbn [keccak_squeezeblocks squeezed].
  specialize (IH (KeccakF1600_StatePermute s) (keccak_f A) (permute_holds _ _ H)).
  destruct (keccak_squeezeblocks n (KeccakF1600_StatePermute s) r) as [h' s']. cbn [fst] in *. rewrite IH. f_equal.
  rewrite (block_out _ A) by (assumption || (apply Nat.leb_le; destruct Hr as [-> | ->]; reflexivity)). f_equal. destruct Hr as [-> | ->]; reflexivity.
Qed.
Lemma first_bytes_take : forall a b A, (a <= b)%nat -> take (Z.of_nat a) (first_bytes b A) = first_bytes a A.
Proof.
  intros a b A H. unfold first_bytes, take. rewrite Nat2Z.id, firstn_map. f_equal.
  replace b with (a + (b - a))%nat by lia. rewrite seq_app, firstn_app, seq_length, Nat.sub_diag. cbn [firstn].
  rewrite app_nil_r. rewrite <- (seq_length a 0) at 1. apply firstn_all.
Qed.
