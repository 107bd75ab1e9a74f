(** Proofs about the ChaCha20 code *)
From Verif Require Import Base MHash MSha2 MBlake2 SSha2 SBlake2 PSha2 PSha2b PBlake2 MChaCha SChaCha.

Definition words (l : list Z) : Prop := Forall (fun w => 0 <= w < 2 ^ 32) l.

Lemma lxor_word : forall k a b, 0 <= k -> 0 <= a < 2 ^ k -> 0 <= b < 2 ^ k -> 0 <= Z.lxor a b < 2 ^ k.
Proof.
  intros k a b Hk Ha Hb. split; [apply Z.lxor_nonneg; lia|].
  destruct (Z.eq_dec (Z.lxor a b) 0) as [->|N]; [lia|].
  apply Z.log2_lt_pow2.
  - assert (0 <= Z.lxor a b) by (apply Z.lxor_nonneg; lia). lia.
  - pose proof (Z.log2_lxor a b ltac:(lia) ltac:(lia)) as H.
    assert (forall z, 0 <= z < 2 ^ k -> z = 0 \/ Z.log2 z < k) as L.
    { intros z Hz. destruct (Z.eq_dec z 0); [now left|right]. apply Z.log2_lt_pow2; lia. }
    destruct (L a Ha) as [->|]; destruct (L b Hb) as [->|]; rewrite ?Z.lxor_0_l, ?Z.lxor_0_r in *; try lia;
      change (Z.log2 0) with 0 in *; try (exfalso; apply N; reflexivity); lia.
Qed.

Lemma left_rotate_spec : forall x n, 0 <= x < 2 ^ 32 -> 0 < n < 32 -> left_rotate x n = rotl x n.
Proof.
  intros x n Hx Hn. unfold left_rotate, rotl.
  rewrite Z.shiftr_div_pow2 by lia. rewrite Z.shiftl_mul_pow2 by lia.
  assert (x * 2 ^ n mod 2 ^ 32 = Z.shiftl (x mod 2 ^ (32 - n)) n) as E.
  { rewrite Z.shiftl_mul_pow2 by lia. replace (2 ^ 32) with (2 ^ (32 - n) * 2 ^ n).
    - rewrite Z.mul_mod_distr_r; lia.
    - rewrite <- Z.pow_add_r by lia. f_equal. lia. }
  rewrite E, lor_add.
  - rewrite Z.shiftl_mul_pow2 by lia. reflexivity.
  - lia.
  - split; [apply Z.div_pos; lia|]. apply Z.div_lt_upper_bound; [lia|].
    rewrite <- Z.pow_add_r by lia. replace (32 - n + n) with 32 by lia. lia.
Qed.
Lemma rotl_word : forall x n, 0 <= x < 2 ^ 32 -> 0 < n < 32 -> 0 <= rotl x n < 2 ^ 32.
Proof.
  intros x n Hx Hn. unfold rotl.
  assert (x * 2 ^ n mod 2 ^ 32 = (x mod 2 ^ (32 - n)) * 2 ^ n) as E.
  { replace (2 ^ 32) with (2 ^ (32 - n) * 2 ^ n).
    - rewrite Z.mul_mod_distr_r; lia.
    - rewrite <- Z.pow_add_r by lia. f_equal. lia. }
  assert (0 <= x / 2 ^ (32 - n) < 2 ^ n).
  { split; [apply Z.div_pos; lia|]. apply Z.div_lt_upper_bound; [lia|].
    rewrite <- Z.pow_add_r by lia. replace (32 - n + n) with 32 by lia. lia. }
  pose proof (Z.mod_pos_bound x (2 ^ (32 - n)) ltac:(lia)).
  assert (2 ^ 32 = 2 ^ (32 - n) * 2 ^ n) as E2 by (rewrite <- Z.pow_add_r by lia; f_equal; lia).
  rewrite E, E2. nia.
Qed.

Lemma quarter_round_spec : forall a b c d, 0 <= a < 2 ^ 32 -> 0 <= b < 2 ^ 32 -> 0 <= c < 2 ^ 32 -> 0 <= d < 2 ^ 32 ->
  quarter_round a b c d = Qround a b c d /\
  (let '(a, b, c, d) := Qround a b c d in
   0 <= a < 2 ^ 32 /\ 0 <= b < 2 ^ 32 /\ 0 <= c < 2 ^ 32 /\ 0 <= d < 2 ^ 32).
Proof.
  intros a b c d Ha Hb Hc Hd. unfold quarter_round, Qround.
  pose proof (fun x => Z.mod_pos_bound x (2 ^ 32) eq_refl) as M.
  cbv zeta.
  repeat (rewrite left_rotate_spec by
    (try lia; repeat first [apply lxor_word; [lia| |] | apply rotl_word | apply M | lia])).
  split; [reflexivity|].
  repeat split; repeat first [apply lxor_word; [lia| |] | apply rotl_word | apply M | lia].
Qed.

Lemma words_nth : forall l i, words l -> 0 <= nth i l 0 < 2 ^ 32.
Proof.
  intros l i H. destruct (Nat.lt_ge_cases i (length l)).
  - unfold words in H. rewrite Forall_forall in H. apply H. now apply nth_In.
  - rewrite nth_overflow by lia. lia.
Qed.
Lemma put_words : forall l i x, words l -> 0 <= x < 2 ^ 32 -> words (put l i x).
Proof.
  intros l i x H Hx. unfold words, put in *. rewrite Forall_forall in *.
  intros y Hy. apply in_app_or in Hy. destruct Hy as [Hy|[Hy|Hy]].
  - apply H. revert Hy. rewrite <- (firstn_skipn i l) at 2. intros. apply in_or_app. auto.
  - now subst y.
  - apply H. rewrite <- (firstn_skipn (S i) l). apply in_or_app. auto.
Qed.
Lemma put_length : forall l i x, (i < length l)%nat -> length (put l i x) = length l.
Proof. intros l i x H. unfold put. rewrite app_length, firstn_length. cbn [length]. rewrite skipn_length. lia. Qed.

Lemma quarter_at_spec : forall v a b c d, words v -> length v = 16%nat ->
  (a < 16)%nat -> (b < 16)%nat -> (c < 16)%nat -> (d < 16)%nat ->
  quarter_at v a b c d = QUARTERROUND v a b c d /\ words (QUARTERROUND v a b c d) /\
  length (QUARTERROUND v a b c d) = 16%nat.
Proof.
  intros v a b c d H L La Lb Lc Ld. unfold quarter_at, QUARTERROUND, word_at.
  destruct (quarter_round_spec (nth a v 0) (nth b v 0) (nth c v 0) (nth d v 0)) as [E W];
    try apply words_nth; auto.
  rewrite E. destruct (Qround (nth a v 0) (nth b v 0) (nth c v 0) (nth d v 0)) as [[[wa wb] wc] wd].
  destruct W as (Wa & Wb & Wc & Wd).
  split; [reflexivity|]. split.
  - repeat apply put_words; auto.
  - repeat (rewrite put_length); rewrite ?put_length; try lia; repeat rewrite put_length; lia.
Qed.
Lemma rounds2_spec : forall v, words v -> length v = 16%nat ->
  scalar_rounds2 v = inner_block v /\ words (inner_block v) /\ length (inner_block v) = 16%nat.
Proof.
  intros v H L. unfold scalar_rounds2, inner_block. cbv zeta.
  repeat match goal with |- context [quarter_at ?w ?a ?b ?c ?d] =>
    match w with
    | context [quarter_at] => fail 1
    | _ => let E := fresh "E" in let W := fresh "W" in let K := fresh "K" in
      destruct (quarter_at_spec w a b c d) as (E & W & K); [assumption|assumption|lia|lia|lia|lia|];
      rewrite E; clear E;
      let q := fresh "q" in
      set (q := QUARTERROUND w a b c d) in *; clearbody q
    end end.
  auto.
Qed.
Lemma iter_rounds2 : forall n v, words v -> length v = 16%nat ->
  fold_left (fun u _ => scalar_rounds2 u) (seq 0 n) v = Nat.iter n inner_block v /\
  words (Nat.iter n inner_block v) /\ length (Nat.iter n inner_block v) = 16%nat.
Proof.
  intros n v H L. induction n as [|n (IH & W & K)]; [auto|].
  rewrite seq_S, fold_left_app, IH. cbn [fold_left].
  change (Nat.iter (S n) inner_block v) with (inner_block (Nat.iter n inner_block v)).
  destruct (rounds2_spec _ W K) as (E & W2 & K2). rewrite E. split; [reflexivity|]. split; assumption.
Qed.

(** ** The vector build *)
Lemma vec_quarter_spec : forall a0 a1 a2 a3 b0 b1 b2 b3 c0 c1 c2 c3 d0 d1 d2 d3,
  vec_quarter [a0; a1; a2; a3] [b0; b1; b2; b3] [c0; c1; c2; c3] [d0; d1; d2; d3] =
  let '(a0, b0, c0, d0) := quarter_round a0 b0 c0 d0 in
  let '(a1, b1, c1, d1) := quarter_round a1 b1 c1 d1 in
  let '(a2, b2, c2, d2) := quarter_round a2 b2 c2 d2 in
  let '(a3, b3, c3, d3) := quarter_round a3 b3 c3 d3 in
  ([a0; a1; a2; a3], [b0; b1; b2; b3], [c0; c1; c2; c3], [d0; d1; d2; d3]).
Proof. reflexivity. Qed.
Lemma cc_quarter_at_0 : forall v0 v1 v2 v3 v4 v5 v6 v7 v8 v9 v10 v11 v12 v13 v14 v15,
  quarter_at [v0; v1; v2; v3; v4; v5; v6; v7; v8; v9; v10; v11; v12; v13; v14; v15] 0 4 8 12 =
  let '(a, b, c, d) := quarter_round v0 v4 v8 v12 in [a; v1; v2; v3; b; v5; v6; v7; c; v9; v10; v11; d; v13; v14; v15].
Proof. intros. reflexivity. Qed.
Lemma cc_quarter_at_1 : forall v0 v1 v2 v3 v4 v5 v6 v7 v8 v9 v10 v11 v12 v13 v14 v15,
  quarter_at [v0; v1; v2; v3; v4; v5; v6; v7; v8; v9; v10; v11; v12; v13; v14; v15] 1 5 9 13 =
  let '(a, b, c, d) := quarter_round v1 v5 v9 v13 in [v0; a; v2; v3; v4; b; v6; v7; v8; c; v10; v11; v12; d; v14; v15].
Proof. intros. reflexivity. Qed.
Lemma cc_quarter_at_2 : forall v0 v1 v2 v3 v4 v5 v6 v7 v8 v9 v10 v11 v12 v13 v14 v15,
  quarter_at [v0; v1; v2; v3; v4; v5; v6; v7; v8; v9; v10; v11; v12; v13; v14; v15] 2 6 10 14 =
  let '(a, b, c, d) := quarter_round v2 v6 v10 v14 in [v0; v1; a; v3; v4; v5; b; v7; v8; v9; c; v11; v12; v13; d; v15].
Proof. intros. reflexivity. Qed.
Lemma cc_quarter_at_3 : forall v0 v1 v2 v3 v4 v5 v6 v7 v8 v9 v10 v11 v12 v13 v14 v15,
  quarter_at [v0; v1; v2; v3; v4; v5; v6; v7; v8; v9; v10; v11; v12; v13; v14; v15] 3 7 11 15 =
  let '(a, b, c, d) := quarter_round v3 v7 v11 v15 in [v0; v1; v2; a; v4; v5; v6; b; v8; v9; v10; c; v12; v13; v14; d].
Proof. intros. reflexivity. Qed.
Lemma cc_quarter_at_4 : forall v0 v1 v2 v3 v4 v5 v6 v7 v8 v9 v10 v11 v12 v13 v14 v15,
  quarter_at [v0; v1; v2; v3; v4; v5; v6; v7; v8; v9; v10; v11; v12; v13; v14; v15] 0 5 10 15 =
  let '(a, b, c, d) := quarter_round v0 v5 v10 v15 in [a; v1; v2; v3; v4; b; v6; v7; v8; v9; c; v11; v12; v13; v14; d].
Proof. intros. reflexivity. Qed.
Lemma cc_quarter_at_5 : forall v0 v1 v2 v3 v4 v5 v6 v7 v8 v9 v10 v11 v12 v13 v14 v15,
  quarter_at [v0; v1; v2; v3; v4; v5; v6; v7; v8; v9; v10; v11; v12; v13; v14; v15] 1 6 11 12 =
  let '(a, b, c, d) := quarter_round v1 v6 v11 v12 in [v0; a; v2; v3; v4; v5; b; v7; v8; v9; v10; c; d; v13; v14; v15].
Proof. intros. reflexivity. Qed.
Lemma cc_quarter_at_6 : forall v0 v1 v2 v3 v4 v5 v6 v7 v8 v9 v10 v11 v12 v13 v14 v15,
  quarter_at [v0; v1; v2; v3; v4; v5; v6; v7; v8; v9; v10; v11; v12; v13; v14; v15] 2 7 8 13 =
  let '(a, b, c, d) := quarter_round v2 v7 v8 v13 in [v0; v1; a; v3; v4; v5; v6; b; c; v9; v10; v11; v12; d; v14; v15].
Proof. intros. reflexivity. Qed.
Lemma cc_quarter_at_7 : forall v0 v1 v2 v3 v4 v5 v6 v7 v8 v9 v10 v11 v12 v13 v14 v15,
  quarter_at [v0; v1; v2; v3; v4; v5; v6; v7; v8; v9; v10; v11; v12; v13; v14; v15] 3 4 9 14 =
  let '(a, b, c, d) := quarter_round v3 v4 v9 v14 in [v0; v1; v2; a; b; v5; v6; v7; v8; c; v10; v11; v12; v13; d; v15].
Proof. intros. reflexivity. Qed.
Lemma vector_rounds2_spec : forall v, row_lens v ->
  rows (vector_rounds2 v) = scalar_rounds2 (rows v) /\ row_lens (vector_rounds2 v).
Proof.
  intros [[[a b] c] d] (Ha & Hb & Hc & Hd).
  destruct a as [|a0 [|a1 [|a2 [|a3 [|]]]]]; try discriminate Ha.
  destruct b as [|b0 [|b1 [|b2 [|b3 [|]]]]]; try discriminate Hb.
  destruct c as [|c0 [|c1 [|c2 [|c3 [|]]]]]; try discriminate Hc.
  destruct d as [|d0 [|d1 [|d2 [|d3 [|]]]]]; try discriminate Hd.
  unfold vector_rounds2. rewrite vec_quarter_spec. cbn [rows app].
  unfold scalar_rounds2. cbv zeta.
  rewrite cc_quarter_at_0; destruct (quarter_round a0 _ _ _) as [[[e0 f0] g0] h0].
  rewrite cc_quarter_at_1; destruct (quarter_round a1 _ _ _) as [[[e1 f1] g1] h1].
  rewrite cc_quarter_at_2; destruct (quarter_round a2 _ _ _) as [[[e2 f2] g2] h2].
  rewrite cc_quarter_at_3; destruct (quarter_round a3 _ _ _) as [[[e3 f3] g3] h3].
  rewrite shuffle1_eq, shuffle2_eq, shuffle3_eq. rewrite vec_quarter_spec.
  rewrite cc_quarter_at_4; destruct (quarter_round e0 _ _ _) as [[[? ?] ?] ?].
  rewrite cc_quarter_at_5; destruct (quarter_round e1 _ _ _) as [[[? ?] ?] ?].
  rewrite cc_quarter_at_6; destruct (quarter_round e2 _ _ _) as [[[? ?] ?] ?].
  rewrite cc_quarter_at_7; destruct (quarter_round e3 _ _ _) as [[[? ?] ?] ?].
  rewrite shuffle1_eq, shuffle2_eq, shuffle3_eq. split; [reflexivity|]. cbn. auto.
Qed.
Lemma vector_core_spec : forall x, length x = 16%nat -> vector_core x = scalar_core x.
Proof.
  intros x L. unfold vector_core, scalar_core.
  do 16 (destruct x as [|? x]; [discriminate L|]). destruct x; [|discriminate L].
  match goal with |- context [fold_left ?f ?l (?a, ?b, ?c, ?d)] =>
    destruct (fold_sim _ _ _ f (fun u (_ : nat) => scalar_rounds2 u) rows row_lens
      (fun v i H => vector_rounds2_spec v H) l (a, b, c, d)) as [E HL]; [repeat split|];
    destruct (fold_left f l (a, b, c, d)) as [[[o0 o1] o2] o3] end.
  match type of E with _ = fold_left _ _ ?r => match goal with |- context [fold_left _ _ ?r'] => change r with r' in E end end.
  rewrite <- E. clear E. destruct HL as (Ha & Hb & Hc & Hd).
  destruct o0 as [|a0 [|a1 [|a2 [|a3 [|]]]]]; try discriminate Ha.
  destruct o1 as [|b0 [|b1 [|b2 [|b3 [|]]]]]; try discriminate Hb.
  destruct o2 as [|c0 [|c1 [|c2 [|c3 [|]]]]]; try discriminate Hc.
  destruct o3 as [|d0 [|d1 [|d2 [|d3 [|]]]]]; try discriminate Hd.
  reflexivity.
Qed.
Lemma core_spec : forall b x, words x -> length x = 16%nat ->
  chacha_core b x = map (fun i => (nth i x 0 + nth i (Nat.iter 10 inner_block x) 0) mod 2 ^ 32) (seq 0 16).
Proof.
  intros b x W L. assert (chacha_core b x = scalar_core x) as -> by (destruct b; [now apply vector_core_spec|..]; reflexivity).
  unfold scalar_core. destruct (iter_rounds2 10 x W L) as (E & _). rewrite E.
  apply map_ext. intros i. unfold word_at. f_equal. lia.
Qed.

(** ** Exclusive or of byte strings *)
Definition xors (a b : list Z) : list Z := map (fun p => Z.lxor (fst p) (snd p)) (combine a b).
Lemma xors_app : forall a b a' b', length a = length b -> xors (a ++ a') (b ++ b') = xors a b ++ xors a' b'.
Proof.
  intros a. induction a as [|x a IH]; intros [|y b] a' b' H; try discriminate H; [reflexivity|].
  unfold xors in *. cbn [app combine map]. f_equal. apply IH. now injection H.
Qed.
Lemma xors_take : forall a b n, take n (xors a b) = xors a (take n b).
Proof.
  intros a b n. unfold xors, take. rewrite firstn_map. f_equal.
  generalize (Z.to_nat n) as k. clear n. revert b. induction a as [|x a IH]; intros b k.
  - cbn. now rewrite firstn_nil.
  - destruct b, k; try reflexivity. cbn [firstn combine]. now rewrite IH.
Qed.
Lemma zlen_xors : forall a b, zlen b <= zlen a -> zlen (xors a b) = zlen b.
Proof. intros a b H. unfold xors, zlen in *. rewrite map_length, combine_length. lia. Qed.
Lemma bytes_xors : forall a b, bytes a -> bytes b -> bytes (xors a b).
Proof.
  intros a. induction a as [|x a IH]; intros b Ha Hb; [constructor|].
  destruct b as [|y b]; [constructor|]. inversion Ha; inversion Hb; subst.
  unfold xors. cbn [combine map]. constructor; [|now apply IH].
  unfold is_byte in *. change 256 with (2 ^ 8). apply lxor_word; cbn [fst snd]; lia.
Qed.
Lemma xors_twice : forall a b, (length b <= length a)%nat -> xors a (xors a b) = b.
Proof.
  intros a. induction a as [|x a IH]; intros [|y b] H; cbn [length] in H; try reflexivity; try lia.
  unfold xors in *. cbn [combine map fst snd]. f_equal.
  - rewrite <- Z.lxor_assoc, Z.lxor_nilpotent. apply Z.lxor_0_l.
  - apply IH. lia.
Qed.

Lemma lxor_mod_pow2 : forall a b k, 0 <= k -> Z.lxor a b mod 2 ^ k = Z.lxor (a mod 2 ^ k) (b mod 2 ^ k).
Proof.
  intros a b k Hk. apply Z.bits_inj'. intros n Hn. rewrite Z.lxor_spec, !mod_pow2_bits by lia.
  destruct (n <? k); [apply Z.lxor_spec|reflexivity].
Qed.
Lemma le_bytes_lxor : forall n a b, le_bytes n (Z.lxor a b) = xors (le_bytes n a) (le_bytes n b).
Proof.
  intros n a b. unfold le_bytes, xors.
  generalize (seq 0 n) as l. intros l. induction l as [|i l IH]; [reflexivity|].
  cbn [map combine fst snd]. f_equal; [|exact IH].
  replace (256 ^ Z.of_nat i) with (2 ^ (8 * Z.of_nat i)) by (rewrite Z.pow_mul_r by lia; reflexivity).
  rewrite <- !Z.shiftr_div_pow2 by lia. rewrite Z.shiftr_lxor. change 256 with (2 ^ 8). now apply lxor_mod_pow2.
Qed.
Lemma le_bytes_mem_word : forall l, bytes l -> le_bytes (length l) (mem_word l) = l.
Proof.
  intros l H. induction l as [|x l IH]; [reflexivity|]. inversion H as [|? ? Hx Hl]; subst.
  unfold le_bytes in *. cbn [length seq map]. unfold is_byte in Hx. f_equal.
  - change (256 ^ Z.of_nat 0) with 1. rewrite Z.div_1_r. unfold mem_word. cbn [fold_right].
    rewrite Z.mul_comm, Z_mod_plus_full. apply Z.mod_small. lia.
  - rewrite <- seq_shift, map_map. rewrite <- (IH Hl) at 2. apply map_ext. intros i.
    rewrite Nat2Z.inj_succ. unfold Z.succ. rewrite Z.add_comm, Z.pow_add_r by lia. rewrite <- Z.div_div by lia.
    f_equal. f_equal. unfold mem_word. cbn [fold_right]. change (256 ^ 1) with 256.
    rewrite Z.mul_comm, Z_div_plus_full by lia. rewrite Z.div_small by lia. lia.
Qed.
Lemma to_little_spec : forall v, to_little v = le_bytes 4 v.
Proof.
  intros v. unfold to_little, le_bytes. cbn [seq map].
  rewrite !Z.shiftr_div_pow2 by lia. change (256 ^ Z.of_nat 0) with 1. rewrite Z.div_1_r. reflexivity.
Qed.
Lemma mem_word_range : forall l, bytes l -> 0 <= mem_word l < 256 ^ zlen l.
Proof.
  intros l H. induction H as [|x l Hx H IH]; [change (0 <= 0 < 256 ^ 0); lia|].
  rewrite zlen_cons, Z.pow_add_r by (pose proof (zlen_nonneg Z l); lia). change (256 ^ 1) with 256.
  unfold mem_word in *. cbn [fold_right]. unfold is_byte in Hx. lia.
Qed.

Lemma key_words_spec : forall b m n, bytes m -> 4 * Z.of_nat n <= zlen m ->
  key_words b m 0 n = map (fun j => mem_word (sub (4 * Z.of_nat j) 4 m)) (seq 0 n).
Proof.
  intros b m n Hb Hm. destruct b; [reflexivity| |]; unfold key_words, from_little;
    apply map_ext_in; intros i Hi; apply in_seq in Hi; unfold sub;
    (apply load_le32_val; [now apply bytes_drop|rewrite zlen_drop; lia]).
Qed.
Lemma xor_words_list : forall out m, bytes m -> length m = (4 * length out)%nat ->
  concat (map (fun i => le_bytes 4 (Z.lxor (nth i out 0) (mem_word (sub (4 * Z.of_nat i) 4 m)))) (seq 0 (length out)))
  = xors (concat (map (le_bytes 4) out)) m.
Proof.
  intros out. induction out as [|w out IH]; intros m Hb Hm.
  - destruct m; [reflexivity|discriminate Hm].
  - destruct m as [|a [|b [|c [|d m]]]]; cbn [length] in Hm; try lia.
    cbn [length seq map concat nth].
    assert (Hb' := Hb). change (a :: b :: c :: d :: m) with ([a; b; c; d] ++ m) in Hb'.
    apply bytes_app in Hb'. destruct Hb' as [Hq Hm'].
    change (a :: b :: c :: d :: m) with ([a; b; c; d] ++ m).
    rewrite xors_app by (unfold le_bytes; now rewrite map_length, seq_length). f_equal.
    + rewrite le_bytes_lxor. f_equal. change (sub (4 * Z.of_nat 0) 4 ([a; b; c; d] ++ m)) with [a; b; c; d].
      apply (le_bytes_mem_word [a; b; c; d]). exact Hq.
    + rewrite <- seq_shift, map_map. rewrite <- IH; [|exact Hm'|lia].
      f_equal. apply map_ext. intros i. f_equal. f_equal. f_equal. unfold sub. f_equal.
      rewrite drop_app_ge by (change (zlen [a; b; c; d]) with 4; lia). f_equal. change (zlen [a; b; c; d]) with 4. lia.
Qed.
Lemma nth_map_seq : forall (f : nat -> Z) n i, (i < n)%nat -> nth i (map f (seq 0 n)) 0 = f i.
Proof.
  intros f n i H. rewrite (nth_indep _ 0 (f 0%nat)) by (rewrite map_length, seq_length; lia).
  rewrite map_nth. f_equal. rewrite seq_nth by lia. reflexivity.
Qed.
Lemma xor_stored_spec : forall b out m, bytes m -> zlen m = 64 -> length out = 16%nat ->
  xor_stored b out m = xors (concat (map (le_bytes 4) out)) m.
Proof.
  intros b out m Hb Hm Ho. unfold xor_stored. rewrite key_words_spec by (auto; lia).
  rewrite <- xor_words_list by (auto; unfold zlen in Hm; lia). rewrite Ho. f_equal.
  apply map_ext_in. intros i Hi. rewrite to_little_spec. unfold word_at. f_equal. f_equal.
  apply in_seq in Hi.
  now rewrite nth_map_seq by lia.
Qed.

(** ** The state *)
Lemma state_length : forall key c nonce, length (chacha20_state key c nonce) = 16%nat.
Proof.
  intros. unfold chacha20_state. rewrite !app_length, !map_length, !length_pieces. reflexivity.
Qed.
Lemma le_val_word : forall l, bytes l -> zlen l <= 4 -> 0 <= le_val l < 2 ^ 32.
Proof.
  intros l H L. pose proof (mem_word_range l H) as R. change (le_val l) with (mem_word l).
  assert (256 ^ zlen l <= 256 ^ 4) by (apply Z.pow_le_mono_r; lia). change (2 ^ 32) with (256 ^ 4). lia.
Qed.
Lemma pieces_words : forall n l, bytes l -> words (map le_val (pieces 4 n l)).
Proof.
  intros n. induction n as [|n IH]; intros l H; [constructor|]. cbn [pieces map]. constructor.
  - apply le_val_word; [exact (bytes_take 4 l H)|]. unfold zlen. rewrite firstn_length. lia.
  - apply IH. exact (bytes_drop 4 l H).
Qed.
Lemma state_words : forall key c nonce, bytes key -> bytes nonce -> 0 <= c < 2 ^ 32 ->
  words (chacha20_state key c nonce).
Proof.
  intros key c nonce Hk Hn Hc. unfold chacha20_state, words. repeat rewrite Forall_app.
  split; [|split; [|split]].
  - repeat constructor; lia.
  - now apply pieces_words.
  - constructor; [lia|constructor].
  - now apply pieces_words.
Qed.
Lemma increment_spec : forall key c nonce, 0 <= c -> c + 1 < 2 ^ 32 ->
  chacha_increment (chacha20_state key c nonce) = chacha20_state key (c + 1) nonce.
Proof.
  intros key c nonce Hc Hc1. unfold chacha_increment.
  change (word_at (chacha20_state key c nonce) 12) with c. rewrite Z.mod_small by lia.
  destruct (c + 1 =? 0) eqn:E; [lia|]. reflexivity.
Qed.
Lemma block_of_core : forall b key c nonce, bytes key -> bytes nonce -> 0 <= c < 2 ^ 32 ->
  concat (map (le_bytes 4) (chacha_core b (chacha20_state key c nonce))) = chacha20_block key c nonce.
Proof.
  intros b key c nonce Hk Hn Hc. rewrite core_spec by (try apply state_words; try apply state_length; auto).
  rewrite map_map. reflexivity.
Qed.
Lemma core_length : forall b x, words x -> length x = 16%nat -> length (chacha_core b x) = 16%nat.
Proof. intros b x W L. rewrite core_spec by auto. now rewrite map_length, seq_length. Qed.
Lemma zlen_block : forall key c nonce, zlen (chacha20_block key c nonce) = 64.
Proof.
  intros. unfold chacha20_block. cbv zeta.
  generalize (fun i => (nth i (chacha20_state key c nonce) 0 + nth i (Nat.iter 10 inner_block (chacha20_state key c nonce)) 0) mod 2 ^ 32) as f.
  intros f. reflexivity.
Qed.
Lemma bytes_le_bytes : forall n v, bytes (le_bytes n v).
Proof.
  intros n v. unfold le_bytes, bytes. apply Forall_forall. intros x Hx. apply in_map_iff in Hx.
  destruct Hx as (i & <- & _). unfold is_byte. pose proof (Z.mod_pos_bound (v / 256 ^ Z.of_nat i) 256 eq_refl). lia.
Qed.
Lemma zlen_le_bytes : forall n v, zlen (le_bytes n v) = Z.of_nat n.
Proof. intros. unfold le_bytes, zlen. now rewrite map_length, seq_length. Qed.
Lemma bytes_block : forall key c nonce, bytes (chacha20_block key c nonce).
Proof.
  intros. unfold chacha20_block, bytes. cbv zeta. apply Forall_concat. apply Forall_forall. intros l Hl.
  apply in_map_iff in Hl. destruct Hl as (i & <- & _). apply bytes_le_bytes.
Qed.

(** ** The specification, block by block *)
Lemma xors_index : forall k t, zlen t <= zlen k ->
  map (fun i => Z.lxor (byte_at t i) (byte_at k i)) (range 0 (zlen t)) = xors k t.
Proof.
  intros k t H. unfold range. rewrite Z.sub_0_r, map_map. unfold zlen. rewrite Nat2Z.id.
  revert k H. induction t as [|y t IH]; intros k H.
  - destruct k; reflexivity.
  - destruct k as [|x k]; [exfalso; rewrite zlen_cons in H; pose proof (zlen_nonneg Z t); change (zlen (@nil Z)) with 0 in H; lia|].
    cbn [length seq map]. unfold xors. cbn [combine map fst snd]. f_equal.
    + unfold byte_at. cbn. apply Z.lxor_comm.
    + rewrite <- seq_shift, map_map. unfold xors in IH. rewrite <- IH.
      * apply map_ext. intros i. unfold byte_at. replace (Z.to_nat (0 + Z.of_nat (S i))) with (S (Z.to_nat (0 + Z.of_nat i))) by lia.
        reflexivity.
      * rewrite !zlen_cons in H. lia.
Qed.
Lemma encrypt_short : forall key c nonce t, zlen t <= 64 ->
  chacha20_encrypt key c nonce t = xors (chacha20_block key c nonce) t.
Proof.
  intros key c nonce t H. unfold chacha20_encrypt, chacha20_keystream.
  rewrite <- xors_index by (rewrite zlen_block; lia). apply map_ext_in. intros i Hi. unfold range in Hi.
  apply in_map_iff in Hi. destruct Hi as (j & <- & Hj). apply in_seq in Hj.
  rewrite Z.div_small, Z.mod_small by lia. now rewrite Z.add_0_r.
Qed.
Lemma encrypt_app : forall key c nonce a t, zlen a = 64 ->
  chacha20_encrypt key c nonce (a ++ t) = chacha20_encrypt key c nonce a ++ chacha20_encrypt key (c + 1) nonce t.
Proof.
  intros key c nonce a t Ha. unfold chacha20_encrypt, chacha20_keystream.
  assert (range 0 (zlen (a ++ t)) = range 0 (zlen a) ++ map (fun i => 64 + i) (range 0 (zlen t))) as ->.
  { unfold range. rewrite map_map, !Z.sub_0_r. unfold zlen. rewrite app_length, !Nat2Z.id, seq_app, map_app. f_equal.
    unfold zlen in Ha. replace (0 + length a)%nat with (64 + 0)%nat by lia. clear.
    generalize (length t) as n. intros n.
    assert (forall n k, map (fun i => 0 + Z.of_nat i) (seq (64 + k) n) = map (fun x => 64 + (0 + Z.of_nat x)) (seq k n)) as H; [|apply H].
    clear n. intros n. induction n as [|n IH]; intros k; [reflexivity|]. cbn [seq map]. f_equal; [lia|].
    rewrite <- IH. reflexivity. }
  rewrite map_app, map_map. f_equal.
  - apply map_ext_in. intros i Hi. unfold range in Hi. apply in_map_iff in Hi. destruct Hi as (j & <- & Hj).
    apply in_seq in Hj. f_equal. unfold byte_at. rewrite app_nth1; [reflexivity|]. unfold zlen in *. lia.
  - apply map_ext_in. intros i Hi. unfold range in Hi. apply in_map_iff in Hi. destruct Hi as (j & <- & Hj).
    apply in_seq in Hj. f_equal.
    + unfold byte_at. rewrite app_nth2 by (unfold zlen in *; lia). f_equal. unfold zlen in *. lia.
    + replace (64 + (0 + Z.of_nat j)) with (0 + Z.of_nat j + 1 * 64) by lia.
      rewrite Z.div_add, Z_mod_plus_full by lia.
      replace (c + ((0 + Z.of_nat j) / 64 + 1)) with (c + 1 + (0 + Z.of_nat j) / 64) by lia. reflexivity.
Qed.
Lemma zlen_encrypt : forall key c nonce t, zlen (chacha20_encrypt key c nonce t) = zlen t.
Proof. intros. unfold chacha20_encrypt, range. unfold zlen at 1. rewrite !map_length, seq_length. unfold zlen. lia. Qed.
Lemma encrypt_nil : forall key c nonce, chacha20_encrypt key c nonce [] = [].
Proof. reflexivity. Qed.

(** Induction over a text cut in blocks of 64 bytes *)
Lemma blocks_ind : forall (P : list Z -> Prop),
  (forall t, zlen t < 64 -> P t) -> (forall a t, zlen a = 64 -> P t -> P (a ++ t)) -> forall t, P t.
Proof.
  intros P H1 H2 t. assert (forall n t, (length t <= n)%nat -> P t) as H; [|now apply (H (length t))].
  clear t. intros n. induction n as [|n IH]; intros t L.
  - apply H1. unfold zlen. lia.
  - destruct (Z_lt_dec (zlen t) 64) as [Hs|Hs]; [now apply H1|].
    rewrite <- (take_drop Z 64 t). apply H2; [rewrite zlen_take; lia|]. apply IH.
    assert (zlen (drop 64 t) = zlen t - 64) by (rewrite zlen_drop; lia). unfold zlen in *. lia.
Qed.
Lemma bytes_encrypt : forall key nonce t c, bytes t -> bytes (chacha20_encrypt key c nonce t).
Proof.
  intros key nonce t. induction t as [t Ht|a t Ha IH] using blocks_ind; intros c Hb.
  - rewrite encrypt_short by lia. apply bytes_xors; [apply bytes_block|exact Hb].
  - rewrite encrypt_app by exact Ha. apply bytes_app in Hb. destruct Hb. apply bytes_app. split; [|auto].
    rewrite encrypt_short by lia. apply bytes_xors; [apply bytes_block|assumption].
Qed.
Lemma encrypt_twice : forall key nonce t c, chacha20_encrypt key c nonce (chacha20_encrypt key c nonce t) = t.
Proof.
  intros key nonce t. induction t as [t Ht|a t Ha IH] using blocks_ind; intros c.
  - rewrite (encrypt_short key c nonce t) by lia. rewrite encrypt_short.
    + apply xors_twice. pose proof (zlen_block key c nonce). unfold zlen in *. lia.
    + rewrite zlen_xors; rewrite ?zlen_block; lia.
  - rewrite (encrypt_app key c nonce a t) by exact Ha. rewrite encrypt_app by (now rewrite zlen_encrypt).
    rewrite IH. f_equal. rewrite (encrypt_short key c nonce a) by lia. rewrite encrypt_short.
    + apply xors_twice. pose proof (zlen_block key c nonce). unfold zlen in *. lia.
    + rewrite zlen_xors; rewrite ?zlen_block; lia.
Qed.

(** ** The loop *)
Definition blocks_in (bytes : Z) : Z := (bytes + 63) / 64.
Lemma loop_spec : forall b temp key nonce, bytes key -> bytes nonce -> bytes temp -> zlen temp = 64 ->
  forall fuel c data n, bytes data -> 0 <= n <= zlen data -> (Z.to_nat (n / 64) < fuel)%nat ->
  0 <= c -> c + blocks_in n < 2 ^ 32 ->
  chacha_loop fuel b temp (chacha20_state key c nonce) data n =
  (chacha20_state key (c + blocks_in n) nonce, chacha20_encrypt key c nonce (take n data) ++ drop n data).
Proof.
  intros b temp key nonce Hk Hn Ht Lt fuel. induction fuel as [|fuel IH]; intros c data n Hd Hn1 Hf Hc Hcn; [lia|].
  assert (0 <= blocks_in n) as Hbn by (unfold blocks_in; apply Z.div_pos; lia).
  cbn [chacha_loop]. rewrite Z.gtb_ltb. destruct (0 <? n) eqn:E0; cycle 1.
  { assert (n = 0) as -> by lia. change (blocks_in 0) with 0. rewrite Z.add_0_r.
    rewrite take_le0, drop_le0 by lia. now rewrite encrypt_nil. }
  assert (1 <= blocks_in n) as Hb1.
  { unfold blocks_in. apply Z.div_le_lower_bound; lia. }
  rewrite increment_spec by lia. rewrite Z.geb_leb. destruct (64 <=? n) eqn:E64.
  - assert (n / 64 = (n - 64) / 64 + 1) as Ed by (replace n with (n - 64 + 1 * 64) at 1 by lia; rewrite Z.div_add; lia).
    assert (blocks_in n = blocks_in (n - 64) + 1) as Eb.
    { unfold blocks_in. replace (n + 63) with (n - 64 + 63 + 1 * 64) by lia. rewrite Z.div_add by lia. reflexivity. }
    assert (0 <= (n - 64) / 64) by (apply Z.div_pos; lia).
    rewrite IH; try lia; [|now apply bytes_drop|rewrite zlen_drop; lia].
    rewrite xor_stored_spec; cycle 1.
    { now apply bytes_take. } { rewrite zlen_take; lia. }
    { apply core_length; [apply state_words; auto; lia|apply state_length]. }
    rewrite block_of_core by (auto; lia). f_equal; [f_equal; lia|].
    rewrite <- (encrypt_short key c nonce (take 64 data)) by (rewrite zlen_take; lia).
    rewrite app_assoc. rewrite <- encrypt_app by (rewrite zlen_take; lia). f_equal.
    + f_equal. rewrite <- (take_drop Z 64 (take n data)). f_equal.
      * rewrite take_take. f_equal. lia.
      * rewrite take_drop_comm by lia. replace (n - 64 + 64) with n by lia. reflexivity.
    + rewrite drop_drop by lia. replace (n - 64 + 64) with n by lia. reflexivity.
  - assert (blocks_in n = 1) as ->.
    { unfold blocks_in. replace (n + 63) with (n - 1 + 1 * 64) by lia. rewrite Z.div_add by lia.
      rewrite Z.div_small by lia. reflexivity. }
    f_equal.
    assert (zlen (take n data) = n) as Lt' by (rewrite zlen_take; lia).
    assert (splice 0 (take n data) temp = take n data ++ drop n temp) as Es
      by (rewrite splice_0, Lt'; reflexivity).
    rewrite Es. rewrite xor_stored_spec; cycle 1.
    { apply bytes_app. split; [now apply bytes_take|now apply bytes_drop]. }
    { rewrite zlen_app, Lt', zlen_drop; lia. }
    { apply core_length; [apply state_words; auto; lia|apply state_length]. }
    rewrite block_of_core by (auto; lia). rewrite xors_take.
    rewrite <- Lt' at 1. rewrite take_app_exact.
    rewrite <- encrypt_short by lia. rewrite splice_0, zlen_encrypt, Lt'. reflexivity.
Qed.

(** ** Setting up *)
Definition right_order (b : cc_build) : Prop := b <> CC_ScalarBE.
Lemma keysetup_spec : forall b key, right_order b -> bytes key -> zlen key = 32 ->
  chacha_keysetup b key 256 = chacha20_state key 0 (zeros 12).
Proof.
  intros b key Hb Hk Lk. unfold chacha_keysetup. change (256 =? 256) with true. cbv iota.
  rewrite key_words_spec by (auto; lia).
  assert (native_words b tag256 = [0x61707865; 0x3320646e; 0x79622d32; 0x6b206574]) as ->
    by (destruct b; [reflexivity|reflexivity|now elim Hb]).
  unfold zlen in Lk. do 32 (destruct key as [|? key]; [cbn [length] in Lk; lia|]).
  destruct key; [|cbn [length] in Lk; lia]. reflexivity.
Qed.
Lemma ivsetup_spec : forall key c nonce iv, bytes iv -> 8 <= zlen iv ->
  chacha_ivsetup (chacha20_state key c nonce) iv None = chacha20_state key 0 (zeros 4 ++ take 8 iv).
Proof.
  intros key c nonce iv Hb Li. unfold chacha_ivsetup, from_little.
  rewrite !load_le32_val; try (now apply bytes_drop); try (rewrite zlen_drop; lia).
  unfold zlen in Li. do 8 (destruct iv as [|? iv]; [cbn [length] in Li; lia|]). reflexivity.
Qed.
