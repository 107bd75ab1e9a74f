(** Proofs about the BLAKE2 model: BLAKE2b, and the digest functions. *)
From Coq Require Import ZifyBool ZifyNat.
From Verif Require Import Base MHash SHash PHash MSha2 SSha2 PSha2 PSha2b MBlake2 SBlake2 PBlake2.

Local Strategy opaque [Z.add Z.modulo Z.lor Z.lxor Z.land Z.shiftl Z.shiftr Z.pow Z.div].

Lemma word_mem_spec : forall n v, word_mem n v = le_bytes n v.
Proof.
  unfold le_bytes. induction n; intros v; auto. cbn [word_mem seq map].
  rewrite Z.pow_0_r, Z.div_1_r. f_equal. rewrite IHn, <- seq_shift, map_map.
  apply map_ext. intros i. rewrite Z.div_div by (try apply Z.pow_pos_nonneg; lia).
  do 2 f_equal. replace (Z.of_nat (S i)) with (Z.succ (Z.of_nat i)) by lia. rewrite Z.pow_succ_r by lia. reflexivity.
Qed.
Lemma write_le32_spec : forall v, write_le32 v = word_mem 4 v.
Proof.
  intros v. unfold write_le32. cbn [word_mem]. rewrite !Z.shiftr_div_pow2 by lia.
  change (2 ^ 8) with 256. change (2 ^ 16) with (256 * 256). change (2 ^ 24) with (256 * 256 * 256).
  rewrite <- !Z.div_div by lia. reflexivity.
Qed.
Lemma zlen_word_mem : forall n v, zlen (word_mem n v) = Z.of_nat n.
Proof. intros; rewrite word_mem_spec. unfold le_bytes, zlen. now rewrite map_length, seq_length. Qed.
Lemma bytes_word_mem : forall n v, bytes (word_mem n v).
Proof.
  induction n; intros v; cbn [word_mem]; constructor; auto. unfold is_byte. apply Z.mod_pos_bound; lia.
  apply IHn.
Qed.
Lemma chain_len : forall P blocks h i ll, length h = 8%nat -> length (chain P h i ll blocks) = 8%nat.
Proof.
  intros P blocks; induction blocks as [|b bl IH]; intros h i ll Hh; auto. cbn [chain]. destruct bl.
  - unfold F. now rewrite map_length, seq_length.
  - apply IH. unfold F. now rewrite map_length, seq_length.
Qed.

Lemma blake2s_out_eq : forall b h, length h = 8%nat -> blake2s_out b h = concat (map (word_mem 4) h).
Proof.
  intros b h Hh. destruct b; auto. unfold blake2s_out. rewrite map_word_at by auto.
  f_equal. apply map_ext. apply write_le32_spec.
Qed.
Lemma blake2s_out_len : forall b h, length h = 8%nat -> zlen (blake2s_out b h) = 32.
Proof.
  intros b h Hh. rewrite blake2s_out_eq by auto. rewrite (zlen_concat 4).
  - rewrite zlen_map. unfold zlen. rewrite Hh. reflexivity.
  - apply Forall_forall. intros x Hx. apply in_map_iff in Hx. destruct Hx as (v & <- & _). apply zlen_word_mem.
Qed.
Lemma blake2s_out_bytes : forall b h, bytes (blake2s_out b h).
Proof.
  intros b h. unfold blake2s_out, bytes. destruct b; apply Forall_concat, Forall_forall; intros x Hx;
    apply in_map_iff in Hx; destruct Hx as (v & <- & _); rewrite ?write_le32_spec; apply bytes_word_mem.
Qed.
Lemma blake2s_out_spec : forall b h, length h = 8%nat ->
  blake2s_out b h = concat (map (le_bytes (Z.to_nat (b_wbytes blake2s_params))) h).
Proof.
  intros b h Hh. rewrite blake2s_out_eq by auto. f_equal. apply map_ext. intros v. apply word_mem_spec.
Qed.
Definition blake2b_out (h : list Z) : list Z := concat (map (word_mem 8) h).
Lemma blake2b_out_len : forall h, length h = 8%nat -> zlen (blake2b_out h) = 64.
Proof.
  intros h Hh. unfold blake2b_out. rewrite (zlen_concat 8).
  - rewrite zlen_map. unfold zlen. rewrite Hh. reflexivity.
  - apply Forall_forall. intros x Hx. apply in_map_iff in Hx. destruct Hx as (v & <- & _). apply zlen_word_mem.
Qed.
Lemma blake2b_out_bytes : forall h, bytes (blake2b_out h).
Proof.
  intros h. unfold blake2b_out, bytes. apply Forall_concat, Forall_forall; intros x Hx;
    apply in_map_iff in Hx; destruct Hx as (v & <- & _); apply bytes_word_mem.
Qed.
Lemma blake2b_out_spec : forall h, length h = 8%nat ->
  blake2b_out h = concat (map (le_bytes (Z.to_nat (b_wbytes blake2b_params))) h).
Proof.
  intros h Hh. unfold blake2b_out. f_equal. apply map_ext. intros v. apply word_mem_spec.
Qed.
(** ** BLAKE2b *)
Lemma blake2b_iv_spec : BIV blake2b_params = blake2b_iv.
Proof. vm_compute. reflexivity. Qed.
Lemma blake2b_sigma_spec : forall r k, (r < 12)%nat ->
  sigma_at blake2b_sigma r k = nth k (nth (Nat.modulo r 10) SIGMA []) O.
Proof.
  intros r k Hr. do 12 (destruct r as [|r]; [reflexivity|]). lia.
Qed.
Lemma blake2b_quarter_spec : forall a b c d x y,
  blake2b_quarter a b c d x y = Gmix blake2b_params a b c d x y.
Proof.
  intros. unfold blake2b_quarter, Gmix. cbn [b_rot blake2b_params b_w].
  unfold ror64, rotr. cbn [b_w blake2b_params].
  rewrite !Zplus_mod_idemp_r, !Z.add_assoc. reflexivity.
Qed.
Lemma blake2b_quarter_at_spec : forall m r v ia ib ic id i, (r < 12)%nat ->
  blake2b_quarter_at m r v ia ib ic id i
  = G blake2b_params v ia ib ic id
      (nth (nth (2 * i) (nth (Nat.modulo r 10) SIGMA []) O) m 0)
      (nth (nth (2 * i + 1) (nth (Nat.modulo r 10) SIGMA []) O) m 0).
Proof.
  intros. unfold blake2b_quarter_at, G. rewrite blake2b_quarter_spec, !blake2b_sigma_spec by auto.
  reflexivity.
Qed.
Lemma blake2b_round_spec : forall m v r, (r < 12)%nat ->
  blake2b_round m v r = F_round blake2b_params m v r.
Proof.
  intros m v r Hr. unfold blake2b_round, F_round. cbv zeta. rewrite !blake2b_quarter_at_spec by auto. reflexivity.
Qed.


Lemma blake2b_v_spec : forall h t f, length h = 8%nat -> 0 <= t < 2 ^ 64 ->
  blake2b_v h t (if f : bool then 0xFFFFFFFFFFFFFFFF else 0)
  = let v := h ++ BIV blake2b_params in
    let v := put v 12 (Z.lxor (nth 12 v 0) (t mod 2 ^ 64)) in
    let v := put v 13 (Z.lxor (nth 13 v 0) (t / 2 ^ 64)) in
    if f then put v 14 (Z.lxor (nth 14 v 0) (2 ^ 64 - 1)) else v.
Proof.
  intros h t f Hh Ht. rewrite blake2b_iv_spec. cbv zeta. unfold blake2b_v.
  rewrite Z.mod_small by auto. rewrite Z.div_small by auto.
  do 8 (destruct h as [|? h]; [discriminate Hh|]). destruct h; [|discriminate Hh].
  destruct f; cbv [blake2b_iv put app firstn skipn nth word_at]; rewrite ?Z.lxor_0_r; reflexivity.
Qed.
Lemma blake2b_load_le_spec : forall m, zlen m = 128 -> blake2b_load_le m = block_words blake2b_params m.
Proof.
  intros m Hm. unfold blake2b_load_le, block_words. change (Z.to_nat (b_wbytes blake2b_params)) with 8%nat.
  assert (E : forall n a, 8 * (Z.of_nat n + Z.of_nat a) <= zlen m ->
    map (fun i => mem_word (sub (8 * Z.of_nat i) 8 m)) (seq a n)
    = map le_val (pieces 8 n (drop (8 * Z.of_nat a) m))).
  { intros n; induction n; intros a Ha; auto. cbn [seq map pieces]. f_equal.
    rewrite IHn by lia. do 2 f_equal.
    change (skipn 8 (drop (8 * Z.of_nat a) m)) with (drop 8 (drop (8 * Z.of_nat a) m)).
    rewrite drop_drop by lia. f_equal; lia. }
  rewrite E by lia. now rewrite drop_le0 by lia.
Qed.
Lemma blake2b_transform_spec : forall h m t f, length h = 8%nat -> bytes m -> zlen m = 128 -> 0 <= t < 2 ^ 64 ->
  blake2b_transform blake2b_load_le h m t (if f : bool then 0xFFFFFFFFFFFFFFFF else 0)
  = F blake2b_params h (block_words blake2b_params m) t f.
Proof.
  intros h m t f Hh _ Hm Ht. unfold blake2b_transform, F. cbv zeta. rewrite blake2b_load_le_spec by auto.
  rewrite blake2b_v_spec by auto. cbv zeta. cbn [b_r b_w blake2b_params].
  rewrite (fold_left_ext_in _ _ (blake2b_round (block_words blake2b_params m)) (F_round blake2b_params (block_words blake2b_params m)))
    by (intros v r Hr; apply blake2b_round_spec; apply in_seq in Hr; lia).
  apply map_ext. intros i. unfold word_at. symmetry. apply Z.lxor_assoc.
Qed.
Lemma length_blake2b_transform : forall h m t f, length h = 8%nat ->
  length (blake2b_transform blake2b_load_le h m t f) = 8%nat.
Proof. intros. unfold blake2b_transform. now rewrite map_length, seq_length. Qed.

(** ** The digest functions of the code: BLAKE2s *)
Definition blake2s_code (b : build) (m : list Z) : list Z :=
  blake2s_out b (code_chain 64 (blake2s_transform b) 0xFFFFFFFF blake2s_h0 0 (zlen m) (code_blocks 64 m)).

Lemma blake2s_is_law : forall b, hash_law (blake2s_alg b) (blake2s_code b).
Proof.
  intros b. constructor.
  - intros c Hc. exact Hc.
  - intros c chunks Hc. unfold hctx_ok.
    exact (proj2 (stream_last 64 (blake2s_transform b) eq_refl blake2s_h0 0xFFFFFFFF c chunks Hc)).
  - intros c chunks Hc.
    change (blake2s_out b (hc_h (blake2_last 64 (blake2s_transform b) 0xFFFFFFFF
       (fold_left (blake2_update 64 (blake2s_transform b)) chunks (HCtx blake2s_h0 (hc_m c) 0 0)))) = (blake2s_code b) (concat chunks)).
    rewrite (proj1 (stream_last 64 (blake2s_transform b) eq_refl blake2s_h0 0xFFFFFFFF c chunks Hc)). reflexivity.
  - intros m. cbn [ha_hash_len blake2s_alg]. apply blake2s_out_len.
    apply code_chain_len; [|reflexivity]. intros. apply length_blake2s_transform; auto.
  - intros m. apply blake2s_out_bytes.
  - cbn; lia.
Qed.

Lemma blake2s_code_is_rfc : forall b m, bytes m -> zlen m < 2 ^ 64 -> (blake2s_code b) m = BLAKE2s m.
Proof.
  intros b m Hb Hm. unfold blake2s_code, BLAKE2s, BLAKE2. cbv zeta.
  assert (Hh0 : put (BIV blake2s_params) 0 (Z.lxor (nth 0 (BIV blake2s_params) 0) (Z.lxor 0x01010000 (b_nn blake2s_params))) = blake2s_h0)
    by (rewrite blake2s_iv_spec; reflexivity).
  rewrite Hh0. change (bb blake2s_params) with 64.
  change (block_count blake2s_params (zlen m)) with (count_blocks 64 (zlen m)).
  fold (code_blocks 64 m).
  destruct (code_blocks_forall 64 m eq_refl Hb) as [Hf Hz].
  assert (Hcount : 64 * zlen (code_blocks 64 m) <= zlen m + 64).
  { rewrite Hz. unfold count_blocks. pose proof (zlen_nonneg _ m). destruct (Z.eqb_spec (zlen m) 0) as [E|E]; [lia|].
    pose proof (Z.div_mod (zlen m + 64 - 1) 64 ltac:(lia)).
    pose proof (Z.mod_pos_bound (zlen m + 64 - 1) 64 eq_refl). lia. }
  pose proof (code_chain_spec blake2s_params (blake2s_transform b) 0xFFFFFFFF (code_blocks 64 m) blake2s_h0 0 (zlen m) 0) as E. cbv zeta in E.
  change (bb blake2s_params) with 64 in E.
  rewrite E;
    [apply blake2s_out_spec; apply chain_len; reflexivity|lia|lia|lia|lia|pose proof (zlen_nonneg _ m); lia
    |apply length_blake2s_transform|apply blake2s_transform_spec|exact Hf|reflexivity].
Qed.

(** ** The digest functions of the code: BLAKE2b *)
Definition blake2b_code (m : list Z) : list Z :=
  blake2b_out (code_chain 128 (blake2b_transform blake2b_load_le) 0xFFFFFFFFFFFFFFFF blake2b_h0 0 (zlen m) (code_blocks 128 m)).

Lemma blake2b_is_law : hash_law blake2b_alg blake2b_code.
Proof.
  constructor.
  - intros c Hc. exact Hc.
  - intros c chunks Hc. unfold hctx_ok.
    exact (proj2 (stream_last 128 (blake2b_transform blake2b_load_le) eq_refl blake2b_h0 0xFFFFFFFFFFFFFFFF c chunks Hc)).
  - intros c chunks Hc.
    change (blake2b_out (hc_h (blake2_last 128 (blake2b_transform blake2b_load_le) 0xFFFFFFFFFFFFFFFF
       (fold_left (blake2_update 128 (blake2b_transform blake2b_load_le)) chunks (HCtx blake2b_h0 (hc_m c) 0 0)))) = blake2b_code (concat chunks)).
    rewrite (proj1 (stream_last 128 (blake2b_transform blake2b_load_le) eq_refl blake2b_h0 0xFFFFFFFFFFFFFFFF c chunks Hc)). reflexivity.
  - intros m. cbn [ha_hash_len blake2b_alg]. apply blake2b_out_len.
    apply code_chain_len; [|reflexivity]. intros. apply length_blake2b_transform; auto.
  - intros m. apply blake2b_out_bytes.
  - cbn; lia.
Qed.

Lemma blake2b_code_is_rfc : forall m, bytes m -> zlen m < 2 ^ 64 -> blake2b_code m = BLAKE2b m.
Proof.
  intros m Hb Hm. unfold blake2b_code, BLAKE2b, BLAKE2. cbv zeta.
  assert (Hh0 : put (BIV blake2b_params) 0 (Z.lxor (nth 0 (BIV blake2b_params) 0) (Z.lxor 0x01010000 (b_nn blake2b_params))) = blake2b_h0)
    by (rewrite blake2b_iv_spec; reflexivity).
  rewrite Hh0. change (bb blake2b_params) with 128.
  change (block_count blake2b_params (zlen m)) with (count_blocks 128 (zlen m)).
  fold (code_blocks 128 m).
  destruct (code_blocks_forall 128 m eq_refl Hb) as [Hf Hz].
  assert (Hcount : 128 * zlen (code_blocks 128 m) <= zlen m + 128).
  { rewrite Hz. unfold count_blocks. pose proof (zlen_nonneg _ m). destruct (Z.eqb_spec (zlen m) 0) as [E|E]; [lia|].
    pose proof (Z.div_mod (zlen m + 128 - 1) 128 ltac:(lia)).
    pose proof (Z.mod_pos_bound (zlen m + 128 - 1) 128 eq_refl). lia. }
  pose proof (code_chain_spec blake2b_params (blake2b_transform blake2b_load_le) 0xFFFFFFFFFFFFFFFF (code_blocks 128 m) blake2b_h0 0 (zlen m) 0) as E. cbv zeta in E.
  change (bb blake2b_params) with 128 in E.
  rewrite E;
    [apply blake2b_out_spec; apply chain_len; reflexivity|lia|lia|lia|lia|pose proof (zlen_nonneg _ m); lia
    |apply length_blake2b_transform|apply blake2b_transform_spec|exact Hf|reflexivity].
Qed.
