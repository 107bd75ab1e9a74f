(** Proofs about the BLAKE2 model. *)
From Coq Require Import ZifyBool ZifyNat.
From Verif Require Import Base MHash SHash PHash MSha2 SSha2 PSha2 PSha2b MBlake2 SBlake2.

Local Strategy opaque [Z.add Z.modulo Z.lor Z.lxor Z.land Z.shiftl Z.shiftr Z.pow Z.div].

(** ** Buffering, for any block length and compression function *)
Section Stream.
Variable B : Z.
Variable tr : list Z -> list Z -> Z -> Z -> list Z.
Hypothesis HB : 0 < B.

Fixpoint absorb (h : list Z) (n : Z) (bs : list (list Z)) : list Z :=
  match bs with
  | [] => h
  | b :: r => absorb (tr h b ((n + B) mod 2^64) 0) (n + B) r
  end.
Lemma absorb_snoc : forall bs h n b,
  absorb h n (bs ++ [b]) = tr (absorb h n bs) b ((n + B * zlen bs + B) mod 2^64) 0.
Proof.
  induction bs as [|x bs IH]; intros h n b; cbn [absorb app].
  - rewrite zlen_nil. do 2 f_equal. lia.
  - rewrite IH, zlen_cons. do 2 f_equal. lia.
Qed.

Definition absorbed2 (h0 : list Z) (c : hctx) (data rest : list Z) : Prop :=
  exists bs, Forall (fun b => zlen b = B) bs /\
    data = concat bs ++ take (hc_posn c) (hc_m c) /\
    hc_h c = absorb h0 0 bs /\
    0 <= hc_posn c <= B /\ zlen (hc_m c) = B /\
    hc_length c = zlen data mod 2^64 /\
    (hc_posn c = 0 -> bs = [] \/ rest <> []).

Lemma update_absorbs2 : forall h0 fuel c data d, absorbed2 h0 c data d -> (length d <= fuel)%nat ->
  absorbed2 h0 (blake2_update_loop B tr fuel c d) (data ++ d) [].
Proof.
  intros h0 fuel; induction fuel; intros c data d Ha Hf.
  - destruct d; cbn in *; [|lia]. now rewrite app_nil_r.
  - destruct d as [|x d']; [now rewrite app_nil_r|].
    cbn [blake2_update_loop]. set (d := x :: d') in *.
    assert (Hd : 0 < zlen d) by (subst d; rewrite zlen_cons; pose proof (zlen_nonneg Z d'); lia).
    assert (Hlen : Z.of_nat (length d) = zlen d) by reflexivity.
    assert (Hnn : d <> []) by discriminate.
    clearbody d. clear x d'.
    match goal with |- context [if hc_posn c =? B then ?x else c] => set (c1 := if hc_posn c =? B then x else c) end.
    assert (Ha1 : absorbed2 h0 c1 data d /\ hc_posn c1 < B).
    { subst c1. destruct (Z.eqb_spec (hc_posn c) B) as [Hp|Hp].
      - split; [|cbn; lia]. destruct Ha as (bs & Hbs & Hdata & Hh & Hp' & Hm & Hl & Hr).
        rewrite Hp in Hdata. rewrite take_all in Hdata by lia.
        exists (bs ++ [hc_m c]). cbn [hc_h hc_m hc_length hc_posn].
        repeat split; auto; try lia.
        + apply Forall_app; split; auto.
        + rewrite concat_app; cbn [concat]. rewrite (take_le0 _ 0) by lia. now rewrite !app_nil_r.
        + rewrite absorb_snoc, <- Hh. f_equal. rewrite Hl, Hdata, zlen_app, (zlen_concat B) by auto. f_equal; lia.
      - split; [auto|]. destruct Ha as (? & ? & ? & ? & ? & ?). lia. }
    clearbody c1. destruct Ha1 as [Ha1 Hp1]. clear Ha c. rename c1 into c.
    destruct Ha1 as (bs & Hbs & Hdata & Hh & Hp & Hm & Hl & Hr).
    destruct ((B <? zlen d) && (hc_posn c =? 0)) eqn:Econd.
    + apply andb_prop in Econd. destruct Econd as [Hge Hp0].
      apply Z.eqb_eq in Hp0. apply Z.ltb_lt in Hge.
      replace (data ++ d) with ((data ++ take B d) ++ drop B d) by now rewrite <- app_assoc, take_drop.
      assert (Hzdr : zlen (drop B d) = zlen d - B) by (rewrite zlen_drop; lia).
      apply IHfuel; [|unfold zlen in *; lia].
      exists (bs ++ [take B d]). cbn [hc_h hc_m hc_length hc_posn].
      assert (Hzt : zlen (take B d) = B) by (rewrite zlen_take; lia).
      rewrite Hp0 in Hdata. rewrite (take_le0 _ 0) in Hdata by lia. rewrite app_nil_r in Hdata.
      assert (Hlen2 : (hc_length c + B) mod 2 ^ 64 = zlen (data ++ take B d) mod 2 ^ 64)
        by (rewrite Hl, mod_add_l, zlen_app, Hzt; reflexivity).
      repeat split; auto; try lia.
      * apply Forall_app; split; auto.
      * rewrite concat_app; cbn [concat]. rewrite Hp0, (take_le0 _ 0) by lia. rewrite Hdata. now rewrite !app_nil_r.
      * rewrite absorb_snoc, <- Hh. f_equal. rewrite Hl, mod_add_l, Hdata, (zlen_concat B) by auto. f_equal; lia.
      * intros _. right. intros E. rewrite E, zlen_nil in Hzdr. lia.
    + match goal with |- context [if zlen d <? B - hc_posn c then _ else _] =>
        set (temp := if zlen d <? B - hc_posn c then zlen d else B - hc_posn c) end.
      assert (Ht : 0 < temp <= zlen d /\ hc_posn c + temp <= B)
        by (subst temp; destruct (Z.ltb_spec (zlen d) (B - hc_posn c)); lia).
      clearbody temp.
      replace (data ++ d) with ((data ++ take temp d) ++ drop temp d) by now rewrite <- app_assoc, take_drop.
      assert (Hzt : zlen (take temp d) = temp) by (rewrite zlen_take; lia).
      assert (Hzm : zlen (splice (hc_posn c) (take temp d) (hc_m c)) = B)
        by (rewrite splice_length; rewrite ?Hzt; lia).
      assert (Htk : take (hc_posn c + temp) (splice (hc_posn c) (take temp d) (hc_m c))
                    = take (hc_posn c) (hc_m c) ++ take temp d).
      { unfold splice. rewrite take_app_ge by (rewrite zlen_take; lia). f_equal.
        rewrite zlen_take. replace (hc_posn c + temp - _) with (zlen (take temp d)) by (rewrite Hzt; lia).
        apply take_app_exact. }
      assert (zlen (drop temp d) = zlen d - temp) by (rewrite zlen_drop; lia).
      apply IHfuel; [|unfold zlen in *; lia].
      exists bs. cbn [hc_h hc_m hc_length hc_posn]. rewrite Htk. repeat split; auto; try lia.
      * rewrite Hdata. now rewrite <- app_assoc.
      * rewrite Hl, mod_add_l, zlen_app, Hzt. f_equal; lia.
Qed.

Lemma updates_absorb2 : forall h0 chunks c data, absorbed2 h0 c data [] ->
  absorbed2 h0 (fold_left (blake2_update B tr) chunks c) (data ++ concat chunks) [].
Proof.
  intros h0 chunks; induction chunks; intros c data Ha; cbn [fold_left concat]; [now rewrite app_nil_r|].
  rewrite app_assoc. apply IHchunks. apply update_absorbs2; auto.
  destruct Ha as (bs & ? & ? & ? & ? & ? & ? & Hr). exists bs. repeat split; auto; try lia.
  intros Hp. destruct (Hr Hp); [auto|congruence].
Qed.

(** The chain of compressions as a function of the whole message *)
Fixpoint code_chain (ones : Z) (h : list Z) (n total : Z) (blocks : list (list Z)) : list Z :=
  match blocks with
  | [] => h
  | [b] => tr h b (total mod 2^64) ones
  | b :: r => code_chain ones (tr h b ((n + B) mod 2^64) 0) (n + B) total r
  end.
Lemma code_chain_snoc : forall ones bs h n total b,
  code_chain ones h n total (bs ++ [b]) = tr (absorb h n bs) b (total mod 2^64) ones.
Proof.
  intros ones; induction bs as [|x bs IH]; intros h n total b; [reflexivity|].
  cbn [app absorb]. rewrite <- IH. destruct bs; reflexivity.
Qed.
Definition count_blocks (ll : Z) : Z := if ll =? 0 then 1 else (ll + B - 1) / B.
Definition code_blocks (m : list Z) : list (list Z) :=
  let dd := count_blocks (zlen m) in
  pieces (Z.to_nat B) (Z.to_nat dd) (m ++ repeat 0 (Z.to_nat (dd * B - zlen m))).

Lemma last_spec : forall h0 ones c data, absorbed2 h0 c data [] ->
  hc_h (blake2_last B tr ones c) = code_chain ones h0 0 (zlen data) (code_blocks data) /\
  zlen (hc_m (blake2_last B tr ones c)) = B.
Proof.
  intros h0 ones c data (bs & Hbs & Hdata & Hh & Hp & Hm & Hl & Hr).
  unfold blake2_last. cbn [hc_h hc_m].
  assert (Hzm : zlen (splice (hc_posn c) (zeros (B - hc_posn c)) (hc_m c)) = B)
    by (rewrite splice_length; rewrite ?zlen_zeros; lia).
  split; auto.
  assert (Hzd : zlen data = B * zlen bs + hc_posn c)
    by (rewrite Hdata, zlen_app, (zlen_concat B), zlen_take by auto; lia).
  assert (Hcb : count_blocks (zlen data) = zlen bs + 1).
  { unfold count_blocks. pose proof (zlen_nonneg _ bs). destruct (Z.eqb_spec (zlen data) 0) as [E|E].
    - assert (zlen bs = 0) by nia. lia.
    - rewrite Hzd. assert (Hp0 : 0 < hc_posn c).
      { destruct (Z.eq_dec (hc_posn c) 0) as [Ep|Ep]; [|lia]. destruct (Hr Ep); [|congruence].
        subst bs. rewrite zlen_nil in Hzd. lia. }
      symmetry. apply Z.div_unique with (hc_posn c - 1); lia. }
  assert (Hcbl : code_blocks data = bs ++ [splice (hc_posn c) (zeros (B - hc_posn c)) (hc_m c)]).
  { unfold code_blocks. rewrite Hcb.
    replace (Z.to_nat (zlen bs + 1)) with (length (bs ++ [splice (hc_posn c) (zeros (B - hc_posn c)) (hc_m c)]))
      by (rewrite app_length; cbn [length]; unfold zlen; lia).
    rewrite <- (pieces_concat B (bs ++ [splice (hc_posn c) (zeros (B - hc_posn c)) (hc_m c)])) at 2;
      [|lia|apply Forall_app; auto].
    f_equal. rewrite concat_app. cbn [concat]. rewrite app_nil_r.
    rewrite splice_end by (rewrite ?zlen_zeros; lia).
    rewrite Hdata at 1. rewrite <- app_assoc. do 2 f_equal. unfold zeros. do 2 f_equal. lia. }
  rewrite Hcbl, code_chain_snoc, <- Hh, Hl. reflexivity.
Qed.

Lemma absorbed2_start : forall h0 c, zlen (hc_m c) = B ->
  absorbed2 h0 (HCtx h0 (hc_m c) 0 0) [] [].
Proof.
  intros h0 c Hc. exists []. cbn. rewrite take_le0 by lia. repeat split; auto; lia.
Qed.

(** Any chunking gives the chain over the concatenation. *)
Lemma stream_last : forall h0 ones c chunks, zlen (hc_m c) = B ->
  let c' := blake2_last B tr ones (fold_left (blake2_update B tr) chunks (HCtx h0 (hc_m c) 0 0)) in
  hc_h c' = code_chain ones h0 0 (zlen (concat chunks)) (code_blocks (concat chunks)) /\ zlen (hc_m c') = B.
Proof.
  intros h0 ones c chunks Hc. cbv zeta. apply last_spec.
  apply (updates_absorb2 h0 chunks _ []). now apply absorbed2_start.
Qed.

Lemma code_chain_len : forall ones total blocks h n, (forall h m t f, length h = 8%nat -> length (tr h m t f) = 8%nat) ->
  length h = 8%nat -> length (code_chain ones h n total blocks) = 8%nat.
Proof.
  intros ones total blocks h n Htr; revert h n; induction blocks as [|b bl IH]; intros h n Hh; auto.
  cbn [code_chain]. destruct bl; auto.
Qed.
End Stream.

Lemma count_blocks_pos : forall B (m : list Z), 0 < B -> 0 < count_blocks B (zlen m).
Proof.
  intros B m HB. unfold count_blocks. pose proof (zlen_nonneg _ m). destruct (Z.eqb_spec (zlen m) 0); [lia|].
  apply Z.div_str_pos. lia.
Qed.
Lemma count_blocks_room : forall B (m : list Z), 0 < B -> zlen m <= count_blocks B (zlen m) * B.
Proof.
  intros B m HB. unfold count_blocks. pose proof (zlen_nonneg _ m). destruct (Z.eqb_spec (zlen m) 0); [lia|].
  pose proof (Z.div_mod (zlen m + B - 1) B ltac:(lia)).
  pose proof (Z.mod_pos_bound (zlen m + B - 1) B HB). lia.
Qed.
Lemma pieces_forall : forall B n p, 0 <= B -> bytes p -> B * Z.of_nat n <= zlen p ->
  Forall (fun b => bytes b /\ zlen b = B) (pieces (Z.to_nat B) n p).
Proof.
  intros B n; induction n; intros p HB Hb Hn; cbn [pieces]; constructor.
  - change (firstn (Z.to_nat B) p) with (take B p). split; [now apply bytes_take|]. rewrite zlen_take; lia.
  - change (skipn (Z.to_nat B) p) with (drop B p). apply IHn; auto; [now apply bytes_drop|]. rewrite zlen_drop; lia.
Qed.
Lemma length_pieces : forall k n p, length (pieces k n p) = n.
Proof. induction n; intros; cbn; auto. Qed.
Lemma code_blocks_forall : forall B m, 0 < B -> bytes m ->
  Forall (fun b => bytes b /\ zlen b = B) (code_blocks B m) /\ zlen (code_blocks B m) = count_blocks B (zlen m).
Proof.
  intros B m HB Hm. pose proof (count_blocks_pos B m HB). pose proof (count_blocks_room B m HB).
  split.
  - apply pieces_forall; [lia| |].
    + apply bytes_app; split; auto. apply bytes_repeat. unfold is_byte; lia.
    + rewrite zlen_app, zlen_repeat. lia.
  - unfold code_blocks, zlen at 1. rewrite length_pieces. lia.
Qed.

(** ** Agreement with the specification, for one compression *)
Lemma code_chain_spec : forall P tr ones blocks h n total i,
  let B := bb P in
  0 < B -> n = i * B -> 0 <= i -> n + B * zlen blocks <= total + B -> 0 <= total < 2 ^ 64 ->
  (forall h m t f, length h = 8%nat -> length (tr h m t f) = 8%nat) ->
  (forall h m t f, length h = 8%nat -> bytes m -> zlen m = B -> 0 <= t < 2 ^ 64 ->
     tr h m t (if f : bool then ones else 0) = F P h (block_words P m) t f) ->
  Forall (fun b => bytes b /\ zlen b = B) blocks -> length h = 8%nat ->
  code_chain B tr ones h n total blocks = chain P h i total blocks.
Proof.
  intros P tr ones blocks; induction blocks as [|b bl IH]; intros h n total i B HB Hn Hi Hlt Htot Hlen Htr Hf Hh; auto.
  inversion Hf as [|? ? [Hbb Hbz] Hf']; subst. rewrite zlen_cons in Hlt.
  cbn [code_chain chain]. destruct bl as [|b2 bl].
  - rewrite Z.mod_small by lia. apply (Htr h b total true); auto.
  - assert (Hs : (i * B + B) mod 2 ^ 64 = (i + 1) * B).
    { rewrite Z.mod_small; [lia|]. rewrite zlen_cons in Hlt. pose proof (zlen_nonneg _ bl).
      split; [nia|]. nia. }
    rewrite Hs. subst B. rewrite (Htr h b ((i + 1) * bb P) false) by (auto; rewrite zlen_cons in Hlt; pose proof (zlen_nonneg _ bl); nia).
    apply (IH _ (i * bb P + bb P) total (i + 1)); auto; try lia.
Qed.

Lemma fold_left_ext_in : forall A B (f g : A -> B -> A) l, (forall a b, In b l -> f a b = g a b) ->
  forall a, fold_left f l a = fold_left g l a.
Proof.
  intros A B f g l; induction l as [|x l IH]; intros H a; auto. cbn [fold_left].
  rewrite H by (left; auto). apply IH. intros; apply H; right; auto.
Qed.

(** ** BLAKE2s *)
Lemma blake2s_iv_spec : BIV blake2s_params = blake2s_iv.
Proof. vm_compute. reflexivity. Qed.
Lemma blake2s_sigma_spec : forall r k, (r < 10)%nat ->
  sigma_at blake2s_sigma r k = nth k (nth (Nat.modulo r 10) SIGMA []) O.
Proof.
  intros r k Hr. do 10 (destruct r as [|r]; [reflexivity|]). lia.
Qed.
Lemma blake2s_quarter_spec : forall a b c d x y,
  blake2s_quarter a b c d x y = Gmix blake2s_params a b c d x y.
Proof.
  intros. unfold blake2s_quarter, Gmix. cbn [b_rot blake2s_params b_w].
  unfold ror32, rotr. cbn [b_w blake2s_params].
  rewrite !Zplus_mod_idemp_r, !Z.add_assoc. reflexivity.
Qed.
Lemma blake2s_quarter_at_spec : forall m r v ia ib ic id i, (r < 10)%nat ->
  blake2s_quarter_at m r v ia ib ic id i
  = G blake2s_params v ia ib ic id
      (nth (nth (2 * i) (nth (Nat.modulo r 10) SIGMA []) O) m 0)
      (nth (nth (2 * i + 1) (nth (Nat.modulo r 10) SIGMA []) O) m 0).
Proof.
  intros. unfold blake2s_quarter_at, G. rewrite blake2s_quarter_spec, !blake2s_sigma_spec by auto.
  reflexivity.
Qed.
Lemma blake2s_round_spec : forall m v r, (r < 10)%nat ->
  blake2s_round m v r = F_round blake2s_params m v r.
Proof.
  intros m v r Hr. unfold blake2s_round, F_round. cbv zeta. rewrite !blake2s_quarter_at_spec by auto. reflexivity.
Qed.

Lemma blake2s_v_spec : forall h t f, length h = 8%nat -> 0 <= t < 2 ^ 64 ->
  blake2s_v h t (if f : bool then 0xFFFFFFFF else 0)
  = let v := h ++ BIV blake2s_params in
    let v := put v 12 (Z.lxor (nth 12 v 0) (t mod 2 ^ 32)) in
    let v := put v 13 (Z.lxor (nth 13 v 0) (t / 2 ^ 32)) in
    if f then put v 14 (Z.lxor (nth 14 v 0) (2 ^ 32 - 1)) else v.
Proof.
  intros h t f Hh Ht. rewrite blake2s_iv_spec. cbv zeta. unfold blake2s_v.
  rewrite Z.shiftr_div_pow2 by lia. rewrite (Z.mod_small (t / 2 ^ 32)).
  2:{ split; [apply Z.div_pos; lia|]. apply Z.div_lt_upper_bound; lia. }
  do 8 (destruct h as [|? h]; [discriminate Hh|]). destruct h; [|discriminate Hh].
  generalize (t mod 2 ^ 32) (t / 2 ^ 32). intros tl th.
  destruct f; cbv [blake2s_iv put app firstn skipn nth word_at]; rewrite ?Z.lxor_0_r; reflexivity.
Qed.

Lemma blake2s_load_le_spec : forall m, zlen m = 64 -> blake2s_load_le m = block_words blake2s_params m.
Proof.
  intros m Hm. unfold blake2s_load_le, block_words. change (Z.to_nat (b_wbytes blake2s_params)) with 4%nat.
  assert (E : forall n a, 4 * (Z.of_nat n + Z.of_nat a) <= zlen m ->
    map (fun i => mem_word (sub (4 * Z.of_nat i) 4 m)) (seq a n)
    = map le_val (pieces 4 n (drop (4 * Z.of_nat a) m))).
  { intros n; induction n; intros a Ha; auto. cbn [seq map pieces]. f_equal.
    rewrite IHn by lia. do 2 f_equal.
    change (skipn 4 (drop (4 * Z.of_nat a) m)) with (drop 4 (drop (4 * Z.of_nat a) m)).
    rewrite drop_drop by lia. f_equal; lia. }
  rewrite E by lia. now rewrite drop_le0 by lia.
Qed.
Lemma load_le32_val : forall l, bytes l -> 4 <= zlen l -> load_le32 l = mem_word (take 4 l).
Proof.
  intros l Hb Hl. unfold zlen in Hl.
  do 4 (destruct l as [|? l]; [cbn [length] in Hl; lia|inversion Hb as [|? ? ? Hb']; subst; clear Hb; rename Hb' into Hb]).
  change (take 4 (z :: z0 :: z1 :: z2 :: l)) with [z; z0; z1; z2].
  cbv [load_le32 byte_at Z.to_nat Pos.to_nat Pos.iter_op Init.Nat.add nth mem_word fold_right].
  unfold is_byte in *.
  rewrite (Z.lor_comm z). rewrite (lor_add z0 z 8) by lia.
  rewrite (Z.lor_comm _ (Z.shiftl z1 16)). rewrite (lor_add z1 _ 16) by (change (2^8) with 256; change (2^16) with 65536; lia).
  rewrite (Z.lor_comm _ (Z.shiftl z2 24)).
  rewrite (lor_add z2 _ 24) by (change (2^8) with 256; change (2^16) with 65536; change (2^24) with 16777216; lia).
  change (2^8) with 256; change (2^16) with 65536; change (2^24) with 16777216; lia.
Qed.
Lemma blake2s_load_be_spec : forall m, bytes m -> zlen m = 64 -> blake2s_load_be m = block_words blake2s_params m.
Proof.
  intros m Hb Hm. rewrite <- blake2s_load_le_spec by auto. unfold blake2s_load_be, blake2s_load_le.
  apply map_ext_in. intros i Hi. apply in_seq in Hi. apply load_le32_val; [now apply bytes_drop|].
  rewrite zlen_drop. lia.
Qed.

Lemma blake2s_scalar_spec : forall load h m t f, load m = block_words blake2s_params m ->
  length h = 8%nat -> zlen m = 64 -> 0 <= t < 2 ^ 64 ->
  blake2s_transform_scalar load h m t (if f : bool then 0xFFFFFFFF else 0)
  = F blake2s_params h (block_words blake2s_params m) t f.
Proof.
  intros load h m t f Hload Hh Hm Ht. unfold blake2s_transform_scalar, F. cbv zeta. rewrite Hload.
  rewrite blake2s_v_spec by auto. cbv zeta. cbn [b_r b_w blake2s_params].
  rewrite (fold_left_ext_in _ _ (blake2s_round (block_words blake2s_params m)) (F_round blake2s_params (block_words blake2s_params m)))
    by (intros v r Hr; apply blake2s_round_spec; apply in_seq in Hr; lia).
  apply map_ext. intros i. unfold word_at. symmetry. apply Z.lxor_assoc.
Qed.

(** The vector version: four vectors of four words are the rows of v. *)
Definition rows (v : list Z * list Z * list Z * list Z) : list Z :=
  let '(a, b, c, d) := v in a ++ b ++ c ++ d.
Definition row_lens (v : list Z * list Z * list Z * list Z) : Prop :=
  let '(a, b, c, d) := v in
  length a = 4%nat /\ length b = 4%nat /\ length c = 4%nat /\ length d = 4%nat.

Lemma quarter_vec_spec : forall a0 a1 a2 a3 b0 b1 b2 b3 c0 c1 c2 c3 d0 d1 d2 d3 x0 x1 x2 x3 y0 y1 y2 y3,
  blake2s_quarter_vec [a0;a1;a2;a3] [b0;b1;b2;b3] [c0;c1;c2;c3] [d0;d1;d2;d3] [x0;x1;x2;x3] [y0;y1;y2;y3]
  = let '(a0', b0', c0', d0') := blake2s_quarter a0 b0 c0 d0 x0 y0 in
    let '(a1', b1', c1', d1') := blake2s_quarter a1 b1 c1 d1 x1 y1 in
    let '(a2', b2', c2', d2') := blake2s_quarter a2 b2 c2 d2 x2 y2 in
    let '(a3', b3', c3', d3') := blake2s_quarter a3 b3 c3 d3 x3 y3 in
    ([a0';a1';a2';a3'], [b0';b1';b2';b3'], [c0';c1';c2';c3'], [d0';d1';d2';d3']).
Proof. intros. reflexivity. Qed.

Lemma quarter_at_0 : forall m r v0 v1 v2 v3 v4 v5 v6 v7 v8 v9 v10 v11 v12 v13 v14 v15,
  blake2s_quarter_at m r [v0;v1;v2;v3;v4;v5;v6;v7;v8;v9;v10;v11;v12;v13;v14;v15] 0 4 8 12 0
  = let '(a, b, c, d) := blake2s_quarter v0 v4 v8 v12
        (word_at m (sigma_at blake2s_sigma r 0)) (word_at m (sigma_at blake2s_sigma r 1)) in
    [a;v1;v2;v3;b;v5;v6;v7;c;v9;v10;v11;d;v13;v14;v15].
Proof. intros. reflexivity. Qed.
Lemma quarter_at_1 : forall m r v0 v1 v2 v3 v4 v5 v6 v7 v8 v9 v10 v11 v12 v13 v14 v15,
  blake2s_quarter_at m r [v0;v1;v2;v3;v4;v5;v6;v7;v8;v9;v10;v11;v12;v13;v14;v15] 1 5 9 13 1
  = let '(a, b, c, d) := blake2s_quarter v1 v5 v9 v13
        (word_at m (sigma_at blake2s_sigma r 2)) (word_at m (sigma_at blake2s_sigma r 3)) in
    [v0;a;v2;v3;v4;b;v6;v7;v8;c;v10;v11;v12;d;v14;v15].
Proof. intros. reflexivity. Qed.
Lemma quarter_at_2 : forall m r v0 v1 v2 v3 v4 v5 v6 v7 v8 v9 v10 v11 v12 v13 v14 v15,
  blake2s_quarter_at m r [v0;v1;v2;v3;v4;v5;v6;v7;v8;v9;v10;v11;v12;v13;v14;v15] 2 6 10 14 2
  = let '(a, b, c, d) := blake2s_quarter v2 v6 v10 v14
        (word_at m (sigma_at blake2s_sigma r 4)) (word_at m (sigma_at blake2s_sigma r 5)) in
    [v0;v1;a;v3;v4;v5;b;v7;v8;v9;c;v11;v12;v13;d;v15].
Proof. intros. reflexivity. Qed.
Lemma quarter_at_3 : forall m r v0 v1 v2 v3 v4 v5 v6 v7 v8 v9 v10 v11 v12 v13 v14 v15,
  blake2s_quarter_at m r [v0;v1;v2;v3;v4;v5;v6;v7;v8;v9;v10;v11;v12;v13;v14;v15] 3 7 11 15 3
  = let '(a, b, c, d) := blake2s_quarter v3 v7 v11 v15
        (word_at m (sigma_at blake2s_sigma r 6)) (word_at m (sigma_at blake2s_sigma r 7)) in
    [v0;v1;v2;a;v4;v5;v6;b;v8;v9;v10;c;v12;v13;v14;d].
Proof. intros. reflexivity. Qed.
Lemma quarter_at_4 : forall m r v0 v1 v2 v3 v4 v5 v6 v7 v8 v9 v10 v11 v12 v13 v14 v15,
  blake2s_quarter_at m r [v0;v1;v2;v3;v4;v5;v6;v7;v8;v9;v10;v11;v12;v13;v14;v15] 0 5 10 15 4
  = let '(a, b, c, d) := blake2s_quarter v0 v5 v10 v15
        (word_at m (sigma_at blake2s_sigma r 8)) (word_at m (sigma_at blake2s_sigma r 9)) in
    [a;v1;v2;v3;v4;b;v6;v7;v8;v9;c;v11;v12;v13;v14;d].
Proof. intros. reflexivity. Qed.
Lemma quarter_at_5 : forall m r v0 v1 v2 v3 v4 v5 v6 v7 v8 v9 v10 v11 v12 v13 v14 v15,
  blake2s_quarter_at m r [v0;v1;v2;v3;v4;v5;v6;v7;v8;v9;v10;v11;v12;v13;v14;v15] 1 6 11 12 5
  = let '(a, b, c, d) := blake2s_quarter v1 v6 v11 v12
        (word_at m (sigma_at blake2s_sigma r 10)) (word_at m (sigma_at blake2s_sigma r 11)) in
    [v0;a;v2;v3;v4;v5;b;v7;v8;v9;v10;c;d;v13;v14;v15].
Proof. intros. reflexivity. Qed.
Lemma quarter_at_6 : forall m r v0 v1 v2 v3 v4 v5 v6 v7 v8 v9 v10 v11 v12 v13 v14 v15,
  blake2s_quarter_at m r [v0;v1;v2;v3;v4;v5;v6;v7;v8;v9;v10;v11;v12;v13;v14;v15] 2 7 8 13 6
  = let '(a, b, c, d) := blake2s_quarter v2 v7 v8 v13
        (word_at m (sigma_at blake2s_sigma r 12)) (word_at m (sigma_at blake2s_sigma r 13)) in
    [v0;v1;a;v3;v4;v5;v6;b;c;v9;v10;v11;v12;d;v14;v15].
Proof. intros. reflexivity. Qed.
Lemma quarter_at_7 : forall m r v0 v1 v2 v3 v4 v5 v6 v7 v8 v9 v10 v11 v12 v13 v14 v15,
  blake2s_quarter_at m r [v0;v1;v2;v3;v4;v5;v6;v7;v8;v9;v10;v11;v12;v13;v14;v15] 3 4 9 14 7
  = let '(a, b, c, d) := blake2s_quarter v3 v4 v9 v14
        (word_at m (sigma_at blake2s_sigma r 14)) (word_at m (sigma_at blake2s_sigma r 15)) in
    [v0;v1;v2;a;b;v5;v6;v7;v8;c;v10;v11;v12;v13;d;v15].
Proof. intros. reflexivity. Qed.

Lemma shuffle1_eq : forall a b c d, shuffle1 [a; b; c; d] = [b; c; d; a].
Proof. reflexivity. Qed.
Lemma shuffle2_eq : forall a b c d, shuffle2 [a; b; c; d] = [c; d; a; b].
Proof. reflexivity. Qed.
Lemma shuffle3_eq : forall a b c d, shuffle3 [a; b; c; d] = [d; a; b; c].
Proof. reflexivity. Qed.

Lemma round_vec_spec : forall m v r, row_lens v ->
  rows (blake2s_round_vec m v r) = blake2s_round m (rows v) r /\ row_lens (blake2s_round_vec m v r).
Proof.
  intros m [[[a b] c] d] r (Ha & Hb & Hc & Hd).
  destruct a as [|a0 [|a1 [|a2 [|a3 [|]]]]]; try discriminate Ha.
  destruct b as [|b0 [|b1 [|b2 [|b3 [|]]]]]; try discriminate Hb.
  destruct c as [|c0 [|c1 [|c2 [|c3 [|]]]]]; try discriminate Hc.
  destruct d as [|d0 [|d1 [|d2 [|d3 [|]]]]]; try discriminate Hd.
  unfold blake2s_round_vec. rewrite quarter_vec_spec. cbn [rows app].
  unfold blake2s_round. cbv zeta.
  rewrite quarter_at_0; destruct (blake2s_quarter a0 _ _ _ _ _) as [[[e0 f0] g0] h0].
  rewrite quarter_at_1; destruct (blake2s_quarter a1 _ _ _ _ _) as [[[e1 f1] g1] h1].
  rewrite quarter_at_2; destruct (blake2s_quarter a2 _ _ _ _ _) as [[[e2 f2] g2] h2].
  rewrite quarter_at_3; destruct (blake2s_quarter a3 _ _ _ _ _) as [[[e3 f3] g3] h3].
  rewrite shuffle1_eq, shuffle2_eq, shuffle3_eq. rewrite quarter_vec_spec.
  rewrite quarter_at_4; destruct (blake2s_quarter e0 _ _ _ _ _) as [[[? ?] ?] ?].
  rewrite quarter_at_5; destruct (blake2s_quarter e1 _ _ _ _ _) as [[[? ?] ?] ?].
  rewrite quarter_at_6; destruct (blake2s_quarter e2 _ _ _ _ _) as [[[? ?] ?] ?].
  rewrite quarter_at_7; destruct (blake2s_quarter e3 _ _ _ _ _) as [[[? ?] ?] ?].
  rewrite shuffle1_eq, shuffle2_eq, shuffle3_eq. split; [reflexivity|]. cbn. auto.
Qed.

Lemma fold_sim : forall A A' C (f : A -> C -> A) (g : A' -> C -> A') (phi : A -> A') (P : A -> Prop),
  (forall a b, P a -> phi (f a b) = g (phi a) b /\ P (f a b)) ->
  forall l a, P a -> phi (fold_left f l a) = fold_left g l (phi a) /\ P (fold_left f l a).
Proof.
  intros A A' C f g phi P H l; induction l as [|x l IH]; intros a Ha; cbn [fold_left]; [auto|].
  destruct (H a x Ha) as [E HP]. rewrite <- E. apply IH. exact HP.
Qed.
Lemma rounds_vec_spec : forall m l v, row_lens v ->
  rows (fold_left (blake2s_round_vec m) l v) = fold_left (blake2s_round m) l (rows v) /\
  row_lens (fold_left (blake2s_round_vec m) l v).
Proof.
  intros m l v Hv.
  exact (fold_sim _ _ _ (blake2s_round_vec m) (blake2s_round m) rows row_lens (fun a b => round_vec_spec m a b) l v Hv).
Qed.

Lemma vector_is_scalar : forall h m t f0, length h = 8%nat ->
  blake2s_transform_vector h m t f0 = blake2s_transform_scalar blake2s_load_le h m t f0.
Proof.
  intros h m t f0 Hh. unfold blake2s_transform_vector, blake2s_transform_scalar. cbv zeta.
  destruct h as [|h0 [|h1 [|h2 [|h3 [|h4 [|h5 [|h6 [|h7 [|]]]]]]]]]; try discriminate Hh.
  match goal with |- context [fold_left (blake2s_round_vec ?mm) ?l ?v] =>
    destruct (rounds_vec_spec mm l v) as [E HL]; [repeat split|];
    destruct (fold_left (blake2s_round_vec mm) l v) as [[[a b] c] d];
    replace (fold_left (blake2s_round mm) l (blake2s_v [h0; h1; h2; h3; h4; h5; h6; h7] t f0)) with (rows (a, b, c, d))
  end.
  destruct HL as (Ha & Hb & Hc & Hd).
  destruct a as [|a0 [|a1 [|a2 [|a3 [|]]]]]; try discriminate Ha.
  destruct b as [|b0 [|b1 [|b2 [|b3 [|]]]]]; try discriminate Hb.
  destruct c as [|c0 [|c1 [|c2 [|c3 [|]]]]]; try discriminate Hc.
  destruct d as [|d0 [|d1 [|d2 [|d3 [|]]]]]; try discriminate Hd.
  clear E. reflexivity.
Qed.

Lemma blake2s_transform_spec : forall b h m t f, length h = 8%nat -> bytes m -> zlen m = 64 -> 0 <= t < 2 ^ 64 ->
  blake2s_transform b h m t (if f : bool then 0xFFFFFFFF else 0)
  = F blake2s_params h (block_words blake2s_params m) t f.
Proof.
  intros b h m t f Hh Hb Hm Ht. destruct b; cbn [blake2s_transform].
  - rewrite vector_is_scalar by auto. apply blake2s_scalar_spec; auto. now apply blake2s_load_le_spec.
  - apply blake2s_scalar_spec; auto. now apply blake2s_load_le_spec.
  - apply blake2s_scalar_spec; auto. now apply blake2s_load_be_spec.
Qed.
Lemma length_blake2s_transform : forall b h m t f, length h = 8%nat ->
  length (blake2s_transform b h m t f) = 8%nat.
Proof.
  intros b h m t f Hh. destruct b; cbn [blake2s_transform].
  - rewrite vector_is_scalar by auto. unfold blake2s_transform_scalar. now rewrite map_length, seq_length.
  - unfold blake2s_transform_scalar. now rewrite map_length, seq_length.
  - unfold blake2s_transform_scalar. now rewrite map_length, seq_length.
Qed.
