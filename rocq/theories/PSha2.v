(** Proofs about the SHA-2 model. *)
From Coq Require Import ZifyBool ZifyNat.
From Verif Require Import Base MHash SHash PHash MSha2 SSha2.

(** ** Lists *)
Lemma splice_app : forall A off (a b l : list A), 0 <= off -> off + zlen a + zlen b <= zlen l ->
  splice (off + zlen a) b (splice off a l) = splice off (a ++ b) l.
Proof.
  intros A off a b l H H0. pose proof (zlen_nonneg A a). pose proof (zlen_nonneg A b).
  unfold splice at 1. unfold splice at 1.
  rewrite take_app_ge by (rewrite zlen_take; lia).
  rewrite zlen_take. replace (off + zlen a - Z.max 0 (Z.min off (zlen l))) with (zlen a) by lia.
  rewrite take_app_exact. rewrite splice_drop_after by lia.
  unfold splice. rewrite zlen_app, <- !app_assoc. do 4 f_equal. lia.
Qed.

Lemma splice_end : forall A off (d l : list A), 0 <= off -> off + zlen d = zlen l ->
  splice off d l = take off l ++ d.
Proof. intros; unfold splice; rewrite drop_all by lia. now rewrite app_nil_r. Qed.

Lemma zlen_concat : forall B (bs : list (list Z)), Forall (fun b => zlen b = B) bs ->
  zlen (concat bs) = B * zlen bs.
Proof.
  intros B bs H; induction H; cbn [concat]; rewrite ?zlen_app, ?zlen_nil, ?zlen_cons; [lia|].
  rewrite IHForall, H. lia.
Qed.

Lemma pieces_concat : forall B bs, 0 <= B -> Forall (fun b => zlen b = B) bs ->
  pieces (Z.to_nat B) (length bs) (concat bs) = bs.
Proof.
  intros B bs HB H; induction H; cbn; auto. f_equal.
  - change (take B (x ++ concat l) = x). rewrite <- H. apply take_app_exact.
  - change (skipn (Z.to_nat B) (x ++ concat l)) with (drop B (x ++ concat l)).
    replace (drop B (x ++ concat l)) with (concat l); auto. rewrite <- H. now rewrite drop_app_exact.
Qed.

Lemma pieces_of_blocks : forall B bs p, 0 < B -> Forall (fun b => zlen b = B) bs -> p = concat bs ->
  pieces (Z.to_nat B) (Z.to_nat (zlen p / B)) p = bs.
Proof.
  intros B bs p HB H ->. rewrite (zlen_concat B) by auto.
  rewrite Z.mul_comm, Z.div_mul by lia. unfold zlen. rewrite Nat2Z.id. apply pieces_concat; auto; lia.
Qed.

Lemma firstn_S_nth : forall n (M : list Z), (n < length M)%nat -> firstn (S n) M = firstn n M ++ [nth n M 0].
Proof.
  induction n; intros [|x M] H; cbn [length] in H; try lia; auto.
  cbn [firstn nth app] in *. f_equal. apply IHn. lia.
Qed.

(** ** Buffering *)
Section Stream.
Variable B : Z.
Variable tr : list Z -> list Z -> list Z.
Hypothesis HB : 0 < B.

Definition absorbed (h0 : list Z) (c : hctx) (data : list Z) : Prop :=
  exists bs, Forall (fun b => zlen b = B) bs /\
    data = concat bs ++ take (hc_posn c) (hc_m c) /\
    hc_h c = fold_left tr bs h0 /\
    0 <= hc_posn c < B /\ zlen (hc_m c) = B /\
    hc_length c = (8 * zlen data) mod 2^64.

Lemma mod_add_l : forall a b n, (a mod n + b) mod n = (a + b) mod n.
Proof. intros; apply Zplus_mod_idemp_l. Qed.

Lemma update_absorbs : forall h0 fuel c data d, absorbed h0 c data -> (length d <= fuel)%nat ->
  absorbed h0 (sha2_update_loop B tr fuel c d) (data ++ d).
Proof.
  intros h0 fuel; induction fuel; intros c data d Ha Hf.
  - destruct d; cbn in *; [|lia]. now rewrite app_nil_r.
  - destruct d as [|x d']; [now rewrite app_nil_r|].
    cbn [sha2_update_loop]. set (d := x :: d') in *.
    assert (Hd : 0 < zlen d) by (subst d; rewrite zlen_cons; pose proof (zlen_nonneg Z d'); lia).
    assert (Hlen : Z.of_nat (length d) = zlen d) by reflexivity.
    clearbody d. destruct Ha as (bs & Hbs & Hdata & Hh & Hp & Hm & Hl).
    destruct ((hc_posn c =? 0) && (B <=? zlen d)) eqn:Econd.
    + apply andb_prop in Econd. destruct Econd as [Hp0 Hge].
      apply Z.eqb_eq in Hp0. apply Z.leb_le in Hge.
      replace (data ++ d) with ((data ++ take B d) ++ drop B d) by now rewrite <- app_assoc, take_drop.
      apply IHfuel.
      * exists (bs ++ [take B d]). cbn.
        repeat split; auto; try lia.
        -- apply Forall_app; split; auto. constructor; auto. rewrite zlen_take; lia.
        -- rewrite concat_app; cbn. rewrite Hdata, Hp0. rewrite take_le0 by lia. now rewrite !app_nil_r.
        -- rewrite fold_left_app, Hh; reflexivity.
        -- rewrite Hl, mod_add_l, zlen_app, zlen_take. f_equal; lia.
      * assert (zlen (drop B d) = zlen d - B) by (rewrite zlen_drop; lia). unfold zlen in *; lia.
    + match goal with |- context [if zlen d <? B - hc_posn c then _ else _] =>
        set (temp := if zlen d <? B - hc_posn c then zlen d else B - hc_posn c) end.
      assert (Ht : 0 < temp <= zlen d /\ hc_posn c + temp <= B /\ (temp = zlen d \/ hc_posn c + temp = B))
        by (subst temp; destruct (Z.ltb_spec (zlen d) (B - hc_posn c)); lia).
      clearbody temp.
      replace (data ++ d) with ((data ++ take temp d) ++ drop temp d) by now rewrite <- app_assoc, take_drop.
      assert (Hzt : zlen (take temp d) = temp) by (rewrite zlen_take; lia).
      assert (Hzm : zlen (splice (hc_posn c) (take temp d) (hc_m c)) = B)
        by (rewrite splice_length; rewrite ?Hzt; lia).
      assert (Htk : take (hc_posn c + temp) (splice (hc_posn c) (take temp d) (hc_m c))
                    = take (hc_posn c) (hc_m c) ++ take temp d).
      { unfold splice. rewrite take_app_ge by (rewrite zlen_take; lia). f_equal.
        rewrite zlen_take. replace (hc_posn c + temp - _) with (zlen (take temp d)) by (rewrite Hzt; lia).
        apply take_app_exact. }
      destruct (Z.leb_spec B (hc_posn c + temp)).
      * apply IHfuel.
        -- exists (bs ++ [splice (hc_posn c) (take temp d) (hc_m c)]). cbn.
           rewrite (take_le0 _ 0) by lia.
           assert (Hfull : splice (hc_posn c) (take temp d) (hc_m c) = take (hc_posn c) (hc_m c) ++ take temp d)
             by (rewrite <- Htk; symmetry; apply take_all; lia).
           repeat split; auto; try lia.
           ++ apply Forall_app; split; auto.
           ++ rewrite concat_app; cbn. rewrite Hdata, !app_nil_r, Hfull. now rewrite <- app_assoc.
           ++ rewrite fold_left_app, Hh; reflexivity.
           ++ rewrite Hl, mod_add_l, zlen_app, Hzt. f_equal; lia.
        -- assert (zlen (drop temp d) = zlen d - temp) by (rewrite zlen_drop; lia). unfold zlen in *; lia.
      * apply IHfuel.
        -- exists bs. cbn. rewrite Htk. repeat split; auto; try lia.
           ++ rewrite Hdata. now rewrite <- app_assoc.
           ++ rewrite Hl, mod_add_l, zlen_app, Hzt. f_equal; lia.
        -- assert (zlen (drop temp d) = zlen d - temp) by (rewrite zlen_drop; lia). unfold zlen in *; lia.
Qed.

Lemma updates_absorb : forall h0 chunks c data, absorbed h0 c data ->
  absorbed h0 (fold_left (sha2_update B tr) chunks c) (data ++ concat chunks).
Proof.
  intros h0 chunks; induction chunks; intros c data Ha; cbn; [now rewrite app_nil_r|].
  rewrite app_assoc. apply IHchunks. apply update_absorbs; auto.
Qed.

(** The padded blocks, for a length field [lf] of [L] bytes. *)
Definition padded (L : Z) (data lf : list Z) : list Z :=
  data ++ [128] ++ zeros (- (zlen data + 1 + L) mod B) ++ lf.

Lemma zlen_padded_blocks : forall L h0 c data lf, absorbed h0 c data ->
  0 < L -> L + 1 <= B -> zlen lf = L ->
  let posn := hc_posn c in
  let m1 := splice posn [128] (hc_m c) in
  (posn <= B - (L + 1) ->
     let m2 := splice (posn + 1) (zeros (B - L - (posn + 1))) m1 in
     fold_left tr (pieces (Z.to_nat B) (Z.to_nat (zlen (padded L data lf) / B)) (padded L data lf)) h0
     = tr (hc_h c) (splice (B - L) lf m2) /\ zlen (splice (B - L) lf m2) = B) /\
  (B - (L + 1) < posn ->
     let m2 := splice (posn + 1) (zeros (B - (posn + 1))) m1 in
     let m3 := splice 0 (zeros (B - L)) m2 in
     fold_left tr (pieces (Z.to_nat B) (Z.to_nat (zlen (padded L data lf) / B)) (padded L data lf)) h0
     = tr (tr (hc_h c) m2) (splice (B - L) lf m3) /\ zlen (splice (B - L) lf m3) = B).
Proof.
  intros L h0 c data lf (bs & Hbs & Hdata & Hh & Hp & Hm & _) HL HLB Hlf posn m1.
  fold posn in Hdata, Hp.
  assert (Hzd : zlen data = B * zlen bs + posn)
    by (rewrite Hdata, zlen_app, (zlen_concat B), zlen_take by auto; lia).
  assert (Hm1 : m1 = take posn (hc_m c) ++ [128] ++ drop (posn + 1) (hc_m c)) by reflexivity.
  pose proof (eq_refl : zlen [128] = 1) as H128.
  split; intros Hcase m2.
  - assert (Hlast : splice (B - L) lf m2 = take posn (hc_m c) ++ [128] ++ zeros (B - L - (posn + 1)) ++ lf).
    { subst m2 m1. change 1 with (zlen [128]).
      rewrite splice_app by (rewrite ?zlen_zeros; lia).
      replace (B - L) with (posn + zlen ([128] ++ zeros (B - L - (posn + zlen [128])))) at 1
        by (rewrite zlen_app, zlen_zeros; lia).
      rewrite splice_app by (rewrite ?zlen_app, ?zlen_zeros; lia).
      rewrite splice_end by (rewrite ?zlen_app, ?zlen_zeros; lia).
      now rewrite <- !app_assoc. }
    assert (Hzl : zlen (splice (B - L) lf m2) = B).
    { rewrite Hlast, !zlen_app, zlen_take, zlen_zeros; lia. }
    split; auto.
    rewrite (pieces_of_blocks B (bs ++ [splice (B - L) lf m2])); auto.
    + rewrite fold_left_app, Hh. reflexivity.
    + apply Forall_app; split; auto.
    + rewrite concat_app; cbn. rewrite app_nil_r, Hlast. unfold padded. rewrite Hdata at 1. rewrite <- !app_assoc.
      do 4 f_equal. f_equal. rewrite Hzd. symmetry. apply Z.mod_unique with (q := - (zlen bs + 1)); lia.
  - intros m3.
    assert (H2 : m2 = take posn (hc_m c) ++ [128] ++ zeros (B - (posn + 1))).
    { subst m2 m1. change 1 with (zlen [128]).
      rewrite splice_app by (rewrite ?zlen_zeros; lia).
      rewrite splice_end by (rewrite ?zlen_app, ?zlen_zeros; lia).
      reflexivity. }
    assert (Hz2 : zlen m2 = B).
    { rewrite H2, !zlen_app, zlen_take, zlen_zeros; lia. }
    assert (Hlast : splice (B - L) lf m3 = zeros (B - L) ++ lf).
    { subst m3. replace (B - L) with (0 + zlen (zeros (B - L))) at 1 by (rewrite zlen_zeros; lia).
      rewrite splice_app by (rewrite ?zlen_zeros; lia).
      rewrite splice_end by (rewrite ?zlen_app, ?zlen_zeros; lia). now rewrite take_le0 by lia. }
    assert (Hzl : zlen (splice (B - L) lf m3) = B) by (rewrite Hlast, zlen_app, zlen_zeros; lia).
    split; auto.
    rewrite (pieces_of_blocks B (bs ++ [m2; splice (B - L) lf m3])); auto.
    + rewrite fold_left_app, Hh. reflexivity.
    + apply Forall_app; split; auto.
    + rewrite concat_app; cbn. rewrite app_nil_r, Hlast, H2. unfold padded. rewrite Hdata at 1. rewrite <- !app_assoc.
      do 3 f_equal. rewrite app_assoc. f_equal.
      unfold zeros. rewrite <- repeat_app. f_equal.
      replace (- (zlen data + 1 + L) mod B) with (2 * B - posn - 1 - L); [lia|].
      rewrite Hzd. apply Z.mod_unique with (q := - (zlen bs + 2)); lia.
Qed.
End Stream.

(** ** Word arithmetic *)
Lemma land_shift_low : forall a b k, 0 <= k -> 0 <= b < 2 ^ k -> Z.land (Z.shiftl a k) b = 0.
Proof.
  intros a b k Hk Hb. apply Z.bits_inj'. intros n Hn. rewrite Z.land_spec, Z.bits_0.
  destruct (Z.ltb_spec n k).
  - rewrite Z.shiftl_spec_low by lia. reflexivity.
  - replace b with (b mod 2 ^ k) by (apply Z.mod_small; lia).
    rewrite Z.mod_pow2_bits_high by lia. apply andb_false_r.
Qed.
Lemma lor_add : forall a b k, 0 <= k -> 0 <= b < 2 ^ k -> Z.lor (Z.shiftl a k) b = a * 2 ^ k + b.
Proof.
  intros a b k Hk Hb. pose proof (land_shift_low a b k Hk Hb) as H.
  rewrite <- Z.lxor_lor by auto. rewrite <- Z.add_nocarry_lxor by auto.
  now rewrite Z.shiftl_mul_pow2.
Qed.

Lemma load_be32_val : forall a b c d, is_byte a -> is_byte b -> is_byte c -> is_byte d ->
  load_be32 [a; b; c; d] = be_val [a; b; c; d].
Proof.
  unfold is_byte; intros. cbv [load_be32 byte_at Z.to_nat Pos.to_nat Pos.iter_op Init.Nat.add nth be_val fold_left].
  rewrite <- !Z.lor_assoc.
  rewrite (lor_add c d 8) by lia.
  rewrite (lor_add b _ 16) by (change (2^8) with 256; change (2^16) with 65536; lia).
  rewrite (lor_add a _ 24) by (change (2^8) with 256; change (2^16) with 65536; change (2^24) with 16777216; lia).
  change (2^8) with 256; change (2^16) with 65536; change (2^24) with 16777216; lia.
Qed.

Lemma load_be64_val : forall a b c d e f g h, is_byte a -> is_byte b -> is_byte c -> is_byte d ->
  is_byte e -> is_byte f -> is_byte g -> is_byte h ->
  load_be64 [a; b; c; d; e; f; g; h] = be_val [a; b; c; d; e; f; g; h].
Proof.
  unfold is_byte; intros. cbv [load_be64 byte_at Z.to_nat Pos.to_nat Pos.iter_op Init.Nat.add nth be_val fold_left].
  rewrite <- !Z.lor_assoc.
  assert (E : forall x y k, 0 <= k -> 0 <= y < 2 ^ k -> 0 <= x < 256 ->
    Z.lor (Z.shiftl x k) y = x * 2 ^ k + y /\ 0 <= x * 2 ^ k + y < 2 ^ (k + 8)).
  { intros x y k Hk Hy Hx; split; [now apply lor_add|].
    rewrite Z.pow_add_r by lia. change (2 ^ 8) with 256. nia. }
  destruct (E g h 8) as [-> ?]; [lia..|].
  destruct (E f (g * 2^8 + h) 16) as [-> ?]; [lia..|].
  destruct (E e (f * 2^16 + (g * 2^8 + h)) 24) as [-> ?]; [lia..|].
  destruct (E d (e * 2^24 + (f * 2^16 + (g * 2^8 + h))) 32) as [-> ?]; [lia..|].
  destruct (E c (d * 2^32 + (e * 2^24 + (f * 2^16 + (g * 2^8 + h)))) 40) as [-> ?]; [lia..|].
  destruct (E b (c * 2^40 + (d * 2^32 + (e * 2^24 + (f * 2^16 + (g * 2^8 + h))))) 48) as [-> ?]; [lia..|].
  destruct (E a (b * 2^48 + (c * 2^40 + (d * 2^32 + (e * 2^24 + (f * 2^16 + (g * 2^8 + h)))))) 56) as [-> ?]; [lia..|].
  ring.
Qed.

(** ** SHA-256 *)
Lemma sha256_table : map (fun p => frac_cbrt 32 p) (firstn 64 primes) = sha256_k.
Proof. vm_compute. reflexivity. Qed.
Lemma sha256_table_len : (64 <= length primes)%nat.
Proof. apply Nat.leb_le. vm_compute. reflexivity. Qed.
Lemma sha256_K : forall t, (t < 64)%nat -> K sha256_params t = word_at sha256_k t.
Proof.
  intros t Ht. unfold K, word_at. cbn [p_w sha256_params]. rewrite <- sha256_table.
  rewrite (nth_indep (map _ _) 0 (frac_cbrt 32 0)) by (rewrite map_length, firstn_length; pose proof sha256_table_len; lia).
  rewrite map_nth. apply f_equal.
  rewrite <- (firstn_skipn 64 primes) at 1. apply app_nth1. rewrite firstn_length; pose proof sha256_table_len; lia.
Qed.
Lemma sha256_IV : IV sha256_params = sha256_h0.
Proof. vm_compute. reflexivity. Qed.

Lemma load_be32_take : forall l, bytes l -> 4 <= zlen l -> load_be32 l = be_val (firstn 4 l).
Proof.
  intros l Hb Hl. unfold zlen in Hl.
  do 4 (destruct l as [|? l]; [cbn [length] in Hl; lia|inversion Hb as [|? ? ? Hb']; subst; clear Hb; rename Hb' into Hb]).
  cbn [firstn]. rewrite <- load_be32_val by auto. reflexivity.
Qed.
Lemma sha256_load_spec : forall m, bytes m -> zlen m = 64 ->
  sha256_load m = map be_val (pieces 4 16 m).
Proof.
  intros m Hb Hm. unfold sha256_load.
  assert (E : forall n a, 4 * (Z.of_nat n + Z.of_nat a) <= zlen m ->
    map (fun i => load_be32 (drop (4 * Z.of_nat i) m)) (seq a n)
    = map be_val (pieces 4 n (drop (4 * Z.of_nat a) m))).
  { intros n; induction n; intros a Ha; auto. cbn [seq map pieces]. f_equal.
    - apply load_be32_take; [now apply bytes_drop|]. rewrite zlen_drop; lia.
    - rewrite IHn by lia. do 2 f_equal.
      change (skipn 4 (drop (4 * Z.of_nat a) m)) with (drop 4 (drop (4 * Z.of_nat a) m)).
      rewrite drop_drop by lia. f_equal; lia. }
  rewrite E by lia. now rewrite drop_le0 by lia.
Qed.

Local Strategy opaque [Z.add Z.modulo Z.lor Z.lxor Z.land Z.shiftl Z.shiftr Z.pow].
Lemma length_schedule256 : forall M n, length (schedule sha256_params M n) = n.
Proof. induction n; cbn; auto. rewrite app_length, IHn; cbn; lia. Qed.
Lemma sha256_schedule_first : forall M n, length M = 16%nat -> (n <= 16)%nat ->
  schedule sha256_params M n = firstn n M.
Proof.
  intros M n HM; induction n; intros Hn; auto. cbn [schedule]. rewrite IHn by lia.
  replace (n <? 16)%nat with true by (symmetry; apply Nat.ltb_lt; lia).
  symmetry. apply firstn_S_nth. lia.
Qed.
Lemma sha256_extend_spec : forall M t, (16 <= t)%nat ->
  schedule sha256_params M (S t) = sha256_extend_step (schedule sha256_params M t) t.
Proof.
  intros M t Ht. cbn [schedule]. generalize (schedule sha256_params M t). intros W.
  replace (t <? 16)%nat with false by (symmetry; apply Nat.ltb_ge; lia).
  unfold sha256_extend_step. apply (f_equal (fun x => W ++ [x])).
  unfold sumw, sha256_params. cbn [fold_right p_w p_s0 p_s1 rotshr]. unfold word_at, ROTR, ror32, SHR.
  cbn [p_w].
  assert (E : forall x y z u v, (x + (y + (z + (u + 0)))) mod v = (u + y + z + x) mod v) by (intros; f_equal; ring).
  apply E.
Qed.
Lemma sha256_schedule_gen : forall M n, length M = 16%nat ->
  schedule sha256_params M (16 + n) = fold_left sha256_extend_step (seq 16 n) M.
Proof.
  intros M n HM; induction n.
  - rewrite sha256_schedule_first by lia. cbn [seq fold_left]. apply firstn_all2; lia.
  - rewrite seq_S, fold_left_app, <- IHn. replace (16 + S n)%nat with (S (16 + n)) by lia.
    apply sha256_extend_spec. lia.
Qed.

Lemma sha256_round_spec : forall W a b c d e f g h t, (t < 64)%nat ->
  round sha256_params W (a, b, c, d, e, f, g, h) t
  = let '(d', h') := sha256_round a b c d e f g h (word_at sha256_k t) (word_at W t) in
    (h', a, b, c, d', e, f, g).
Proof.
  intros W a b c d e f g h t Ht. unfold round, sha256_round. rewrite sha256_K by auto.
  unfold sumw, add2. cbn [fold_right p_w sha256_params p_S0 p_S1 rot3].
  unfold word_at, ROTR, ror32, Ch, Maj. cbn [p_w sha256_params].
  assert (E1 : forall x y z u v, x + (y + (z + (u + (v + 0)))) = x + u + v + y + z) by (intros; ring).
  assert (E2 : forall x y, x + (y + 0) = x + y) by (intros; ring).
  rewrite E1, E2. reflexivity.
Qed.

Lemma sha256_body_spec : forall W st t, (t + 8 <= 64)%nat ->
  fold_left (round sha256_params W) (seq t 8) st = sha256_loop_body W st t.
Proof.
  intros W [[[[[[[a b] c] d] e] f] g] h] t Ht. unfold sha256_loop_body. cbn [seq fold_left].
  replace (t + 0)%nat with t by lia.
  replace (t + 1)%nat with (S t) by lia. replace (t + 2)%nat with (S (S t)) by lia.
  replace (t + 3)%nat with (S (S (S t))) by lia. replace (t + 4)%nat with (S (S (S (S t)))) by lia.
  replace (t + 5)%nat with (S (S (S (S (S t))))) by lia. replace (t + 6)%nat with (S (S (S (S (S (S t)))))) by lia.
  replace (t + 7)%nat with (S (S (S (S (S (S (S t))))))) by lia.
  do 8 (rewrite sha256_round_spec by lia;
        match goal with |- context [let '(_, _) := sha256_round ?a ?b ?c ?d ?e ?f ?g ?h ?k ?w in _] =>
          destruct (sha256_round a b c d e f g h k w) end).
  reflexivity.
Qed.

Lemma sha256_rounds_spec : forall W st n, (8 * n <= 64)%nat ->
  fold_left (round sha256_params W) (seq 0 (8 * n)) st
  = fold_left (sha256_loop_body W) (map (fun i => 8 * i)%nat (seq 0 n)) st.
Proof.
  intros W st n; revert st; induction n; intros st Hn; auto.
  replace (8 * S n)%nat with (8 * n + 8)%nat by lia.
  rewrite seq_app, fold_left_app, IHn by lia. rewrite sha256_body_spec by lia.
  rewrite seq_S, map_app, fold_left_app. reflexivity.
Qed.

(** The transform function is the FIPS 180-4 compression function. *)
Lemma sha256_transform_spec : forall h m, length h = 8%nat -> bytes m -> zlen m = 64 ->
  sha256_transform h m = compress sha256_params h m.
Proof.
  intros h m Hh Hb Hm. unfold sha256_transform, compress.
  change (Z.to_nat (wbytes sha256_params)) with 4%nat. cbn [p_rounds sha256_params].
  rewrite <- sha256_load_spec by auto.
  assert (HW : schedule sha256_params (sha256_load m) 64 = sha256_schedule m).
  { unfold sha256_schedule. rewrite <- sha256_schedule_gen; [apply (f_equal (schedule _ _)); reflexivity|].
    unfold sha256_load. now rewrite map_length, seq_length. }
  rewrite HW.
  clear HW. do 8 (destruct h as [|? h]; [discriminate Hh|]). destruct h; [|discriminate Hh].
  change 64%nat with (8 * 8)%nat. rewrite sha256_rounds_spec by lia.
  cbv [word_at nth]. change (map (fun i => 8 * i)%nat (seq 0 8)) with [0; 8; 16; 24; 32; 40; 48; 56]%nat.
  match goal with |- context [fold_left ?f ?l ?s] => destruct (fold_left f l s) as [[[[[[[]]]]]]] end.
  unfold add2. cbn [p_w sha256_params].
  repeat (apply f_equal2; [apply (f_equal (fun x => x mod _)); apply Z.add_comm|]). reflexivity.
Qed.

Lemma length_sha256_transform : forall h m, length (sha256_transform h m) = 8%nat.
Proof.
  intros; unfold sha256_transform.
  match goal with |- context [fold_left ?f ?l ?s] => destruct (fold_left f l s) as [[[[[[[]]]]]]] end. reflexivity.
Qed.

(** ** SHA-512 *)
Lemma sha512_table : map (fun p => frac_cbrt 64 p) (firstn 80 primes) = sha512_k.
Proof. vm_compute. reflexivity. Qed.
Lemma sha512_table_len : (80 <= length primes)%nat.
Proof. apply Nat.leb_le. vm_compute. reflexivity. Qed.
Lemma sha512_K : forall t, (t < 80)%nat -> K sha512_params t = word_at sha512_k t.
Proof.
  intros t Ht. unfold K, word_at. cbn [p_w sha512_params]. rewrite <- sha512_table.
  rewrite (nth_indep (map _ _) 0 (frac_cbrt 64 0)) by (rewrite map_length, firstn_length; pose proof sha512_table_len; lia).
  rewrite map_nth. apply f_equal.
  rewrite <- (firstn_skipn 80 primes) at 1. apply app_nth1. rewrite firstn_length; pose proof sha512_table_len; lia.
Qed.
Lemma sha512_IV : IV sha512_params = sha512_h0.
Proof. vm_compute. reflexivity. Qed.

Lemma load_be64_take : forall l, bytes l -> 8 <= zlen l -> load_be64 l = be_val (firstn 8 l).
Proof.
  intros l Hb Hl. unfold zlen in Hl.
  do 8 (destruct l as [|? l]; [cbn [length] in Hl; lia|inversion Hb as [|? ? ? Hb']; subst; clear Hb; rename Hb' into Hb]).
  cbn [firstn]. rewrite <- load_be64_val by auto. reflexivity.
Qed.
Lemma sha512_load_spec : forall m, bytes m -> zlen m = 128 ->
  sha512_load m = map be_val (pieces 8 16 m).
Proof.
  intros m Hb Hm. unfold sha512_load.
  assert (E : forall n a, 8 * (Z.of_nat n + Z.of_nat a) <= zlen m ->
    map (fun i => load_be64 (drop (8 * Z.of_nat i) m)) (seq a n)
    = map be_val (pieces 8 n (drop (8 * Z.of_nat a) m))).
  { intros n; induction n; intros a Ha; auto. cbn [seq map pieces]. f_equal.
    - apply load_be64_take; [now apply bytes_drop|]. rewrite zlen_drop; lia.
    - rewrite IHn by lia. do 2 f_equal.
      change (skipn 8 (drop (8 * Z.of_nat a) m)) with (drop 8 (drop (8 * Z.of_nat a) m)).
      rewrite drop_drop by lia. f_equal; lia. }
  rewrite E by lia. now rewrite drop_le0 by lia.
Qed.

Local Strategy opaque [Z.add Z.modulo Z.lor Z.lxor Z.land Z.shiftl Z.shiftr Z.pow].
Lemma length_schedule512 : forall M n, length (schedule sha512_params M n) = n.
Proof. induction n; cbn; auto. rewrite app_length, IHn; cbn; lia. Qed.
Lemma sha512_schedule_first : forall M n, length M = 16%nat -> (n <= 16)%nat ->
  schedule sha512_params M n = firstn n M.
Proof.
  intros M n HM; induction n; intros Hn; auto. cbn [schedule]. rewrite IHn by lia.
  replace (n <? 16)%nat with true by (symmetry; apply Nat.ltb_lt; lia).
  symmetry. apply firstn_S_nth. lia.
Qed.
Lemma sha512_extend_spec : forall M t, (16 <= t)%nat ->
  schedule sha512_params M (S t) = sha512_extend_step (schedule sha512_params M t) t.
Proof.
  intros M t Ht. cbn [schedule]. generalize (schedule sha512_params M t). intros W.
  replace (t <? 16)%nat with false by (symmetry; apply Nat.ltb_ge; lia).
  unfold sha512_extend_step. apply (f_equal (fun x => W ++ [x])).
  unfold sumw, sha512_params. cbn [fold_right p_w p_s0 p_s1 rotshr]. unfold word_at, ROTR, ror64, SHR.
  cbn [p_w].
  assert (E : forall x y z u v, (x + (y + (z + (u + 0)))) mod v = (u + y + z + x) mod v) by (intros; f_equal; ring).
  apply E.
Qed.
Lemma sha512_schedule_gen : forall M n, length M = 16%nat ->
  schedule sha512_params M (16 + n) = fold_left sha512_extend_step (seq 16 n) M.
Proof.
  intros M n HM; induction n.
  - rewrite sha512_schedule_first by lia. cbn [seq fold_left]. apply firstn_all2; lia.
  - rewrite seq_S, fold_left_app, <- IHn. replace (16 + S n)%nat with (S (16 + n)) by lia.
    apply sha512_extend_spec. lia.
Qed.

Lemma sha512_round_spec : forall W a b c d e f g h t, (t < 80)%nat ->
  round sha512_params W (a, b, c, d, e, f, g, h) t
  = let '(d', h') := sha512_round a b c d e f g h (word_at sha512_k t) (word_at W t) in
    (h', a, b, c, d', e, f, g).
Proof.
  intros W a b c d e f g h t Ht. unfold round, sha512_round. rewrite sha512_K by auto.
  unfold sumw, add2. cbn [fold_right p_w sha512_params p_S0 p_S1 rot3].
  unfold word_at, ROTR, ror64, Ch, Maj. cbn [p_w sha512_params].
  assert (E1 : forall x y z u v, x + (y + (z + (u + (v + 0)))) = x + u + v + y + z) by (intros; ring).
  assert (E2 : forall x y, x + (y + 0) = x + y) by (intros; ring).
  rewrite E1, E2. reflexivity.
Qed.

Lemma sha512_body_spec : forall W st t, (t + 8 <= 80)%nat ->
  fold_left (round sha512_params W) (seq t 8) st = sha512_loop_body W st t.
Proof.
  intros W [[[[[[[a b] c] d] e] f] g] h] t Ht. unfold sha512_loop_body. cbn [seq fold_left].
  replace (t + 0)%nat with t by lia.
  replace (t + 1)%nat with (S t) by lia. replace (t + 2)%nat with (S (S t)) by lia.
  replace (t + 3)%nat with (S (S (S t))) by lia. replace (t + 4)%nat with (S (S (S (S t)))) by lia.
  replace (t + 5)%nat with (S (S (S (S (S t))))) by lia. replace (t + 6)%nat with (S (S (S (S (S (S t)))))) by lia.
  replace (t + 7)%nat with (S (S (S (S (S (S (S t))))))) by lia.
  do 8 (rewrite sha512_round_spec by lia;
        match goal with |- context [let '(_, _) := sha512_round ?a ?b ?c ?d ?e ?f ?g ?h ?k ?w in _] =>
          destruct (sha512_round a b c d e f g h k w) end).
  reflexivity.
Qed.

Lemma sha512_rounds_spec : forall W st n, (8 * n <= 80)%nat ->
  fold_left (round sha512_params W) (seq 0 (8 * n)) st
  = fold_left (sha512_loop_body W) (map (fun i => 8 * i)%nat (seq 0 n)) st.
Proof.
  intros W st n; revert st; induction n; intros st Hn; auto.
  replace (8 * S n)%nat with (8 * n + 8)%nat by lia.
  rewrite seq_app, fold_left_app, IHn by lia. rewrite sha512_body_spec by lia.
  rewrite seq_S, map_app, fold_left_app. reflexivity.
Qed.

(** The transform function is the FIPS 180-4 compression function. *)
Lemma sha512_transform_spec : forall h m, length h = 8%nat -> bytes m -> zlen m = 128 ->
  sha512_transform h m = compress sha512_params h m.
Proof.
  intros h m Hh Hb Hm. unfold sha512_transform, compress.
  change (Z.to_nat (wbytes sha512_params)) with 8%nat. cbn [p_rounds sha512_params].
  rewrite <- sha512_load_spec by auto.
  assert (HW : schedule sha512_params (sha512_load m) 80 = sha512_schedule m).
  { unfold sha512_schedule. rewrite <- sha512_schedule_gen; [apply (f_equal (schedule _ _)); reflexivity|].
    unfold sha512_load. now rewrite map_length, seq_length. }
  rewrite HW.
  clear HW. do 8 (destruct h as [|? h]; [discriminate Hh|]). destruct h; [|discriminate Hh].
  change 80%nat with (8 * 10)%nat. rewrite sha512_rounds_spec by lia.
  cbv [word_at nth]. change (map (fun i => 8 * i)%nat (seq 0 10)) with [0; 8; 16; 24; 32; 40; 48; 56; 64; 72]%nat.
  match goal with |- context [fold_left ?f ?l ?s] => destruct (fold_left f l s) as [[[[[[[]]]]]]] end.
  unfold add2. cbn [p_w sha512_params].
  repeat (apply f_equal2; [apply (f_equal (fun x => x mod _)); apply Z.add_comm|]). reflexivity.
Qed.

Lemma length_sha512_transform : forall h m, length (sha512_transform h m) = 8%nat.
Proof.
  intros; unfold sha512_transform.
  match goal with |- context [fold_left ?f ?l ?s] => destruct (fold_left f l s) as [[[[[[[]]]]]]] end. reflexivity.
Qed.
