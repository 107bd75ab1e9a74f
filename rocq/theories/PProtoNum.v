(** Proofs about the protobuf functions: numbers and their encodings. *)
From Coq Require Import ZifyBool ZifyNat.
From Verif Require Import Base MProto SProto PSha2.

Definition all_bytes : list Z := map Z.of_nat (seq 0 256).
Lemma in_all_bytes : forall b, is_byte b -> In b all_bytes.
Proof.
  intros b [H1 H2]. unfold all_bytes. apply in_map_iff. exists (Z.to_nat b). split; [lia|]. apply in_seq. lia.
Qed.
Lemma byte_facts : forall b, is_byte b ->
  Z.land b 127 = b mod 128 /\ Z.lor b 128 = b mod 128 + 128 /\ (Z.land b 128 =? 0) = (b <? 128) /\ Z.land b 63 = b mod 64 /\
  Z.land b 15 = b mod 16 /\ Z.land b 7 = b mod 8.
Proof.
  intros b Hb.
  assert (H : forallb (fun b => (Z.land b 127 =? b mod 128) && (Z.lor b 128 =? b mod 128 + 128) &&
     Bool.eqb (Z.land b 128 =? 0) (b <? 128) && (Z.land b 63 =? b mod 64) && (Z.land b 15 =? b mod 16) && (Z.land b 7 =? b mod 8)) all_bytes = true)
   by (vm_compute; reflexivity).
  rewrite forallb_forall in H. specialize (H b (in_all_bytes b Hb)).
  repeat rewrite andb_true_iff in H. destruct H as [[[[[H1 H2] H3] H4] H5] H6].
  apply Z.eqb_eq in H1, H2, H4, H5, H6. apply Bool.eqb_prop in H3. repeat split; assumption.
Qed.

(** ** varints *)
Lemma varint_groups_bytes : forall n v, 0 <= v -> bytes (varint_groups n v).
Proof.
  induction n; intros v Hv; cbn; [constructor|].
  destruct (Z.ltb_spec v 128); constructor; [unfold is_byte; lia | constructor | unfold is_byte; Z.div_mod_to_equations; lia |].
  apply IHn. Z.div_mod_to_equations; lia.
Qed.
Lemma varint_bytes : forall v, 0 <= v -> bytes (varint v).
Proof. intros; apply varint_groups_bytes; auto. Qed.
Lemma varint_groups_len : forall n v, 0 <= v -> zlen (varint_groups n v) <= Z.of_nat n /\ (n <> O -> 1 <= zlen (varint_groups n v)).
Proof.
  induction n; intros v Hv; cbn [varint_groups]; [rewrite zlen_nil; lia|].
  destruct (v <? 128); rewrite zlen_cons; [rewrite zlen_nil; lia|].
  specialize (IHn (v / 128) ltac:(Z.div_mod_to_equations; lia)). pose proof (zlen_nonneg _ (varint_groups n (v/128))). lia.
Qed.
Lemma varint_len : forall v, 0 <= v -> 1 <= zlen (varint v) <= 10.
Proof. intros v Hv. pose proof (varint_groups_len 10 v Hv). unfold varint. lia. Qed.

Lemma varint_loop_groups : forall n m v, 0 <= v < 128 ^ Z.of_nat (S n) -> (n <> O -> 128 ^ Z.of_nat n <= v) ->
  varint_loop n v = varint_groups (S n + m) v /\ zlen (varint_loop n v) = Z.of_nat (S n).
Proof.
  induction n; intros m v Hv Hl.
  - cbn [varint_loop varint_groups plus]. change (128 ^ Z.of_nat 1) with 128 in Hv. rewrite Z.mod_small by lia.
    destruct (byte_facts v ltac:(unfold is_byte; lia)) as (-> & _). rewrite Z.mod_small by lia.
    destruct (Z.ltb_spec v 128); [|lia]. split; reflexivity.
  - specialize (Hl ltac:(discriminate)).
    assert (P1 : 128 ^ Z.of_nat (S (S n)) = 128 * 128 ^ Z.of_nat (S n)) by (rewrite (Nat2Z.inj_succ (S n)), Z.pow_succ_r; lia).
    assert (P2 : 128 ^ Z.of_nat (S n) = 128 * 128 ^ Z.of_nat n) by (rewrite (Nat2Z.inj_succ n), Z.pow_succ_r; lia).
    assert (P3 : 0 < 128 ^ Z.of_nat n) by (apply Z.pow_pos_nonneg; lia).
    cbn [varint_loop]. replace (S (S n) + m)%nat with (S (S n + m)) by lia. cbn [varint_groups].
    rewrite Z.shiftr_div_pow2 by lia. change (2 ^ 7) with 128.
    destruct (Z.ltb_spec v 128); [nia|].
    destruct (IHn m (v / 128)) as (E & L).
    + split; [apply Z.div_pos; lia | apply Z.div_lt_upper_bound; lia].
    + intros _. apply Z.div_le_lower_bound; lia.
    + rewrite zlen_cons, L. split; [|lia]. rewrite E. f_equal.
      destruct (byte_facts (v mod 256) ltac:(unfold is_byte; apply Z.mod_pos_bound; lia)) as (_ & -> & _). f_equal.
      symmetry. apply Znumtheory.Zmod_div_mod; [lia..|]. exists 2; lia.
Qed.
Lemma varint_written : forall v, 0 <= v < 2^64 ->
  varint_loop (Z.to_nat (varint_size v - 1)) v = varint v /\ zlen (varint v) = varint_size v.
Proof.
  intros v Hv.
  assert (G : forall n : nat, (n <= 9)%nat -> varint_size v = Z.of_nat (S n) -> 0 <= v < 128 ^ Z.of_nat (S n) -> (n <> O -> 128 ^ Z.of_nat n <= v) ->
    varint_loop (Z.to_nat (varint_size v - 1)) v = varint v /\ zlen (varint v) = varint_size v).
  { intros n H9 Hs H1 H2. destruct (varint_loop_groups n (9 - n) v H1 H2) as (E & L).
    rewrite Hs. replace (Z.to_nat (Z.of_nat (S n) - 1)) with n by lia. replace (S n + (9 - n))%nat with 10%nat in E by lia.
    unfold varint. rewrite <- E. auto. }
  unfold varint_size in *.
  destruct (Z.ltb_spec v (2^7)); [apply (G 0%nat); auto; try lia; cbn in *; lia|].
  destruct (Z.ltb_spec v (2^14)); [apply (G 1%nat); auto; cbn in *; lia|].
  destruct (Z.ltb_spec v (2^21)); [apply (G 2%nat); auto; cbn in *; lia|].
  destruct (Z.ltb_spec v (2^28)); [apply (G 3%nat); auto; cbn in *; lia|].
  destruct (Z.ltb_spec v (2^35)); [apply (G 4%nat); auto; cbn in *; lia|].
  destruct (Z.ltb_spec v (2^42)); [apply (G 5%nat); auto; cbn in *; lia|].
  destruct (Z.ltb_spec v (2^49)); [apply (G 6%nat); auto; cbn in *; lia|].
  destruct (Z.ltb_spec v (2^56)); [apply (G 7%nat); auto; cbn in *; lia|].
  destruct (Z.ltb_spec v (2^63)); [apply (G 8%nat); auto; cbn in *; lia|].
  apply (G 9%nat); auto; cbn in *; lia.
Qed.

Lemma tag_value_eq : forall tag type, is_tag tag -> 0 <= type < 8 -> tag_value tag type = tag * 8 + type.
Proof.
  intros tag type [H1 H2] Ht. unfold tag_value. rewrite lor_add by (cbn; lia). change (2^3) with 8. apply Z.mod_small. cbn in *; lia.
Qed.
Lemma tag_value_range : forall tag type, 0 <= tag_value tag type < 2^64.
Proof. intros; unfold tag_value; apply Z.mod_pos_bound; reflexivity. Qed.

(** ** Little endian *)
Lemma little_endian_len : forall n v, zlen (little_endian n v) = Z.of_nat n.
Proof. induction n; intros; cbn [little_endian]; [reflexivity | rewrite zlen_cons, IHn; lia]. Qed.
Lemma little_endian_bytes : forall n v, bytes (little_endian n v).
Proof. induction n; intros; cbn; constructor; [apply Z.mod_pos_bound; lia | apply IHn]. Qed.
Lemma bytes_value_nonneg : forall d, bytes d -> 0 <= bytes_value d < 2 ^ (8 * zlen d).
Proof.
  induction d; intros H.
  - split; [apply Z.le_refl | reflexivity].
  - inversion H as [|? ? Ha Hd]; subst. specialize (IHd Hd). cbn [bytes_value fold_right]. fold (bytes_value d).
    rewrite Z.lor_comm, lor_add by (try lia; apply Ha). rewrite zlen_cons. pose proof (zlen_nonneg _ d).
    replace (8 * (1 + zlen d)) with (8 + 8 * zlen d) by lia. rewrite Z.pow_add_r by lia. unfold is_byte in Ha.
    change (2 ^ 8) with 256 in *. nia.
Qed.
Lemma bytes_value_little : forall n v, 0 <= v < 2 ^ (8 * Z.of_nat n) -> bytes_value (little_endian n v) = v.
Proof.
  induction n; intros v Hv.
  - cbn in *. lia.
  - cbn [little_endian bytes_value fold_right]. fold (bytes_value (little_endian n (v / 256))).
    rewrite Nat2Z.inj_succ in Hv. replace (8 * Z.succ (Z.of_nat n)) with (8 + 8 * Z.of_nat n) in Hv by lia.
    rewrite Z.pow_add_r in Hv by lia. change (2 ^ 8) with 256 in Hv.
    rewrite IHn.
    + rewrite Z.lor_comm, lor_add by (try lia; apply Z.mod_pos_bound; lia). change (2^8) with 256. Z.div_mod_to_equations; lia.
    + split; [apply Z.div_pos; lia | apply Z.div_lt_upper_bound; lia].
Qed.
Lemma fixed32_bytes : forall v, map (fun s => Z.shiftr v s mod 256) [0; 8; 16; 24] = little_endian 4 v.
Proof.
  intros v. cbn [map little_endian]. rewrite !Z.shiftr_div_pow2 by lia.
  rewrite !Z.div_div by lia. rewrite Z.div_1_r. reflexivity.
Qed.
Lemma fixed64_bytes : forall v, map (fun s => Z.shiftr v s mod 256) [0; 8; 16; 24; 32; 40; 48; 56] = little_endian 8 v.
Proof.
  intros v. cbn [map little_endian]. rewrite !Z.shiftr_div_pow2 by lia.
  rewrite !Z.div_div by lia. rewrite Z.div_1_r. reflexivity.
Qed.

(** ** Signed numbers and zigzag *)
Lemma to_signed_mod : forall n v, 0 < n -> - 2^(n-1) <= v < 2^(n-1) -> to_signed n (v mod 2^n) = v.
Proof.
  intros n v Hn Hv. unfold to_signed. rewrite Z.mod_mod by (pose proof (Z.pow_pos_nonneg 2 n); lia).
  assert (P : 2^n = 2 * 2^(n-1)) by (rewrite <- Z.pow_succ_r by lia; f_equal; lia).
  destruct (Z.neg_nonneg_cases v).
  - replace (v mod 2^n) with (v + 2^n) by (symmetry; rewrite <- (Z.mod_small (v + 2^n) (2^n)) by lia; rewrite <- Zplus_mod_idemp_r, Z.mod_same by lia; f_equal; lia).
    destruct (Z.ltb_spec (v + 2^n) (2^(n-1))); lia.
  - rewrite Z.mod_small by lia. destruct (Z.ltb_spec v (2^(n-1))); lia.
Qed.
Lemma to_signed_range : forall n v, 0 < n -> - 2^(n-1) <= to_signed n v < 2^(n-1).
Proof.
  intros n v Hn. unfold to_signed.
  assert (P : 2^n = 2 * 2^(n-1)) by (rewrite <- Z.pow_succ_r by lia; f_equal; lia).
  pose proof (Z.pow_pos_nonneg 2 (n-1)). pose proof (Z.mod_pos_bound v (2^n)).
  cbv zeta. destruct (Z.ltb_spec (v mod 2^n) (2^(n-1))); lia.
Qed.
Lemma zigzag_range : forall n v, 0 < n -> - 2^(n-1) <= v < 2^(n-1) -> 0 <= zigzag v < 2^n.
Proof.
  intros n v Hn Hv. assert (P : 2^n = 2 * 2^(n-1)) by (rewrite <- Z.pow_succ_r by lia; f_equal; lia).
  unfold zigzag. destruct (Z.leb_spec 0 v); lia.
Qed.
(* the two halves of the computation: the second is 0 or all ones *)
Lemma zigzag_written : forall n v, 0 < n -> - 2^(n-1) <= v < 2^(n-1) ->
  Z.lxor (Z.shiftl (v mod 2^n) 1 mod 2^n) (Z.shiftr v (n-1) mod 2^n) = zigzag v.
Proof.
  intros n v Hn Hv. pose proof (zigzag_range n v Hn Hv) as Hz.
  assert (P : 2^n = 2 * 2^(n-1)) by (rewrite <- Z.pow_succ_r by lia; f_equal; lia).
  pose proof (Z.pow_pos_nonneg 2 (n-1)).
  rewrite Z.shiftl_mul_pow2, Z.shiftr_div_pow2 by lia. change (2^1) with 2. rewrite Z.mul_mod_idemp_l by lia.
  unfold zigzag in *. destruct (Z.leb_spec 0 v).
  - rewrite (Z.div_small v) by lia. rewrite (Z.mod_small 0), Z.lxor_0_r, Z.mod_small by lia. lia.
  - assert (D : v / 2^(n-1) = -1) by (symmetry; apply (Z.div_unique _ _ _ (v + 2^(n-1))); lia).
    assert (M : (v * 2) mod 2^n = v * 2 + 2^n) by (symmetry; apply (Z.mod_unique _ _ (-1)); lia).
    assert (O : (-1) mod 2^n = Z.ones n) by (rewrite Z.ones_equiv; symmetry; apply (Z.mod_unique _ _ (-1)); lia).
    rewrite D, M, O.
    assert (X : Z.lxor (v * 2 + 2^n) (Z.ones n) = Z.lnot (v * 2 + 2^n) mod 2^n).
    { rewrite <- Z.land_ones by lia. apply Z.bits_inj'. intros i Hi. rewrite Z.lxor_spec, Z.land_spec, Z.lnot_spec by lia.
      destruct (Z.ltb_spec i n).
      - rewrite Z.ones_spec_low by lia. now rewrite xorb_true_r, andb_true_r.
      - rewrite Z.ones_spec_high by lia. rewrite xorb_false_r, andb_false_r. apply Z.bits_above_log2; [lia|].
        destruct (Z.eq_dec (v * 2 + 2^n) 0) as [E|]; [rewrite E; cbn; lia|].
        apply Z.log2_lt_pow2; [lia|]. apply Z.lt_le_trans with (2^n); [lia|]. apply Z.pow_le_mono_r; lia. }
    rewrite X. unfold Z.lnot. symmetry. apply (Z.mod_unique _ _ (-1)); lia.
Qed.
Lemma zigzag_read : forall n v, 0 < n -> - 2^(n-1) <= v < 2^(n-1) ->
  Z.lxor (to_signed n (Z.shiftr (zigzag v) 1)) (- Z.land (zigzag v) 1) = v.
Proof.
  intros n v Hn Hv. assert (P : 2^n = 2 * 2^(n-1)) by (rewrite <- Z.pow_succ_r by lia; f_equal; lia).
  pose proof (Z.pow_pos_nonneg 2 (n-1)).
  rewrite Z.shiftr_div_pow2 by lia. change 1 with (Z.ones 1) at 2. rewrite Z.land_ones by lia. change (2^1) with 2.
  unfold zigzag, to_signed. destruct (Z.leb_spec 0 v); cbv zeta.
  - replace (2 * v / 2) with v by (Z.div_mod_to_equations; lia). replace ((2 * v) mod 2) with 0 by (Z.div_mod_to_equations; lia).
    rewrite (Z.mod_small v) by lia. destruct (Z.ltb_spec v (2^(n-1))); [|lia]. apply Z.lxor_0_r.
  - replace ((- 2 * v - 1) / 2) with (- v - 1) by (Z.div_mod_to_equations; lia).
    replace ((- 2 * v - 1) mod 2) with 1 by (Z.div_mod_to_equations; lia).
    rewrite (Z.mod_small (- v - 1)) by lia. destruct (Z.ltb_spec (- v - 1) (2^(n-1))); [|lia].
    change (-(1)) with (-1). rewrite Z.lxor_m1_r. unfold Z.lnot. lia.
Qed.

(** ** UTF-8 *)
Lemma utf8_defined : forall fuel str size, size <= zlen str -> size <= Z.of_nat fuel -> exists r, is_utf8 fuel str size = Ok r.
Proof.
  induction fuel; intros str size H1 H2; cbn [is_utf8].
  - destruct (Z.leb_spec size 0); [eauto | lia].
  - destruct (Z.leb_spec size 0); [eauto|]. destruct str as [|ch str]; [rewrite zlen_nil in H1; lia|]. rewrite zlen_cons in H1.
    assert (G : forall s n, n <= zlen s -> n <= Z.of_nat fuel -> exists r, is_utf8 fuel s n = Ok r) by auto.
    destruct (ch =? 0); [eauto|]. destruct (ch <? 128); [apply G; lia|].
    destruct ((194 <=? ch) && (ch <=? 223)).
    { destruct (Z.ltb_spec (size - 1) 1); [eauto|]. destruct str; [rewrite zlen_nil in H1; lia|]. rewrite zlen_cons in H1.
      destruct (negb (continuation z)); [eauto|]. apply G; lia. }
    destruct ((224 <=? ch) && (ch <=? 239)).
    { destruct (Z.ltb_spec (size - 1) 2); [eauto|]. destruct str as [|c1 [|c2 str]]; [rewrite ?zlen_cons, ?zlen_nil in H1; lia..|].
      destruct (negb (continuation c1)); [eauto|]. destruct (negb (continuation c2)); [eauto|]. cbv zeta.
      destruct (_ && _); [eauto|]. destruct (_ <? 2048); [eauto|]. apply G; lia. }
    destruct ((240 <=? ch) && (ch <=? 244)); [|eauto].
    destruct (Z.ltb_spec (size - 1) 3); [eauto|]. destruct str as [|c1 [|c2 [|c3 str]]]; [rewrite ?zlen_cons, ?zlen_nil in H1; lia..|].
    destruct (negb (continuation c1)); [eauto|]. destruct (negb (continuation c2)); [eauto|]. destruct (negb (continuation c3)); [eauto|]. cbv zeta.
    destruct (1114111 <? _); [eauto|]. destruct (_ <? 65536); [eauto|]. apply G; lia.
Qed.
Lemma is_utf8_defined : forall str size, 0 <= size <= zlen str -> exists r, protobuf_is_utf8 str size = Ok r.
Proof. intros; unfold protobuf_is_utf8; apply utf8_defined; lia. Qed.
(** More bytes behind the string do not matter. *)
Lemma is_utf8_app : forall fuel s t size, size <= zlen s -> is_utf8 fuel (s ++ t) size = is_utf8 fuel s size.
Proof.
  induction fuel; intros s t size H1; cbn [is_utf8]; [reflexivity|].
  destruct (Z.leb_spec size 0); [reflexivity|]. destruct s as [|ch s]; [rewrite zlen_nil in H1; lia|]. rewrite zlen_cons in H1. cbn [app].
  destruct (ch =? 0); [reflexivity|]. destruct (ch <? 128); [apply IHfuel; lia|].
  destruct ((194 <=? ch) && (ch <=? 223)).
  { destruct (Z.ltb_spec (size - 1) 1); [reflexivity|]. destruct s; [rewrite zlen_nil in H1; lia|]. rewrite zlen_cons in H1. cbn [app].
    destruct (negb (continuation z)); [reflexivity|]. apply IHfuel; lia. }
  destruct ((224 <=? ch) && (ch <=? 239)).
  { destruct (Z.ltb_spec (size - 1) 2); [reflexivity|]. destruct s as [|c1 [|c2 s]]; [rewrite ?zlen_cons, ?zlen_nil in H1; lia..|]. cbn [app].
    destruct (negb (continuation c1)); [reflexivity|]. destruct (negb (continuation c2)); [reflexivity|]. cbv zeta.
    destruct (_ && _); [reflexivity|]. destruct (_ <? 2048); [reflexivity|]. apply (IHfuel (c1 :: c2 :: s)); lia. }
  destruct ((240 <=? ch) && (ch <=? 244)); [|reflexivity].
  destruct (Z.ltb_spec (size - 1) 3); [reflexivity|]. destruct s as [|c1 [|c2 [|c3 s]]]; [rewrite ?zlen_cons, ?zlen_nil in H1; lia..|]. cbn [app].
  destruct (negb (continuation c1)); [reflexivity|]. destruct (negb (continuation c2)); [reflexivity|]. destruct (negb (continuation c3)); [reflexivity|]. cbv zeta.
  destruct (1114111 <? _); [reflexivity|]. destruct (_ <? 65536); [reflexivity|]. apply (IHfuel (c1 :: c2 :: c3 :: s)); lia.
Qed.
