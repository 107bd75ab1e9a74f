(** Proofs about the protobuf functions: reading what was written. *)
From Coq Require Import ZifyBool ZifyNat.
From Verif Require Import Base MProto SProto PSha2 PProtoNum PProto.

Lemma usize_small : forall n, 0 <= n < 2^64 -> usize n = n.
Proof. intros; now apply Z.mod_small. Qed.
Lemma next_split : forall b l1 l2, pb_ok b -> next_bytes b (l1 ++ l2) -> next_bytes b l1 /\ next_bytes (advanced (zlen l1) b) l2.
Proof.
  intros b l1 l2 (H0 & _) (He & mem & Em & Hs & Hsub). rewrite zlen_app in *. pose proof (zlen_nonneg _ l1). pose proof (zlen_nonneg _ l2).
  apply sub_app_split in Hsub; auto; [|lia]. destruct Hsub as [S1 S2]. split; (split; [exact He|]); exists mem; (split; [exact Em|]); cbn; (split; [lia | assumption]).
Qed.
Lemma next_app : forall b l1 l2, pb_ok b -> next_bytes b l1 -> next_bytes (advanced (zlen l1) b) l2 -> next_bytes b (l1 ++ l2).
Proof.
  intros b l1 l2 (H0 & _) (He & mem & Em & Hs & Hsub) (_ & mem2 & Em2 & Hs2 & Hsub2). cbn in Em2, Hs2, Hsub2. assert (mem2 = mem) by congruence. subst mem2.
  pose proof (zlen_nonneg _ l1). pose proof (zlen_nonneg _ l2).
  split; [exact He|]. exists mem. split; [exact Em|]. rewrite zlen_app. split; [lia|].
  transitivity (sub (pb_posn b) (zlen l1) mem ++ sub (pb_posn b + zlen l1) (zlen l2) mem); [|congruence].
  assert (L : zlen (sub (pb_posn b) (zlen l1) mem) = zlen l1) by (rewrite Hsub; reflexivity). unfold sub in *.
  replace (pb_posn b + zlen l1) with (zlen l1 + pb_posn b) by lia. rewrite <- drop_drop by lia. rewrite <- (take_drop _ (zlen l1) (drop (pb_posn b) mem)) at 1.
  rewrite take_app_ge.
  - f_equal. f_equal. rewrite zlen_take, zlen_drop. 
    rewrite zlen_take, zlen_drop in L. lia.
  - rewrite zlen_take. lia.
Qed.
Lemma advanced_ok : forall b l, pb_ok b -> next_bytes b l -> pb_ok (advanced (zlen l) b).
Proof.
  intros b l (H0 & H1 & H2) (_ & mem & Em & Hs & _). pose proof (zlen_nonneg _ l). split; [cbn; lia|]. auto.
Qed.
Lemma advanced_advanced : forall m n b, advanced m (advanced n b) = advanced (n + m) b.
Proof. intros m n [d s p e]. unfold advanced, with_posn. cbn. f_equal. lia. Qed.
Lemma advanced_0 : forall b, advanced 0 b = b.
Proof. intros [d s p e]. unfold advanced, with_posn. cbn. f_equal. lia. Qed.

Lemma fetch_next : forall b mem c l, pb_ok b -> pb_data b = Some mem -> next_bytes b (c :: l) ->
  fetch mem (pb_posn b) = Ok c /\ pb_posn b < pb_size b /\ is_byte c /\ next_bytes (advanced 1 b) l /\ pb_ok (advanced 1 b).
Proof.
  intros b mem c l Hb Em Hn. destruct (next_split b [c] l Hb Hn) as [N1 N2]. pose proof (advanced_ok _ _ Hb N1) as A.
  change (zlen [c]) with 1 in *. destruct N1 as (_ & mem' & Em' & Hs & Hsub). change (zlen [c]) with 1 in *.
  assert (mem' = mem) by congruence. subst mem'.
  destruct Hb as (H0 & H1 & H2). rewrite Em in H2. unfold fetch. rewrite load_ok by lia. rewrite Hsub. cbn [obind].
  split; [reflexivity|]. split; [lia|]. split; [|auto].
  assert (B : bytes [c]) by (rewrite <- Hsub; apply bytes_sub; tauto). now inversion B.
Qed.

Lemma lor_add_low : forall a b k, 0 <= k -> 0 <= b < 2 ^ k -> Z.lor b (a * 2 ^ k) = b + a * 2 ^ k.
Proof. intros. rewrite <- (Z.shiftl_mul_pow2 a) at 1 by lia. rewrite Z.lor_comm, lor_add by lia. apply Z.add_comm. Qed.
Lemma read_loop_ok : forall n v b mem shift value m, pb_ok b -> pb_data b = Some mem -> (m <= n)%nat ->
  0 <= v < 128 ^ Z.of_nat m -> m <> O -> next_bytes b (varint_groups m v) -> 0 <= shift -> 0 <= value < 2 ^ shift -> v * 2 ^ shift < 2^64 ->
  read_loop n b mem shift value = Ok (E_NONE, value + v * 2 ^ shift, advanced (zlen (varint_groups m v)) b).
Proof.
  induction n; intros v b mem shift value m Hb Em Hm Hv Hm0 Hn Hsh Hval Hfit; [lia|].
  destruct m as [|m]; [lia|]. cbn [varint_groups] in *. cbn [read_loop].
  assert (P : 128 ^ Z.of_nat (S m) = 128 * 128 ^ Z.of_nat m) by (rewrite Nat2Z.inj_succ, Z.pow_succ_r; lia).
  assert (P2 : 0 < 2 ^ shift) by (apply Z.pow_pos_nonneg; lia).
  destruct (Z.ltb_spec v 128).
  - destruct (fetch_next _ _ _ _ Hb Em Hn) as (-> & Hp & Hc & _ & _). cbn [obind].
    destruct (Z.leb_spec (pb_size b) (pb_posn b)); [lia|].
    destruct (byte_facts v Hc) as (-> & _ & -> & _). rewrite (Z.mod_small v 128) by lia.
    destruct (Z.ltb_spec v 128); [|lia]. rewrite Z.shiftl_mul_pow2 by lia. rewrite Z.mod_small by nia.
    rewrite lor_add_low by lia. reflexivity.
  - set (c := v mod 128 + 128) in *. destruct (fetch_next _ _ _ _ Hb Em Hn) as (-> & Hp & Hc & Hn1 & Hb1). cbn [obind].
    destruct (Z.leb_spec (pb_size b) (pb_posn b)); [lia|].
    destruct (byte_facts c Hc) as (-> & _ & -> & _). unfold is_byte in Hc.
    assert (Ec : c mod 128 = v mod 128).
    { unfold c. replace (v mod 128 + 128) with (v mod 128 + 1 * 128) by lia. rewrite Z.mod_add by lia. apply Z.mod_mod. lia. }
    rewrite Ec. destruct (Z.ltb_spec c 128). { pose proof (Z.mod_pos_bound v 128). unfold c in *. lia. }
    pose proof (Z.mod_pos_bound v 128 ltac:(lia)) as Hmod. pose proof (Z.div_mod v 128 ltac:(lia)) as Hdm.
    assert (Hd : 0 <= v / 128 < 128 ^ Z.of_nat m) by (split; [apply Z.div_pos; lia | apply Z.div_lt_upper_bound; lia]).
    rewrite Z.shiftl_mul_pow2 by lia. rewrite Z.mod_small by nia.
    rewrite lor_add_low by lia.
    assert (P7 : 2 ^ (shift + 7) = 2 ^ shift * 128) by (rewrite Z.pow_add_r by lia; reflexivity).
    change (with_posn (pb_posn b + 1) b) with (advanced 1 b).
    assert (m <> O) by (intros ->; change (128 ^ Z.of_nat 0) with 1 in *; lia).
    rewrite (IHn (v / 128) (advanced 1 b) mem (shift + 7) _ m); auto; try lia; try nia.
    rewrite advanced_advanced, zlen_cons.
    assert (Ev : value + v mod 128 * 2 ^ shift + v / 128 * 2 ^ (shift + 7) = value + v * 2 ^ shift)
      by (transitivity (value + (128 * (v / 128) + v mod 128) * 2 ^ shift); [rewrite P7; ring | now rewrite <- Hdm]).
    rewrite Ev. reflexivity.
Qed.
Lemma read_varint_ok : forall v b, pb_ok b -> 0 <= v < 2^64 -> next_bytes b (varint v) ->
  read_varint (Some b) = Ok (E_NONE, v, Some (advanced (zlen (varint v)) b)).
Proof.
  intros v b Hb Hv Hn. unfold varint in *. cbn [varint_groups] in *. unfold read_varint.
  assert (Hn' := Hn). destruct Hn' as (He & mem & Em & _). rewrite Em, He. cbn [is_none err_eqb negb].
  destruct (Z.ltb_spec v 128).
  - destruct (fetch_next _ _ _ _ Hb Em Hn) as (-> & Hp & Hc & _ & _). cbn [obind].
    destruct (Z.leb_spec (pb_size b) (pb_posn b)); [lia|].
    destruct (byte_facts v Hc) as (_ & _ & -> & _). destruct (Z.ltb_spec v 128); [|lia]. reflexivity.
  - set (c := v mod 128 + 128) in *. destruct (fetch_next _ _ _ _ Hb Em Hn) as (-> & Hp & Hc & Hn1 & Hb1). cbn [obind].
    destruct (Z.leb_spec (pb_size b) (pb_posn b)); [lia|].
    destruct (byte_facts c Hc) as (-> & _ & -> & _).
    assert (Ec : c mod 128 = v mod 128).
    { unfold c. replace (v mod 128 + 128) with (v mod 128 + 1 * 128) by lia. rewrite Z.mod_add by lia. apply Z.mod_mod. lia. }
    pose proof (Z.mod_pos_bound v 128 ltac:(lia)) as Hmod. pose proof (Z.div_mod v 128 ltac:(lia)) as Hdm.
    rewrite Ec. destruct (Z.ltb_spec c 128); [unfold c in *; lia|].
    change (with_posn (pb_posn b + 1) b) with (advanced 1 b).
    assert (E9 : read_loop 9 (advanced 1 b) mem 7 (v mod 128) = Ok (E_NONE, v mod 128 + v / 128 * 2 ^ 7, advanced (zlen (varint_groups 9 (v / 128))) (advanced 1 b))).
    { apply read_loop_ok; auto; try lia. }
    rewrite E9. cbn [obind]. rewrite advanced_advanced, zlen_cons. change (2^7) with 128.
    replace (v mod 128 + v / 128 * 128) with v by lia. reflexivity.
Qed.
Lemma read_tag_ok : forall tag type b, pb_ok b -> is_tag tag -> 0 <= type < 8 -> next_bytes b (tag_bytes tag type) ->
  read_tag (Some b) tag type = Ok (E_NONE, Some (advanced (zlen (tag_bytes tag type)) b)).
Proof.
  intros tag type b Hb Ht Hty Hn. unfold read_tag. unfold tag_bytes in *. destruct (Z.eqb_spec tag 0) as [->|H0].
  - cbn [Z.ltb Z.compare]. destruct Hn as (-> & _). rewrite zlen_nil, advanced_0. reflexivity.
  - destruct (Z.ltb_spec 0 tag); [|destruct Ht; lia].
    rewrite (read_varint_ok (tag_value tag type)); auto using tag_value_range. cbn [obind is_none err_eqb].
    rewrite Z.eqb_refl. reflexivity.
Qed.

Lemma read_space_ok : forall b l, pb_ok b -> next_bytes b l ->
  read_space (Some b) (zlen l) = (E_NONE, pb_posn b, Some (advanced (zlen l) b)) /\
  space_bytes (Some (advanced (zlen l) b)) (pb_posn b) (zlen l) = Ok l.
Proof.
  intros b l (H0 & H1 & H2) (He & mem & Em & Hs & Hsub). pose proof (zlen_nonneg _ l). unfold read_space, space_bytes. rewrite Em in *. rewrite He. cbn [is_none err_eqb negb].
  rewrite usize_small by lia. destruct (Z.ltb_spec (pb_size b - pb_posn b) (zlen l)); [lia|]. split; [reflexivity|].
  cbn. rewrite Em. rewrite load_ok by lia. now rewrite Hsub.
Qed.

(** The beginning of a field *)
Lemma field_tag_ok : forall tag w b, pb_ok b -> is_tag tag -> next_bytes b (field_bytes tag w) ->
  exists b1, read_tag (Some b) tag (wire_type w) = Ok (E_NONE, Some b1) /\ pb_ok b1 /\ next_bytes b1 (wire_bytes w) /\
  forall n, n = zlen (wire_bytes w) -> advanced n b1 = advanced (zlen (field_bytes tag w)) b.
Proof.
  intros tag w b Hb Ht Hn. rewrite <- tag_bytes_field in * by auto. destruct (next_split _ _ _ Hb Hn) as [N1 N2].
  eexists. split; [apply read_tag_ok; auto; destruct w; cbn; lia|]. split; [now apply advanced_ok|]. split; [exact N2|].
  intros n ->. rewrite advanced_advanced, zlen_app. reflexivity.
Qed.
Lemma read_integer_ok : forall tag v b, pb_ok b -> is_tag tag -> 0 <= v < 2^64 -> next_bytes b (field_bytes tag (Varint v)) ->
  read_integer (Some b) tag = Ok (E_NONE, v, Some (advanced (zlen (field_bytes tag (Varint v))) b)).
Proof.
  intros tag v b Hb Ht Hv Hn. destruct (field_tag_ok _ _ _ Hb Ht Hn) as (b1 & E & Hb1 & Hn1 & A). unfold read_integer.
  change WIRE_VARINT with (wire_type (Varint v)). rewrite E. cbn [obind is_none err_eqb negb].
  rewrite (read_varint_ok v) by auto. now rewrite A.
Qed.
Lemma read_fixed32_ok : forall tag v b, pb_ok b -> is_tag tag -> 0 <= v < 2^32 -> next_bytes b (field_bytes tag (Bits32 v)) ->
  read_fixed32 (Some b) tag = Ok (E_NONE, v, Some (advanced (zlen (field_bytes tag (Bits32 v))) b)).
Proof.
  intros tag v b Hb Ht Hv Hn. destruct (field_tag_ok _ _ _ Hb Ht Hn) as (b1 & E & Hb1 & Hn1 & A). unfold read_fixed32, read_fixed.
  change WIRE_32BIT with (wire_type (Bits32 v)). rewrite E. cbn [obind is_none err_eqb negb].
  destruct (read_space_ok b1 _ Hb1 Hn1) as [R1 R2]. cbn [wire_bytes] in *. rewrite (little_endian_len 4) in *. change (Z.of_nat 4) with 4 in *.
  rewrite R1. cbn [is_none err_eqb negb]. rewrite R2. cbn [obind]. rewrite (bytes_value_little 4) by (cbn; cbn in Hv; lia). rewrite A; auto.
Qed.
Lemma read_fixed64_ok : forall tag v b, pb_ok b -> is_tag tag -> 0 <= v < 2^64 -> next_bytes b (field_bytes tag (Bits64 v)) ->
  read_fixed64 (Some b) tag = Ok (E_NONE, v, Some (advanced (zlen (field_bytes tag (Bits64 v))) b)).
Proof.
  intros tag v b Hb Ht Hv Hn. destruct (field_tag_ok _ _ _ Hb Ht Hn) as (b1 & E & Hb1 & Hn1 & A). unfold read_fixed64, read_fixed.
  change WIRE_64BIT with (wire_type (Bits64 v)). rewrite E. cbn [obind is_none err_eqb negb].
  destruct (read_space_ok b1 _ Hb1 Hn1) as [R1 R2]. cbn [wire_bytes] in *. rewrite (little_endian_len 8) in *. change (Z.of_nat 8) with 8 in *.
  rewrite R1. cbn [is_none err_eqb negb]. rewrite R2. cbn [obind]. rewrite (bytes_value_little 8) by (cbn; cbn in Hv; lia). rewrite A; auto.
Qed.
Lemma read_number_ok : forall k tag v b, pb_ok b -> is_tag tag -> in_range k v -> next_bytes b (field_bytes tag (number_wire k v)) ->
  read_number k (Some b) tag = Ok (E_NONE, v, Some (advanced (zlen (field_bytes tag (number_wire k v))) b)).
Proof.
  intros k tag v b Hb Ht Hv Hn.
  assert (M : forall n, 0 <= n mod 2^64 < 2^64) by (intros; apply Z.mod_pos_bound; reflexivity).
  assert (M32 : forall n, 0 <= n mod 2^32 < 2^32) by (intros; apply Z.mod_pos_bound; reflexivity).
  assert (MM : forall n, (n mod 2^64) mod 2^32 = n mod 2^32)
    by (intros; symmetry; apply Znumtheory.Zmod_div_mod; [reflexivity | reflexivity | exists (2^32); reflexivity]).
  destruct k; cbn [read_number number_wire] in *; unfold read_int32, read_uint32, read_int64, read_uint64, read_sint32, read_sint64, read_sfixed32, read_sfixed64, read_float, read_double, read_bool, convert.
  - rewrite (read_integer_ok tag (v mod 2^64)) by auto. cbn [obind is_none err_eqb negb]. 
    unfold to_signed. rewrite MM. fold (to_signed 32 (v mod 2^32)). cbn in Hv.
    assert (X : to_signed 32 (v mod 2^32) = v) by (apply to_signed_mod; cbn; lia). unfold to_signed in X. rewrite Z.mod_mod in X by discriminate. rewrite X. reflexivity.
  - rewrite (read_integer_ok tag (v mod 2^64)) by auto. cbn [obind is_none err_eqb negb]. rewrite MM, (Z.mod_small v (2^32)) by auto. reflexivity.
  - rewrite (read_integer_ok tag (v mod 2^64)) by auto. cbn [obind is_none err_eqb negb].
    rewrite to_signed_mod by (cbn in *; lia). reflexivity.
  - rewrite (read_integer_ok tag (v mod 2^64)) by auto. cbn [obind is_none err_eqb negb]. rewrite (Z.mod_small v) by auto. reflexivity.
  - pose proof (zigzag_range 32 v ltac:(lia) Hv). cbn [Z.sub] in *. rewrite (read_integer_ok tag (zigzag v)) by (auto; cbn in *; lia). cbn [obind is_none err_eqb negb].
    rewrite (zigzag_read 32) by (cbn in *; lia). reflexivity.
  - pose proof (zigzag_range 64 v ltac:(lia) Hv). rewrite (read_integer_ok tag (zigzag v)) by (auto; cbn in *; lia). cbn [obind is_none err_eqb negb].
    rewrite (zigzag_read 64) by (cbn in *; lia). reflexivity.
  - rewrite (read_fixed32_ok tag (v mod 2^32)) by auto. rewrite (Z.mod_small v) by auto. reflexivity.
  - rewrite (read_fixed32_ok tag (v mod 2^32)) by auto. cbn [obind is_none err_eqb negb].
    rewrite to_signed_mod by (cbn in *; lia). reflexivity.
  - rewrite (read_fixed64_ok tag (v mod 2^64)) by auto. rewrite (Z.mod_small v) by auto. reflexivity.
  - rewrite (read_fixed64_ok tag (v mod 2^64)) by auto. cbn [obind is_none err_eqb negb].
    rewrite to_signed_mod by (cbn in *; lia). reflexivity.
  - rewrite (read_fixed32_ok tag (v mod 2^32)) by auto. rewrite (Z.mod_small v) by auto. reflexivity.
  - rewrite (read_fixed64_ok tag (v mod 2^64)) by auto. rewrite (Z.mod_small v) by auto. reflexivity.
  - rewrite (read_integer_ok tag (v mod 2^64)) by auto. cbn [obind is_none err_eqb negb]. destruct Hv as [-> | ->]; reflexivity.
Qed.

(** ** Byte strings *)
Lemma delim_next : forall d b, pb_ok b -> zlen d < 2^64 -> next_bytes b (wire_bytes (Delimited d)) ->
  exists b1, read_varint (Some b) = Ok (E_NONE, zlen d, Some b1) /\ pb_ok b1 /\ next_bytes b1 d /\
    forall n, n = zlen d -> advanced n b1 = advanced (zlen (wire_bytes (Delimited d))) b.
Proof.
  intros d b Hb Hl Hn. pose proof (zlen_nonneg _ d). cbn [wire_bytes] in *. destruct (next_split _ _ _ Hb Hn) as [N1 N2].
  eexists. split; [apply read_varint_ok; auto; lia|]. split; [now apply advanced_ok|]. split; [exact N2|].
  intros n ->. rewrite advanced_advanced, zlen_app. reflexivity.
Qed.
Lemma next_len : forall b l, pb_ok b -> next_bytes b l -> zlen l < 2^64.
Proof. intros b l (H0 & H1 & _) (_ & mem & _ & H & _). lia. Qed.
(** tag and length are read: [b1] is just before the data *)
Lemma read_delim_ok : forall tag d b too_long, pb_ok b -> is_tag tag -> next_bytes b (field_bytes tag (Delimited d)) ->
  exists b1, pb_ok b1 /\ next_bytes b1 d /\ pb_posn b1 + zlen d = pb_posn b + zlen (field_bytes tag (Delimited d)) /\ pb_size b1 = pb_size b /\
    (forall n, n = zlen d -> advanced n b1 = advanced (zlen (field_bytes tag (Delimited d))) b) /\
    read_delim (Some b) tag too_long =
      if too_long b1 (zlen d) then Ok (E_INVALID_FORMAT, 0, 0, Some (with_error E_INVALID_FORMAT b1))
      else Ok (E_NONE, pb_posn b1, zlen d, Some (advanced (zlen d) b1)).
Proof.
  intros tag d b too_long Hb Ht Hn. destruct (field_tag_ok _ _ _ Hb Ht Hn) as (b0 & E & Hb0 & Hn0 & A0).
  assert (Hl : zlen d < 2^64). { pose proof (next_len _ _ Hb0 Hn0) as X. cbn [wire_bytes] in X. rewrite zlen_app in X. pose proof (zlen_nonneg _ (varint (zlen d))). lia. }
  destruct (delim_next d b0 Hb0 Hl Hn0) as (b1 & E1 & Hb1 & Hn1 & A1).
  assert (A : forall n, n = zlen d -> advanced n b1 = advanced (zlen (field_bytes tag (Delimited d))) b)
    by (intros n Hx; rewrite (A1 n Hx); now apply A0).
  exists b1. split; [exact Hb1|]. split; [exact Hn1|]. specialize (A (zlen d) eq_refl) as A'.
  split. { apply (f_equal pb_posn) in A'. exact A'. } split. { apply (f_equal pb_size) in A'. exact A'. } split; [exact A|].
  unfold read_delim. change WIRE_DELIM with (wire_type (Delimited d)). rewrite E. cbn [obind is_none err_eqb negb]. rewrite E1. cbn [obind is_none err_eqb negb].
  destruct (too_long b1 (zlen d)); [reflexivity|]. destruct (read_space_ok b1 d Hb1 Hn1) as [-> _]. reflexivity.
Qed.
Lemma read_bytes_ok : forall tag d b mem max, pb_ok b -> is_tag tag -> next_bytes b (field_bytes tag (Delimited d)) -> max <= zlen mem ->
  if zlen d <=? max then
    read_bytes (Some b) tag (Some mem) max = Ok (E_NONE, Some (d ++ drop (zlen d) mem), zlen d, Some (advanced (zlen (field_bytes tag (Delimited d))) b))
  else exists b', read_bytes (Some b) tag (Some mem) max = Ok (E_INVALID_FORMAT, Some mem, 0, Some b').
Proof.
  intros tag d b mem max Hb Ht Hn Hm. unfold read_bytes.
  destruct (read_delim_ok tag d b (fun _ value => max <? value) Hb Ht Hn) as (b1 & Hb1 & Hn1 & _ & _ & A & ->).
  destruct (Z.leb_spec (zlen d) max); destruct (Z.ltb_spec max (zlen d)); try lia; cbn [obind is_none err_eqb negb].
  - destruct (read_space_ok b1 d Hb1 Hn1) as [_ R2]. rewrite R2. cbn [obind]. pose proof (zlen_nonneg _ d). rewrite store_ok by lia.
    cbn [obind]. rewrite splice_0, A; auto.
  - eauto.
Qed.
Lemma read_string_ok : forall tag d b mem max, pb_ok b -> is_tag tag -> next_bytes b (field_bytes tag (Delimited d)) -> 0 < max <= zlen mem -> accepted d ->
  if zlen d <? max then
    read_string (Some b) tag (Some mem) max = Ok (E_NONE, Some (d ++ [0] ++ drop (zlen d + 1) mem), zlen d, Some (advanced (zlen (field_bytes tag (Delimited d))) b))
  else exists b', read_string (Some b) tag (Some mem) max = Ok (E_INVALID_FORMAT, Some (0 :: drop 1 mem), 0, Some b').
Proof.
  intros tag d b mem max Hb Ht Hn Hm Ha. unfold read_string. destruct (Z.eqb_spec max 0); [lia|].
  rewrite store_ok by (rewrite ?zlen_cons, ?zlen_nil; lia). cbn [obind]. rewrite splice_0. change (zlen [0]) with 1. cbn [app].
  destruct (read_delim_ok tag d b (fun _ value => max <=? value) Hb Ht Hn) as (b1 & Hb1 & Hn1 & _ & _ & A & ->).
  pose proof (zlen_nonneg _ d).
  destruct (Z.ltb_spec (zlen d) max); destruct (Z.leb_spec max (zlen d)); try lia; cbn [obind is_none err_eqb negb].
  - destruct (read_space_ok b1 d Hb1 Hn1) as [_ R2]. rewrite R2. cbn [obind]. unfold check_utf8. unfold accepted in Ha. rewrite Ha. cbn [obind negb is_none err_eqb].
    assert (L : zlen (0 :: drop 1 mem) = zlen mem) by (rewrite zlen_cons, zlen_drop; lia).
    rewrite store_ok by lia. cbn [obind]. 
    assert (L2 : zlen (splice 0 d (0 :: drop 1 mem)) = zlen mem) by (rewrite splice_length by lia; exact L).
    rewrite store_ok by (change (zlen [0]) with 1; lia). cbn [obind].
    rewrite A by reflexivity. repeat f_equal. rewrite splice_0. unfold splice. rewrite take_app_exact. change (zlen [0]) with 1. f_equal. cbn [app]. f_equal.
    rewrite drop_app_ge by lia. rewrite drop_drop by lia. replace (zlen d + 1 - zlen d + zlen d) with (zlen d + 1) by lia.
    change (0 :: drop 1 mem) with ([0] ++ drop 1 mem). rewrite drop_app_ge by (change (zlen [0]) with 1; lia). change (zlen [0]) with 1. rewrite drop_drop by lia. f_equal. lia.
  - eauto.
Qed.
Lemma read_alloc_string_ok : forall tag d b max ok, pb_ok b -> is_tag tag -> next_bytes b (field_bytes tag (Delimited d)) -> accepted d ->
  if (max =? 0) || (zlen d <=? max) then
    if ok : bool then read_alloc_string true (Some b) tag max = Ok (E_NONE, Some (d ++ [0]), zlen d, Some (advanced (zlen (field_bytes tag (Delimited d))) b))
    else exists b', read_alloc_string false (Some b) tag max = Ok (E_NO_MEMORY, None, 0, Some b') /\ pb_error b' = E_NO_MEMORY
  else exists b', read_alloc_string ok (Some b) tag max = Ok (E_INVALID_FORMAT, None, 0, Some b').
Proof.
  intros tag d b max ok Hb Ht Hn Ha. unfold read_alloc_string.
  destruct (read_delim_ok tag d b (alloc_limit max) Hb Ht Hn) as (b1 & Hb1 & Hn1 & _ & _ & A & ->).
  assert (Hl : alloc_limit max b1 (zlen d) = negb ((max =? 0) || (zlen d <=? max))).
  { unfold alloc_limit. destruct Hb1 as (B1 & B2 & _). destruct Hn1 as (_ & m & _ & B3 & _). destruct (Z.eqb_spec max 0); cbn [orb].
    - rewrite usize_small by lia. destruct (Z.ltb_spec (pb_size b1 - pb_posn b1) (zlen d)); [lia|reflexivity].
    - lia. }
  rewrite Hl. destruct ((max =? 0) || (zlen d <=? max)); cbn [negb obind is_none err_eqb]; [|eauto].
  destruct (read_space_ok b1 d Hb1 Hn1) as [_ R2]. unfold check_utf8. unfold accepted in Ha.
  destruct ok; rewrite R2; cbn [obind]; rewrite Ha; cbn [obind negb is_none err_eqb].
  - now rewrite A.
  - eexists. split; reflexivity.
Qed.
Lemma read_alloc_bytes_ok : forall tag d b max ok, pb_ok b -> is_tag tag -> next_bytes b (field_bytes tag (Delimited d)) ->
  if (max =? 0) || (zlen d <=? max) then
    if ok : bool then read_alloc_bytes true (Some b) tag max =
      Ok (E_NONE, Some (if 0 <? zlen d then d else [0]), zlen d, Some (advanced (zlen (field_bytes tag (Delimited d))) b))
    else exists b', read_alloc_bytes false (Some b) tag max = Ok (E_NO_MEMORY, None, 0, Some b') /\ pb_error b' = E_NO_MEMORY
  else exists b', read_alloc_bytes ok (Some b) tag max = Ok (E_INVALID_FORMAT, None, 0, Some b').
Proof.
  intros tag d b max ok Hb Ht Hn. unfold read_alloc_bytes.
  destruct (read_delim_ok tag d b (alloc_limit max) Hb Ht Hn) as (b1 & Hb1 & Hn1 & _ & _ & A & ->).
  assert (Hl : alloc_limit max b1 (zlen d) = negb ((max =? 0) || (zlen d <=? max))).
  { unfold alloc_limit. destruct Hb1 as (B1 & B2 & _). destruct Hn1 as (_ & m & _ & B3 & _). destruct (Z.eqb_spec max 0); cbn [orb].
    - rewrite usize_small by lia. destruct (Z.ltb_spec (pb_size b1 - pb_posn b1) (zlen d)); [lia|reflexivity].
    - lia. }
  rewrite Hl. destruct ((max =? 0) || (zlen d <=? max)); cbn [negb obind is_none err_eqb]; [|eauto].
  destruct (read_space_ok b1 d Hb1 Hn1) as [_ R2].
  destruct ok; cbn [obind negb].
  - rewrite R2. cbn [obind]. now rewrite A.
  - eexists. split; reflexivity.
Qed.

(** ** Elements *)
Lemma read_start_ok : forall tag d b, pb_ok b -> is_tag tag -> tag <> 0 -> next_bytes b (field_bytes tag (Delimited d)) ->
  exists b1, read_start_element (Some b) tag = Ok (E_NONE, pb_posn b + zlen (field_bytes tag (Delimited d)), Some b1) /\
    pb_ok b1 /\ next_bytes b1 d /\ forall n, n = zlen d -> advanced n b1 = advanced (zlen (field_bytes tag (Delimited d))) b.
Proof.
  intros tag d b Hb Ht H0 Hn. unfold read_start_element. pose proof (zlen_nonneg _ d).
  destruct (field_tag_ok _ _ _ Hb Ht Hn) as (b0 & E & Hb0 & Hn0 & A0).
  assert (Hl : zlen d < 2^64). { pose proof (next_len _ _ Hb0 Hn0) as X. cbn [wire_bytes] in X. rewrite zlen_app in X. pose proof (zlen_nonneg _ (varint (zlen d))). lia. }
  destruct (delim_next d b0 Hb0 Hl Hn0) as (b1 & E1 & Hb1 & Hn1 & A1).
  change WIRE_DELIM with (wire_type (Delimited d)). rewrite E. cbn [obind is_none err_eqb negb].
  destruct (Z.eqb_spec tag 0); [lia|]. cbn [negb]. rewrite E1. cbn [obind is_none err_eqb negb].
  assert (B1 := Hb1). destruct B1 as (B1 & B2 & _). assert (N1 := Hn1). destruct N1 as (_ & mem & _ & N1 & _).
  rewrite usize_small by lia. destruct (Z.ltb_spec (pb_size b1 - pb_posn b1) (zlen d)); [lia|].
  exists b1. split; [|split; [exact Hb1|split; [exact Hn1|]]].
  - assert (X := A1 (zlen d) eq_refl). rewrite (A0 _ eq_refl) in X. apply (f_equal pb_posn) in X. cbn [advanced with_posn pb_posn] in X.
    rewrite X. reflexivity.
  - intros n0 Hx. rewrite (A1 n0 Hx). now apply A0.
Qed.

(** ** Skipping *)
Lemma read_skip_ok : forall tag w b, pb_ok b -> 0 < tag < 2^31 -> next_bytes b (field_bytes tag w) ->
  match w with Varint v => 0 <= v < 2^64 | _ => True end ->
  read_skip (Some b) = Ok (E_NONE, Some (advanced (zlen (field_bytes tag w)) b)).
Proof.
  intros tag w b Hb Ht Hn Hw. unfold read_skip.
  assert (Hf : field_bytes tag w = varint (tag * 8 + wire_type w) ++ wire_bytes w) by (unfold field_bytes; destruct (Z.eqb_spec tag 0); [lia|reflexivity]).
  rewrite Hf in *. destruct (next_split _ _ _ Hb Hn) as [N1 N2]. pose proof (advanced_ok _ _ Hb N1) as Hb1.
  assert (0 <= wire_type w < 8) by (destruct w; cbn; lia).
  rewrite (read_varint_ok (tag * 8 + wire_type w)) by (auto; cbn in *; lia). cbn [obind is_none err_eqb negb].
  assert (Ety : Z.land (tag * 8 + wire_type w) 7 = wire_type w).
  { change 7 with (Z.ones 3). rewrite Z.land_ones by lia. change (2^3) with 8. rewrite Z.add_comm, Z.mod_add by lia. apply Z.mod_small. lia. }
  rewrite Ety. set (b1 := advanced (zlen (varint (tag * 8 + wire_type w))) b) in *.
  assert (A : forall n, n = zlen (wire_bytes w) -> advanced n b1 = advanced (zlen (varint (tag * 8 + wire_type w) ++ wire_bytes w)) b)
    by (intros n ->; unfold b1; rewrite advanced_advanced, zlen_app; reflexivity).
  destruct w as [v | v | d | v]; cbn [wire_type]; unfold WIRE_VARINT, WIRE_64BIT, WIRE_DELIM, WIRE_32BIT; cbn [Z.eqb Pos.eqb].
  - rewrite (read_varint_ok v) by auto. cbn [obind]. now rewrite A.
  - destruct (read_space_ok b1 _ Hb1 N2) as [R1 _]. cbn [wire_bytes] in *. rewrite little_endian_len in *. change (Z.of_nat 8) with 8 in *. rewrite R1, A; auto.
  - assert (Hl : zlen d < 2^64). { pose proof (next_len _ _ Hb1 N2) as X. cbn [wire_bytes] in X. rewrite zlen_app in X. pose proof (zlen_nonneg _ (varint (zlen d))). lia. }
    destruct (delim_next d b1 Hb1 Hl N2) as (b2 & -> & Hb2 & Hn2 & A2). cbn [obind is_none err_eqb].
    assert (B1 := Hb2). destruct B1 as (B1 & B2 & _). destruct Hn2 as (_ & mem & _ & Hn2 & _). pose proof (zlen_nonneg _ d).
    rewrite usize_small by lia. destruct (Z.leb_spec (zlen d) (pb_size b2 - pb_posn b2)); [|lia].
    fold (advanced (zlen d) b2). rewrite A2 by reflexivity. now rewrite A.
  - destruct (read_space_ok b1 _ Hb1 N2) as [R1 _]. cbn [wire_bytes] in *. rewrite little_endian_len in *. change (Z.of_nat 4) with 4 in *. rewrite R1, A; auto.
Qed.
