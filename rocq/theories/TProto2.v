(** Property C71: fields with another tag or of another type are refused, and
    every encoding of an integer is understood. *)
From Coq Require Import ZifyBool.
From Verif Require Import Base MProto SProto PSha2 PProto PProtoNum PProtoRead PProtoSafe.

Definition refused (r : pbuf) : Prop := pb_error r = E_INVALID_FORMAT.
(** C71, first part *)
Lemma read_tag_refused : forall tag type tag' w r, 0 < tag < 2^31 -> 0 < tag' < 2^31 -> 0 <= type < 8 -> pb_ok r -> next_bytes r (field_bytes tag' w) ->
  tag' <> tag \/ wire_type w <> type ->
  exists r', read_tag (Some r) tag type = Ok (E_INVALID_FORMAT, Some r') /\ refused r'.
Proof.
  intros tag type tag' w r Ht Ht' Hty Hr Hn Hd. unfold read_tag. destruct (Z.ltb_spec 0 tag); [|lia].
  unfold field_bytes in Hn. destruct (Z.eqb_spec tag' 0); [lia|]. destruct (next_split _ _ _ Hr Hn) as [N1 _].
  assert (Hw : 0 <= wire_type w < 8) by (destruct w; cbn; lia).
  rewrite (read_varint_ok (tag' * 8 + wire_type w)) by (auto; lia). cbn [obind is_none err_eqb].
  assert (Ev : tag_value tag type = tag * 8 + type) by (apply tag_value_eq; [unfold is_tag|]; lia).
  rewrite Ev. destruct (Z.eqb_spec (tag * 8 + type) (tag' * 8 + wire_type w)); [lia|]. cbn [negb].
  eexists. split; [reflexivity|]. reflexivity.
Qed.

Theorem C71_other_fields_refused : forall tag tag' w r, 0 < tag < 2^31 -> 0 < tag' < 2^31 -> pb_ok r -> next_bytes r (field_bytes tag' w) ->
  (forall k, tag' <> tag \/ wire_type w <> number_type k ->
    exists r', read_number k (Some r) tag = Ok (E_INVALID_FORMAT, 0, Some r') /\ refused r') /\
  (tag' <> tag \/ wire_type w <> 2 ->
    (forall store max, 0 <= max <= zlen store -> exists r', read_bytes (Some r) tag (Some store) max = Ok (E_INVALID_FORMAT, Some store, 0, Some r') /\ refused r') /\
    (forall store max, 0 < max <= zlen store ->
      exists r', read_string (Some r) tag (Some store) max = Ok (E_INVALID_FORMAT, Some (0 :: drop 1 store), 0, Some r') /\ refused r') /\
    (forall alloc max, exists r', read_alloc_string alloc (Some r) tag max = Ok (E_INVALID_FORMAT, None, 0, Some r') /\ refused r') /\
    (forall alloc max, exists r', read_alloc_bytes alloc (Some r) tag max = Ok (E_INVALID_FORMAT, None, 0, Some r') /\ refused r') /\
    (exists r', read_start_element (Some r) tag = Ok (E_INVALID_FORMAT, 0, Some r') /\ refused r')).
Proof.
  intros tag tag' w r Ht Ht' Hr Hn. split.
  - intros k Hd. assert (0 <= number_type k < 8) as Hk by (destruct k; cbn; lia).
    destruct (read_tag_refused tag (number_type k) tag' w r Ht Ht' Hk Hr Hn Hd) as (r' & E & R). exists r'. split; [|exact R].
    destruct k; cbn [read_number number_type] in *;
      unfold read_int32, read_uint32, read_int64, read_uint64, read_sint32, read_sint64, read_bool, read_sfixed32, read_sfixed64,
        read_float, read_double, read_fixed32, read_fixed64, convert, read_integer, read_fixed, WIRE_VARINT, WIRE_32BIT, WIRE_64BIT;
      rewrite E; reflexivity.
  - intros Hd. destruct (read_tag_refused tag 2 tag' w r Ht Ht' ltac:(lia) Hr Hn Hd) as (r' & E & R).
    assert (D : forall f, read_delim (Some r) tag f = Ok (E_INVALID_FORMAT, 0, 0, Some r')) by (intros f; unfold read_delim, WIRE_DELIM; now rewrite E).
    split; [|split; [|split; [|split]]].
    + intros store max Hm. exists r'. unfold read_bytes. rewrite D. auto.
    + intros store max Hm. exists r'. unfold read_string. rewrite D. destruct (Z.eqb_spec max 0); [lia|].
      rewrite store_ok by (change (zlen [0]) with 1; lia). cbn [obind is_none err_eqb negb]. rewrite splice_0. auto.
    + intros alloc max. exists r'. unfold read_alloc_string. rewrite D. auto.
    + intros alloc max. exists r'. unfold read_alloc_bytes. rewrite D. auto.
    + exists r'. unfold read_start_element, WIRE_DELIM. rewrite E. auto.
Qed.
Print Assumptions C71_other_fields_refused.

(** C71, second part *)
Lemma groups_value_range : forall l, 0 <= groups_value l < 2 ^ (7 * zlen l).
Proof.
  induction l as [|c l IH]; [split; now vm_compute|]. unfold groups_value in *. cbn [fold_right]. rewrite zlen_cons.
  pose proof (zlen_nonneg _ l). replace (7 * (1 + zlen l)) with (7 + 7 * zlen l) by lia. rewrite Z.pow_add_r by lia. change (2^7) with 128.
  pose proof (Z.mod_pos_bound c 128 ltac:(lia)). lia.
Qed.
Lemma mod_shift : forall c s, 0 <= s <= 64 -> (c * 2 ^ s) mod 2 ^ 64 = c mod 2 ^ (64 - s) * 2 ^ s.
Proof.
  intros c s Hs. replace (2 ^ 64) with (2 ^ (64 - s) * 2 ^ s) by (rewrite <- Z.pow_add_r by lia; f_equal; lia).
  apply Z.mul_mod_distr_r; apply Z.pow_nonzero; lia.
Qed.
Lemma read_groups_ok : forall groups n b mem shift value last, pb_ok b -> pb_data b = Some mem ->
  Forall (fun c => 128 <= c < 256) groups -> 0 <= last < 128 -> zlen groups < Z.of_nat n -> 0 <= shift -> shift + 7 * zlen groups <= 63 ->
  0 <= value < 2 ^ shift -> next_bytes b (groups ++ [last]) ->
  read_loop n b mem shift value = Ok (E_NONE, (value + groups_value (groups ++ [last]) * 2 ^ shift) mod 2^64, advanced (zlen (groups ++ [last])) b).
Proof.
  induction groups as [|c gs IH]; intros n b mem shift value last Hb Em Hg Hl Hn Hs Hf Hv Hx; (destruct n as [|n]; [exfalso; match type of Hn with zlen ?l < _ => pose proof (zlen_nonneg _ l) end; lia|]);
    cbn [app read_loop] in *.
  - destruct (fetch_next _ _ _ _ Hb Em Hx) as (-> & Hp & Hc & _ & _). cbn [obind]. destruct (Z.leb_spec (pb_size b) (pb_posn b)); [lia|].
    destruct (byte_facts last Hc) as (-> & _ & -> & _). rewrite (Z.mod_small last 128) by lia. destruct (Z.ltb_spec last 128); [|lia].
    rewrite zlen_nil in Hf. rewrite Z.shiftl_mul_pow2 by lia. rewrite mod_shift by lia.
    rewrite lor_add_low by lia. change (zlen [last]) with 1. do 3 f_equal.
    unfold groups_value. cbn [fold_right]. rewrite (Z.mod_small last 128) by lia. replace (last + 128 * 0) with last by lia.
    rewrite Z.add_mod, mod_shift by lia. rewrite (Z.mod_small value).
    2:{ split; [lia|]. apply Z.lt_le_trans with (2 ^ shift); [lia|]. apply Z.pow_le_mono_r; lia. }
    symmetry. apply Z.mod_small. assert (P : 2 ^ 64 = 2 ^ (64 - shift) * 2 ^ shift) by (rewrite <- Z.pow_add_r by lia; f_equal; lia).
    assert (0 < 2 ^ (64 - shift)) by (apply Z.pow_pos_nonneg; lia). pose proof (Z.mod_pos_bound last (2 ^ (64 - shift)) ltac:(lia)). nia.
  - rewrite zlen_cons in *. pose proof (zlen_nonneg _ gs). inversion Hg as [|? ? Hc0 Hg']; subst.
    destruct (fetch_next _ _ _ _ Hb Em Hx) as (-> & Hp & Hc & Hx1 & Hb1). cbn [obind]. destruct (Z.leb_spec (pb_size b) (pb_posn b)); [lia|].
    destruct (byte_facts c Hc) as (-> & _ & -> & _). destruct (Z.ltb_spec c 128); [lia|].
    assert (P7 : 2 ^ (shift + 7) = 2 ^ shift * 128) by (rewrite Z.pow_add_r by lia; reflexivity).
    pose proof (Z.mod_pos_bound c 128 ltac:(lia)). assert (0 < 2 ^ shift) by (apply Z.pow_pos_nonneg; lia).
    assert (2 ^ (shift + 7) <= 2 ^ 63) by (apply Z.pow_le_mono_r; lia). change (2 ^ 63) with (9223372036854775808) in *. change (2^64) with 18446744073709551616 in *.
    rewrite Z.shiftl_mul_pow2 by lia. rewrite (Z.mod_small (c mod 128 * 2 ^ shift)) by nia. rewrite lor_add_low by lia.
    change (with_posn (pb_posn b + 1) b) with (advanced 1 b).
    rewrite (IH n (advanced 1 b) mem (shift + 7) _ last); auto; try lia; try (rewrite P7; nia).
    rewrite advanced_advanced. rewrite <- (zlen_cons _ c). do 3 f_equal. unfold groups_value. cbn [fold_right app]. rewrite P7. f_equal. ring.
Qed.
Lemma read_any_varint : forall l r, a_varint l -> pb_ok r -> next_bytes r l ->
  read_varint (Some r) = Ok (E_NONE, groups_value l mod 2^64, Some (advanced (zlen l) r)).
Proof.
  intros l r (gs & last & -> & Hg & Hl & H10) Hr Hn. unfold read_varint. assert (Hn' := Hn). destruct Hn' as (He & mem & Em & _). rewrite Em, He. cbn [is_none err_eqb negb].
  rewrite zlen_app in H10. change (zlen [last]) with 1 in H10. destruct gs as [|c gs]; cbn [app] in *.
  - destruct (fetch_next _ _ _ _ Hr Em Hn) as (-> & Hp & Hc & _ & _). cbn [obind]. destruct (Z.leb_spec (pb_size r) (pb_posn r)); [lia|].
    destruct (byte_facts last Hc) as (_ & _ & -> & _). destruct (Z.ltb_spec last 128); [|lia].
    unfold groups_value. cbn [fold_right]. rewrite (Z.mod_small last 128), Z.mod_small by lia. replace (last + 128 * 0) with last by lia. reflexivity.
  - rewrite zlen_cons in H10. inversion Hg as [|? ? Hc0 Hg']; subst. destruct (fetch_next _ _ _ _ Hr Em Hn) as (-> & Hp & Hc & Hn1 & Hr1). cbn [obind].
    destruct (Z.leb_spec (pb_size r) (pb_posn r)); [lia|]. destruct (byte_facts c Hc) as (-> & _ & -> & _). destruct (Z.ltb_spec c 128); [lia|].
    change (with_posn (pb_posn r + 1) r) with (advanced 1 r). pose proof (Z.mod_pos_bound c 128 ltac:(lia)).
    rewrite (read_groups_ok gs 9 (advanced 1 r) mem 7 (c mod 128) last); auto; try lia.
    cbn [obind]. rewrite advanced_advanced, <- zlen_cons with (x := c). do 4 f_equal. unfold groups_value. cbn [fold_right]. f_equal. change (2^7) with 128. ring.
Qed.

(** The bytes of an integer field, whatever encoding is chosen for tag and value *)
Definition integer_field (tag : Z) (n : Z) (l : list Z) : Prop :=
  exists t v, a_varint t /\ groups_value t = tag * 8 /\ a_varint v /\ groups_value v = n /\ l = t ++ v.
Theorem C71_every_encoding_understood : forall k tag n l r, 0 < tag < 2^31 -> integer_field tag n l -> pb_ok r -> next_bytes r l ->
  number_type k = 0 ->
  exists v, read_number k (Some r) tag = Ok (E_NONE, v, Some (advanced (zlen l) r)) /\ number_from k n v.
Proof.
  intros k tag n l r Ht (t & v & At & Et & Av & Ev & ->) Hr Hn Hk.
  destruct (next_split _ _ _ Hr Hn) as [N1 N2]. pose proof (advanced_ok _ _ Hr N1) as Hr1.
  pose proof (read_any_varint _ _ At Hr N1) as R1. pose proof (read_any_varint _ _ Av Hr1 N2) as R2. rewrite Et in R1. rewrite Ev in R2.
  rewrite (Z.mod_small (tag * 8)) in R1 by lia. rewrite advanced_advanced, <- zlen_app in R2.
  assert (I : read_integer (Some r) tag = Ok (E_NONE, n mod 2^64, Some (advanced (zlen (t ++ v)) r))).
  { unfold read_integer, read_tag. destruct (Z.ltb_spec 0 tag); [|lia]. rewrite R1. cbn [obind is_none err_eqb].
    rewrite tag_value_eq by (unfold is_tag, WIRE_VARINT; lia). replace (tag * 8 + WIRE_VARINT) with (tag * 8) by (unfold WIRE_VARINT; lia).
    rewrite Z.eqb_refl. cbn [negb obind is_none err_eqb]. exact R2. }
  pose proof (Z.mod_pos_bound n (2^64) ltac:(lia)) as B. pose proof (Z.div_mod n (2^64) ltac:(lia)) as D.
  set (m := n mod 2^64) in *. set (q := n / 2^64) in *.
  assert (T : forall w, w = 32 \/ w = 64 -> - 2^(w-1) <= to_signed w m < 2^(w-1) /\ exists p, m = to_signed w m + p * 2^w).
  { intros w [-> | ->]; unfold to_signed.
    - pose proof (Z.mod_pos_bound m (2^32) ltac:(lia)). pose proof (Z.div_mod m (2^32) ltac:(lia)). change (2^(32-1)) with 2147483648. change (2^32) with 4294967296 in *.
      destruct (Z.ltb_spec (m mod 4294967296) 2147483648); (split; [lia|]); [exists (m / 4294967296) | exists (m / 4294967296 + 1)]; lia.
    - change (2^(64-1)) with 9223372036854775808. change (2^64) with 18446744073709551616 in *. rewrite (Z.mod_small m) by lia.
      destruct (Z.ltb_spec m 9223372036854775808); (split; [lia|]); [exists 0 | exists 1]; lia. }
  assert (Z : exists v, - 2^63 <= v < 2^63 /\ zigzag v = m).
  { exists (if m mod 2 =? 0 then m / 2 else - (m / 2) - 1). change (2^64) with 18446744073709551616 in *. change (2^63) with 9223372036854775808.
    unfold zigzag. destruct (Z.eqb_spec (m mod 2) 0); match goal with |- context [0 <=? ?x] => destruct (Z.leb_spec 0 x) end; Z.div_mod_to_equations; lia. }
  destruct Z as (z & Hz & Ez).
  destruct k; try discriminate Hk; cbn [read_number]; unfold read_int32, read_uint32, read_int64, read_uint64, read_sint32, read_sint64, read_bool, convert; rewrite I; cbn [obind is_none err_eqb negb];
    (eexists; split; [reflexivity|]); unfold number_from, in_range.
  - destruct (T 32 (or_introl eq_refl)) as [T1 (p & T2)]. split; [exact T1|]. exists (p + q * 2^32). lia.
  - pose proof (Z.mod_pos_bound m (2^32) ltac:(lia)). split; [lia|]. exists (m / 2^32 + q * 2^32). pose proof (Z.div_mod m (2^32) ltac:(lia)). lia.
  - destruct (T 64 (or_intror eq_refl)) as [T1 (p & T2)]. split; [exact T1|]. exists (p + q). lia.
  - split; [lia|]. exists q. lia.
  - split.
    + assert (L1 : Z.land m 1 = m mod 2) by (change 1 with (Z.ones 1); now rewrite Z.land_ones by lia). rewrite L1. pose proof (Z.mod_pos_bound m 2 ltac:(lia)).
      assert (X : - 2^31 <= to_signed 32 (Z.shiftr m 1) < 2^31).
      { unfold to_signed. pose proof (Z.mod_pos_bound (Z.shiftr m 1) (2^32) ltac:(lia)). change (2^(32-1)) with (2^31). cbv zeta. change (2^31) with 2147483648 in *. change (2^32) with 4294967296 in *. destruct (Z.ltb_spec (Z.shiftr m 1 mod 4294967296) 2147483648); lia. }
      assert (m mod 2 = 0 \/ m mod 2 = 1) as [-> | ->] by lia; [change (- 0) with 0; now rewrite Z.lxor_0_r|].
      change (-(1)) with (-1). rewrite Z.lxor_m1_r. unfold Z.lnot. lia.
    + intros Hm. assert (- 2^31 <= z < 2^31) by (unfold zigzag in Ez; destruct (0 <=? z) eqn:?; lia).
      rewrite <- Ez. rewrite (zigzag_read 32) by lia. exists q. lia.
  - rewrite <- Ez. rewrite (zigzag_read 64) by (lia || exact Hz). split; [exact Hz|]. exists q. lia.
  - split; [destruct (m =? 0); auto|]. destruct (Z.eqb_spec m 0) as [E|E]; split; intros H; try lia.
    + destruct H. exists q. lia.
    + intros (p & Ep). apply E. unfold m. rewrite Ep. apply Z.mod_mul. lia.
Qed.
Print Assumptions C71_every_encoding_understood.

(** A reader at a boolean field with tag 1 whose value 2 is encoded in three
    bytes, and whose tag is encoded in two *)
Example C71_every_encoding_case : integer_field 1 2 [136; 0; 130; 128; 0] /\
  pb_ok (prepare_input [136; 0; 130; 128; 0] 5) /\ next_bytes (prepare_input [136; 0; 130; 128; 0] 5) [136; 0; 130; 128; 0] /\
  read_number Bool (Some (prepare_input [136; 0; 130; 128; 0] 5)) 1 = Ok (E_NONE, 1, Some (advanced 5 (prepare_input [136; 0; 130; 128; 0] 5))).
Proof.
  split; [|split; [|split]].
  - exists [136; 0], [130; 128; 0]. split; [|split; [reflexivity|]; split; [|split; reflexivity]].
    + exists [136], 0. split; [reflexivity|]. split; [repeat constructor; lia|]. split; [lia | now vm_compute].
    + exists [130; 128], 0. split; [reflexivity|]. split; [repeat constructor; lia|]. split; [lia | now vm_compute].
  - repeat split; try (now vm_compute); repeat constructor; lia.
  - split; [reflexivity|]. eexists. split; [reflexivity|]. split; [now vm_compute|reflexivity].
  - vm_compute. reflexivity.
Qed.
(** A varint field where a 32 bit field is expected *)
Example C71_other_fields_case : next_bytes (prepare_input [8; 5] 2) (field_bytes 1 (Varint 5)) /\
  read_number Fixed32 (Some (prepare_input [8; 5] 2)) 1 = Ok (E_INVALID_FORMAT, 0, Some (with_error E_INVALID_FORMAT (advanced 1 (prepare_input [8; 5] 2)))).
Proof.
  split; [|vm_compute; reflexivity]. split; [reflexivity|]. eexists. split; [reflexivity|]. split; [now vm_compute|reflexivity].
Qed.
