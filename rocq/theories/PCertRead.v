(** Proofs about certificate objects: reading. *)
From Coq Require Import ZifyBool ZifyNat.
From Verif Require Import Base MProto SProto PProtoNum PProto PProtoRead PProtoUtf8 MCert SCert PCert.

(** ** Peeking at the tag of the next field *)
Lemma peek_loop_value : forall n v b mem shift value len m, pb_ok b -> pb_data b = Some mem -> (m <= n)%nat ->
  0 <= v < 128 ^ Z.of_nat m -> m <> O -> next_bytes b (varint_groups m v) -> 0 <= shift -> 0 <= value < 2 ^ shift -> v * 2 ^ shift < 2^64 ->
  exists len', peek_loop n mem (pb_size b) shift value len (pb_posn b) = Ok (E_NONE, value + v * 2 ^ shift, len').
Proof.
  induction n; intros v b mem shift value len m Hb Em Hm Hv Hm0 Hn Hsh Hval Hfit; [lia|].
  destruct m as [|m]; [lia|]. cbn [varint_groups] in *. cbn [peek_loop].
  assert (P : 128 ^ Z.of_nat (S m) = 128 * 128 ^ Z.of_nat m) by (rewrite Nat2Z.inj_succ, Z.pow_succ_r; lia).
  assert (P2 : 0 < 2 ^ shift) by (apply Z.pow_pos_nonneg; lia).
  destruct (Z.ltb_spec v 128).
  - destruct (fetch_next _ _ _ _ Hb Em Hn) as (-> & Hp & Hc & _ & _). cbn [obind].
    destruct (Z.leb_spec (pb_size b) (pb_posn b)); [lia|].
    destruct (byte_facts v Hc) as (-> & _ & -> & _). rewrite (Z.mod_small v 128) by lia.
    destruct (Z.ltb_spec v 128); [|lia]. rewrite Z.shiftl_mul_pow2 by lia. rewrite Z.mod_small by nia.
    rewrite lor_add_low by lia. eauto.
  - set (c := v mod 128 + 128) in *. destruct (fetch_next _ _ _ _ Hb Em Hn) as (-> & Hp & Hc & Hn1 & Hb1). cbn [obind].
    destruct (Z.leb_spec (pb_size b) (pb_posn b)); [lia|].
    destruct (byte_facts c Hc) as (-> & _ & -> & _). unfold is_byte in Hc.
    assert (Ec : c mod 128 = v mod 128).
    { unfold c. replace (v mod 128 + 128) with (v mod 128 + 1 * 128) by lia. rewrite Z.mod_add by lia. apply Z.mod_mod. lia. }
    rewrite Ec. destruct (Z.ltb_spec c 128). { pose proof (Z.mod_pos_bound v 128). unfold c in *. lia. }
    pose proof (Z.mod_pos_bound v 128 ltac:(lia)) as Hmod. pose proof (Z.div_mod v 128 ltac:(lia)) as Hdm.
    assert (Hd : 0 <= v / 128 < 128 ^ Z.of_nat m) by (split; [apply Z.div_pos; lia | apply Z.div_lt_upper_bound; lia]).
    rewrite Z.shiftl_mul_pow2 by lia. rewrite Z.mod_small by nia.
    rewrite lor_add_low by lia.
    assert (P7 : 2 ^ (shift + 7) = 2 ^ shift * 128) by (rewrite Z.pow_add_r by lia; reflexivity).
    assert (m <> O) by (intros ->; change (128 ^ Z.of_nat 0) with 1 in *; lia).
    destruct (IHn (v / 128) (advanced 1 b) mem (shift + 7) (value + v mod 128 * 2 ^ shift) (len + 1) m) as [len' E]; auto; try lia; try nia.
    cbn in E. rewrite E. exists len'. 
    assert (Ev : value + v mod 128 * 2 ^ shift + v / 128 * 2 ^ (shift + 7) = value + v * 2 ^ shift)
      by (transitivity (value + (128 * (v / 128) + v mod 128) * 2 ^ shift); [rewrite P7; ring | now rewrite <- Hdm]).
    rewrite Ev. reflexivity.
Qed.
Lemma peek_tag_next : forall tag wt l b, pb_ok b -> 0 < tag < 2^31 -> 0 <= wt < 8 -> next_bytes b (varint (tag * 8 + wt) ++ l) ->
  exists t, peek_tag (Some b) = Ok t /\ (tag < 16 -> t = tag) /\ (16 <= tag -> t = 0 \/ 16 <= t).
Proof.
  intros tag wt l b Hb Ht Hw Hn. destruct (next_split _ _ _ Hb Hn) as [N1 _]. set (v := tag * 8 + wt) in *.
  assert (N := N1). destruct N as (He & mem & Em & _). assert (B := Hb). destruct B as (B0 & B1 & B2).
  unfold peek_tag. destruct (Z.ltb_spec v 128).
  - rewrite varint_one in N1 by (unfold v in *; lia).
    assert (Hp : pb_posn b < pb_size b) by (destruct (fetch_next _ _ _ _ Hb Em N1) as (_ & X & _); exact X).
    rewrite (peek_varint_one b 0 v []); [|auto|lia|auto|now rewrite advanced_0|unfold v in *; lia|lia]. cbn [obind is_none err_eqb negb].
    assert (Es : Z.shiftr v 3 = tag). { rewrite Z.shiftr_div_pow2 by lia. change (2^3) with 8. unfold v. symmetry. apply (Z.div_unique _ _ _ wt); lia. }
    rewrite Es. unfold MAX_TAG. destruct (Z.eqb_spec tag 0); [lia|]. destruct (Z.ltb_spec (2^29-1) tag); [unfold v in *; lia|]. cbn [orb].
    eexists. split; [reflexivity|]. split; [auto|unfold v in *; lia].
  - unfold peek_varint. rewrite Em, He. cbn [is_none err_eqb negb]. rewrite Z.add_0_r. unfold usize. rewrite Z.mod_small by lia.
    assert (N2 := N1). unfold varint in N2. cbn [varint_groups] in N2. destruct (Z.ltb_spec v 128); [lia|].
    destruct (fetch_next _ _ _ _ Hb Em N2) as (F & Hp & Hc & _). destruct (Z.leb_spec (pb_size b) (pb_posn b)); [lia|]. rewrite F. cbn [obind].
    set (c := v mod 128 + 128) in *. destruct (byte_facts c Hc) as (-> & _ & -> & _).
    assert (Ec : c mod 128 = v mod 128).
    { unfold c. replace (v mod 128 + 128) with (v mod 128 + 1 * 128) by lia. rewrite Z.mod_add by lia. apply Z.mod_mod. lia. }
    pose proof (Z.mod_pos_bound v 128 ltac:(lia)) as Hmod.
    destruct (Z.ltb_spec c 128); [unfold c in *; lia|]. rewrite Ec.
    assert (N5 : next_bytes b (varint_groups 9 v)).
    { unfold varint in N1. assert (forall n m v, (n <= m)%nat -> 0 <= v < 128 ^ Z.of_nat n -> n <> O -> varint_groups n v = varint_groups m v) as G.
      { clear. induction n; intros m v Hnm Hv H0; [lia|]. destruct m as [|m]; [lia|]. cbn [varint_groups]. destruct (Z.ltb_spec v 128); [reflexivity|]. f_equal.
        assert (P : 128 ^ Z.of_nat (S n) = 128 * 128 ^ Z.of_nat n) by (rewrite Nat2Z.inj_succ, Z.pow_succ_r; lia).
        apply IHn; [lia| |].
        - split; [apply Z.div_pos; lia | apply Z.div_lt_upper_bound; lia].
        - intros ->. change (128 ^ Z.of_nat 0) with 1 in *. lia. }
      rewrite (G 9%nat 10%nat); auto. change (Z.of_nat 9) with 9. change (128^9) with (2^63). unfold v. lia. }
    destruct (peek_loop_value 9 v b mem 7 (v mod 128) (0 + 1) 9 Hb Em) as [len' ->]; auto;
      try (change (Z.of_nat 9) with 9; change (128^9) with (2^63); unfold v in *; lia).
    cbn [obind is_none err_eqb negb]. change (2^7) with 128.
    assert (2048 <= Z.shiftr (v mod 128 + v * 128) 3).
    { rewrite Z.shiftr_div_pow2 by lia. change (2^3) with 8. apply Z.div_le_lower_bound; lia. }
    destruct (_ || _); eexists; (split; [reflexivity|]); (split; [unfold v in *; lia|]); [now left|right; lia].
Qed.

(** ** Tables and schema *)
Lemma find_case_schema : forall m t, find_case m t = match number_of t (schema m) with Some (i, k) => Some (RCase t t i k) | None => None end.
Proof.
  intros m t. unfold find_case. destruct m; cbn [reader find schema number_of rc_label];
    repeat (match goal with |- context [?a =? t] => destruct (Z.eqb_spec a t); [subst t; reflexivity|] end); reflexivity.
Qed.
Lemma number_of_facts : forall m t i k, number_of t (schema m) = Some (i, k) ->
  0 < t < 16 /\ below (rank m) k /\ nth_error (schema m) i = Some (t, k).
Proof.
  intros m t i k H. destruct m; cbn [schema number_of] in H;
    repeat (match type of H with context [?a =? t] => destruct (Z.eqb_spec a t); [subst t; cbn in H; injection H as <- <-; split; [lia|]; split; [cbn; auto; lia|reflexivity]|] end);
    discriminate H.
Qed.
Lemma number_of_big : forall m t, t = 0 \/ 16 <= t -> number_of t (schema m) = None.
Proof. intros m t H. destruct (number_of t (schema m)) as [[i k]|] eqn:E; [|reflexivity]. apply number_of_facts in E. lia. Qed.
Lemma fresh_empty : forall m, fresh m = empty_object m.
Proof. destruct m; reflexivity. Qed.

(** ** Objects with arrays where arrays belong *)
Definition typed (m : mtype) (o : obj) : Prop :=
  length o = length (schema m) /\ forall i t k, nth_error (schema m) i = Some (t, KArray k) -> exists l, nth_error o i = Some (VArray l).
Lemma empty_typed : forall m, typed m (empty_object m).
Proof.
  intros m. split; [apply map_length|]. intros i t k H. unfold empty_object.
  rewrite nth_error_map, H. cbn. eauto.
Qed.
Lemma put_length : forall i v (o : obj), (i < length o)%nat -> length (put i v o) = length o.
Proof. intros i v o H. unfold put. rewrite app_length, firstn_length. cbn [length]. rewrite skipn_length. lia. Qed.
Lemma put_same : forall i v (o : obj), (i < length o)%nat -> nth_error (put i v o) i = Some v.
Proof. intros i v o H. unfold put. rewrite nth_error_app2; rewrite firstn_length_le by lia; [|lia]. now rewrite Nat.sub_diag. Qed.
Lemma put_other : forall i j v (o : obj), (i < length o)%nat -> i <> j -> nth_error (put i v o) j = nth_error o j.
Proof.
  unfold put. induction i; intros j v o H Hj; destruct o as [|x o]; cbn [length] in H; try lia; destruct j as [|j]; try lia; cbn; try reflexivity.
  apply IHi; lia.
Qed.
Lemma set_member_put : forall i v o, (i < length o)%nat -> set_member i v o = put i v o.
Proof. unfold put. induction i; intros v o H; destruct o as [|x o]; cbn [length] in H; try lia; cbn; [reflexivity|]. f_equal. apply IHi. lia. Qed.
Lemma put_typed : forall m o i t k v, typed m o -> nth_error (schema m) i = Some (t, k) ->
  (forall k', k = KArray k' -> exists l, v = VArray l) -> typed m (put i v o).
Proof.
  intros m o i t k v [H1 H2] Hi Hv. assert ((i < length o)%nat) by (rewrite H1; apply nth_error_Some; congruence).
  split; [now rewrite put_length|]. intros j t' k' Hj. destruct (Nat.eq_dec i j) as [->|D].
  - rewrite put_same by auto. assert (k = KArray k') by congruence. destruct (Hv _ H0) as [l ->]. eauto.
  - rewrite put_other by auto. eauto.
Qed.
Lemma merge_typed : forall f m o, typed m o -> typed m (merge f m o).
Proof.
  intros f m o H. destruct f as [tag k v|tag d|tag d|tag fs]; cbn [merge field_tag]; destruct (number_of tag (schema m)) as [[i k']|] eqn:E; auto;
    apply number_of_facts in E; destruct E as (_ & _ & E); destruct k'; auto;
    try (eapply put_typed; [exact H|exact E|]; intros ? X; discriminate X).
  destruct (nth_error o i) as [[| | |l]|] eqn:Ei; auto. eapply put_typed; [exact H|exact E|]. eauto.
Qed.

(** ** One field *)
Lemma number_wire_range : forall k v, in_range k v -> match number_wire k v with Varint w => 0 <= w < 2^64 | _ => True end.
Proof.
  intros k v H. destruct k; cbn [number_wire] in *; auto; try (apply Z.mod_pos_bound; lia); unfold zigzag; cbn in H; destruct (Z.leb_spec 0 v); lia.
Qed.
Lemma field_wire : forall f, field_ok f -> 0 < field_tag f -> exists w, encoding f = field_bytes (field_tag f) w /\
  (match w with Varint v => 0 <= v < 2^64 | _ => True end) /\ 0 < field_tag f < 2^31 /\ 0 <= wire_type w < 8.
Proof.
  intros f Hf Ht. destruct f as [tag k v|tag d|tag d|tag fs]; cbn [field_tag encoding] in *.
  - destruct Hf as [It Hv]. exists (number_wire k v). split; [reflexivity|]. split; [now apply number_wire_range|]. split; [unfold is_tag in It; lia|]. destruct k; cbn; lia.
  - destruct Hf as [It Hv]. exists (Delimited d). split; [reflexivity|]. split; [auto|]. split; [unfold is_tag in It; lia|cbn; lia].
  - destruct Hf as [It Hv]. exists (Delimited d). split; [reflexivity|]. split; [auto|]. split; [unfold is_tag in It; lia|cbn; lia].
  - destruct Hf as [It Hv]. exists (Delimited (flat_map encoding fs)). destruct (Z.eqb_spec tag 0); [lia|]. split; [reflexivity|]. split; [auto|]. split; [unfold is_tag in It; lia|cbn; lia].
Qed.
Lemma varint_nonempty : forall v, exists c l, varint v = c :: l.
Proof. intros v. unfold varint. cbn [varint_groups]. destruct (v <? 128); eauto. Qed.
Lemma encoding_pos : forall f, field_ok f -> 0 < field_tag f -> 0 < zlen (encoding f).
Proof.
  intros f Hf Ht. destruct (field_wire f Hf Ht) as (w & -> & _). unfold field_bytes. destruct (Z.eqb_spec (field_tag f) 0); [lia|].
  destruct (varint_nonempty (field_tag f * 8 + wire_type w)) as (c & l & ->). cbn [app]. rewrite zlen_cons. pose proof (zlen_nonneg _ (l ++ wire_bytes w)). lia.
Qed.
Lemma allowed_facts : forall f m, allowed f m -> 0 < field_tag f /\ field_ok f.
Proof. intros f m H. destruct f; cbn in H |- *; tauto. Qed.
Lemma peek_field : forall f b, field_ok f -> 0 < field_tag f -> pb_ok b -> next_bytes b (encoding f) ->
  exists t, peek_tag (Some b) = Ok t /\ (field_tag f < 16 -> t = field_tag f) /\ (16 <= field_tag f -> t = 0 \/ 16 <= t).
Proof.
  intros f b Hf Ht Hb Hn. destruct (field_wire f Hf Ht) as (w & E & _ & H1 & H2). rewrite E in Hn. unfold field_bytes in Hn.
  destruct (Z.eqb_spec (field_tag f) 0); [lia|]. eapply peek_tag_next; eauto.
Qed.

Definition read_ok (fuel : nat) (n : nat) (msg : mtype -> option pbuf -> Z -> nat -> outcome (option (err * option obj * option pbuf * nat))) : Prop :=
  forall m tag fs b c, (rank m < n)%nat -> 0 < tag < 16 -> all (fun f => allowed f m) fs -> zlen (encoding (FElement tag fs)) <= Z.of_nat fuel ->
  pb_ok b -> next_bytes b (encoding (FElement tag fs)) ->
  exists c', msg m (Some b) tag c = Ok (Some (E_NONE, Some (meaning m fs), Some (advanced (zlen (encoding (FElement tag fs))) b), c')).
Lemma read_member_ok : forall fuel msg m f o b c, read_ok fuel (rank m) msg -> allowed f m -> typed m o -> zlen (encoding f) <= Z.of_nat fuel ->
  pb_ok b -> next_bytes b (encoding f) ->
  exists c', read_member msg enough_memory m o (Some b) c = Ok (Some (merge f m o, Some (advanced (zlen (encoding f)) b), c')).
Proof.
  intros fuel msg m f o b c Hmsg Hf Ho Hfuel Hb Hn. destruct (allowed_facts _ _ Hf) as [Ht Hok].
  destruct (peek_field f b Hok Ht Hb Hn) as (t & Et & E1 & E2). unfold read_member. rewrite Et. cbn [obind].
  rewrite find_case_schema.
  assert (T : number_of t (schema m) = number_of (field_tag f) (schema m)).
  { destruct (Z.ltb_spec (field_tag f) 16); [now rewrite E1|]. rewrite !number_of_big; auto; lia. }
  rewrite T. destruct (number_of (field_tag f) (schema m)) as [[i k]|] eqn:En.
  2:{ destruct (field_wire f Hok Ht) as (w & Ew & Hw & Hr & _). rewrite (read_skip_ok (field_tag f) w b); auto; [|congruence].
      cbn [obind snd]. rewrite Ew. assert (M : merge f m o = o) by (destruct f; cbn [merge]; rewrite En; reflexivity). rewrite M. eauto. }
  destruct (number_of_facts _ _ _ _ En) as (Ht16 & Hk & Ei). assert (Et' : t = field_tag f) by (apply E1; lia). subst t. clear E1 E2 T Et.
  assert (Hi : (i < length o)%nat) by (destruct Ho as [-> _]; apply nth_error_Some; congruence).
  assert (It : is_tag (field_tag f)) by (unfold is_tag; lia).
  destruct k as [| | |m'|m'], f as [tag [] v|tag d|tag d|tag fs]; cbn [field_tag] in *; cbn [allowed field_tag] in Hf; rewrite En in Hf; try (exfalso; tauto);
    cbn [merge field_tag]; rewrite En; cbn [encoding] in *.
  - pose proof (read_number_ok UInt32 tag v b Hb It (proj2 Hok) Hn) as R. cbn [read_number] in R. rewrite R. cbn [obind].
    rewrite set_member_put by auto. eauto.
  - destruct Hok as (_ & _ & _ & Ha). pose proof (read_alloc_string_ok tag d b 0 true Hb It Hn Ha) as R. cbn [Z.eqb orb] in R.
    unfold enough_memory at 1. rewrite R. cbn [obind]. rewrite set_member_put by auto. unfold block. cbn [option_map].
    rewrite take_app_exact by reflexivity. eauto.
  - destruct Hok as (_ & _ & Ha). pose proof (read_alloc_bytes_ok tag d b 0 true Hb It Hn) as R. cbn [Z.eqb orb] in R.
    unfold enough_memory at 1. rewrite R. cbn [obind]. rewrite set_member_put by auto. unfold block. cbn [option_map].
    assert (X : take (zlen d) (if 0 <? zlen d then d else [0]) = d).
    { destruct (Z.ltb_spec 0 (zlen d)); [apply take_all; lia|]. destruct d; [reflexivity|]. rewrite zlen_cons in *. pose proof (zlen_nonneg _ d). lia. }
    rewrite X. eauto.
  - destruct (Hmsg m' tag fs b c) as [c' R]; auto; try tauto. rewrite R. cbn [obind]. rewrite set_member_put by auto. eauto.
  - destruct (Hmsg m' tag fs b c) as [c' R]; auto; try tauto. rewrite R. cbn [obind]. destruct Ho as [Hlen Harr].
    destruct (Harr _ _ _ Ei) as [l El]. rewrite El. unfold enough_memory at 1. rewrite orb_true_r. rewrite set_member_put by auto. eauto.
Qed.
Lemma read_members_ok : forall fuel' fuel msg m fs o b c endp, read_ok fuel' (rank m) msg -> all (fun f => allowed f m) fs -> typed m o ->
  zlen (flat_map encoding fs) <= Z.of_nat fuel -> zlen (flat_map encoding fs) <= Z.of_nat fuel' ->
  pb_ok b -> next_bytes b (flat_map encoding fs) -> endp = pb_posn b + zlen (flat_map encoding fs) ->
  exists c', read_members fuel msg enough_memory m endp o (Some b) c =
    Ok (Some (fold_left (fun o f => merge f m o) fs o, Some (advanced (zlen (flat_map encoding fs)) b), c')).
Proof.
  intros fuel' fuel msg m fs o b c endp Hmsg. revert fuel o b c endp. induction fs as [|f fs IH]; intros fuel o b c endp Hfs Ho Hfuel Hfuel' Hb Hn ->.
  - cbn [flat_map fold_left]. change (zlen (@nil Z)) with 0. rewrite advanced_0. exists c. destruct fuel; cbn [read_members read_at_end_element];
      (destruct Hn as (-> & _); cbn [is_none err_eqb negb]; destruct (Z.leb_spec (pb_posn b + 0) (pb_posn b)); [reflexivity|lia]).
  - destruct Hfs as [Hf Hfs]. cbn [flat_map] in *. rewrite zlen_app in *. destruct (allowed_facts _ _ Hf) as [Ht Hok].
    pose proof (encoding_pos f Hok Ht) as P. pose proof (zlen_nonneg _ (flat_map encoding fs)).
    destruct (next_split _ _ _ Hb Hn) as [N1 N2]. destruct fuel as [|fuel]; [lia|]. cbn [read_members read_at_end_element].
    assert (He : pb_error b = E_NONE) by (destruct Hn; auto). rewrite He. cbn [is_none err_eqb negb].
    destruct (Z.leb_spec (pb_posn b + (zlen (encoding f) + zlen (flat_map encoding fs))) (pb_posn b)); [lia|].
    destruct (read_member_ok fuel' msg m f o b c Hmsg Hf Ho ltac:(lia) Hb N1) as [c1 ->]. cbn [obind].
    destruct (IH fuel (merge f m o) (advanced (zlen (encoding f)) b) c1 (pb_posn b + (zlen (encoding f) + zlen (flat_map encoding fs)))) as [c' R];
      auto using merge_typed, advanced_ok; try lia; [cbn; lia|].
    rewrite R. rewrite advanced_advanced. cbn [fold_left]. eauto.
Qed.
Lemma read_object_ok : forall fuel depth m tag fs b c, (rank m < depth)%nat -> is_tag tag -> all (fun f => allowed f m) fs ->
  zlen (encoding (FElement tag fs)) <= Z.of_nat fuel -> pb_ok b -> next_bytes b (encoding (FElement tag fs)) ->
  (tag = 0 -> pb_posn b + zlen (encoding (FElement tag fs)) = pb_size b) ->
  exists c', read_object depth fuel enough_memory m (Some b) tag c =
    Ok (Some (E_NONE, Some (meaning m fs), Some (advanced (zlen (encoding (FElement tag fs))) b), c')).
Proof.
  intros fuel. induction depth as [|depth IH]; intros m tag fs b c Hr Ht Hfs Hfuel Hb Hn H0; [lia|]. cbn [read_object].
  unfold enough_memory at 1. cbn [negb]. rewrite fresh_empty.
  assert (Hmsg : read_ok fuel (rank m) (read_object depth fuel enough_memory)).
  { intros m' tag' fs' b' c' Hr' Ht' Hfs' Hfuel' Hb' Hn'. apply IH; auto; [lia|unfold is_tag; lia|lia]. }
  cbn [encoding] in *. destruct (Z.eqb_spec tag 0) as [->|Hz].
  - assert (S0 : read_start_element (Some b) 0 = Ok (E_NONE, pb_size b, Some b)).
    { unfold read_start_element, read_tag. cbn [Z.ltb Z.compare]. destruct Hn as (-> & _). reflexivity. }
    rewrite S0. cbn [obind]. specialize (H0 eq_refl).
    destruct (read_members_ok fuel fuel _ m fs (empty_object m) b (S c) (pb_size b) Hmsg Hfs (empty_typed m) Hfuel Hfuel Hb Hn (eq_sym H0)) as [c' ->].
    cbn [obind]. assert (He : pb_error b = E_NONE) by (destruct Hn; auto).
    unfold read_end_element. cbn [advanced with_posn pb_error pb_posn]. rewrite He. cbn [is_none err_eqb negb].
    rewrite H0, Z.eqb_refl. cbn [negb is_none err_eqb]. exists c'. unfold meaning, advanced. reflexivity.
  - destruct (read_start_ok tag _ b Hb Ht Hz Hn) as (b1 & E1 & Hb1 & Hn1 & A). rewrite E1. cbn [obind].
    pose proof (field_bytes_delim_len tag (flat_map encoding fs)) as L.
    assert (P1 : pb_posn b + zlen (field_bytes tag (Delimited (flat_map encoding fs))) = pb_posn b1 + zlen (flat_map encoding fs))
      by (pose proof (A _ eq_refl) as X; apply (f_equal pb_posn) in X; cbn in X; lia).
    destruct (read_members_ok fuel fuel _ m fs (empty_object m) b1 (S c) _ Hmsg Hfs (empty_typed m) ltac:(lia) ltac:(lia) Hb1 Hn1 P1) as [c' ->].
    cbn [obind]. assert (He : pb_error b1 = E_NONE) by (destruct Hn1; auto).
    rewrite P1. unfold read_end_element. cbn [advanced with_posn pb_error pb_posn]. rewrite He. cbn [is_none err_eqb negb].
    rewrite Z.eqb_refl. cbn [negb is_none err_eqb]. exists c'. unfold meaning. rewrite <- (A _ eq_refl). reflexivity.
Qed.
