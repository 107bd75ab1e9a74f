(** Proofs about the protobuf functions: what they write, what they read. *)
From Coq Require Import ZifyBool ZifyNat.
From Verif Require Import Base MProto SProto PSha2 PProtoNum.

(** ** Lists *)
Lemma splice_sub_disjoint : forall A off (d l : list A) a n, 0 <= off -> off + zlen d <= a -> off + zlen d <= zlen l -> 0 <= n ->
  sub a n (splice off d l) = sub a n l.
Proof. intros. unfold sub. f_equal. apply splice_drop_after; lia. Qed.
Lemma splice_splice_app : forall A off (d1 d2 l : list A), 0 <= off -> off + zlen d1 + zlen d2 <= zlen l ->
  splice off d1 (splice (off + zlen d1) d2 l) = splice off (d1 ++ d2) l.
Proof.
  intros A off d1 d2 l H0 H. pose proof (zlen_nonneg _ d1). pose proof (zlen_nonneg _ d2). unfold splice at 1 3.
  rewrite splice_take_before by lia. rewrite zlen_app. f_equal. rewrite <- app_assoc. f_equal. unfold splice.
  rewrite app_assoc.
  replace (off + zlen d1) with (zlen (take (off + zlen d1) l)) at 1 by (rewrite zlen_take; lia).
  rewrite <- app_assoc, drop_app_exact. do 2 f_equal. lia.
Qed.
Lemma splice_nil : forall A off (l : list A), 0 <= off -> splice off [] l = l.
Proof. intros. unfold splice. cbn. rewrite zlen_nil, Z.add_0_r. apply take_drop. Qed.
Lemma sub_app_split : forall A off a b (l m1 m2 : list A), 0 <= off -> zlen m1 = a -> zlen m2 = b ->
  sub off (a + b) l = m1 ++ m2 -> sub off a l = m1 /\ sub (off + a) b l = m2.
Proof.
  intros A off a b l m1 m2 H0 Ha Hb H. pose proof (zlen_nonneg _ m1). pose proof (zlen_nonneg _ m2). unfold sub in *. split.
  - assert (E : take a (take (a + b) (drop off l)) = m1) by (rewrite H, <- Ha; apply take_app_exact).
    rewrite take_take in E. now replace (Z.min a (a + b)) with a in E by lia.
  - assert (E : drop a (take (a + b) (drop off l)) = m2) by (rewrite H, <- Ha; apply drop_app_exact).
    replace (off + a) with (a + off) by lia. rewrite <- drop_drop by lia. rewrite take_drop_comm by lia.
    replace (b + a) with (a + b) by lia. exact E.
Qed.

(** ** Writing *)
Definition prepended (l : list Z) (b : pbuf) : pbuf :=
  PBuf (option_map (splice (pb_posn b - zlen l) l) (pb_data b)) (pb_size b) (pb_posn b - zlen l) (pb_error b).
(** The same storage, untouched beyond the size *)
Definition same_storage (b b' : pbuf) : Prop :=
  pb_size b' = pb_size b /\
  match pb_data b, pb_data b' with
  | Some m, Some m' => zlen m' = zlen m /\ drop (pb_size b) m' = drop (pb_size b) m
  | None, None => True
  | _, _ => False
  end.
Lemma same_storage_refl : forall b, same_storage b b.
Proof. intros [[m|] ? ? ?]; split; cbn; auto. Qed.
Lemma same_storage_trans : forall a b c, same_storage a b -> same_storage b c -> same_storage a c.
Proof.
  intros [[m|] n1 ? ?] [[m1|] n2 ? ?] [[m2|] n3 ? ?]; unfold same_storage; cbn; intros [H1 H2] [H3 H4]; (split; [congruence|]); try contradiction; auto.
  destruct H2, H4. subst. split; congruence.
Qed.
(** Nothing above the old position or below the new one is touched. *)
Definition downward (b b' : pbuf) : Prop :=
  same_storage b b' /\ 0 <= pb_posn b' <= pb_posn b /\
  match pb_data b, pb_data b' with
  | Some m, Some m' => take (pb_posn b') m' = take (pb_posn b') m /\ drop (pb_posn b) m' = drop (pb_posn b) m
  | _, _ => True
  end.
Lemma downward_refl : forall b, pb_ok b -> downward b b.
Proof. intros b (H & _). split; [apply same_storage_refl|]. split; [lia|]. destruct (pb_data b); auto. Qed.
Lemma downward_trans : forall a b c, downward a b -> downward b c -> downward a c.
Proof.
  intros a b c (A1 & A2 & A3) (B1 & B2 & B3). split; [eapply same_storage_trans; eauto|]. split; [lia|].
  destruct A1 as [_ A1], B1 as [_ B1]. destruct (pb_data a) as [ma|], (pb_data b) as [mb|], (pb_data c) as [mc|]; auto; try contradiction.
  destruct A3 as [A3 A4], B3 as [B3 B4]. split.
  - rewrite B3. replace (take (pb_posn c) mb) with (take (pb_posn c) (take (pb_posn b) mb)) by (rewrite take_take; f_equal; lia).
    rewrite A3, take_take. f_equal. lia.
  - rewrite <- A4. replace (pb_posn a) with ((pb_posn a - pb_posn b) + pb_posn b) by lia. rewrite <- !drop_drop by lia. now rewrite B4.
Qed.
Lemma downward_storage : forall b b', downward b b' -> same_storage b b'.
Proof. intros b b' [H _]. exact H. Qed.
(** [l] is written before the position if there is room for it. *)
Definition puts (l : list Z) (b : pbuf) (e : err) (b' : pbuf) : Prop :=
  pb_ok b' /\ pb_size b' = pb_size b /\ downward b b' /\
  ((zlen l <= pb_posn b /\ e = E_NONE /\ b' = prepended l b) \/
   (pb_posn b < zlen l /\ e = E_INVALID_LENGTH /\ pb_error b' = E_INVALID_LENGTH)).
Lemma prepended_ok : forall l b, pb_ok b -> bytes l -> zlen l <= pb_posn b -> pb_ok (prepended l b) /\ downward b (prepended l b).
Proof.
  intros l [[mem|] size posn er] (H1 & H2 & H3) Hl H; cbn in *; pose proof (zlen_nonneg _ l); unfold pb_ok, downward, same_storage; cbn [pb_data pb_size pb_posn pb_error prepended option_map].
  - rewrite splice_length, splice_take_before, !splice_drop_after by lia. repeat split; try lia. apply bytes_splice; tauto.
  - repeat split; lia.
Qed.
Lemma prepended_app : forall l1 l2 b, pb_ok b -> zlen l1 + zlen l2 <= pb_posn b -> prepended l1 (prepended l2 b) = prepended (l1 ++ l2) b.
Proof.
  intros l1 l2 [[mem|] size posn er] (H1 & H2 & H3) H; cbn in *; pose proof (zlen_nonneg _ l1); pose proof (zlen_nonneg _ l2); unfold prepended; cbn [pb_data pb_size pb_posn pb_error option_map]; rewrite zlen_app.
  - f_equal; [f_equal | lia]. rewrite <- splice_splice_app by lia. f_equal; [lia|]. f_equal. lia.
  - f_equal. lia.
Qed.
Lemma prepended_nil : forall b, pb_ok b -> prepended [] b = b.
Proof.
  intros [[mem|] size posn er] (H1 & H2 & H3); cbn in *; unfold prepended; cbn; rewrite zlen_nil, Z.sub_0_r; auto.
  rewrite splice_nil by lia. reflexivity.
Qed.
Lemma puts_nil : forall b, pb_ok b -> puts [] b E_NONE b.
Proof.
  intros b H. split; [exact H|]. split; [reflexivity|]. split; [now apply downward_refl|].
  left. rewrite zlen_nil. split; [destruct H; lia|]. split; [reflexivity|]. symmetry. now apply prepended_nil.
Qed.
Lemma puts_error : forall l b e b', puts l b e b' -> pb_error b = E_NONE -> e = pb_error b'.
Proof. intros l b e b' (_ & _ & _ & [(_ & -> & ->) | (_ & -> & ->)]) H; auto. Qed.
(** First [l2], then [l1] before it *)
Lemma puts_app : forall l1 l2 b b1 e b', pb_ok b -> puts l2 b E_NONE b1 -> puts l1 b1 e b' -> puts (l1 ++ l2) b e b'.
Proof.
  intros l1 l2 b b1 e b' Hb (Ho1 & Hs1 & Ht1 & Hd1) (Ho2 & Hs2 & Ht2 & Hd2).
  split; [exact Ho2|]. split; [congruence|]. split; [eapply downward_trans; eauto|].
  rewrite zlen_app. destruct Hd1 as [(H1 & _ & ->) | (_ & X & _)]; [|discriminate]. cbn [prepended pb_posn] in Hd2.
  destruct Hd2 as [(H2 & -> & ->) | (H2 & -> & H3)].
  - left. split; [lia|]. split; [reflexivity|]. apply prepended_app; auto. lia.
  - right. split; [lia|]. auto.
Qed.
Lemma puts_more : forall l1 l2 b b1, puts l2 b E_INVALID_LENGTH b1 -> puts (l1 ++ l2) b E_INVALID_LENGTH b1.
Proof.
  intros l1 l2 b b1 (Ho1 & Hs1 & Ht1 & Hd1). split; [exact Ho1|]. split; [exact Hs1|]. split; [exact Ht1|].
  right. rewrite zlen_app. pose proof (zlen_nonneg _ l1). destruct Hd1 as [(_ & X & _) | (H1 & _ & H2)]; [discriminate|]. split; [lia|]. auto.
Qed.

Lemma reserve_fill_puts : forall b d n, pb_ok b -> pb_error b = E_NONE -> bytes d -> zlen d = n ->
  exists e b', reserve_and_fill (Some b) n d = Ok (e, Some b') /\ puts d b e b'.
Proof.
  intros b d n Hb He Hd <-. unfold reserve_and_fill, reserve_space. rewrite He. cbn [is_none err_eqb negb].
  pose proof (zlen_nonneg _ d). destruct (Z.ltb_spec (pb_posn b) (zlen d)).
  - cbn. eexists _, _. split; [reflexivity|]. split; [exact Hb|]. split; [reflexivity|]. split; [exact (downward_refl b Hb)|]. right. cbn. auto.
  - cbn [is_none err_eqb negb fill_space]. destruct (prepended_ok d b Hb Hd ltac:(lia)) as [P1 P2]. unfold with_posn; cbn [pb_data pb_posn].
    destruct (pb_data b) as [mem|] eqn:Em.
    + assert (H3 := Hb). destruct H3 as (H1 & H2 & H3). rewrite Em in H3. rewrite store_ok by lia. cbn. eexists _, _. split; [reflexivity|].
      assert (E : with_mem (Some (splice (pb_posn b - zlen d) d mem)) (PBuf (Some mem) (pb_size b) (pb_posn b - zlen d) (pb_error b)) = prepended d b)
        by (unfold prepended; rewrite Em; reflexivity).
      rewrite E. split; [exact P1|]. split; [reflexivity|]. split; [exact P2|]. left. auto.
    + cbn. eexists _, _. split; [reflexivity|].
      assert (E : PBuf None (pb_size b) (pb_posn b - zlen d) (pb_error b) = prepended d b)
        by (unfold prepended; rewrite Em; reflexivity).
      rewrite E. split; [exact P1|]. split; [reflexivity|]. split; [exact P2|]. left. auto.
Qed.
Lemma reserve_fill_error : forall b d n, pb_error b <> E_NONE -> reserve_and_fill (Some b) n d = Ok (pb_error b, Some b).
Proof. intros b d n H. unfold reserve_and_fill, reserve_space. apply is_none_false in H. rewrite H. cbn. rewrite H. reflexivity. Qed.

Lemma write_varint_puts : forall b v, pb_ok b -> pb_error b = E_NONE -> 0 <= v < 2^64 ->
  exists e b', write_varint (Some b) v = Ok (e, Some b') /\ puts (varint v) b e b'.
Proof.
  intros b v Hb He Hv. unfold write_varint. destruct (varint_written v Hv) as [-> L].
  apply reserve_fill_puts; auto. apply varint_bytes; lia.
Qed.
Lemma write_varint_error : forall b v, pb_error b <> E_NONE -> write_varint (Some b) v = Ok (pb_error b, Some b).
Proof. intros; unfold write_varint; now apply reserve_fill_error. Qed.

Definition tag_bytes (tag type : Z) : list Z := if tag =? 0 then [] else varint (tag_value tag type).
Lemma tag_bytes_field : forall tag w, is_tag tag -> tag_bytes tag (wire_type w) ++ wire_bytes w = field_bytes tag w.
Proof.
  intros tag w H. unfold tag_bytes, field_bytes. rewrite tag_value_eq by (auto; destruct w; cbn; lia). reflexivity.
Qed.
Lemma write_tag_puts : forall b tag type, pb_ok b -> pb_error b = E_NONE ->
  exists e b', write_tag (Some b) tag type = Ok (e, Some b') /\ puts (tag_bytes tag type) b e b'.
Proof.
  intros b tag type Hb He. unfold write_tag, tag_bytes. rewrite He. cbn [is_none err_eqb negb].
  destruct (Z.eqb_spec tag 0).
  - exists E_NONE, b. split; [reflexivity|]. now apply puts_nil.
  - apply write_varint_puts; auto. apply tag_value_range.
Qed.
Lemma write_tag_error : forall b tag type, pb_error b <> E_NONE -> write_tag (Some b) tag type = Ok (pb_error b, Some b).
Proof. intros b tag type H. unfold write_tag. apply is_none_false in H. now rewrite H. Qed.

Lemma then_tag_puts : forall b r tag type l, pb_ok b -> pb_error b = E_NONE ->
  (exists e b', r = Ok (e, Some b') /\ puts l b e b') ->
  exists e b', then_tag r tag type = Ok (e, Some b') /\ puts (tag_bytes tag type ++ l) b e b'.
Proof.
  intros b r tag type l Hb He (e & b1 & -> & P). unfold then_tag. cbn [obind].
  destruct (is_none e) eqn:E.
  - apply is_none_true in E. subst e. cbn [negb].
    assert (He1 : pb_error b1 = E_NONE) by (symmetry; eapply puts_error; eauto).
    destruct (write_tag_puts b1 tag type) as (e & b2 & E2 & P2); [apply P | auto|].
    exists e, b2. split; [exact E2|]. eapply puts_app; eauto.
  - cbn [negb]. exists e, b1. split; [reflexivity|]. apply is_none_false in E.
    assert (e = E_INVALID_LENGTH) by (destruct P as (_ & _ & _ & [(_ & X & _) | (_ & X & _)]); congruence). subst e.
    apply puts_more; auto.
Qed.
Lemma then_tag_error : forall r b e tag type, r = Ok (e, Some b) -> e <> E_NONE -> then_tag r tag type = Ok (e, Some b).
Proof. intros r b e tag type -> H. unfold then_tag. cbn. apply is_none_false in H. rewrite H. reflexivity. Qed.

(** What a write function does *)
Definition writes (l : list Z) (b : pbuf) (r : outcome (err * option pbuf)) : Prop :=
  if is_none (pb_error b) then exists e b', r = Ok (e, Some b') /\ puts l b e b' else r = Ok (pb_error b, Some b).
Lemma writes_intro : forall l b r, (pb_error b = E_NONE -> exists e b', r = Ok (e, Some b') /\ puts l b e b') ->
  (pb_error b <> E_NONE -> r = Ok (pb_error b, Some b)) -> writes l b r.
Proof. intros l b r H1 H2. unfold writes. destruct (is_none (pb_error b)) eqn:E; [apply is_none_true in E | apply is_none_false in E]; auto. Qed.

Lemma write_integer_writes : forall b tag v, pb_ok b -> 0 <= v < 2^64 -> writes (tag_bytes tag 0 ++ varint v) b (write_integer (Some b) tag v).
Proof.
  intros b tag v Hb Hv. unfold write_integer. apply writes_intro; intros He.
  - apply then_tag_puts; auto. apply write_varint_puts; auto.
  - apply then_tag_error; auto. now apply write_varint_error.
Qed.
Lemma write_fixed32_writes : forall b tag v, pb_ok b -> writes (tag_bytes tag 5 ++ little_endian 4 v) b (write_fixed32 (Some b) tag v).
Proof.
  intros b tag v Hb. unfold write_fixed32. rewrite fixed32_bytes. apply writes_intro; intros He.
  - apply then_tag_puts; auto. apply reserve_fill_puts; auto using little_endian_bytes, little_endian_len.
  - apply then_tag_error; auto. now apply reserve_fill_error.
Qed.
Lemma write_fixed64_writes : forall b tag v, pb_ok b -> writes (tag_bytes tag 1 ++ little_endian 8 v) b (write_fixed64 (Some b) tag v).
Proof.
  intros b tag v Hb. unfold write_fixed64. rewrite fixed64_bytes. apply writes_intro; intros He.
  - apply then_tag_puts; auto. apply reserve_fill_puts; auto using little_endian_bytes, little_endian_len.
  - apply then_tag_error; auto. now apply reserve_fill_error.
Qed.
Lemma write_number_writes : forall k b tag v, pb_ok b -> in_range k v ->
  writes (tag_bytes tag (wire_type (number_wire k v)) ++ wire_bytes (number_wire k v)) b (write_number k (Some b) tag v).
Proof.
  intros k b tag v Hb Hv.
  assert (M : forall n, 0 <= n mod 2^64 < 2^64) by (intros; apply Z.mod_pos_bound; reflexivity).
  destruct k; cbn [write_number number_wire wire_type wire_bytes].
  - now apply write_integer_writes.
  - unfold write_uint32. cbn in Hv. rewrite Z.mod_small by lia. apply write_integer_writes; auto; lia.
  - now apply write_integer_writes.
  - unfold write_uint64. cbn [in_range] in Hv. rewrite Z.mod_small by lia. apply write_integer_writes; auto; lia.
  - unfold write_sint32. rewrite (zigzag_written 32) by (cbn in *; lia). apply write_integer_writes; auto.
    pose proof (zigzag_range 32 v) as H. cbn in *; lia.
  - unfold write_sint64. rewrite (zigzag_written 64) by (cbn in *; lia). apply write_integer_writes; auto.
    pose proof (zigzag_range 64 v) as H. cbn in *; lia.
  - cbn in Hv. rewrite Z.mod_small by lia. now apply write_fixed32_writes.
  - now apply write_fixed32_writes.
  - cbn in Hv. rewrite Z.mod_small by lia. now apply write_fixed64_writes.
  - now apply write_fixed64_writes.
  - cbn in Hv. rewrite Z.mod_small by lia. now apply write_fixed32_writes.
  - cbn in Hv. rewrite Z.mod_small by lia. now apply write_fixed64_writes.
  - unfold write_bool. cbn in Hv. destruct Hv as [-> | ->]; apply write_integer_writes; auto; (split; [discriminate | reflexivity]).
Qed.
Lemma read_ptr_all : forall d, read_ptr (Some d) (zlen d) = Ok d.
Proof. intros d. unfold read_ptr. rewrite Z.leb_refl, take_all by lia. reflexivity. Qed.
Lemma write_bytes_writes : forall b tag d, pb_ok b -> bytes d -> zlen d < 2^64 ->
  writes (tag_bytes tag 2 ++ varint (zlen d) ++ d) b (write_bytes (Some b) tag (Some d) (zlen d)).
Proof.
  intros b tag d Hb Hd Hn. pose proof (zlen_nonneg _ d). unfold write_bytes.
  apply writes_intro; intros He.
  - destruct (reserve_fill_puts b d (zlen d) Hb He Hd eq_refl) as (e & b1 & E & P).
    unfold reserve_and_fill in E. destruct (reserve_space (Some b) (zlen d)) as [e0 [b0|]] eqn:Er.
    2:{ destruct (negb (is_none e0)); [congruence|]. cbn in E. discriminate. }
    destruct (is_none e0) eqn:E0; cbn [negb] in E |- *.
    2:{ injection E as <- <-. eexists _, _. split; [reflexivity|]. apply is_none_false in E0.
        assert (e0 = E_INVALID_LENGTH) by (destruct P as (_ & _ & _ & [(_ & X & _) | (_ & X & _)]); congruence). subst e0.
        apply puts_more, puts_more; auto. }
    assert (Eb : (let! p := (if match pb_data b0 with Some _ => true | None => false end && negb (zlen d =? 0)
         then let! d := read_ptr (Some d) (zlen d) in fill_space (Some b0) d else Ok (Some b0)) in then_tag (write_varint p (zlen d)) tag WIRE_DELIM)
         = then_tag (write_varint (Some b1) (zlen d)) tag WIRE_DELIM /\ e = E_NONE).
    { rewrite read_ptr_all. cbn [obind].
      destruct (pb_data b0) as [mem|] eqn:Em.
      - destruct (Z.eqb_spec (zlen d) 0) as [L|L]; cbn [andb negb obind].
        + assert (d = []) by (apply zlen_0_nil; lia). subst d. 
          destruct (fill_space (Some b0) []) as [p|] eqn:Ef; [|discriminate]. cbn in E. injection E as <- ->. split; auto.
          unfold fill_space in Ef. rewrite Em in Ef. unfold store in Ef. destruct (_ && _) eqn:B; [|discriminate]. cbn in Ef.
          apply andb_prop in B. rewrite splice_nil in Ef by lia. injection Ef as <-.
          destruct b0; cbn in Em; subst; reflexivity.
        + destruct (fill_space (Some b0) d) as [p|] eqn:Ef; [|discriminate]. cbn in E. injection E as <- ->. auto.
      - cbn [andb obind]. unfold fill_space in E. rewrite Em in E. cbn in E. injection E as <- <-. auto. }
    destruct Eb as [-> ->].
    assert (He1 : pb_error b1 = E_NONE) by (symmetry; eapply puts_error; eauto).
    destruct (then_tag_puts b1 (write_varint (Some b1) (zlen d)) tag WIRE_DELIM (varint (zlen d))) as (e & b2 & E2 & P2); auto.
    { apply P. }
    { apply write_varint_puts; auto; apply P. }
    exists e, b2. split; [exact E2|]. rewrite app_assoc. eapply puts_app; eauto.
  - unfold reserve_space. apply is_none_false in He. rewrite He. cbn [negb]. rewrite He. reflexivity.
Qed.
Lemma write_string_writes : forall b tag d, pb_ok b -> bytes d -> zlen d < 2^64 -> accepted d ->
  writes (tag_bytes tag 2 ++ varint (zlen d) ++ d) b (write_string (Some b) tag (Some d) (zlen d)).
Proof.
  intros b tag d Hb Hd Hn Ha. pose proof (write_bytes_writes b tag d Hb Hd Hn) as W. unfold write_string. unfold accepted in Ha. rewrite Ha. cbn [obind negb].
  unfold writes in *. destruct (is_none (pb_error b)); cbn [negb]; auto.
Qed.
Lemma write_string_refused : forall b tag d, 0 <= zlen d -> ~ accepted d -> pb_error b = E_NONE ->
  write_string (Some b) tag (Some d) (zlen d) = Ok (E_INVALID_FORMAT, Some (with_error E_INVALID_FORMAT b)).
Proof.
  intros b tag d Hn Ha He. unfold write_string. rewrite He. cbn [is_none err_eqb negb].
  destruct (is_utf8_defined d (zlen d)) as [r Er]; [lia|]. rewrite Er. cbn [obind]. destruct r; [contradiction|]. reflexivity.
Qed.
Lemma write_start_writes : forall b tag n, pb_ok b -> pb_posn b <= n <= pb_size b -> tag <> 0 ->
  writes (tag_bytes tag 2 ++ varint (n - pb_posn b)) b (write_start_element (Some b) tag n).
Proof.
  intros b tag n Hb Hn Ht. unfold write_start_element. destruct (Z.ltb_spec n (pb_posn b)); [lia|]. destruct (Z.ltb_spec (pb_size b) n); [lia|]. cbn [orb].
  destruct (Z.eqb_spec tag 0); [lia|]. destruct Hb as (H1 & H2 & H3) eqn:Eb; clear Eb. apply writes_intro; intros He.
  - apply then_tag_puts; [split; auto | auto|]. apply write_varint_puts; [split; auto | auto | lia].
  - apply then_tag_error; auto. now apply write_varint_error.
Qed.

(** ** Messages *)
Lemma field_ind' : forall P : field -> Prop,
  (forall tag k v, P (FNumber tag k v)) -> (forall tag d, P (FBytes tag d)) -> (forall tag d, P (FString tag d)) ->
  (forall tag fs, Forall P fs -> P (FElement tag fs)) -> forall f, P f.
Proof.
  intros P H1 H2 H3 H4. fix go 1. intros [tag k v | tag d | tag d | tag fs]; [apply H1 | apply H2 | apply H3|].
  apply H4. induction fs; constructor; auto.
Qed.
Lemma field_ok_element : forall tag fs, field_ok (FElement tag fs) <-> is_tag tag /\ Forall field_ok fs.
Proof.
  intros tag fs. cbn [field_ok].
  assert (G : (fix all l := match l with [] => True | f :: l => field_ok f /\ all l end) fs <-> Forall field_ok fs).
  { induction fs as [|f fs IH]; [split; auto|]. split; [intros [X Y]; constructor; [exact X | now apply IH]|].
    intros X. inversion X; subst. split; [assumption | now apply IH]. }
  tauto.
Qed.
Lemma write_element_eq : forall p tag fs, write_field p (FElement tag fs) =
  let! p' := write_fields p fs in let! r := write_start_element p' tag (snd (write_end_element p)) in Ok (snd r).
Proof.
  intros p tag fs. cbn [write_field].
  assert (G : forall l, (fix go l := match l with [] => Ok p | f :: l => let! p := go l in write_field p f end) l = write_fields p l).
  { induction l; [reflexivity|]. cbn [write_fields]. rewrite <- IHl. reflexivity. }
  rewrite G. reflexivity.
Qed.
Lemma field_bytes_delim_len : forall tag d, zlen d <= zlen (field_bytes tag (Delimited d)).
Proof.
  intros tag d. unfold field_bytes. cbn [wire_bytes]. rewrite !zlen_app. 
  pose proof (zlen_nonneg _ (varint (zlen d))). destruct (tag =? 0); [rewrite zlen_nil; lia|].
  pose proof (zlen_nonneg _ (varint (tag * 8 + wire_type (Delimited d)))). lia.
Qed.
(** Writing a message; in the second case the object is out of room. *)
Definition fields_written (l : list Z) (b : pbuf) (r : outcome (option pbuf)) : Prop :=
  exists b', r = Ok (Some b') /\ pb_ok b' /\ pb_size b' = pb_size b /\ downward b b' /\
  if is_none (pb_error b) then
    (zlen l <= pb_posn b /\ b' = prepended l b) \/ (pb_posn b < zlen l /\ pb_error b' = E_INVALID_LENGTH)
  else b' = b.
Lemma writes_fields_written : forall l b r, pb_ok b -> writes l b r -> fields_written l b (let! x := r in Ok (snd x)).
Proof.
  intros l b r Hb W. unfold writes, fields_written in *. destruct (is_none (pb_error b)).
  - destruct W as (e & b' & -> & P). cbn. exists b'. destruct P as (P1 & P2 & P3 & P4). repeat (split; auto).
    destruct P4 as [(? & ? & ?) | (? & ? & ?)]; auto.
  - subst r. cbn. exists b. repeat (split; auto using downward_refl); apply Hb.
Qed.
Lemma write_start_error : forall b tag n, pb_error b <> E_NONE -> exists e, write_start_element (Some b) tag n = Ok (e, Some b) /\ e <> E_NONE.
Proof.
  intros b tag n H. unfold write_start_element. destruct ((n <? pb_posn b) || (pb_size b <? n)); [eexists; split; [reflexivity|discriminate]|].
  destruct (tag =? 0); [eauto|]. rewrite write_varint_error by auto. exists (pb_error b). split; auto.
  apply then_tag_error; auto.
Qed.
Lemma fields_written_bind : forall l1 l2 b r k, pb_ok b -> fields_written l2 b r ->
  (forall b1, pb_ok b1 -> pb_size b1 = pb_size b -> fields_written l1 b1 (k (Some b1))) -> fields_written (l1 ++ l2) b (obind r k).
Proof.
  intros l1 l2 b r k Hb (b1 & -> & O1 & S1 & T1 & D1) Hk. cbn [obind]. destruct (Hk b1 O1 S1) as (b2 & -> & O2 & S2 & T2 & D2).
  exists b2. split; [reflexivity|]. split; [exact O2|]. split; [congruence|]. split; [eapply downward_trans; eauto|].
  rewrite zlen_app. pose proof (zlen_nonneg _ l1). destruct (is_none (pb_error b)) eqn:E.
  - apply is_none_true in E. destruct D1 as [(L1 & ->) | (L1 & X)].
    + cbn [prepended pb_error pb_posn] in D2. rewrite E in D2. cbn [is_none err_eqb] in D2. destruct D2 as [(L2 & ->) | (L2 & X2)].
      * left. split; [lia|]. apply prepended_app; auto; lia.
      * right. split; [lia|exact X2].
    + rewrite X in D2. cbn in D2. subst b2. right. split; [lia|exact X].
  - subst b1. rewrite E in D2. exact D2.
Qed.
Lemma write_fields_written : forall fs b, pb_ok b ->
  Forall (fun f => forall b, field_ok f -> pb_ok b -> fields_written (encoding f) b (write_field (Some b) f)) fs ->
  Forall field_ok fs -> fields_written (flat_map encoding fs) b (write_fields (Some b) fs).
Proof.
  induction fs as [|f fs IH]; intros b Hb HF Hok.
  - cbn. exists b. split; [reflexivity|]. split; [exact Hb|]. split; [reflexivity|]. split; [now apply downward_refl|].
    destruct (is_none (pb_error b)); auto. left. rewrite zlen_nil. split; [destruct Hb; lia | symmetry; now apply prepended_nil].
  - inversion HF; inversion Hok; subst. cbn [flat_map write_fields].
    eapply fields_written_bind; eauto.
Qed.
Lemma write_field_written : forall f b, field_ok f -> pb_ok b -> fields_written (encoding f) b (write_field (Some b) f).
Proof.
  intros f. induction f as [tag k v | tag d | tag d | tag fs IH] using field_ind'; intros b Hf Hb.
  - destruct Hf as [Ht Hv]. cbn [write_field encoding]. apply writes_fields_written; auto.
    rewrite <- tag_bytes_field by auto. now apply write_number_writes.
  - destruct Hf as (Ht & Hd & Hl). cbn [write_field encoding]. apply writes_fields_written; auto.
    rewrite <- tag_bytes_field by auto. now apply write_bytes_writes.
  - destruct Hf as (Ht & Hd & Hl & Ha). cbn [write_field encoding]. apply writes_fields_written; auto.
    rewrite <- tag_bytes_field by auto. now apply write_string_writes.
  - apply field_ok_element in Hf. destruct Hf as [Ht Hfs]. rewrite write_element_eq.
    pose proof (write_fields_written fs b Hb IH Hfs) as W. destruct W as (b1 & -> & O1 & S1 & T1 & D1). cbn [obind].
    set (content := flat_map encoding fs) in *. cbn [encoding]. fold content.
    assert (Stay : forall n, pb_error b1 <> E_NONE -> exists e, write_start_element (Some b1) tag n = Ok (e, Some b1))
      by (intros n X; destruct (write_start_error b1 tag n X) as (e & X1 & _); eauto).
    unfold fields_written. destruct (is_none (pb_error b)) eqn:E.
    + unfold write_end_element. rewrite E. cbn [negb snd]. apply is_none_true in E.
      destruct D1 as [(L1 & Eb1) | (L1 & X1)].
      * assert (He1 : pb_error b1 = E_NONE) by (rewrite Eb1; exact E).
        assert (Hp : pb_posn b1 = pb_posn b - zlen content) by (rewrite Eb1; reflexivity).
        pose proof (zlen_nonneg _ content).
        destruct (Z.eqb_spec tag 0) as [->|Hn].
        -- unfold write_start_element. destruct (Z.ltb_spec (pb_posn b) (pb_posn b1)); [lia|].
           destruct (Z.ltb_spec (pb_size b1) (pb_posn b)); [destruct Hb; lia|]. cbn. exists b1. repeat (split; auto).
        -- pose proof (write_start_writes b1 tag (pb_posn b) O1 ltac:(destruct Hb; lia) Hn) as W. unfold writes in W. rewrite He1 in W.
           cbn [is_none err_eqb] in W. destruct W as (e & b2 & -> & P). cbn [obind snd].
           replace (pb_posn b - pb_posn b1) with (zlen content) in P by lia.
           exists b2. split; [reflexivity|]. destruct P as (P1 & P2 & P3 & P4). split; [exact P1|]. split; [congruence|].
           split; [eapply downward_trans; eauto|].
           rewrite <- tag_bytes_field by auto. cbn [wire_type wire_bytes]. rewrite app_assoc, zlen_app.
           destruct P4 as [(P4 & _ & P5) | (P4 & _ & P5)].
           ++ left. split; [lia|]. rewrite P5, Eb1. apply prepended_app; auto; lia.
           ++ right. split; [lia|exact P5].
      * destruct (Stay (pb_posn b) ltac:(congruence)) as [e ->]. cbn. exists b1. repeat (split; auto). right. split; auto.
        destruct (tag =? 0); auto. pose proof (field_bytes_delim_len tag content). lia.
    + subst b1. apply is_none_false in E. destruct (Stay (snd (write_end_element (Some b))) E) as [e ->]. cbn. exists b. repeat (split; auto); apply Hb.
Qed.
Lemma write_all_written : forall fs b, pb_ok b -> Forall field_ok fs -> fields_written (flat_map encoding fs) b (write_fields (Some b) fs).
Proof.
  intros fs b Hb Hf. apply write_fields_written; auto. apply Forall_forall. intros f _ b' H1 H2. now apply write_field_written.
Qed.
