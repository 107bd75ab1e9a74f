(** C44 to C53: the protobuf functions. *)
From Coq Require Import ZifyBool ZifyNat.
From Verif Require Import Base MProto SProto PProtoNum PProto PProtoRead PProtoSafe PProtoUtf8.

Lemma written_prepended : forall l b mem, pb_ok b -> pb_data b = Some mem -> zlen l <= pb_posn b -> written b (prepended l b) = l.
Proof.
  intros l b mem (H0 & H1 & H2) Em Hl. rewrite Em in H2. pose proof (zlen_nonneg _ l). unfold written, prepended. cbn. rewrite Em. cbn.
  replace (pb_posn b - (pb_posn b - zlen l)) with (zlen l) by lia. apply splice_sub_same; lia.
Qed.

(** C44.  Any number of any kind, any tag (0: none), any output object [b], any
    input object [r] in which the bytes written come next: the call fails
    exactly for lack of room, writes the wire format of Protocol Buffers, and
    what is read is what was written, consuming just that. *)
Theorem C44_numbers_round_trip : forall k v tag b mem r,
  in_range k v -> is_tag tag -> pb_ok b -> pb_error b = E_NONE -> pb_data b = Some mem -> pb_ok r ->
  exists e b', write_number k (Some b) tag v = Ok (e, Some b') /\
    (e = E_NONE <-> zlen (field_bytes tag (number_wire k v)) <= pb_posn b) /\
    (e = E_NONE -> written b b' = field_bytes tag (number_wire k v) /\
      (next_bytes r (written b b') -> read_number k (Some r) tag = Ok (E_NONE, v, Some (advanced (zlen (written b b')) r)))).
Proof.
  intros k v tag b mem r Hv Ht Hb He Em Hr.
  pose proof (write_number_writes k b tag v Hb Hv) as W. rewrite tag_bytes_field in W by auto. unfold writes in W. rewrite He in W. cbn [is_none err_eqb] in W.
  destruct W as (e & b' & E & P). exists e, b'. split; [exact E|]. destruct P as (_ & _ & _ & [(L & -> & ->) | (L & -> & _)]).
  - split; [tauto|]. intros _. rewrite (written_prepended _ b mem) by auto. split; [reflexivity|]. intros Hn. now apply read_number_ok.
  - split; [split; [discriminate|lia]|discriminate].
Qed.
Print Assumptions C44_numbers_round_trip.
Example C44_example :
  write_number SInt32 (Some (prepare_output [0;0;0;0;0;0] 6)) 3 (-150) = Ok (E_NONE, Some (PBuf (Some [0;0;0;24;171;2]) 6 3 E_NONE)) /\
  read_number SInt32 (Some (PBuf (Some [9;24;171;2;7]) 5 1 E_NONE)) 3 = Ok (E_NONE, -150, Some (PBuf (Some [9;24;171;2;7]) 5 4 E_NONE)) /\
  next_bytes (PBuf (Some [9;24;171;2;7]) 5 1 E_NONE) [24;171;2].
Proof. split; [vm_compute; reflexivity|]. split; [vm_compute; reflexivity|]. split; [reflexivity|]. eexists. split; [reflexivity|]. split; [now vm_compute|reflexivity]. Qed.

(** C45, bytes.  [store] is the caller's storage of at least max bytes. *)
Theorem C45_bytes_round_trip : forall d tag b mem r,
  bytes d -> zlen d < 2^64 -> is_tag tag -> pb_ok b -> pb_error b = E_NONE -> pb_data b = Some mem -> pb_ok r ->
  exists e b', write_bytes (Some b) tag (Some d) (zlen d) = Ok (e, Some b') /\
    (e = E_NONE <-> zlen (field_bytes tag (Delimited d)) <= pb_posn b) /\
    (e = E_NONE -> written b b' = field_bytes tag (Delimited d) /\
      (next_bytes r (written b b') ->
        let after := Some (advanced (zlen (written b b')) r) in
        (forall store max, 0 <= max <= zlen store ->
          if zlen d <=? max then read_bytes (Some r) tag (Some store) max = Ok (E_NONE, Some (d ++ drop (zlen d) store), zlen d, after)
          else exists r', read_bytes (Some r) tag (Some store) max = Ok (E_INVALID_FORMAT, Some store, 0, r')) /\
        (forall max, 0 <= max ->
          if (max =? 0) || (zlen d <=? max)
          then exists p, read_alloc_bytes true (Some r) tag max = Ok (E_NONE, Some p, zlen d, after) /\ take (zlen d) p = d
          else exists r', read_alloc_bytes true (Some r) tag max = Ok (E_INVALID_FORMAT, None, 0, r')))).
Proof.
  intros d tag b mem r Hd Hl Ht Hb He Em Hr.
  pose proof (write_bytes_writes b tag d Hb Hd Hl) as W. change (tag_bytes tag 2 ++ varint (zlen d) ++ d) with (tag_bytes tag (wire_type (Delimited d)) ++ wire_bytes (Delimited d)) in W.
  rewrite tag_bytes_field in W by auto. unfold writes in W. rewrite He in W. cbn [is_none err_eqb] in W.
  destruct W as (e & b' & E & P). exists e, b'. split; [exact E|]. destruct P as (_ & _ & _ & [(L & -> & ->) | (L & -> & _)]).
  2: split; [split; [discriminate|lia]|discriminate].
  split; [tauto|]. intros _. rewrite (written_prepended _ b mem) by auto. split; [reflexivity|]. intros Hn. cbv zeta. split.
  - intros store max Hm. pose proof (read_bytes_ok tag d r store max Hr Ht Hn ltac:(lia)) as R. destruct (zlen d <=? max); [exact R|]. destruct R; eauto.
  - intros max Hm. pose proof (read_alloc_bytes_ok tag d r max true Hr Ht Hn) as R. destruct ((max =? 0) || (zlen d <=? max)).
    + eexists. split; [exact R|]. pose proof (zlen_nonneg _ d). destruct (Z.ltb_spec 0 (zlen d)); [apply take_all; lia|].
      assert (d = []) by (apply zlen_0_nil; lia). now subst d.
    + destruct R; eauto.
Qed.
Print Assumptions C45_bytes_round_trip.
(** C45, strings: NUL-terminated when read. *)
Theorem C45_strings_round_trip : forall d tag b mem r,
  bytes d -> zlen d < 2^64 -> is_tag tag -> pb_ok b -> pb_error b = E_NONE -> pb_data b = Some mem -> pb_ok r ->
  exists e b', write_string (Some b) tag (Some d) (zlen d) = Ok (e, Some b') /\
    (e = E_NONE <-> accepted d /\ zlen (field_bytes tag (Delimited d)) <= pb_posn b) /\
    (e = E_NONE -> written b b' = field_bytes tag (Delimited d) /\
      (next_bytes r (written b b') ->
        let after := Some (advanced (zlen (written b b')) r) in
        (forall store max, 0 < max <= zlen store ->
          if zlen d <? max then read_string (Some r) tag (Some store) max = Ok (E_NONE, Some (d ++ [0] ++ drop (zlen d + 1) store), zlen d, after)
          else exists r', read_string (Some r) tag (Some store) max = Ok (E_INVALID_FORMAT, Some ([0] ++ drop 1 store), 0, r')) /\
        (forall max, 0 <= max ->
          if (max =? 0) || (zlen d <=? max)
          then read_alloc_string true (Some r) tag max = Ok (E_NONE, Some (d ++ [0]), zlen d, after)
          else exists r', read_alloc_string true (Some r) tag max = Ok (E_INVALID_FORMAT, None, 0, r')))).
Proof.
  intros d tag b mem r Hd Hl Ht Hb He Em Hr.
  assert (A : accepted d \/ ~ accepted d).
  { pose proof (zlen_nonneg _ d). unfold accepted. destruct (is_utf8_defined d (zlen d)) as [[|] ->]; [lia|auto|right; discriminate]. }
  destruct A as [A|A].
  2:{ rewrite write_string_refused by (auto; apply zlen_nonneg). eexists _, _. split; [reflexivity|]. split; [split; [discriminate|tauto]|discriminate]. }
  pose proof (write_string_writes b tag d Hb Hd Hl A) as W. change (tag_bytes tag 2 ++ varint (zlen d) ++ d) with (tag_bytes tag (wire_type (Delimited d)) ++ wire_bytes (Delimited d)) in W.
  rewrite tag_bytes_field in W by auto. unfold writes in W. rewrite He in W. cbn [is_none err_eqb] in W.
  destruct W as (e & b' & E & P). exists e, b'. split; [exact E|]. destruct P as (_ & _ & _ & [(L & -> & ->) | (L & -> & _)]).
  2: split; [split; [discriminate|intros [_ X]; lia]|discriminate].
  split; [tauto|]. intros _. rewrite (written_prepended _ b mem) by auto. split; [reflexivity|]. intros Hn. cbv zeta. split.
  - intros store max Hm. pose proof (read_string_ok tag d r store max Hr Ht Hn Hm A) as R. destruct (zlen d <? max); [exact R|]. destruct R; eauto.
  - intros max Hm. pose proof (read_alloc_string_ok tag d r max true Hr Ht Hn A) as R. destruct ((max =? 0) || (zlen d <=? max)); [exact R|]. destruct R; eauto.
Qed.
Print Assumptions C45_strings_round_trip.
Example C45_example :
  write_string (Some (prepare_output [1;1;1;1;1;1] 6)) 3 (Some [97;195;169]) 3 = Ok (E_NONE, Some (PBuf (Some [1;26;3;97;195;169]) 6 1 E_NONE)) /\
  read_string (Some (PBuf (Some [1;26;3;97;195;169]) 6 1 E_NONE)) 3 (Some [7;7;7;7;7]) 4 = Ok (E_NONE, Some [97;195;169;0;7], 3, Some (PBuf (Some [1;26;3;97;195;169]) 6 6 E_NONE)) /\
  accepted [97;195;169].
Proof. repeat split; vm_compute; reflexivity. Qed.

(** C46.  Any calls in any order on an object made by prepare_input,
    prepare_output or prepare_measure: nothing undefined happens even if the
    storage is exactly as large as announced (size = zlen mem), the position stays
    in range, and bytes beyond the announced size are not written. *)
Definition prepared (mem : list Z) (size : Z) (b : pbuf) : Prop :=
  b = prepare_input mem size \/ b = prepare_output mem size \/ b = prepare_measure size.
Lemma prepared_ok : forall mem size b, bytes mem -> 0 <= size <= zlen mem -> size < 2^64 -> prepared mem size b -> pb_ok b.
Proof. intros mem size b Hm Hs Hl [-> | [-> | ->]]; repeat split; cbn; auto; lia. Qed.
Theorem C46_inside_the_buffer : forall mem size b ops, bytes mem -> 0 <= size <= zlen mem -> size < 2^64 -> prepared mem size b -> Forall op_ok ops ->
  exists es b', pb_run b ops = Ok (es, b') /\ 0 <= pb_posn b' <= size /\ pb_size b' = size /\
    match pb_data b' with Some mem' => zlen mem' = zlen mem /\ drop size mem' = drop size mem | None => b = prepare_measure size end.
Proof.
  intros mem size b ops Hm Hs Hl Hp Ho. pose proof (prepared_ok _ _ _ Hm Hs Hl Hp) as Hb.
  destruct (run_steps ops b Hb Ho) as (es & b' & E & O & S & [_ T] & _). exists es, b'. split; [exact E|].
  assert (Sb : pb_size b = size) by (destruct Hp as [-> | [-> | ->]]; reflexivity).
  split; [destruct O; lia|]. split; [congruence|]. rewrite Sb in T.
  destruct Hp as [-> | [-> | ->]]; cbn [pb_data prepare_input prepare_output prepare_measure] in T; destruct (pb_data b'); try contradiction; auto.
Qed.
Print Assumptions C46_inside_the_buffer.
(** Results go into the caller's storage, at most max bytes of it. *)
Theorem C46_results_inside : forall b tag store max, pb_ok b -> 0 <= max <= zlen store ->
  (exists e s n b', read_string (Some b) tag (Some store) max = Ok (e, Some s, n, b') /\ drop max s = drop max store /\ zlen s = zlen store) /\
  (exists e s n b', read_bytes (Some b) tag (Some store) max = Ok (e, Some s, n, b') /\ drop max s = drop max store /\ zlen s = zlen store).
Proof.
  intros b tag store max Hb Hm. split.
  - destruct (read_string_steps b tag store max Hb Hm) as (e & m & n & b' & E & _ & s & -> & D1 & D2). eauto 10.
  - destruct (read_bytes_steps b tag store max Hb Hm) as (e & m & n & b' & E & _ & s & -> & D1 & D2). eauto 10.
Qed.
Print Assumptions C46_results_inside.
Example C46_example :
  pb_run (prepare_input [8;150;1;18;2;104;105] 7) [PTag; RNumber 1 UInt32; PSize; RString 2 [0;0;0] 3; RSkip; RBytes 2 [] 0; FinishInput] =
    Ok ([E_NONE; E_NONE; E_NONE; E_NONE; E_INVALID_FORMAT; E_INVALID_FORMAT; E_INVALID_FORMAT],
        PBuf (Some [8;150;1;18;2;104;105]) 7 7 E_INVALID_FORMAT).
Proof. vm_compute. reflexivity. Qed.

(** C47.  The fields of a message, elements nested to any depth, written to a
    measuring object and to a buffer of any size. *)
Theorem C47_measuring_predicts_writing : forall fs max mem size, Forall field_ok fs -> bytes mem ->
  0 <= max < 2^64 -> 0 <= size <= zlen mem -> size < 2^64 ->
  exists m o, write_fields (Some (prepare_measure max)) fs = Ok (Some m) /\ write_fields (Some (prepare_output mem size)) fs = Ok (Some o) /\
    finish_measure (Some m) = (if zlen (flat_map encoding fs) <=? max then (E_NONE, zlen (flat_map encoding fs)) else (E_INVALID_LENGTH, 0)) /\
    (forall n, finish_measure (Some m) = (E_NONE, n) ->
      if n <=? size then
        finish_output (Some o) = (E_NONE, Some (size - n), n) /\
        exists mem', pb_data o = Some mem' /\ sub (size - n) n mem' = flat_map encoding fs /\ take (size - n) mem' = take (size - n) mem
      else finish_output (Some o) = (E_INVALID_LENGTH, None, 0)).
Proof.
  intros fs max mem size Hf Hm Hx Hs Hl.
  assert (Om : pb_ok (prepare_measure max)) by (repeat split; cbn; lia).
  assert (Oo : pb_ok (prepare_output mem size)) by (repeat split; cbn; auto; lia).
  destruct (write_all_written fs _ Om Hf) as (m & Em & Km & Sm & _ & Dm). destruct (write_all_written fs _ Oo Hf) as (o & Eo & Ko & So & To & Do).
  cbn [prepare_measure prepare_output pb_error pb_posn pb_size is_none err_eqb] in *. exists m, o. split; [exact Em|]. split; [exact Eo|].
  set (l := flat_map encoding fs) in *. pose proof (zlen_nonneg _ l).
  assert (Fm : finish_measure (Some m) = if zlen l <=? max then (E_NONE, zlen l) else (E_INVALID_LENGTH, 0)).
  { unfold finish_measure. destruct Dm as [(D1 & ->) | (D1 & D2)].
    - cbn. destruct (Z.leb_spec (zlen l) max); [|lia]. rewrite usize_small by lia. f_equal. lia.
    - rewrite D2. cbn. destruct (Z.leb_spec (zlen l) max); [lia|reflexivity]. }
  assert (Fo : finish_output (Some o) = if zlen l <=? size then (E_NONE, Some (size - zlen l), zlen l) else (E_INVALID_LENGTH, None, 0)).
  { unfold finish_output. destruct Do as [(D1 & ->) | (D1 & D2)].
    - cbn. destruct (Z.leb_spec (zlen l) size); [|lia]. rewrite usize_small by lia. f_equal. lia.
    - rewrite D2. cbn. destruct (Z.leb_spec (zlen l) size); [lia|reflexivity]. }
  split; [exact Fm|].
  - intros n Hn. rewrite Fm in Hn. destruct (Z.leb_spec (zlen l) max); [|discriminate]. injection Hn as <-. rewrite Fo.
    destruct (Z.leb_spec (zlen l) size); [|reflexivity]. split; [reflexivity|].
    destruct Do as [(D1 & ->) | (D1 & D2)]; [|lia]. cbn. eexists. split; [reflexivity|]. split; [apply splice_sub_same; lia | apply splice_take_before; lia].
Qed.
Print Assumptions C47_measuring_predicts_writing.
Definition C47_fields : list field := [FNumber 1 UInt32 300; FElement 2 [FString 1 [104; 105]; FElement 3 [FBytes 0 [1; 2; 3]]]; FNumber 16 Fixed32 (2^31)].
Example C47_example :
  (exists m, write_fields (Some (prepare_measure 1000)) C47_fields = Ok (Some m) /\ finish_measure (Some m) = (E_NONE, 21)) /\
  (exists o, write_fields (Some (prepare_output (zeros 25) 25)) C47_fields = Ok (Some o) /\ finish_output (Some o) = (E_NONE, Some 4, 21) /\
     pb_data o = Some (zeros 4 ++ [8;172;2; 18;10; 10;2;104;105; 26;4; 3;1;2;3; 133;1;0;0;0;128])) /\
  (exists o, write_fields (Some (prepare_output (zeros 20) 20)) C47_fields = Ok (Some o) /\ finish_output (Some o) = (E_INVALID_LENGTH, None, 0)).
Proof.
  split; [eexists; split; [vm_compute; reflexivity|vm_compute; reflexivity]|]. split; [eexists; split; [vm_compute; reflexivity|split; [vm_compute; reflexivity|vm_compute; reflexivity]]|].
  eexists; split; [vm_compute; reflexivity|vm_compute; reflexivity].
Qed.

(** C48, for failures other than a refused argument: after any call that
    answered an error, whatever is called, every answer is an error, the position
    and the data no longer change. *)
Theorem C48_errors_are_sticky_partial : forall b o e b1 ops, pb_ok b -> op_ok o -> reports o -> pb_step b o = Ok (e, Some b1) ->
  e <> E_NONE -> e <> E_INVALID_PARAM -> Forall op_ok ops ->
  exists es b2, pb_run b1 ops = Ok (es, b2) /\ pb_posn b2 = pb_posn b1 /\ pb_data b2 = pb_data b1 /\
    Forall2 (fun o e => reports o -> e <> E_NONE) ops es /\
    fst (finish_input (Some b2)) <> E_NONE /\ fst (fst (finish_output (Some b2))) <> E_NONE /\ fst (finish_measure (Some b2)) <> E_NONE.
Proof.
  intros b o e b1 ops Hb Ho Hr E He Hp Hops. destruct (step_steps b o Hb Ho) as (e' & b1' & E' & S & _). rewrite E in E'. injection E' as <- <-.
  destruct (S Hr) as (O1 & _ & _ & _ & _ & F). specialize (F He Hp).
  destruct (run_steps ops b1 O1 Hops) as (es & b2 & R & _). destruct (run_stuck ops b1 es b2 O1 Hops F R) as (Q1 & Q2 & Q3 & Q4).
  exists es, b2. split; [exact R|]. split; [auto|]. split; [auto|]. split; [auto|].
  unfold finish_input, finish_output, finish_measure. apply is_none_false in Q1. rewrite Q1. cbn. apply is_none_false in Q1. auto.
Qed.
Print Assumptions C48_errors_are_sticky_partial.
Example C48_example :
  pb_step (prepare_output [0;0] 2) (WNumber 1 UInt32 300) = Ok (E_INVALID_LENGTH, Some (PBuf (Some [172;2]) 2 0 E_INVALID_LENGTH)).
Proof. vm_compute. reflexivity. Qed.
(** Not proved because false: a call refused for its argument leaves no trace.
    Here the end of an element is announced beyond the buffer, the element is
    lost, and finish reports success. *)
Theorem C48_errors_are_sticky_refuted : exists b o b1, pb_ok b /\ op_ok o /\ reports o /\ pb_step b o = Ok (E_INVALID_PARAM, Some b1) /\
  fst (fst (finish_output (Some b1))) = E_NONE.
Proof.
  exists (prepare_output [0;0;0] 3), (WStart 1 4), (prepare_output [0;0;0] 3). split; [repeat split; try (now vm_compute); repeat constructor; lia|].
  split; [unfold op_ok, is_int; lia|]. split; [exact I|]. split; vm_compute; reflexivity.
Qed.
Print Assumptions C48_errors_are_sticky_refuted.

(** C49.  Any field with a tag. *)
Theorem C49_skip_lands_on_the_next_field : forall f r, field_ok f -> 0 < field_tag f -> pb_ok r -> next_bytes r (encoding f) ->
  read_skip (Some r) = Ok (E_NONE, Some (advanced (zlen (encoding f)) r)).
Proof.
  intros f r Hf Ht Hr Hn. destruct f as [tag k v | tag d | tag d | tag fs]; cbn [field_tag encoding] in *.
  - destruct Hf as [[? ?] Hv]. apply read_skip_ok; auto.
    assert (M : forall n, 0 <= n mod 2^64 < 2^64) by (intros; apply Z.mod_pos_bound; reflexivity).
    destruct k; cbn [number_wire]; auto; [pose proof (zigzag_range 32 v) | pose proof (zigzag_range 64 v)]; cbn in *; lia.
  - destruct Hf as [[? ?] _]. now apply read_skip_ok.
  - destruct Hf as [[? ?] _]. now apply read_skip_ok.
  - apply field_ok_element in Hf. destruct Hf as [[? ?] _]. destruct (Z.eqb_spec tag 0); [lia|]. now apply read_skip_ok.
Qed.
Print Assumptions C49_skip_lands_on_the_next_field.
Example C49_example : let m := flat_map encoding C47_fields in
  read_skip (Some (PBuf (Some m) 21 3 E_NONE)) = Ok (E_NONE, Some (PBuf (Some m) 21 15 E_NONE)) /\ read_uint32 (Some (prepare_input m 21)) 1 = Ok (E_NONE, 300, Some (PBuf (Some m) 21 3 E_NONE)).
Proof. split; vm_compute; reflexivity. Qed.

(** C50.  What is accepted is strict UTF-8 without NUL, but not all of that is
    accepted: a character of three or four bytes may only be the last one. *)
Theorem C50_accepted_is_strict_utf8_partial : forall s, bytes s ->
  (accepted s -> strict_utf8 s) /\
  (accepted s <-> exists cs tail, Forall (fun c => scalar c /\ c < 2048) cs /\
    (tail = [] \/ exists c, scalar c /\ 2048 <= c /\ tail = utf8_char c) /\ s = flat_map utf8_char cs ++ tail).
Proof. intros s Hs. split; [intros H; now apply shape_strict, accepted_iff | now apply accepted_iff]. Qed.
Print Assumptions C50_accepted_is_strict_utf8_partial.
(** [accepted] is what write_string and read_string go by. *)
Theorem C50_accepted_by_write_and_read : forall s tag b mem r, bytes s -> zlen s < 2^64 -> is_tag tag -> pb_ok b -> pb_error b = E_NONE -> pb_data b = Some mem ->
  zlen (field_bytes tag (Delimited s)) <= pb_posn b -> pb_ok r -> next_bytes r (field_bytes tag (Delimited s)) ->
  (accepted s <-> exists b', write_string (Some b) tag (Some s) (zlen s) = Ok (E_NONE, b')) /\
  (accepted s <-> exists r', read_string (Some r) tag (Some (zeros (zlen s + 1))) (zlen s + 1) = Ok (E_NONE, Some (s ++ [0]), zlen s, r')).
Proof.
  intros s tag b mem r Hs Hl Ht Hb He Em Hroom Hr Hn. pose proof (zlen_nonneg _ s).
  destruct (C45_strings_round_trip s tag b mem r Hs Hl Ht Hb He Em Hr) as (e & b' & E & I & _). split.
  - rewrite E. split; [intros A; exists (Some b'); do 2 f_equal; apply I; auto|]. intros (b'' & [= -> _]). now apply I.
  - split.
    + intros A. pose proof (read_string_ok tag s r (zeros (zlen s + 1)) (zlen s + 1) Hr Ht Hn) as R. rewrite zlen_zeros in R by lia. specialize (R ltac:(lia) A).
      destruct (Z.ltb_spec (zlen s) (zlen s + 1)); [|lia]. rewrite drop_all in R by (rewrite zlen_zeros; lia). rewrite app_nil_r in R. eauto.
    + intros (r' & R). unfold accepted. destruct (is_utf8_defined s (zlen s)) as [[|] X]; [lia|exact X|exfalso].
      unfold read_string in R. destruct (Z.eqb_spec (zlen s + 1) 0); [lia|]. rewrite store_ok in R by (rewrite ?zlen_zeros, ?zlen_cons, ?zlen_nil; lia). cbn [obind] in R.
      destruct (read_delim_ok tag s r (fun _ value => zlen s + 1 <=? value) Hr Ht Hn) as (b1 & Hb1 & Hn1 & _ & _ & _ & D). rewrite D in R.
      destruct (Z.leb_spec (zlen s + 1) (zlen s)); [lia|]. cbn [obind is_none err_eqb negb] in R.
      destruct (read_space_ok b1 s Hb1 Hn1) as [_ R2]. rewrite R2 in R. cbn [obind] in R. unfold check_utf8 in R. rewrite X in R. cbn in R. discriminate.
Qed.
Print Assumptions C50_accepted_by_write_and_read.
Example C50_example : accepted [104; 195; 169; 226; 130; 172] /\ ~ accepted [192; 128] /\ ~ accepted [237; 160; 128] /\ ~ accepted [97; 0].
Proof. unfold accepted. split; [vm_compute; reflexivity|]. repeat split; vm_compute; discriminate. Qed.
(** The euro sign followed by a letter is refused. *)
Theorem C50_exactly_strict_utf8_refuted : exists s, bytes s /\ strict_utf8 s /\ ~ accepted s.
Proof.
  exists [226; 130; 172; 97]. split; [repeat constructor; unfold is_byte; lia|]. split; [|unfold accepted; vm_compute; discriminate].
  exists [8364; 97]. split; [repeat constructor; unfold scalar; lia | reflexivity].
Qed.
Print Assumptions C50_exactly_strict_utf8_refuted.

(** C51, for tags up to 15 and sizes up to 127: these take one byte. *)
Theorem C51_peeking_partial : forall tag w r, 1 <= tag <= 15 -> pb_ok r -> next_bytes r (field_bytes tag w) ->
  peek_tag (Some r) = Ok tag /\
  forall d, w = Delimited d -> zlen d < 128 -> peek_size (Some r) = Ok (zlen d) /\
    forall store, zlen store = zlen d -> read_bytes (Some r) tag (Some store) (zlen d) = Ok (E_NONE, Some d, zlen d, Some (advanced (zlen (field_bytes tag w)) r)).
Proof.
  intros tag w r Ht Hr Hn. assert (Hn0 := Hn).
  assert (Hw : 0 <= wire_type w < 8) by (destruct w; cbn; lia).
  assert (Ef : field_bytes tag w = (tag * 8 + wire_type w) :: wire_bytes w).
  { unfold field_bytes. destruct (Z.eqb_spec tag 0); [lia|]. rewrite varint_one by lia. reflexivity. }
  rewrite Ef in Hn. assert (He : pb_error r = E_NONE) by apply Hn. assert (N := Hn). destruct N as (_ & mem & Em & Hs & _). rewrite zlen_cons in Hs. pose proof (zlen_nonneg _ (wire_bytes w)).
  assert (P0 : peek_varint (Some r) 0 = Ok (E_NONE, tag * 8 + wire_type w, 1)).
  { eapply peek_varint_one; auto; try lia. rewrite advanced_0. exact Hn. }
  split.
  - unfold peek_tag. rewrite P0. cbn [obind is_none err_eqb negb]. rewrite Z.shiftr_div_pow2 by lia. change (2^3) with 8.
    replace ((tag * 8 + wire_type w) / 8) with tag by (apply (Z.div_unique _ _ _ (wire_type w)); lia).
    unfold MAX_TAG. destruct (Z.eqb_spec tag 0); [lia|]. destruct (Z.ltb_spec (2^29 - 1) tag); [cbn in *; lia|]. reflexivity.
  - intros d -> Hd. pose proof (zlen_nonneg _ d). cbn [wire_bytes wire_type] in *. rewrite varint_one in * by lia.
    split.
    + unfold peek_size. rewrite P0. cbn [obind is_none err_eqb negb].
      assert (Ety : Z.land (tag * 8 + 2) 7 = 2).
      { change 7 with (Z.ones 3). rewrite Z.land_ones by lia. change (2^3) with 8. rewrite Z.add_comm, Z.mod_add by lia. reflexivity. }
      rewrite Ety. cbn [Z.eqb Pos.eqb WIRE_DELIM negb].
      destruct (next_split r [tag * 8 + 2] ([zlen d] ++ d) Hr Hn) as [_ N2]. change (zlen [tag * 8 + 2]) with 1 in N2.
      rewrite zlen_app, zlen_cons, zlen_nil in Hs.
      rewrite (peek_varint_one r 1 (zlen d) d) by (auto; lia). reflexivity.
    + intros store Hst. pose proof (read_bytes_ok tag d r store (zlen d) Hr ltac:(split; lia) Hn0 ltac:(lia)) as R. rewrite Z.leb_refl in R.
      rewrite drop_all, app_nil_r in R by lia. exact R.
Qed.
Print Assumptions C51_peeking_partial.
Example C51_example : peek_tag (Some (prepare_input [26;3;1;2;3] 5)) = Ok 3 /\ peek_size (Some (prepare_input [26;3;1;2;3] 5)) = Ok 3.
Proof. split; vm_compute; reflexivity. Qed.
(** The position is not advanced past the first byte of a longer number: tag 16
    is reported as 2048. *)
Theorem C51_peeking_refuted : exists tag w r, is_tag tag /\ pb_ok r /\ next_bytes r (field_bytes tag w) /\ peek_tag (Some r) = Ok 2048 /\ tag = 16.
Proof.
  exists 16, (Varint 5), (prepare_input [128;1;5] 3). split; [unfold is_tag; lia|]. split; [repeat split; try (now vm_compute); repeat constructor; lia|].
  split; [|split; vm_compute; reflexivity]. split; [reflexivity|]. eexists. split; [reflexivity|]. split; [now vm_compute|reflexivity].
Qed.
Print Assumptions C51_peeking_refuted.
(** and the size of a field of 200 bytes as 25672. *)
Theorem C51_peek_size_refuted : exists tag d r, 1 <= tag <= 15 /\ zlen d = 200 /\ pb_ok r /\ next_bytes r (field_bytes tag (Delimited d)) /\ peek_size (Some r) = Ok 25672.
Proof.
  pose (d := repeat 7 200). exists 1, d, (prepare_input (field_bytes 1 (Delimited d)) 203). split; [lia|]. split; [reflexivity|].
  split; [repeat split; try (now vm_compute); apply (Forall_forall is_byte); intros x Hx; vm_compute in Hx; intuition (subst; unfold is_byte; lia)|].
  split; [|vm_compute; reflexivity]. split; [reflexivity|]. eexists. split; [reflexivity|]. split; [now vm_compute|vm_compute; reflexivity].
Qed.
Print Assumptions C51_peek_size_refuted.

(** C52: a negative tag is an error only if there was one before; otherwise
    numbers are read as if they had no tag. *)
Theorem C52_negative_tag_partial : forall k b tag, tag < 0 -> pb_ok b ->
  (pb_error b <> E_NONE -> exists e v b', read_number k (Some b) tag = Ok (e, v, b') /\ e <> E_NONE) /\
  (pb_error b = E_NONE -> read_number k (Some b) tag = read_number k (Some b) 0).
Proof.
  intros k b tag Ht Hb. split.
  - intros He. destruct (read_number_steps k b tag Hb) as (e & v & b' & E & (_ & _ & _ & S & _) & _). destruct (S He) as [X _]. eauto 10.
  - intros He.
    assert (T : forall ty, read_tag (Some b) tag ty = read_tag (Some b) 0 ty).
    { intros ty. unfold read_tag. destruct (Z.ltb_spec 0 tag); [lia|]. destruct (Z.eqb_spec tag 0); [lia|]. cbn [Z.ltb Z.compare Z.eqb]. rewrite He. cbn. now rewrite He. }
    destruct k; cbn [read_number]; unfold read_int32, read_uint32, read_int64, read_uint64, read_sint32, read_sint64, read_sfixed32, read_sfixed64, read_float, read_double, read_bool, read_fixed32, read_fixed64, read_integer, read_fixed; now rewrite T.
Qed.
Print Assumptions C52_negative_tag_partial.
Theorem C52_negative_tag_refuted : exists r tag v r', pb_ok r /\ tag < 0 /\ read_int32 (Some r) tag = Ok (E_NONE, v, r').
Proof.
  exists (prepare_input [5] 1), (-1), 5. eexists. split; [repeat split; try (now vm_compute); repeat constructor; lia|]. split; [lia|vm_compute; reflexivity].
Qed.
Print Assumptions C52_negative_tag_refuted.

(** C53: all functions but four, and those too if a tag is expected. *)
Theorem C53_null_is_reported_partial : forall tag,
  (forall k, read_number k None tag = Ok (E_INVALID_PARAM, 0, None)) /\
  read_start_element None tag = Ok (E_INVALID_PARAM, 0, None) /\
  (forall n, read_end_element None n = (E_INVALID_PARAM, None)) /\ (forall n, read_at_end_element None n = true) /\
  read_skip None = Ok (E_INVALID_PARAM, None) /\ read_stop None = (E_INVALID_PARAM, None) /\ peek_tag None = Ok 0 /\ peek_size None = Ok 0 /\
  finish_input None = (E_INVALID_PARAM, None) /\ finish_output None = (E_INVALID_PARAM, None, 0) /\ finish_measure None = (E_INVALID_PARAM, 0) /\
  (0 < tag -> forall store max, 0 < max <= zlen store ->
    (exists s, read_string None tag (Some store) max = Ok (E_INVALID_PARAM, s, 0, None)) /\ (exists s, read_bytes None tag (Some store) max = Ok (E_INVALID_PARAM, s, 0, None)) /\
    forall ok, read_alloc_string ok None tag max = Ok (E_INVALID_PARAM, None, 0, None) /\ read_alloc_bytes ok None tag max = Ok (E_INVALID_PARAM, None, 0, None)).
Proof.
  intros tag. split; [destruct k; reflexivity|]. do 10 (split; [intros; reflexivity|]). intros Ht store max Hm.
  assert (T : forall ty, read_tag None tag ty = Ok (E_INVALID_PARAM, None)) by (intros ty; unfold read_tag; destruct (Z.ltb_spec 0 tag); [reflexivity|lia]).
  unfold read_string, read_bytes, read_alloc_string, read_alloc_bytes, read_delim. rewrite !T. cbn [obind is_none err_eqb negb].
  destruct (Z.eqb_spec max 0); [lia|]. rewrite store_ok by (rewrite ?zlen_cons, ?zlen_nil; lia). cbn. split; [eauto|]. split; [eauto|]. auto.
Qed.
Print Assumptions C53_null_is_reported_partial.
Theorem C53_null_is_reported_refuted : read_string None 0 (Some [0]) 1 = UB /\ read_bytes None 0 (Some [0]) 1 = UB /\
  read_alloc_string true None 0 0 = UB /\ read_alloc_bytes true None 0 0 = UB.
Proof. repeat split. Qed.
Print Assumptions C53_null_is_reported_refuted.
