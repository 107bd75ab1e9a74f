(** Proofs about the protobuf functions: arbitrary calls. *)
From Coq Require Import ZifyBool ZifyNat.
From Verif Require Import Base MProto SProto PSha2 PProtoNum PProto PProtoRead.

(** One call: the object stays well formed, an earlier error stays and moves
    nothing, success leaves no error behind, failure is recorded unless an
    argument was wrong. *)
Definition steps (b : pbuf) (e : err) (b' : pbuf) : Prop :=
  pb_ok b' /\ pb_size b' = pb_size b /\ same_storage b b' /\
  (pb_error b <> E_NONE -> e <> E_NONE /\ pb_error b' <> E_NONE /\ pb_posn b' = pb_posn b /\ pb_data b' = pb_data b) /\
  (e = E_NONE -> pb_error b' = E_NONE) /\
  (e <> E_NONE -> e <> E_INVALID_PARAM -> pb_error b' <> E_NONE).
(** Reading also leaves the data alone. *)
Definition rsteps (b : pbuf) (e : err) (b' : pbuf) : Prop := steps b e b' /\ pb_data b' = pb_data b.

Lemma steps_error : forall b e, pb_ok b -> e <> E_NONE -> (pb_error b <> E_NONE \/ e = E_INVALID_PARAM) -> rsteps b e b.
Proof. intros b e H1 H2 H3. split; [|reflexivity]. split; [exact H1|]. split; [reflexivity|]. split; [apply same_storage_refl|]. split; [auto|]. split; [congruence|]. intuition. Qed.
Lemma steps_same : forall b, pb_ok b -> pb_error b = E_NONE -> rsteps b E_NONE b.
Proof. intros b H1 H2. split; [|reflexivity]. split; [exact H1|]. split; [reflexivity|]. split; [apply same_storage_refl|]. split; [congruence|]. split; [auto|congruence]. Qed.
Lemma steps_fail : forall b e, pb_ok b -> e <> E_NONE -> rsteps b e (with_error e b).
Proof.
  intros b e H1 H2. split; [|reflexivity]. split; [exact H1|]. split; [reflexivity|]. split; [exact (same_storage_refl b)|].
  split; [auto|]. split; [congruence|]. auto.
Qed.
Lemma steps_posn : forall b n, pb_ok b -> pb_error b = E_NONE -> 0 <= n <= pb_size b -> rsteps b E_NONE (with_posn n b).
Proof.
  intros b n (H1 & H2 & H3) He Hn. split; [|reflexivity]. split; [split; [cbn; lia|auto]|]. split; [reflexivity|]. split; [exact (same_storage_refl b)|].
  split; [congruence|]. split; [auto|congruence].
Qed.
Lemma rsteps_trans : forall a b c e, rsteps a E_NONE b -> rsteps b e c -> rsteps a e c.
Proof.
  intros a b c e [(A1 & A2 & A3 & A4 & A5 & A6) A7] [(B1 & B2 & B3 & B4 & B5 & B6) B7]. split; [|congruence].
  split; [exact B1|]. split; [congruence|]. split; [eapply same_storage_trans; eauto|]. split; [|auto].
  intros H. exfalso. destruct (A4 H) as [X _]. now apply X.
Qed.
Lemma rsteps_ok : forall a e b, rsteps a e b -> pb_ok b.
Proof. intros a e b [(H & _) _]; exact H. Qed.
Lemma rsteps_none : forall a b, rsteps a E_NONE b -> pb_error b = E_NONE.
Proof. intros a b [(_ & _ & _ & _ & H & _) _]; auto. Qed.

(** ** Writing *)
Lemma writes_steps : forall l b r, pb_ok b -> writes l b r -> exists e b', r = Ok (e, Some b') /\ steps b e b'.
Proof.
  intros l b r Hb W. unfold writes in W. destruct (is_none (pb_error b)) eqn:E.
  - apply is_none_true in E. destruct W as (e & b' & -> & P). exists e, b'. split; [reflexivity|]. pose proof (puts_error _ _ _ _ P E) as Pe.
    destruct P as (P1 & P2 & P3 & P4). split; [exact P1|]. split; [exact P2|]. split; [exact (downward_storage _ _ P3)|]. split; [congruence|]. subst e. auto.
  - apply is_none_false in E. exists (pb_error b), b. split; [exact W|]. apply steps_error; auto.
Qed.
Lemma write_string_steps : forall b tag d, pb_ok b -> bytes d -> zlen d < 2^64 ->
  exists e b', write_string (Some b) tag (Some d) (zlen d) = Ok (e, Some b') /\ steps b e b'.
Proof.
  intros b tag d Hb Hd Hl. pose proof (zlen_nonneg _ d). destruct (is_utf8_defined d (zlen d)) as [r Er]; [lia|].
  destruct r.
  - eapply writes_steps; [exact Hb|]. now apply write_string_writes.
  - destruct (is_none (pb_error b)) eqn:E.
    + apply is_none_true in E. rewrite write_string_refused; auto; [|unfold accepted; congruence]. eexists _, _. split; [reflexivity|].
      apply steps_fail; [auto|discriminate].
    + unfold write_string. rewrite E. cbn [negb]. apply is_none_false in E. eexists _, _. split; [reflexivity|]. apply steps_error; auto.
Qed.
Lemma write_start_steps : forall b tag n, pb_ok b -> exists e b', write_start_element (Some b) tag n = Ok (e, Some b') /\ steps b e b'.
Proof.
  intros b tag n Hb. destruct (Z.ltb_spec n (pb_posn b)) as [H|H1].
  { unfold write_start_element. destruct (Z.ltb_spec n (pb_posn b)); [|lia]. cbn [orb]. eexists _, _. split; [reflexivity|]. apply steps_error; auto; discriminate. }
  destruct (Z.ltb_spec (pb_size b) n) as [H|H2].
  { unfold write_start_element. destruct (Z.ltb_spec n (pb_posn b)); [lia|]. destruct (Z.ltb_spec (pb_size b) n); [|lia]. cbn [orb]. eexists _, _. split; [reflexivity|]. apply steps_error; auto; discriminate. }
  destruct (Z.eq_dec tag 0) as [->|H0].
  - unfold write_start_element. destruct (Z.ltb_spec n (pb_posn b)); [lia|]. destruct (Z.ltb_spec (pb_size b) n); [lia|]. cbn [orb Z.eqb].
    eexists _, _. split; [reflexivity|]. destruct (is_none (pb_error b)) eqn:E; [apply is_none_true in E | apply is_none_false in E].
    + rewrite E. now apply steps_same.
    + apply steps_error; auto.
  - eapply writes_steps; [exact Hb|]. now apply write_start_writes.
Qed.

(** ** Reading *)
Lemma fetch_ok : forall b mem n, pb_ok b -> pb_data b = Some mem -> 0 <= n < pb_size b -> exists c, fetch mem n = Ok c /\ is_byte c.
Proof.
  intros b mem n (H0 & H1 & H2) Em Hn. rewrite Em in H2. unfold fetch. rewrite load_ok by lia. cbn [obind]. eexists. split; [reflexivity|].
  assert (B : bytes (sub n 1 mem)) by (apply bytes_sub; tauto).
  assert (L : zlen (sub n 1 mem) = 1) by (rewrite zlen_sub by lia; lia).
  destruct (sub n 1 mem) as [|c l]; [rewrite zlen_nil in L; lia|]. inversion B; subst. exact H4.
Qed.
Lemma lor_range : forall a b k, 0 <= k -> 0 <= a < 2^k -> 0 <= b < 2^k -> 0 <= Z.lor a b < 2^k.
Proof.
  intros a b k Hk Ha Hb. rewrite <- (Z.mod_small a (2^k)), <- (Z.mod_small b (2^k)) by lia.
  rewrite <- !Z.land_ones, <- Z.land_lor_distr_l, Z.land_ones by lia. apply Z.mod_pos_bound. apply Z.pow_pos_nonneg; lia.
Qed.
Lemma read_loop_steps : forall n b mem shift value, pb_ok b -> pb_error b = E_NONE -> pb_data b = Some mem -> 0 <= value < 2^64 ->
  exists e v b', read_loop n b mem shift value = Ok (e, v, b') /\ rsteps b e b' /\ 0 <= v < 2^64.
Proof.
  induction n; intros b mem shift value Hb He Em Hv; cbn [read_loop].
  - eexists _, _, _. split; [reflexivity|]. split; [apply steps_fail; auto; discriminate|auto].
  - destruct (Z.leb_spec (pb_size b) (pb_posn b)).
    + eexists _, _, _. split; [reflexivity|]. split; [apply steps_fail; auto; discriminate|auto].
    + assert (H0 := Hb). destruct H0 as (H0 & _). destruct (fetch_ok b mem (pb_posn b) Hb Em) as (c & -> & Hc); [lia|]. cbn [obind].
      assert (S1 : rsteps b E_NONE (with_posn (pb_posn b + 1) b)) by (apply steps_posn; auto; lia).
      set (v := Z.lor value _). assert (Hv' : 0 <= v < 2^64) by (apply lor_range; [lia|auto|apply Z.mod_pos_bound; reflexivity]).
      destruct (Z.land c 128 =? 0).
      * eexists _, _, _. split; [reflexivity|]. auto.
      * destruct (IHn (with_posn (pb_posn b + 1) b) mem (shift + 7) v) as (e & w & b' & E & S & W); auto; [eapply rsteps_ok; eauto|].
        exists e, w, b'. split; [exact E|]. split; [eapply rsteps_trans; eauto|auto].
Qed.
Lemma read_varint_steps : forall b, pb_ok b ->
  exists e v b', read_varint (Some b) = Ok (e, v, Some b') /\ rsteps b e b' /\ 0 <= v < 2^64 /\ (e = E_NONE -> pb_data b <> None).
Proof.
  intros b Hb. unfold read_varint. destruct (pb_data b) as [mem|] eqn:Em.
  2:{ eexists _, _, _. split; [reflexivity|]. split; [apply steps_error; auto; discriminate|]. split; [split; [lia|reflexivity]|discriminate]. }
  destruct (is_none (pb_error b)) eqn:E; cbn [negb].
  2:{ apply is_none_false in E. eexists _, _, _. split; [reflexivity|]. split; [apply steps_error; auto|]. split; [split; [lia|reflexivity]|discriminate]. }
  apply is_none_true in E. destruct (Z.leb_spec (pb_size b) (pb_posn b)).
  { eexists _, _, _. split; [reflexivity|]. split; [apply steps_fail; auto; discriminate|]. split; [split; [lia|reflexivity]|discriminate]. }
  assert (H0 := Hb). destruct H0 as (H0 & _). destruct (fetch_ok b mem (pb_posn b) Hb Em) as (c & -> & Hc); [lia|]. cbn [obind].
  assert (S1 : rsteps b E_NONE (with_posn (pb_posn b + 1) b)) by (apply steps_posn; auto; lia).
  assert (2^8 < 2^64) by reflexivity. change (2^8) with 256 in *. unfold is_byte in Hc.
  destruct (byte_facts c Hc) as (L & _). pose proof (Z.mod_pos_bound c 128).
  destruct (Z.land c 128 =? 0).
  - eexists _, _, _. split; [reflexivity|]. split; [auto|]. split; [lia|discriminate].
  - destruct (read_loop_steps 9 (with_posn (pb_posn b + 1) b) mem 7 (Z.land c 127)) as (e & w & b' & -> & S & W); auto; [eapply rsteps_ok; eauto | lia|].
    cbn [obind]. exists e, w, b'. split; [reflexivity|]. split; [eapply rsteps_trans; eauto|]. split; [auto|discriminate].
Qed.
Lemma read_tag_steps : forall b tag type, pb_ok b -> exists e b', read_tag (Some b) tag type = Ok (e, Some b') /\ rsteps b e b'.
Proof.
  intros b tag type Hb. unfold read_tag. destruct (0 <? tag).
  - destruct (read_varint_steps b Hb) as (e & v & b' & -> & S & _). cbn [obind]. destruct (is_none e) eqn:E.
    + apply is_none_true in E. subst e. destruct (negb _).
      * eexists _, _. split; [reflexivity|]. eapply rsteps_trans; [exact S|]. apply steps_fail; [eapply rsteps_ok; eauto|discriminate].
      * eauto.
    + eauto.
  - destruct (is_none (pb_error b)) eqn:E; [apply is_none_true in E | apply is_none_false in E].
    + destruct (tag =? 0); eexists _, _; (split; [reflexivity|]); cbn [negb]; rewrite E; now apply steps_same.
    + destruct (tag =? 0); eexists _, _; (split; [reflexivity|]); cbn [negb pb_error with_error]; [now apply steps_error; auto|].
      apply steps_fail; [auto|discriminate].
Qed.
Lemma read_space_steps : forall b n, pb_ok b -> 0 <= n ->
  exists e off b', read_space (Some b) n = (e, off, Some b') /\ rsteps b e b' /\
    (e = E_NONE -> exists d, space_bytes (Some b') off n = Ok d /\ bytes d /\ zlen d = n).
Proof.
  intros b n Hb Hn. unfold read_space. assert (H0 := Hb). destruct H0 as (H0 & H1 & H2). destruct (pb_data b) as [mem|] eqn:Em.
  2:{ eexists _, _, _. split; [reflexivity|]. split; [apply steps_error; auto; discriminate|discriminate]. }
  destruct (is_none (pb_error b)) eqn:E; cbn [negb].
  2:{ apply is_none_false in E. eexists _, _, _. split; [reflexivity|]. split; [apply steps_error; auto|]. congruence. }
  apply is_none_true in E. rewrite usize_small by lia. destruct (Z.ltb_spec (pb_size b - pb_posn b) n).
  { eexists _, _, _. split; [reflexivity|]. split; [apply steps_fail; auto; discriminate|]. discriminate. }
  eexists _, _, _. split; [reflexivity|]. split; [apply steps_posn; auto; lia|]. intros _. cbn. rewrite Em.
  rewrite load_ok by lia. eexists. split; [reflexivity|]. split; [apply bytes_sub; tauto|]. rewrite zlen_sub by lia. lia.
Qed.
Lemma read_integer_steps : forall b tag, pb_ok b -> exists e v b', read_integer (Some b) tag = Ok (e, v, Some b') /\ rsteps b e b'.
Proof.
  intros b tag Hb. unfold read_integer. destruct (read_tag_steps b tag WIRE_VARINT Hb) as (e & b1 & -> & S). cbn [obind].
  destruct (is_none e) eqn:E; cbn [negb].
  - apply is_none_true in E. subst e. destruct (read_varint_steps b1 (rsteps_ok _ _ _ S)) as (e & v & b2 & -> & S2 & _).
    eexists _, _, _. split; [reflexivity|]. eapply rsteps_trans; eauto.
  - eexists _, _, _. split; [reflexivity|]. exact S.
Qed.
Lemma read_fixed_steps : forall w t b tag, 0 <= w -> pb_ok b -> exists e v b', read_fixed w t (Some b) tag = Ok (e, v, Some b') /\ rsteps b e b'.
Proof.
  intros w t b tag Hw Hb. unfold read_fixed. destruct (read_tag_steps b tag t Hb) as (e & b1 & -> & S). cbn [obind].
  destruct (is_none e) eqn:E; cbn [negb].
  - apply is_none_true in E. subst e. destruct (read_space_steps b1 w (rsteps_ok _ _ _ S) Hw) as (e & off & b2 & -> & S2 & D).
    destruct (is_none e) eqn:E; cbn [negb].
    + apply is_none_true in E. subst e. destruct (D eq_refl) as (d & -> & _). cbn [obind]. eexists _, _, _. split; [reflexivity|]. eapply rsteps_trans; eauto.
    + eexists _, _, _. split; [reflexivity|]. eapply rsteps_trans; eauto.
  - eexists _, _, _. split; [reflexivity|]. exact S.
Qed.
Lemma convert_steps : forall f r b, (exists e v b', r = Ok (e, v, Some b') /\ rsteps b e b') -> exists e v b', convert f r = Ok (e, v, Some b') /\ rsteps b e b'.
Proof.
  intros f r b (e & v & b' & -> & S). unfold convert. cbn [obind]. destruct (is_none e) eqn:E; cbn [negb].
  - apply is_none_true in E. subst e. eexists _, _, _. split; [reflexivity|exact S].
  - eexists _, _, _. split; [reflexivity|exact S].
Qed.
Lemma read_number_steps : forall k b tag, pb_ok b -> exists e v b', read_number k (Some b) tag = Ok (e, v, Some b') /\ rsteps b e b'.
Proof.
  intros k b tag Hb.
  destruct k; cbn [read_number]; unfold read_int32, read_uint32, read_int64, read_uint64, read_sint32, read_sint64, read_sfixed32, read_sfixed64, read_float, read_double, read_bool, read_fixed32, read_fixed64;
    try apply convert_steps; try (now apply read_integer_steps); (apply read_fixed_steps; [lia|auto]).
Qed.
Lemma read_delim_steps : forall b tag f, pb_ok b ->
  exists e off sz b', read_delim (Some b) tag f = Ok (e, off, sz, Some b') /\ rsteps b e b' /\
    (e = E_NONE -> exists d b1, space_bytes (Some b') off sz = Ok d /\ bytes d /\ zlen d = sz /\ f b1 sz = false).
Proof.
  intros b tag f Hb. unfold read_delim. destruct (read_tag_steps b tag WIRE_DELIM Hb) as (e & b1 & -> & S). cbn [obind].
  destruct (is_none e) eqn:E; cbn [negb].
  2:{ apply is_none_false in E. eexists _, _, _, _. split; [reflexivity|]. split; [exact S|]. congruence. }
  apply is_none_true in E. subst e. destruct (read_varint_steps b1 (rsteps_ok _ _ _ S)) as (e & v & b2 & -> & S2 & Hv & _). cbn [obind].
  destruct (is_none e) eqn:E; cbn [negb].
  2:{ apply is_none_false in E. eexists _, _, _, _. split; [reflexivity|]. split; [eapply rsteps_trans; eauto|]. congruence. }
  apply is_none_true in E. subst e. destruct (f b2 v) eqn:Ef.
  { eexists _, _, _, _. split; [reflexivity|]. split; [|discriminate]. eapply rsteps_trans; [exact S|]. eapply rsteps_trans; [exact S2|]. apply steps_fail; [eapply rsteps_ok; eauto|discriminate]. }
  destruct (read_space_steps b2 v (rsteps_ok _ _ _ S2)) as (e & off & b3 & -> & S3 & D); [lia|].
  eexists _, _, _, _. split; [reflexivity|]. split; [eapply rsteps_trans; [exact S|]; eapply rsteps_trans; eauto|].
  intros ->. destruct (D eq_refl) as (d & E1 & E2 & E3). exists d, b2. auto.
Qed.
Lemma check_utf8_steps : forall b d n, pb_ok b -> pb_error b = E_NONE -> 0 <= n <= zlen d ->
  exists e b', check_utf8 (Some b) d n = Ok (e, Some b') /\ rsteps b e b' /\ (e = E_NONE -> b' = b).
Proof.
  intros b d n Hb He Hn. unfold check_utf8. destruct (is_utf8_defined d n Hn) as [r ->]. cbn [obind]. destruct r; cbn [negb].
  - eexists _, _. split; [reflexivity|]. split; [now apply steps_same|auto].
  - eexists _, _. split; [reflexivity|]. split; [apply steps_fail; auto; discriminate|discriminate].
Qed.
Lemma read_string_steps : forall b tag mem max, pb_ok b -> 0 <= max <= zlen mem ->
  exists e m n b', read_string (Some b) tag (Some mem) max = Ok (e, m, n, Some b') /\ rsteps b e b' /\
    exists mem', m = Some mem' /\ drop max mem' = drop max mem /\ zlen mem' = zlen mem.
Proof.
  intros b tag mem max Hb Hm. unfold read_string. destruct (Z.eqb_spec max 0).
  { eexists _, _, _, _. split; [reflexivity|]. split; [apply steps_error; auto; discriminate|]. eauto. }
  rewrite store_ok by (change (zlen [0]) with 1; lia). cbn [obind]. set (mem0 := splice 0 [0] mem).
  assert (L0 : zlen mem0 = zlen mem) by (apply splice_length; change (zlen [0]) with 1; lia).
  assert (K0 : drop max mem0 = drop max mem) by (apply splice_drop_after; change (zlen [0]) with 1; lia).
  destruct (read_delim_steps b tag (fun _ value => max <=? value) Hb) as (e & off & sz & b1 & -> & S & D). cbn [obind].
  destruct (is_none e) eqn:E; cbn [negb].
  2:{ eexists _, _, _, _. split; [reflexivity|]. eauto. }
  apply is_none_true in E. subst e. destruct (D eq_refl) as (d & b2 & -> & Hd & Hl & Hx). cbn [obind]. apply Z.leb_gt in Hx. pose proof (zlen_nonneg _ d).
  destruct (check_utf8_steps b1 d sz) as (e & b3 & -> & S3 & K); [eapply rsteps_ok; eauto | eapply rsteps_none; eauto | lia|]. cbn [obind].
  destruct (is_none e) eqn:E; cbn [negb].
  2:{ eexists _, _, _, _. split; [reflexivity|]. split; [eapply rsteps_trans; eauto|]. eauto. }
  apply is_none_true in E. subst e. rewrite store_ok by lia. cbn [obind].
  assert (L1 : zlen (splice 0 d mem0) = zlen mem) by (rewrite splice_length; lia).
  rewrite store_ok by (change (zlen [0]) with 1; lia). cbn [obind].
  eexists _, _, _, _. split; [reflexivity|]. split; [eapply rsteps_trans; eauto|]. eexists. split; [reflexivity|]. split.
  - rewrite splice_drop_after by (change (zlen [0]) with 1; lia). rewrite splice_drop_after by lia. exact K0.
  - rewrite splice_length by (change (zlen [0]) with 1; lia). exact L1.
Qed.
Lemma read_bytes_steps : forall b tag mem max, pb_ok b -> 0 <= max <= zlen mem ->
  exists e m n b', read_bytes (Some b) tag (Some mem) max = Ok (e, m, n, Some b') /\ rsteps b e b' /\
    exists mem', m = Some mem' /\ drop max mem' = drop max mem /\ zlen mem' = zlen mem.
Proof.
  intros b tag mem max Hb Hm. unfold read_bytes.
  destruct (read_delim_steps b tag (fun _ value => max <? value) Hb) as (e & off & sz & b1 & -> & S & D). cbn [obind].
  destruct (is_none e) eqn:E; cbn [negb].
  2:{ eexists _, _, _, _. split; [reflexivity|]. eauto. }
  apply is_none_true in E. subst e. destruct (D eq_refl) as (d & b2 & -> & Hd & Hl & Hx). cbn [obind]. apply Z.ltb_ge in Hx. pose proof (zlen_nonneg _ d).
  rewrite store_ok by lia. cbn [obind]. eexists _, _, _, _. split; [reflexivity|]. split; [exact S|]. eexists. split; [reflexivity|]. split.
  - rewrite splice_drop_after by lia. reflexivity.
  - apply splice_length; lia.
Qed.
Lemma read_alloc_string_steps : forall ok b tag max, pb_ok b ->
  exists e m n b', read_alloc_string ok (Some b) tag max = Ok (e, m, n, Some b') /\ rsteps b e b'.
Proof.
  intros ok b tag max Hb. unfold read_alloc_string.
  destruct (read_delim_steps b tag (alloc_limit max) Hb) as (e & off & sz & b1 & -> & S & D). cbn [obind].
  destruct (is_none e) eqn:E; cbn [negb]; [|eauto 10].
  apply is_none_true in E. subst e. destruct (D eq_refl) as (d & b2 & -> & Hd & Hl & Hx). cbn [obind]. pose proof (zlen_nonneg _ d).
  destruct (check_utf8_steps b1 d sz) as (e & b3 & -> & S3 & K); [eapply rsteps_ok; eauto | eapply rsteps_none; eauto | lia|]. cbn [obind].
  destruct (is_none e) eqn:E; cbn [negb].
  2:{ eexists _, _, _, _. split; [reflexivity|]. eapply rsteps_trans; eauto. }
  apply is_none_true in E. subst e. destruct ok; cbn [negb].
  - eexists _, _, _, _. split; [reflexivity|]. eapply rsteps_trans; eauto.
  - eexists _, _, _, _. split; [reflexivity|]. eapply rsteps_trans; [exact S|]. eapply rsteps_trans; [exact S3|]. apply steps_fail; [eapply rsteps_ok; eauto|discriminate].
Qed.
Lemma read_alloc_bytes_steps : forall ok b tag max, pb_ok b ->
  exists e m n b', read_alloc_bytes ok (Some b) tag max = Ok (e, m, n, Some b') /\ rsteps b e b'.
Proof.
  intros ok b tag max Hb. unfold read_alloc_bytes.
  destruct (read_delim_steps b tag (alloc_limit max) Hb) as (e & off & sz & b1 & -> & S & D). cbn [obind].
  destruct (is_none e) eqn:E; cbn [negb]; [|eauto 10].
  apply is_none_true in E. subst e. destruct (D eq_refl) as (d & b2 & Ed & Hd & Hl & Hx). destruct ok; cbn [negb].
  - rewrite Ed. cbn [obind]. eauto 10.
  - eexists _, _, _, _. split; [reflexivity|]. eapply rsteps_trans; [exact S|]. apply steps_fail; [eapply rsteps_ok; eauto|discriminate].
Qed.
Lemma read_start_steps : forall b tag, pb_ok b -> exists e n b', read_start_element (Some b) tag = Ok (e, n, Some b') /\ rsteps b e b' /\ 0 <= n <= pb_size b.
Proof.
  intros b tag Hb. assert (B := Hb). destruct B as (B0 & B1 & _). unfold read_start_element. destruct (read_tag_steps b tag WIRE_DELIM Hb) as (e & b1 & -> & S). cbn [obind].
  destruct (is_none e) eqn:E; cbn [negb].
  2:{ eexists _, _, _. split; [reflexivity|]. split; [exact S|lia]. }
  apply is_none_true in E. subst e. destruct (negb (tag =? 0)).
  - destruct (read_varint_steps b1 (rsteps_ok _ _ _ S)) as (e & v & b2 & -> & S2 & Hv & _). cbn [obind].
    destruct (is_none e) eqn:E; cbn [negb].
    2:{ eexists _, _, _. split; [reflexivity|]. split; [eapply rsteps_trans; eauto|lia]. }
    apply is_none_true in E. subst e. assert (S3 := rsteps_trans _ _ _ _ S S2). assert (O := rsteps_ok _ _ _ S3). assert (O' := O). destruct O' as (O1 & O2 & _).
    assert (Es : pb_size b2 = pb_size b) by apply S3. rewrite usize_small by lia. destruct (Z.ltb_spec (pb_size b2 - pb_posn b2) v).
    + eexists _, _, _. split; [reflexivity|]. split; [|lia]. eapply rsteps_trans; [exact S|]. eapply rsteps_trans; [exact S2|]. apply steps_fail; [auto|discriminate].
    + eexists _, _, _. split; [reflexivity|]. split; [exact S3|lia].
  - assert (Es : pb_size b1 = pb_size b) by apply S. eexists _, _, _. split; [reflexivity|]. split; [exact S|]. lia.
Qed.
Lemma read_skip_steps : forall b, pb_ok b -> exists e b', read_skip (Some b) = Ok (e, Some b') /\ rsteps b e b'.
Proof.
  intros b Hb. unfold read_skip. destruct (read_varint_steps b Hb) as (e & v & b1 & -> & S & _). cbn [obind].
  destruct (is_none e) eqn:E; cbn [negb]; [|eauto].
  apply is_none_true in E. subst e. assert (O := rsteps_ok _ _ _ S).
  destruct (Z.land v 7 =? WIRE_VARINT).
  { destruct (read_varint_steps b1 O) as (e & w & b2 & -> & S2 & _). cbn [obind]. eexists _, _. split; [reflexivity|]. eapply rsteps_trans; eauto. }
  destruct (Z.land v 7 =? WIRE_64BIT).
  { destruct (read_space_steps b1 8 O) as (e & off & b2 & -> & S2 & _); [lia|]. eexists _, _. split; [reflexivity|]. eapply rsteps_trans; eauto. }
  destruct (Z.land v 7 =? WIRE_DELIM).
  { destruct (read_varint_steps b1 O) as (e & w & b2 & -> & S2 & Hw & _). cbn [obind]. destruct (is_none e) eqn:E.
    - apply is_none_true in E. subst e. assert (O2 := rsteps_ok _ _ _ S2). assert (B := O2). destruct B as (B0 & B1 & _). rewrite usize_small by lia.
      destruct (Z.leb_spec w (pb_size b2 - pb_posn b2)).
      + eexists _, _. split; [reflexivity|]. eapply rsteps_trans; [exact S|]. eapply rsteps_trans; [exact S2|]. apply steps_posn; auto; [eapply rsteps_none; eauto|lia].
      + eexists _, _. split; [reflexivity|]. eapply rsteps_trans; [exact S|]. eapply rsteps_trans; [exact S2|]. apply steps_fail; auto; discriminate.
    - eexists _, _. split; [reflexivity|]. eapply rsteps_trans; eauto. }
  destruct (Z.land v 7 =? WIRE_32BIT).
  { destruct (read_space_steps b1 4 O) as (e & off & b2 & -> & S2 & _); [lia|]. eexists _, _. split; [reflexivity|]. eapply rsteps_trans; eauto. }
  eexists _, _. split; [reflexivity|]. eapply rsteps_trans; [exact S|]. apply steps_fail; auto; discriminate.
Qed.
Lemma peek_loop_ok : forall n b mem shift value length posn, pb_ok b -> pb_data b = Some mem -> 0 <= posn ->
  exists r, peek_loop n mem (pb_size b) shift value length posn = Ok r.
Proof.
  induction n; intros b mem shift value len posn Hb Em Hp; cbn [peek_loop]; [eauto|].
  destruct (Z.leb_spec (pb_size b) posn); [eauto|]. destruct (fetch_ok b mem posn Hb Em) as (c & -> & _); [lia|]. cbn [obind].
  destruct (Z.land c 128 =? 0); [eauto|]. apply IHn; auto; lia.
Qed.
Lemma peek_varint_ok : forall b length, pb_ok b -> exists r, peek_varint (Some b) length = Ok r.
Proof.
  intros b length Hb. unfold peek_varint. destruct (pb_data b) as [mem|] eqn:Em; [|eauto]. destruct (negb _); [eauto|].
  pose proof (Z.mod_pos_bound (pb_posn b + length) (2^64) eq_refl) as P. unfold usize. destruct (Z.leb_spec (pb_size b) ((pb_posn b + length) mod 2^64)); [eauto|].
  destruct (fetch_ok b mem ((pb_posn b + length) mod 2^64) Hb Em) as (c & -> & _); [lia|]. cbn [obind].
  destruct (Z.land c 128 =? 0); [eauto|]. apply peek_loop_ok; auto; lia.
Qed.
Lemma peek_tag_defined : forall b, pb_ok b -> exists r, peek_tag (Some b) = Ok r.
Proof.
  intros b Hb. unfold peek_tag. destruct (peek_varint_ok b 0 Hb) as [[[e v] l] ->]. cbn [obind]. destruct (negb _); [eauto|]. destruct (_ || _); eauto.
Qed.
Lemma peek_size_defined : forall b, pb_ok b -> exists r, peek_size (Some b) = Ok r.
Proof.
  intros b Hb. unfold peek_size. destruct (peek_varint_ok b 0 Hb) as [[[e v] l] ->]. cbn [obind]. destruct (negb _); [eauto|]. destruct (negb _); [eauto|].
  destruct (peek_varint_ok b l Hb) as [[[e' v'] l'] ->]. cbn [obind]. destruct (negb _); eauto.
Qed.
Lemma finish_shift_steps : forall b, pb_ok b -> exists e off n b', finish_output_shift (Some b) = Ok (e, off, n, Some b') /\ steps b e b'.
Proof.
  intros b Hb. unfold finish_output_shift. assert (B := Hb). destruct B as (B0 & B1 & B2).
  destruct (is_none (pb_error b)) eqn:E; cbn [negb].
  2:{ apply is_none_false in E. eexists _, _, _, _. split; [reflexivity|]. apply steps_error; auto. }
  apply is_none_true in E. destruct (pb_data b) as [mem|] eqn:Em.
  2:{ eexists _, _, _, _. split; [reflexivity|]. now apply steps_same. }
  rewrite usize_small by lia. destruct (Z.eqb_spec (pb_posn b) 0); cbn [negb].
  { eexists _, _, _, _. split; [reflexivity|]. now apply steps_same. }
  rewrite load_ok by lia. cbn [obind]. set (d := sub _ _ _). assert (L : zlen d = pb_size b - pb_posn b) by (unfold d; rewrite zlen_sub; lia).
  rewrite store_ok by lia. cbn [obind]. eexists _, _, _, _. split; [reflexivity|].
  assert (Ls : zlen (splice 0 d mem) = zlen mem) by (apply splice_length; lia).
  split. { split; [cbn; lia|]. split; [cbn; lia|]. cbn. split; [lia|]. apply bytes_splice; [apply bytes_sub|]; tauto. }
  split; [reflexivity|]. split; [split; [reflexivity|]; rewrite Em; cbn; split; [exact Ls|]; apply splice_drop_after; lia|]. split; [congruence|]. split; [auto|congruence].
Qed.

(** One call of any kind.  Those that report nothing change nothing. *)
Lemma step_steps : forall b o, pb_ok b -> op_ok o -> exists e b', pb_step b o = Ok (e, Some b') /\
  (reports o -> steps b e b') /\ (~ reports o -> b' = b).
Proof.
  intros b o Hb Ho.
  assert (T : forall r : outcome (err * option pbuf), (exists e b', r = Ok (e, Some b') /\ steps b e b') ->
    reports o -> exists e b', r = Ok (e, Some b') /\ (reports o -> steps b e b') /\ (~ reports o -> b' = b))
    by (intros r (e & b' & -> & S) R; eexists _, _; split; [reflexivity|]; tauto).
  destruct o; cbn [pb_step op_ok] in *.
  - apply T; [|exact I]. destruct Ho. eapply writes_steps; [exact Hb|]. now apply write_number_writes.
  - apply T; [|exact I]. destruct Ho as (? & ? & ?). eapply writes_steps; [exact Hb|]. now apply write_bytes_writes.
  - apply T; [|exact I]. destruct Ho as (? & ? & ?). now apply write_string_steps.
  - apply T; [|exact I]. now apply write_start_steps.
  - apply T; [|exact I]. eexists _, _. split; [reflexivity|]. unfold write_end_element.
    destruct (is_none (pb_error b)) eqn:E; [apply is_none_true in E; now apply steps_same | apply is_none_false in E; cbn; apply steps_error; auto].
  - destruct (peek_tag_defined b Hb) as [r ->]. cbn. eexists _, _. split; [reflexivity|]. cbn. tauto.
  - destruct (peek_size_defined b Hb) as [r ->]. cbn. eexists _, _. split; [reflexivity|]. cbn. tauto.
  - apply T; [|exact I]. destruct (read_number_steps k b tag Hb) as (e & v & b' & -> & [S _]). cbn. eauto.
  - apply T; [|exact I]. destruct Ho as (? & ? & ? & ?). destruct (read_string_steps b tag mem max Hb) as (e & m & n & b' & -> & [S _] & _); [lia|]. cbn. eauto.
  - apply T; [|exact I]. destruct Ho as (? & ? & ? & ?). destruct (read_bytes_steps b tag mem max Hb) as (e & m & n & b' & -> & [S _] & _); [lia|]. cbn. eauto.
  - apply T; [|exact I]. destruct (read_alloc_string_steps ok b tag max Hb) as (e & m & n & b' & -> & [S _]). cbn. eauto.
  - apply T; [|exact I]. destruct (read_alloc_bytes_steps ok b tag max Hb) as (e & m & n & b' & -> & [S _]). cbn. eauto.
  - apply T; [|exact I]. destruct (read_start_steps b tag Hb) as (e & n & b' & -> & [S _] & _). cbn. eauto.
  - apply T; [|exact I]. unfold read_end_element. destruct (is_none (pb_error b)) eqn:E; cbn [negb].
    + apply is_none_true in E. destruct (negb _); eexists _, _; (split; [reflexivity|]); [apply steps_fail; auto; discriminate | now apply steps_same].
    + apply is_none_false in E. eexists _, _. split; [reflexivity|]. apply steps_error; auto.
  - eexists _, _. split; [reflexivity|]. cbn. tauto.
  - apply T; [|exact I]. destruct (read_skip_steps b Hb) as (e & b' & -> & [S _]). eauto.
  - apply T; [|exact I]. unfold read_stop. destruct (is_none (pb_error b)) eqn:E.
    + eexists _, _. split; [reflexivity|]. apply steps_fail; auto; discriminate.
    + apply is_none_false in E. eexists _, _. split; [reflexivity|]. apply steps_error; auto.
  - apply T; [|exact I]. unfold finish_input. destruct (is_none (pb_error b)) eqn:E; cbn [negb].
    + apply is_none_true in E. destruct (negb _); eexists _, _; (split; [reflexivity|]); [apply steps_fail; auto; discriminate | now apply steps_same].
    + apply is_none_false in E. eexists _, _. split; [reflexivity|]. apply steps_error; auto.
  - apply T; [|exact I]. eexists _, _. split; [reflexivity|]. unfold finish_output.
    destruct (is_none (pb_error b)) eqn:E; [apply is_none_true in E; now apply steps_same | apply is_none_false in E; cbn; apply steps_error; auto].
  - apply T; [|exact I]. destruct (finish_shift_steps b Hb) as (e & m & n & b' & -> & S). cbn. eauto.
  - apply T; [|exact I]. eexists _, _. split; [reflexivity|]. unfold finish_measure.
    destruct (is_none (pb_error b)) eqn:E; [apply is_none_true in E; now apply steps_same | apply is_none_false in E; cbn; apply steps_error; auto].
Qed.
Lemma run_steps : forall ops b, pb_ok b -> Forall op_ok ops -> exists es b', pb_run b ops = Ok (es, b') /\ pb_ok b' /\ pb_size b' = pb_size b /\ same_storage b b' /\
  zlen es = zlen ops.
Proof.
  induction ops as [|o ops IH]; intros b Hb Ho; cbn [pb_run].
  - exists [], b. repeat (split; auto using same_storage_refl); apply Hb.
  - inversion Ho as [|? ? H1 H2]; subst. destruct (step_steps b o Hb H1) as (e & b1 & -> & S1 & S2). cbn [obind].
    assert (P : pb_ok b1 /\ pb_size b1 = pb_size b /\ same_storage b b1).
    { assert (D : reports o \/ ~ reports o) by (destruct o; cbn; tauto). destruct D as [D|D]; [destruct (S1 D) as (? & ? & ? & _); auto|].
      rewrite (S2 D). auto using same_storage_refl. }
    destruct P as (P1 & P2 & P3). destruct (IH b1 P1 H2) as (es & b2 & -> & Q1 & Q2 & Q3 & Q4). cbn. exists (e :: es), b2.
    split; [reflexivity|]. split; [auto|]. split; [congruence|]. split; [eapply same_storage_trans; eauto|]. rewrite !zlen_cons. lia.
Qed.
(** After an error *)
Lemma run_stuck : forall ops b es b', pb_ok b -> Forall op_ok ops -> pb_error b <> E_NONE -> pb_run b ops = Ok (es, b') ->
  pb_error b' <> E_NONE /\ pb_posn b' = pb_posn b /\ pb_data b' = pb_data b /\
  Forall2 (fun o e => reports o -> e <> E_NONE) ops es.
Proof.
  induction ops as [|o ops IH]; intros b es b' Hb Ho He; cbn [pb_run].
  - intros [= <- <-]. repeat split; auto.
  - inversion Ho as [|? ? H1 H2]; subst. destruct (step_steps b o Hb H1) as (e & b1 & -> & S1 & S2). cbn [obind].
    assert (P : pb_ok b1 /\ pb_error b1 <> E_NONE /\ pb_posn b1 = pb_posn b /\ pb_data b1 = pb_data b /\ (reports o -> e <> E_NONE)).
    { assert (D : reports o \/ ~ reports o) by (destruct o; cbn; tauto). destruct D as [D|D].
      - destruct (S1 D) as (? & _ & _ & X & _). destruct (X He) as (? & ? & ? & ?). auto.
      - rewrite (S2 D). repeat (split; auto); tauto. }
    destruct P as (P1 & P2 & P3 & P4 & P5). destruct (pb_run b1 ops) as [[es1 b2]|] eqn:R; [|discriminate]. cbn. intros [= <- <-].
    destruct (IH b1 es1 b2 P1 H2 P2 R) as (Q1 & Q2 & Q3 & Q4). repeat split; try congruence. constructor; auto.
Qed.
