(** Proofs about certificate objects: any input, any allocation failures. *)
From Coq Require Import ZifyBool ZifyNat.
From Verif Require Import Base MProto SProto PSha2 PProtoNum PProto PProtoRead PProtoSafe PProtoUtf8 MCert SCert PCert PCertRead.

(** ** Reading moves forward or fails *)
Definition moves (b : pbuf) (e : err) (b' : pbuf) : Prop :=
  rsteps b e b' /\ pb_posn b <= pb_posn b' /\ (e = E_NONE -> pb_posn b < pb_posn b') /\ (e <> E_NONE -> pb_error b' <> E_NONE).
Lemma read_loop_forward : forall n b mem shift value e v b', read_loop n b mem shift value = Ok (e, v, b') ->
  pb_posn b <= pb_posn b' /\ (e <> E_NONE -> pb_error b' <> E_NONE).
Proof.
  induction n; intros b mem shift value e v b' H; cbn [read_loop] in H.
  - injection H as <- <- <-. cbn. split; [lia|discriminate].
  - destruct (pb_size b <=? pb_posn b); [injection H as <- <- <-; cbn; split; [lia|discriminate]|].
    destruct (fetch mem (pb_posn b)); [|discriminate]. cbn [obind] in H. destruct (_ =? 0); [injection H as <- <- <-; cbn; split; [lia|congruence]|].
    apply IHn in H. cbn in H. split; [lia|tauto].
Qed.
Lemma read_varint_moves : forall b mem, pb_ok b -> pb_data b = Some mem -> exists e v b', read_varint (Some b) = Ok (e, v, Some b') /\ moves b e b' /\ 0 <= v < 2^64.
Proof.
  intros b mem Hb Em. destruct (read_varint_steps b Hb) as (e & v & b' & E & S & V & _). exists e, v, b'. split; [exact E|]. split; [|exact V]. split; [exact S|].
  unfold read_varint in E. rewrite Em in E. destruct (is_none (pb_error b)) eqn:En; cbn [negb] in E.
  2:{ apply is_none_false in En. injection E as <- <- <-. split; [lia|]. split; [congruence|auto]. }
  destruct (pb_size b <=? pb_posn b); [injection E as <- <- <-; cbn; split; [lia|]; split; [congruence|auto]|].
  destruct (fetch mem (pb_posn b)); [|discriminate]. cbn [obind] in E. destruct (_ =? 0); [injection E as <- <- <-; cbn; split; [lia|]; split; [lia|congruence]|].
  destruct (read_loop _ _ _ _ _) as [[[e' v'] b1]|] eqn:L; [|discriminate]. cbn [obind] in E. injection E as <- <- <-.
  apply read_loop_forward in L. cbn in L. split; [lia|]. split; [lia|tauto].
Qed.
Lemma moves_data : forall b e b' mem, moves b e b' -> pb_data b = Some mem -> pb_data b' = Some mem.
Proof. intros b e b' mem [[_ H] _] E. congruence. Qed.
Lemma moves_then : forall a b c e, moves a E_NONE b -> rsteps b e c -> pb_posn b <= pb_posn c -> (e <> E_NONE -> pb_error c <> E_NONE) -> moves a e c.
Proof.
  intros a b c e (H1 & H2 & H3 & H4) S P X. split; [eapply rsteps_trans; eauto|]. specialize (H3 eq_refl). split; [lia|]. split; [lia|exact X].
Qed.
Lemma moves_trans : forall a b c e, moves a E_NONE b -> moves b e c -> moves a e c.
Proof. intros a b c e H (K1 & K2 & K3 & K4). eapply moves_then; eauto. Qed.
Lemma moves_fail : forall a b e, moves a E_NONE b -> e <> E_NONE -> moves a e (with_error e b).
Proof. intros a b e H He. eapply moves_then; [exact H| | cbn; lia | auto]. apply steps_fail; auto. destruct H as [H _]. eapply rsteps_ok; eauto. Qed.
Lemma moves_ok : forall a e b, moves a e b -> pb_ok b.
Proof. intros a e b [H _]. eapply rsteps_ok; eauto. Qed.
Lemma moves_none : forall a b, moves a E_NONE b -> pb_error b = E_NONE.
Proof. intros a b [H _]. eapply rsteps_none; eauto. Qed.
Lemma moves_size : forall a e b, moves a e b -> pb_size b = pb_size a.
Proof. intros a e b [[(_ & H & _) _] _]. exact H. Qed.
Lemma read_tag_moves : forall b mem tag type, pb_ok b -> pb_data b = Some mem -> 0 < tag -> exists e b', read_tag (Some b) tag type = Ok (e, Some b') /\ moves b e b'.
Proof.
  intros b mem tag type Hb Em Ht. unfold read_tag. destruct (Z.ltb_spec 0 tag); [|lia].
  destruct (read_varint_moves b mem Hb Em) as (e & v & b' & -> & M & _). cbn [obind]. destruct (is_none e) eqn:E; [|eauto].
  apply is_none_true in E. subst e. destruct (negb _); [|eauto]. eexists _, _. split; [reflexivity|]. apply moves_fail; [exact M|discriminate].
Qed.
Lemma read_space_moves : forall b mem n, pb_ok b -> pb_data b = Some mem -> 0 <= n -> exists e off b', read_space (Some b) n = (e, off, Some b') /\
  rsteps b e b' /\ pb_posn b <= pb_posn b' /\ (e <> E_NONE -> pb_error b' <> E_NONE) /\
  (e = E_NONE -> exists d, space_bytes (Some b') off n = Ok d /\ bytes d /\ zlen d = n).
Proof.
  intros b mem n Hb Em Hn. destruct (read_space_steps b n Hb Hn) as (e & off & b' & E & S & D). exists e, off, b'. split; [exact E|]. split; [exact S|].
  unfold read_space in E. rewrite Em in E. destruct (is_none (pb_error b)) eqn:En; cbn [negb] in E.
  2:{ apply is_none_false in En. injection E as <- <- <-. split; [lia|]. split; [auto|congruence]. }
  destruct (_ <? n); injection E as <- <- <-; cbn; (split; [lia|]); (split; [intros; congruence|auto]).
Qed.
Lemma read_delim_moves : forall b mem tag f, pb_ok b -> pb_data b = Some mem -> 0 < tag ->
  exists e off sz b', read_delim (Some b) tag f = Ok (e, off, sz, Some b') /\ moves b e b' /\
    (e = E_NONE -> exists d, space_bytes (Some b') off sz = Ok d /\ bytes d /\ zlen d = sz /\ sz < 2^64).
Proof.
  intros b mem tag f Hb Em Ht. unfold read_delim. destruct (read_tag_moves b mem tag WIRE_DELIM Hb Em Ht) as (e & b1 & -> & M1). cbn [obind].
  destruct (is_none e) eqn:E; cbn [negb].
  2:{ apply is_none_false in E. eexists _, _, _, _. split; [reflexivity|]. split; [exact M1|]. congruence. }
  apply is_none_true in E. subst e. pose proof (moves_data _ _ _ _ M1 Em) as Em1.
  destruct (read_varint_moves b1 mem (moves_ok _ _ _ M1) Em1) as (e & v & b2 & -> & M2 & Hv). cbn [obind]. pose proof (moves_trans _ _ _ _ M1 M2) as M3.
  destruct (is_none e) eqn:E; cbn [negb].
  2:{ apply is_none_false in E. eexists _, _, _, _. split; [reflexivity|]. split; [exact M3|]. congruence. }
  apply is_none_true in E. subst e. destruct (f b2 v).
  { eexists _, _, _, _. split; [reflexivity|]. split; [apply moves_fail; [exact M3|discriminate]|discriminate]. }
  destruct (read_space_moves b2 mem v (moves_ok _ _ _ M3) (moves_data _ _ _ _ M3 Em)) as (e & off & b3 & -> & S3 & P3 & X3 & D); [lia|].
  eexists _, _, _, _. split; [reflexivity|]. split; [eapply moves_then; eauto|]. intros ->. destruct (D eq_refl) as (d & D1 & D2 & D3). exists d. repeat (split; auto). lia.
Qed.
Lemma read_uint32_moves : forall b mem tag, pb_ok b -> pb_data b = Some mem -> 0 < tag -> exists e v b', read_uint32 (Some b) tag = Ok (e, v, Some b') /\ moves b e b' /\ 0 <= v < 2^32.
Proof.
  intros b mem tag Hb Em Ht. unfold read_uint32, convert, read_integer. destruct (read_tag_moves b mem tag WIRE_VARINT Hb Em Ht) as (e & b1 & -> & M1). cbn [obind].
  destruct (is_none e) eqn:E; cbn [negb].
  2:{ cbn [obind]. rewrite E. cbn [negb]. eexists _, _, _. split; [reflexivity|]. split; [exact M1|lia]. }
  apply is_none_true in E. subst e. destruct (read_varint_moves b1 mem (moves_ok _ _ _ M1) (moves_data _ _ _ _ M1 Em)) as (e & v & b2 & -> & M2 & Hv). cbn [obind].
  pose proof (moves_trans _ _ _ _ M1 M2) as M3. destruct (is_none e) eqn:E; cbn [negb].
  - apply is_none_true in E. subst e. eexists _, _, _. split; [reflexivity|]. split; [exact M3|]. apply Z.mod_pos_bound. lia.
  - eexists _, _, _. split; [reflexivity|]. split; [exact M3|lia].
Qed.
Definition string_or_null (c : cptr) (size : Z) : Prop := match c with None => True | Some d => exists s, d = s ++ [0] /\ size = zlen s /\ bytes s /\ zlen s < 2^64 /\ accepted s end.
Definition bytes_or_null (c : cptr) (size : Z) : Prop := match c with None => True | Some d => bytes (take size d) /\ zlen (take size d) < 2^64 end.
Lemma read_alloc_string_moves : forall ok b mem tag, pb_ok b -> pb_data b = Some mem -> 0 < tag ->
  exists e c sz b', read_alloc_string ok (Some b) tag 0 = Ok (e, c, sz, Some b') /\ moves b e b' /\ string_or_null c sz /\ (ok = false -> e <> E_NONE) /\ (e = E_NONE -> c <> None).
Proof.
  intros ok b mem tag Hb Em Ht. unfold read_alloc_string.
  destruct (read_delim_moves b mem tag (alloc_limit 0) Hb Em Ht) as (e & off & sz & b1 & -> & M & D). cbn [obind].
  destruct (is_none e) eqn:E; cbn [negb].
  2:{ apply is_none_false in E. eexists _, _, _, _. split; [reflexivity|]. split; [exact M|]. split; [exact I|]. split; [auto|congruence]. }
  apply is_none_true in E. subst e. destruct (D eq_refl) as (d & -> & Hd & Hl & Hs). cbn [obind]. pose proof (zlen_nonneg _ d).
  unfold check_utf8. destruct (is_utf8_defined d sz ltac:(lia)) as [r Er]. rewrite Er. cbn [obind]. destruct r; cbn [negb obind is_none err_eqb].
  2:{ eexists _, _, _, _. split; [reflexivity|]. split; [apply moves_fail; [exact M|discriminate]|]. split; [exact I|]. split; discriminate. }
  destruct ok; cbn [negb].
  - eexists _, _, _, _. split; [reflexivity|]. split; [exact M|]. split; [|split; discriminate]. exists d. split; [reflexivity|]. split; [auto|]. split; [exact Hd|]. split; [lia|].
    unfold accepted. now rewrite Hl.
  - eexists _, _, _, _. split; [reflexivity|]. split; [apply moves_fail; [exact M|discriminate]|]. split; [exact I|]. split; discriminate.
Qed.
Lemma read_alloc_bytes_moves : forall ok b mem tag, pb_ok b -> pb_data b = Some mem -> 0 < tag ->
  exists e c sz b', read_alloc_bytes ok (Some b) tag 0 = Ok (e, c, sz, Some b') /\ moves b e b' /\ bytes_or_null c sz /\ (ok = false -> e <> E_NONE) /\ (e = E_NONE -> c <> None).
Proof.
  intros ok b mem tag Hb Em Ht. unfold read_alloc_bytes.
  destruct (read_delim_moves b mem tag (alloc_limit 0) Hb Em Ht) as (e & off & sz & b1 & -> & M & D). cbn [obind].
  destruct (is_none e) eqn:E; cbn [negb].
  2:{ apply is_none_false in E. eexists _, _, _, _. split; [reflexivity|]. split; [exact M|]. split; [exact I|]. split; [auto|congruence]. }
  apply is_none_true in E. subst e. destruct (D eq_refl) as (d & Ed & Hd & Hl & Hs).
  destruct ok; cbn [negb].
  - rewrite Ed. cbn [obind]. eexists _, _, _, _. split; [reflexivity|]. split; [exact M|]. split; [|split; discriminate]. cbn.
    destruct (Z.ltb_spec 0 sz).
    + rewrite take_all by lia. split; [exact Hd|lia].
    + rewrite take_le0 by lia. split; [constructor|reflexivity].
  - eexists _, _, _, _. split; [reflexivity|]. split; [apply moves_fail; [exact M|discriminate]|]. split; [exact I|]. split; discriminate.
Qed.
Lemma read_start_moves : forall b mem tag, pb_ok b -> pb_data b = Some mem -> 0 < tag -> exists e n b', read_start_element (Some b) tag = Ok (e, n, Some b') /\ moves b e b'.
Proof.
  intros b mem tag Hb Em Ht. assert (B := Hb). destruct B as (B0 & B1 & _). unfold read_start_element. destruct (read_tag_moves b mem tag WIRE_DELIM Hb Em Ht) as (e & b1 & -> & M1). cbn [obind].
  destruct (is_none e) eqn:E; cbn [negb]; [|eauto 10].
  apply is_none_true in E. subst e. destruct (Z.eqb_spec tag 0); [lia|]. cbn [negb].
  destruct (read_varint_moves b1 mem (moves_ok _ _ _ M1) (moves_data _ _ _ _ M1 Em)) as (e & v & b2 & -> & M2 & Hv). cbn [obind].
  pose proof (moves_trans _ _ _ _ M1 M2) as M3. destruct (is_none e) eqn:E; cbn [negb]; [|eauto 10].
  apply is_none_true in E. subst e. destruct (_ <? v); [|eauto 10]. eexists _, _, _. split; [reflexivity|]. apply moves_fail; [exact M3|discriminate].
Qed.
Lemma read_skip_moves : forall b mem, pb_ok b -> pb_data b = Some mem -> exists e b', read_skip (Some b) = Ok (e, Some b') /\ moves b e b'.
Proof.
  intros b mem Hb Em. unfold read_skip. destruct (read_varint_moves b mem Hb Em) as (e & v & b1 & -> & M1 & _). cbn [obind].
  destruct (is_none e) eqn:E; cbn [negb]; [|eauto].
  apply is_none_true in E. subst e. pose proof (moves_ok _ _ _ M1) as O. pose proof (moves_data _ _ _ _ M1 Em) as Em1.
  destruct (Z.land v 7 =? WIRE_VARINT).
  { destruct (read_varint_moves b1 mem O Em1) as (e & w & b2 & -> & M2 & _). cbn [obind]. eexists _, _. split; [reflexivity|]. eapply moves_trans; eauto. }
  destruct (Z.land v 7 =? WIRE_64BIT).
  { destruct (read_space_moves b1 mem 8 O Em1) as (e & off & b2 & -> & S2 & P2 & X2 & _); [lia|]. eexists _, _. split; [reflexivity|]. eapply moves_then; eauto. }
  destruct (Z.land v 7 =? WIRE_DELIM).
  { destruct (read_varint_moves b1 mem O Em1) as (e & w & b2 & -> & M2 & Hw). cbn [obind]. pose proof (moves_trans _ _ _ _ M1 M2) as M3. destruct (is_none e) eqn:E; [|eauto].
    apply is_none_true in E. subst e. assert (B := moves_ok _ _ _ M3). destruct B as (B0 & B1 & _). rewrite usize_small by lia.
    destruct (Z.leb_spec w (pb_size b2 - pb_posn b2)).
    - eexists _, _. split; [reflexivity|]. eapply moves_then; [exact M3| |cbn; lia|congruence]. apply steps_posn; [eapply moves_ok; eauto | eapply moves_none; eauto | lia].
    - eexists _, _. split; [reflexivity|]. apply moves_fail; [exact M3|discriminate]. }
  destruct (Z.land v 7 =? WIRE_32BIT).
  { destruct (read_space_moves b1 mem 4 O Em1) as (e & off & b2 & -> & S2 & P2 & X2 & _); [lia|]. eexists _, _. split; [reflexivity|]. eapply moves_then; eauto. }
  eexists _, _. split; [reflexivity|]. apply moves_fail; [exact M1|discriminate].
Qed.

(** ** Whole objects, from any bytes and with any allocation failures *)
Definition keeps (b b' : pbuf) : Prop := pb_ok b' /\ pb_data b' = pb_data b /\ pb_size b' = pb_size b /\ pb_posn b <= pb_posn b'.
Definition adv (b : pbuf) (e : err) (b' : pbuf) : Prop := (e = E_NONE -> pb_posn b < pb_posn b') /\ (e <> E_NONE -> pb_error b' <> E_NONE).
Lemma moves_keeps : forall b e b', moves b e b' -> keeps b b'.
Proof. intros b e b' [[(H1 & H2 & _) H3] (H4 & _)]. split; auto. Qed.
Lemma moves_adv : forall b e b', moves b e b' -> adv b e b'.
Proof. intros b e b' (_ & _ & H1 & H2). split; auto. Qed.
Lemma keeps_trans : forall a b c, keeps a b -> keeps b c -> keeps a c.
Proof. intros a b c (H1 & H2 & H3 & H4) (K1 & K2 & K3 & K4). split; [auto|]. split; [congruence|]. split; [congruence|lia]. Qed.
Lemma keeps_refl : forall b, pb_ok b -> keeps b b.
Proof. intros b H. split; auto. split; auto. split; auto. lia. Qed.
Lemma all2_put : forall i v (o : obj) m t k, object_ok m o -> nth_error (schema m) i = Some (t, k) -> member_ok v (t, k) -> object_ok m (put i v o).
Proof.
  intros i v o m t k. unfold object_ok, put. generalize (schema m). revert o. induction i; intros o s Ho Hi Hv; destruct s as [|f s], o as [|x o]; try (cbn in Hi; discriminate Hi); try contradiction.
  - cbn in Hi. injection Hi as ->. cbn [firstn skipn app]. cbn in Ho. split; tauto.
  - cbn in Hi, Ho. destruct Ho as [Hx Ho]. change (member_ok x f /\ all2 member_ok (firstn i o ++ v :: skipn (S i) o) s). split; [exact Hx|]. now apply IHi.
Qed.
Lemma all2_nth : forall i (o : obj) s f, all2 member_ok o s -> nth_error s i = Some f -> exists v, nth_error o i = Some v /\ member_ok v f.
Proof.
  induction i; intros o s f Ho Hi; destruct s as [|f' s], o as [|x o]; try (cbn in Hi; discriminate Hi); try contradiction; cbn in Ho, Hi; destruct Ho.
  - injection Hi as ->. cbn. eauto.
  - cbn. eauto.
Qed.
Lemma empty_ok : forall m, object_ok m (empty_object m).
Proof. intros m. unfold object_ok. destruct m; cbn; repeat split; lia. Qed.

(** With [good] the allocations succeed and there is fuel for the bytes that are left. *)
Definition good (fuel : nat) (alloc : oracle) (b : pbuf) : Prop := (forall i, alloc i = true) /\ pb_size b - pb_posn b <= Z.of_nat fuel.
Definition safe_result (fuel : nat) (alloc : oracle) (m : mtype) (b : pbuf) (r : outcome (option (err * option obj * option pbuf * nat))) : Prop :=
  exists r', r = Ok r' /\
  match r' with
  | None => ~ good fuel alloc b
  | Some (e, x, p, c') => exists b', p = Some b' /\ keeps b b' /\ (e <> E_NONE -> x = None) /\ (e = E_NONE -> x <> None) /\
    (good fuel alloc b -> adv b e b' /\ (e = E_NONE -> exists o, x = Some o /\ object_ok m o))
  end.
Definition safe_msg (fuel : nat) (alloc : oracle) (n : nat) (msg : mtype -> option pbuf -> Z -> nat -> outcome (option (err * option obj * option pbuf * nat))) : Prop :=
  forall m tag b mem c, (rank m < n)%nat -> 0 < tag -> pb_ok b -> pb_data b = Some mem -> safe_result fuel alloc m b (msg m (Some b) tag c).
Lemma take_string : forall c sz, string_or_null c sz -> member_ok (block c sz) (0, KString).
Proof.
  intros [d|] sz H; cbn; [|exact I]. destruct H as (s & -> & -> & H1 & H2 & H3). rewrite take_app_exact by reflexivity. auto.
Qed.
Lemma take_bytes : forall c sz, bytes_or_null c sz -> member_ok (block c sz) (0, KBytes).
Proof. intros [d|] sz H; cbn; [exact H|exact I]. Qed.
Lemma member_ok_tag : forall v t t' k, member_ok v (t, k) -> member_ok v (t', k).
Proof. intros v t t' k H. destruct v; exact H. Qed.

Lemma read_member_safe : forall fuel alloc msg m o b mem c, safe_msg fuel alloc (rank m) msg -> typed m o -> pb_ok b -> pb_data b = Some mem -> pb_error b = E_NONE ->
  exists r, read_member msg alloc m o (Some b) c = Ok r /\
  match r with
  | None => ~ good fuel alloc b
  | Some (o', p, c') => exists b', p = Some b' /\ keeps b b' /\ typed m o' /\
    (good fuel alloc b -> (pb_error b' = E_NONE -> pb_posn b < pb_posn b') /\ (object_ok m o -> pb_error b' = E_NONE -> object_ok m o'))
  end.
Proof.
  intros fuel alloc msg m o b mem c Hmsg Ho Hb Em He. unfold read_member. destruct (peek_tag_defined b Hb) as [t ->]. cbn [obind].
  rewrite find_case_schema. destruct (number_of t (schema m)) as [[i k]|] eqn:En.
  2:{ destruct (read_skip_moves b mem Hb Em) as (e & b' & -> & M). cbn [obind snd]. eexists. split; [reflexivity|]. exists b'.
      split; [reflexivity|]. split; [eapply moves_keeps; eauto|]. split; [exact Ho|]. intros _. split; [|auto]. intros X. apply moves_adv in M. destruct M as [M1 M2].
      destruct e; auto; exfalso; apply M2; auto; discriminate. }
  destruct (number_of_facts _ _ _ _ En) as (Ht & Hk & Hi).
  assert (Hl : (i < length o)%nat) by (destruct Ho as [-> _]; apply nth_error_Some; congruence).
  assert (Mv : forall e b', moves b e b' -> pb_error b' = E_NONE -> pb_posn b < pb_posn b') by (intros [] b' [_ (_ & Y & X)] Z0; auto; exfalso; apply X; auto; discriminate).
  destruct k as [| | |m'|m'].
  - destruct (read_uint32_moves b mem t Hb Em) as (e & v & b' & -> & M & V); [lia|]. cbn [obind]. eexists. split; [reflexivity|]. exists b'. rewrite set_member_put by auto.
    split; [reflexivity|]. split; [eapply moves_keeps; eauto|]. split; [eapply put_typed; eauto; discriminate|]. intros _.
    split; [intros X; now apply (Mv e)|]. intros Hok ZZ. eapply all2_put; eauto.
  - destruct (read_alloc_string_moves (alloc c) b mem t Hb Em) as (e & s & sz & b' & -> & M & V & _); [lia|]. cbn [obind]. eexists. split; [reflexivity|]. exists b'. rewrite set_member_put by auto.
    split; [reflexivity|]. split; [eapply moves_keeps; eauto|]. split; [eapply put_typed; eauto; discriminate|]. intros _.
    split; [intros X; now apply (Mv e)|]. intros Hok ZZ. eapply all2_put; eauto. eapply member_ok_tag, take_string; eauto.
  - destruct (read_alloc_bytes_moves (alloc c) b mem t Hb Em) as (e & s & sz & b' & -> & M & V & _); [lia|]. cbn [obind]. eexists. split; [reflexivity|]. exists b'. rewrite set_member_put by auto.
    split; [reflexivity|]. split; [eapply moves_keeps; eauto|]. split; [eapply put_typed; eauto; discriminate|]. intros _.
    split; [intros X; now apply (Mv e)|]. intros Hok ZZ. eapply all2_put; eauto. eapply member_ok_tag, take_bytes; eauto.
  - destruct (Hmsg m' t b mem c) as (r & -> & R); auto; [lia|]. cbn [obind]. destruct r as [[[[e x] p] c']|]; [|eauto].
    destruct R as (b' & -> & K & X1 & X2 & G). eexists. split; [reflexivity|]. exists b'. rewrite set_member_put by auto.
    split; [reflexivity|]. split; [exact K|]. split; [eapply put_typed; eauto; discriminate|]. intros Hg. destruct (G Hg) as [[A1 A2] G2].
    assert (Z0 : pb_error b' = E_NONE -> e = E_NONE) by (intros Y; destruct e; auto; exfalso; apply A2; auto; discriminate).
    split; [auto|]. intros Hok Y. destruct (G2 (Z0 Y)) as (o' & -> & Ho'). eapply all2_put; eauto.
  - destruct (Hmsg m' t b mem c) as (r & -> & R); auto; [lia|]. cbn [obind]. destruct r as [[[[e x] p] c']|]; [|eauto].
    destruct R as (b' & -> & K & X1 & X2 & G). destruct Ho as [Ho1 Ho2]. destruct (Ho2 _ _ _ Hi) as [l El]. rewrite El.
    destruct (negb (at_capacity (zlen l)) || alloc c') eqn:Ec.
    + eexists. split; [reflexivity|]. exists b'. rewrite set_member_put by auto.
      split; [reflexivity|]. split; [exact K|]. split; [eapply put_typed; eauto; split; auto|]. intros Hg. destruct (G Hg) as [[A1 A2] G2].
      assert (Z0 : pb_error b' = E_NONE -> e = E_NONE) by (intros Y; destruct e; auto; exfalso; apply A2; auto; discriminate).
      split; [auto|]. intros Hok Y. destruct (G2 (Z0 Y)) as (o' & -> & Ho'). eapply all2_put; eauto.
      destruct (all2_nth i o (schema m) _ Hok Hi) as (v & Ev & Hv). assert (v = VArray l) by congruence. subst v. cbn in Hv |- *.
      clear - Hv Ho'. induction l as [|y l IH]; cbn in *; [auto|]. destruct Hv; split; auto.
    + eexists. split; [reflexivity|]. eexists. split; [reflexivity|].
      split; [destruct (is_none (pb_error b')); cbn [negb]; [exact K|]; exact K|]. split; [split; auto|].
      intros [Hg _]. rewrite Hg in Ec. destruct (negb (at_capacity (zlen l))); discriminate.
Qed.
Lemma read_members_safe : forall fuel' alloc msg m endp fuel o b mem c, safe_msg fuel' alloc (rank m) msg -> typed m o -> pb_ok b -> pb_data b = Some mem -> endp <= pb_size b ->
  exists r, read_members fuel msg alloc m endp o (Some b) c = Ok r /\
  match r with
  | None => pb_error b = E_NONE /\ ~ (good fuel alloc b /\ good fuel' alloc b)
  | Some (o', p, c') => exists b', p = Some b' /\ keeps b b' /\ typed m o' /\ (pb_error b' = E_NONE -> pb_error b = E_NONE) /\
    (good fuel alloc b -> good fuel' alloc b -> object_ok m o -> pb_error b' = E_NONE -> object_ok m o')
  end.
Proof.
  intros fuel' alloc msg m endp fuel. induction fuel as [|fuel IH]; intros o b mem c Hmsg Ho Hb Em Hend; cbn [read_members read_at_end_element].
  - destruct (is_none (pb_error b)) eqn:En; cbn [negb].
    + apply is_none_true in En. destruct (Z.leb_spec endp (pb_posn b)).
      * eexists. split; [reflexivity|]. exists b. split; [reflexivity|]. split; [now apply keeps_refl|]. split; [exact Ho|]. auto.
      * eexists. split; [reflexivity|]. split; [auto|]. intros [[_ H1] _]. lia.
    + apply is_none_false in En. eexists. split; [reflexivity|]. exists b. split; [reflexivity|]. split; [now apply keeps_refl|]. split; [exact Ho|]. auto.
  - destruct (is_none (pb_error b)) eqn:En; cbn [negb].
    2:{ apply is_none_false in En. eexists. split; [reflexivity|]. exists b. split; [reflexivity|]. split; [now apply keeps_refl|]. split; [exact Ho|]. auto. }
    apply is_none_true in En. destruct (Z.leb_spec endp (pb_posn b)).
    { eexists. split; [reflexivity|]. exists b. split; [reflexivity|]. split; [now apply keeps_refl|]. split; [exact Ho|]. auto. }
    destruct (read_member_safe fuel' alloc msg m o b mem c Hmsg Ho Hb Em En) as (r & -> & R). cbn [obind].
    destruct r as [[[o1 p1] c1]|]; [|eexists; split; [reflexivity|split; [exact En|]; intros [_ X]; now apply R]].
    destruct R as (b1 & -> & K & Ho1 & G). assert (K' := K). destruct K' as (K1 & K2 & K3 & K4).
    destruct (IH o1 b1 mem c1 Hmsg Ho1 K1) as (r & -> & R); [congruence|lia|]. eexists. split; [reflexivity|].
    assert (Gd : good (S fuel) alloc b -> good fuel' alloc b -> pb_error b1 = E_NONE -> good fuel alloc b1 /\ good fuel' alloc b1).
    { intros [A1 A2] [A3 A4] Y. destruct (G (conj A3 A4)) as [P _]. specialize (P Y). split; (split; [auto|]); rewrite K3; lia. }
    destruct r as [[[o2 p2] c2]|].
    + destruct R as (b2 & -> & KK & Ho2 & Ee & G2). exists b2. split; [reflexivity|]. split; [eapply keeps_trans; eauto|]. split; [exact Ho2|].
      split; [auto|]. intros A1 A2 Hok Y. specialize (Ee Y). destruct (Gd A1 A2 Ee) as [B1 B2]. apply (G2 B1 B2); auto. apply (G A2); auto.
    + destruct R as [E1 R]. split; [exact En|]. intros [A1 A2]. apply R. now apply Gd.
Qed.
Lemma read_object_safe : forall fuel alloc depth m tag b mem c, (rank m < depth)%nat -> 0 <= tag -> pb_ok b -> pb_data b = Some mem ->
  (tag = 0 -> pb_error b = E_NONE) ->
  exists r', read_object depth fuel alloc m (Some b) tag c = Ok r' /\
  match r' with
  | None => ~ good fuel alloc b
  | Some (e, x, p, c') => exists b', p = Some b' /\ keeps b b' /\ (e <> E_NONE -> x = None) /\ (e = E_NONE -> x <> None) /\
    (good fuel alloc b -> (e = E_NONE -> 0 < tag -> pb_posn b < pb_posn b') /\ (e <> E_NONE -> pb_error b' <> E_NONE) /\ (e = E_NONE -> exists o, x = Some o /\ object_ok m o))
  end.
Proof.
  intros fuel alloc depth. induction depth as [|depth IH]; intros m tag b mem c Hr Ht Hb Em H0; [lia|]. cbn [read_object].
  destruct (alloc c) eqn:Ea; cbn [negb].
  2:{ eexists. split; [reflexivity|]. exists b. split; [reflexivity|]. split; [now apply keeps_refl|]. split; [auto|]. split; [discriminate|]. intros [X _]. congruence. }
  assert (Hmsg : safe_msg fuel alloc (rank m) (read_object depth fuel alloc)).
  { intros m' t' b' mem' c' Hr' Ht' Hb' Em'. destruct (IH m' t' b' mem' c') as (r & -> & R); auto; [lia|lia|lia|]. exists r. split; [reflexivity|].
    destruct r as [[[[e x] p] c1]|]; [|exact R]. destruct R as (b1 & R1 & R2 & R3 & R4 & R5). exists b1. split; [exact R1|]. split; [exact R2|]. split; [exact R3|]. split; [exact R4|]. intros Gd. destruct (R5 Gd) as (A & B & C). split; [split; auto|auto]. }
  assert (St : exists e n b', read_start_element (Some b) tag = Ok (e, n, Some b') /\ keeps b b' /\ n <= pb_size b /\ (e <> E_NONE -> pb_error b' <> E_NONE) /\ (e = E_NONE -> 0 < tag -> pb_posn b < pb_posn b')).
  { destruct (read_start_steps b tag Hb) as (e & n & b' & E & S & N). exists e, n, b'. split; [exact E|].
    destruct (Z.eq_dec tag 0) as [->|Hz].
    - unfold read_start_element, read_tag in E. cbn [Z.ltb Z.compare Z.eqb] in E. rewrite (H0 eq_refl) in E. cbn in E. injection E as <- <- <-.
      split; [now apply keeps_refl|]. split; [lia|]. split; [congruence|lia].
    - destruct (read_start_moves b mem tag Hb Em) as (e' & n' & b1 & E' & M); [lia|]. rewrite E in E'. injection E' as <- <- <-.
      split; [eapply moves_keeps; eauto|]. split; [lia|]. apply moves_adv in M. destruct M. split; auto. }
  destruct St as (e0 & endp & b0 & -> & K0 & Hend & S1 & S2). cbn [obind]. assert (K' := K0). destruct K' as (K1 & K2 & K3 & K4).
  rewrite fresh_empty.
  destruct (read_members_safe fuel alloc (read_object depth fuel alloc) m endp fuel (empty_object m) b0 mem (S c) Hmsg (empty_typed m) K1) as (r & -> & R); [congruence|lia|].
  cbn [obind]. assert (Gd : good fuel alloc b -> good fuel alloc b0) by (intros [G1 G2]; split; [auto|lia]).
  destruct r as [[[o p] c1]|].
  2:{ eexists. split; [reflexivity|]. intros G. apply R. auto. }
  destruct R as (b1 & -> & KK & Ho & Ee & G). unfold read_end_element.
  assert (KA : keeps b b1) by (eapply keeps_trans; eauto).
  destruct (is_none (pb_error b1)) eqn:E1; cbn [negb].
  2:{ apply is_none_false in E1. assert (is_none (pb_error b1) = false) as -> by (destruct (pb_error b1); auto; congruence).
      eexists. split; [reflexivity|]. exists b1. split; [reflexivity|]. split; [exact KA|]. split; [auto|]. split; [congruence|]. intros _. split; [congruence|]. split; [auto|congruence]. }
  apply is_none_true in E1. destruct (Z.eqb_spec (pb_posn b1) endp); cbn [negb is_none err_eqb].
  2:{ eexists. split; [reflexivity|]. eexists. split; [reflexivity|]. split; [exact KA|]. split; [auto|]. split; [discriminate|]. intros _. split; [discriminate|]. split; [cbn; discriminate|discriminate]. }
  eexists. split; [reflexivity|]. exists b1. split; [reflexivity|]. split; [exact KA|]. split; [congruence|]. split; [discriminate|]. intros Hg.
  assert (E0 : e0 = E_NONE) by (destruct e0; auto; exfalso; apply S1; auto; discriminate).
  destruct KK as (_ & _ & _ & KK). split; [intros _ Hp; specialize (S2 E0 Hp); lia|]. split; [congruence|]. intros _. exists o. split; [reflexivity|].
  apply G; auto using empty_ok.
Qed.

(** ** Types without members that are objects or arrays *)
Definition leaf (m : mtype) : Prop := rank m = 0%nat.
Lemma leaf_kind : forall m t i k, leaf m -> number_of t (schema m) = Some (i, k) -> k = KUInt32 \/ k = KString \/ k = KBytes.
Proof. intros m t i k Hm E. apply number_of_facts in E. unfold leaf in Hm. rewrite Hm in E. destruct k; auto; cbn in E; lia. Qed.
Lemma leaf_member : forall alloc msg m o b mem c, leaf m -> pb_ok b -> pb_data b = Some mem -> pb_error b = E_NONE ->
  exists o' b' c', read_member msg alloc m o (Some b) c = Ok (Some (o', Some b', c')) /\ keeps b b' /\ (c <= c')%nat /\
    (pb_error b' = E_NONE -> pb_posn b < pb_posn b' /\ forall i, (c <= i < c')%nat -> alloc i = true).
Proof.
  intros alloc msg m o b mem c Hm Hb Em He. unfold read_member. destruct (peek_tag_defined b Hb) as [t ->]. cbn [obind].
  assert (Mv : forall e b', moves b e b' -> pb_error b' = E_NONE -> e = E_NONE /\ pb_posn b < pb_posn b') by (intros [] b' [_ (_ & Y & X)] Z0; auto; exfalso; apply X; auto; discriminate).
  rewrite find_case_schema. destruct (number_of t (schema m)) as [[i k]|] eqn:En.
  2:{ destruct (read_skip_moves b mem Hb Em) as (e & b' & -> & M). cbn [obind snd]. eexists _, _, _. split; [reflexivity|].
      split; [eapply moves_keeps; eauto|]. split; [lia|]. intros X. split; [eapply Mv; eauto|lia]. }
  destruct (number_of_facts _ _ _ _ En) as (Ht & _ & _). destruct (leaf_kind _ _ _ _ Hm En) as [-> | [-> | ->]].
  - destruct (read_uint32_moves b mem t Hb Em) as (e & v & b' & -> & M & V); [lia|]. cbn [obind]. eexists _, _, _. split; [reflexivity|].
    split; [eapply moves_keeps; eauto|]. split; [lia|]. intros X. split; [eapply Mv; eauto|lia].
  - destruct (read_alloc_string_moves (alloc c) b mem t Hb Em) as (e & s & sz & b' & -> & M & _ & V & _); [lia|]. cbn [obind]. eexists _, _, _. split; [reflexivity|].
    split; [eapply moves_keeps; eauto|]. split; [lia|]. intros X. destruct (Mv _ _ M X) as [-> P]. split; [exact P|]. intros j Hj. replace j with c by lia.
    destruct (alloc c); auto. exfalso. now apply V.
  - destruct (read_alloc_bytes_moves (alloc c) b mem t Hb Em) as (e & s & sz & b' & -> & M & _ & V & _); [lia|]. cbn [obind]. eexists _, _, _. split; [reflexivity|].
    split; [eapply moves_keeps; eauto|]. split; [lia|]. intros X. destruct (Mv _ _ M X) as [-> P]. split; [exact P|]. intros j Hj. replace j with c by lia.
    destruct (alloc c); auto. exfalso. now apply V.
Qed.
Lemma leaf_members : forall alloc msg m endp fuel o b mem c, leaf m -> pb_ok b -> pb_data b = Some mem -> endp <= pb_size b -> pb_size b - pb_posn b <= Z.of_nat fuel ->
  exists o' b' c', read_members fuel msg alloc m endp o (Some b) c = Ok (Some (o', Some b', c')) /\ keeps b b' /\ (c <= c')%nat /\
    (pb_error b' = E_NONE -> forall i, (c <= i < c')%nat -> alloc i = true).
Proof.
  intros alloc msg m endp fuel. induction fuel as [|fuel IH]; intros o b mem c Hm Hb Em Hend Hf; cbn [read_members read_at_end_element].
  - destruct (is_none (pb_error b)); cbn [negb]; [destruct (Z.leb_spec endp (pb_posn b)); [|lia]|];
      (eexists _, _, _; split; [reflexivity|]; split; [now apply keeps_refl|]; split; [lia|]; intros; lia).
  - destruct (is_none (pb_error b)) eqn:E; cbn [negb]; [destruct (Z.leb_spec endp (pb_posn b))|];
      try (eexists _, _, _; split; [reflexivity|]; split; [now apply keeps_refl|]; split; [lia|]; intros; lia).
    apply is_none_true in E. destruct (leaf_member alloc msg m o b mem c Hm Hb Em E) as (o1 & b1 & c1 & -> & K & L & G). cbn [obind].
    assert (K' := K). destruct K' as (K1 & K2 & K3 & K4). destruct (is_none (pb_error b1)) eqn:E1.
    + apply is_none_true in E1. destruct (G E1) as [G1 G2]. destruct (IH o1 b1 mem c1 Hm K1) as (o2 & b2 & c2 & -> & KK & L2 & G3); [congruence|lia|lia|].
      eexists _, _, _. split; [reflexivity|]. split; [eapply keeps_trans; eauto|]. split; [lia|]. intros X j Hj.
      destruct (Nat.lt_ge_cases j c1); [apply G2; lia | apply G3; auto; lia].
    + assert (R : read_members fuel msg alloc m endp o1 (Some b1) c1 = Ok (Some (o1, Some b1, c1))) by (destruct fuel; cbn [read_members read_at_end_element]; rewrite E1; reflexivity).
      rewrite R. eexists _, _, _. split; [reflexivity|]. split; [exact K|]. split; [lia|]. intros X. apply is_none_false in E1. congruence.
Qed.
Lemma leaf_object : forall alloc fuel depth m tag b mem c, leaf m -> (0 < depth)%nat -> pb_ok b -> pb_data b = Some mem -> pb_size b - pb_posn b <= Z.of_nat fuel ->
  0 <= tag -> (tag = 0 -> pb_error b = E_NONE) ->
  exists e x p c', read_object depth fuel alloc m (Some b) tag c = Ok (Some (e, x, p, c')) /\ (e <> E_NONE -> x = None) /\
    (e = E_NONE -> forall i, (c <= i < c')%nat -> alloc i = true).
Proof.
  intros alloc fuel depth m tag b mem c Hm Hd Hb Em Hf Ht H0. destruct depth as [|depth]; [lia|]. cbn [read_object].
  destruct (alloc c) eqn:Ea; cbn [negb].
  2:{ eexists _, _, _, _. split; [reflexivity|]. split; [auto|discriminate]. }
  assert (St : exists e n b', read_start_element (Some b) tag = Ok (e, n, Some b') /\ keeps b b' /\ n <= pb_size b).
  { destruct (read_start_steps b tag Hb) as (e & n & b' & E & S & N). exists e, n, b'. split; [exact E|].
    destruct (Z.eq_dec tag 0) as [->|Hz].
    - unfold read_start_element, read_tag in E. cbn [Z.ltb Z.compare Z.eqb] in E. rewrite (H0 eq_refl) in E. cbn in E. injection E as <- <- <-.
      split; [now apply keeps_refl|lia].
    - destruct (read_start_moves b mem tag Hb Em) as (e' & n' & b1 & E' & M); [lia|]. rewrite E in E'. injection E' as <- <- <-.
      split; [eapply moves_keeps; eauto|lia]. }
  destruct St as (e0 & endp & b0 & -> & (K1 & K2 & K3 & K4) & Hend). cbn [obind].
  destruct (leaf_members alloc (read_object depth fuel alloc) m endp fuel (fresh m) b0 mem (S c) Hm K1) as (o & b1 & c1 & -> & KK & L & G); [congruence|lia|lia|]. cbn [obind].
  destruct (read_end_element (Some b1) endp) as [e p] eqn:Ee. eexists _, _, _, _. split; [reflexivity|]. split.
  - intros X. destruct e; auto; congruence.
  - intros -> j Hj. destruct (Nat.eq_dec j c) as [->|]; [exact Ea|]. apply G; [|lia]. unfold read_end_element in Ee.
    destruct (is_none (pb_error b1)) eqn:E1; [now apply is_none_true|]. cbn [negb] in Ee. injection Ee as Ee _. exact Ee.
Qed.
