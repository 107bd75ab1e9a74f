(** Proofs about certificate objects: the message of an object means that object. *)
From Coq Require Import ZifyBool ZifyNat.
From Verif Require Import Base MProto SProto PProtoNum PProto PProtoRead PProtoUtf8 MCert SCert PCert PCertRead.

Lemma number_of_nth : forall m i t k, nth_error (schema m) i = Some (t, k) -> number_of t (schema m) = Some (i, k).
Proof.
  intros m i t k H. destruct m; do 6 (destruct i as [|i]; [cbn in H; (injection H as <- <-; reflexivity) || discriminate H|]); cbn in H; destruct i; discriminate H.
Qed.
Lemma all_app : forall A (P : A -> Prop) l1 l2, all P (l1 ++ l2) <-> all P l1 /\ all P l2.
Proof. intros A P l1 l2. induction l1 as [|a l1 IH]; cbn; [tauto|]. rewrite IH. tauto. Qed.
Lemma allowed_element : forall t m i k fs, nth_error (schema m) i = Some (t, k) -> (k = KObject fs \/ k = KArray fs) ->
  forall l, all (fun f => allowed f fs) l -> allowed (FElement t l) m.
Proof.
  intros t m i k m' H Hk l Hl. pose proof (number_of_nth _ _ _ _ H) as E. destruct (number_of_facts _ _ _ _ E) as (Ht & _ & _).
  cbn [allowed field_tag]. split; [lia|]. split.
  - apply field_ok_element. split; [unfold is_tag; lia|]. clear - Hl. induction l as [|f l IH]; constructor; cbn in Hl; [|tauto].
    destruct Hl as [Hf _]. now apply allowed_facts in Hf.
  - rewrite E. destruct Hk as [-> | ->]; exact Hl.
Qed.
Definition zero_member (f : Z * kind) : value :=
  match snd f with KUInt32 => VInt 0 | KString | KBytes => VBlock None | KObject _ => VObject None | KArray _ => VArray [] end.
Definition sub_ok (n : nat) : Prop := forall m o, (rank m < n)%nat -> object_ok m o ->
  all (fun f => allowed f m) (object_fields m o) /\ meaning m (object_fields m o) = o.
Lemma merge_elements : forall m i t m' l acc o, sub_ok (rank m) -> nth_error (schema m) i = Some (t, KArray m') ->
  all (fun x => match x with Some o => object_ok m' o | None => False end) l -> (i < length o)%nat -> nth_error o i = Some (VArray acc) ->
  let fs := flat_map (fun x => match x with Some o => [FElement t (object_fields m' o)] | None => [] end) l in
  all (fun f => allowed f m) fs /\ fold_left (fun o f => merge f m o) fs o = put i (VArray (acc ++ l)) o.
Proof.
  intros m i t m' l acc o Hs Hi. pose proof (number_of_nth _ _ _ _ Hi) as En. destruct (number_of_facts _ _ _ _ En) as (_ & Hr & _). cbn in Hr.
  revert acc o. induction l as [|x l IH]; intros acc o Hl Ho Ha; cbn zeta.
  - split; [exact I|]. cbn [flat_map fold_left]. rewrite app_nil_r. unfold put. pose proof (firstn_skipn i o) as F.
    assert (X : skipn i o = VArray acc :: skipn (S i) o).
    { clear - Ho Ha. revert o Ho Ha. induction i; intros o Ho Ha; destruct o; cbn in *; try lia; [congruence|]. apply IHi; auto. lia. }
    rewrite X in F. congruence.
  - cbn [all] in Hl. destruct x as [x|]; [|tauto]. destruct Hl as [Hx Hl]. cbn [flat_map app all fold_left]. destruct (Hs m' x Hr Hx) as [S1 S2].
    assert (M : merge (FElement t (object_fields m' x)) m o = put i (VArray (acc ++ [Some x])) o).
    { cbn [merge field_tag]. rewrite En, Ha. fold (meaning m' (object_fields m' x)). now rewrite S2. }
    rewrite M. destruct (IH (acc ++ [Some x]) (put i (VArray (acc ++ [Some x])) o) Hl) as [IH1 IH2]; [now rewrite put_length | now apply put_same|].
    split; [split; [eapply allowed_element; eauto | exact IH1]|]. rewrite IH2. rewrite <- app_assoc. cbn [app].
    clear - Ho. unfold put. revert o Ho. induction i; intros o Ho; destruct o; cbn in *; try lia; [reflexivity|]. f_equal. apply IHi. lia.
Qed.
Lemma put_id : forall i v (o : obj), nth_error o i = Some v -> put i v o = o.
Proof. unfold put. induction i; intros v o H; destruct o; cbn in *; try discriminate; [congruence|]. f_equal. auto. Qed.
Lemma merge_member : forall m i t k v o, sub_ok (rank m) -> nth_error (schema m) i = Some (t, k) -> member_ok v (t, k) ->
  nth_error o i = Some (zero_member (t, k)) ->
  all (fun f => allowed f m) (member_fields v (t, k)) /\ fold_left (fun o f => merge f m o) (member_fields v (t, k)) o = put i v o.
Proof.
  intros m i t k v o Hs Hi Hv Hz. pose proof (number_of_nth _ _ _ _ Hi) as En. destruct (number_of_facts _ _ _ _ En) as (Ht & Hr & _).
  assert (It : is_tag t) by (unfold is_tag; lia).
  destruct k as [| | |m'|m'], v as [z|[d|]|[x|]|l]; cbn in Hv; try contradiction; cbn [member_fields fst snd];
    try (cbn [all fold_left]; split; [exact I|]; symmetry; now apply put_id).
  - cbn [snd zero_member] in Hz. destruct (Z.eqb_spec z 0) as [->|Nz]; [cbn [all fold_left]; split; [exact I|]; symmetry; now apply put_id|].
    cbn [all fold_left merge field_tag allowed]. rewrite En. cbn. repeat (split; auto; try lia).
  - cbn [all fold_left merge field_tag allowed]. rewrite En. cbn. repeat (split; auto; try tauto; try lia).
  - cbn [all fold_left merge field_tag allowed]. rewrite En. cbn. repeat (split; auto; try tauto; try lia).
  - destruct (Hs m' x Hr Hv) as [S1 S2]. fold (object_fields m' x). cbn [all fold_left].
    split; [split; [eapply allowed_element; eauto|exact I]|]. cbn [merge field_tag]. rewrite En. fold (meaning m' (object_fields m' x)). now rewrite S2.
  - pose proof (merge_elements m i t m' l [] o Hs Hi Hv) as X. cbn zeta in X. apply X; auto. apply nth_error_Some. congruence.
Qed.
Lemma merge_rest : forall m ks vs dks done, sub_ok (rank m) -> schema m = dks ++ ks -> length done = length dks -> all2 member_ok vs ks ->
  all (fun f => allowed f m) (flat2 member_fields vs ks) /\
  fold_left (fun o f => merge f m o) (flat2 member_fields vs ks) (done ++ map zero_member ks) = done ++ vs.
Proof.
  intros m ks. induction ks as [|[t k] ks IH]; intros vs dks done Hs Hd Hl Hv; destruct vs as [|v vs]; cbn in Hv; try contradiction.
  - cbn. split; [exact I|reflexivity].
  - destruct Hv as [Hv Hvs]. cbn [flat2 map]. 
    assert (Hi : nth_error (schema m) (length done) = Some (t, k)) by (rewrite Hd, nth_error_app2, Hl, Nat.sub_diag by lia; reflexivity).
    destruct (merge_member m (length done) t k v (done ++ zero_member (t, k) :: map zero_member ks) Hs Hi Hv) as [M1 M2];
      [rewrite nth_error_app2, Nat.sub_diag by lia; reflexivity|].
    destruct (IH vs (dks ++ [(t, k)]) (done ++ [v]) Hs) as [I1 I2]; [now rewrite <- app_assoc | rewrite !app_length; cbn; lia | exact Hvs|].
    split; [apply all_app; split; [exact M1 | exact I1]|]. rewrite fold_left_app, M2.
    assert (P : put (length done) v (done ++ zero_member (t, k) :: map zero_member ks) = (done ++ [v]) ++ map zero_member ks).
    { unfold put. rewrite firstn_app, Nat.sub_diag, firstn_all. cbn [firstn]. rewrite app_nil_r, <- app_assoc. cbn [app]. f_equal. f_equal.
      rewrite skipn_app. rewrite skipn_all2 by lia. replace (S (length done) - length done)%nat with 1%nat by lia. reflexivity. }
    rewrite P. etransitivity; [exact I2|]. now rewrite <- app_assoc.
Qed.
Lemma object_back : forall n, sub_ok n.
Proof.
  induction n; intros m o Hr Ho; [lia|]. apply (merge_rest m (schema m) o [] []); auto. intros m' o' Hr' Ho'. apply IHn; auto. lia.
Qed.
