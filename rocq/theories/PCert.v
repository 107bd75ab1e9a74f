(** Proofs about certificate objects: writing. *)
From Coq Require Import ZifyBool ZifyNat.
From Verif Require Import Base MProto SProto PProtoNum PProto PProtoRead MCert SCert.

(** Nesting of message types *)
Definition rank (m : mtype) : nat :=
  match m with
  | PublicKeyInfo | MetaInfo | PrivateKeyInfo | EncryptedPrivateKey => 0
  | ExtraSignedInfo | SubjectInfo | PrivateKey => 1
  | Signature => 2 | Certificate => 3 | CertificateChain => 4
  end.
Definition below (n : nat) (k : kind) : Prop := match k with KObject m | KArray m => (rank m < n)%nat | _ => True end.

(** ** An object is written as a whole *)
Definition obj_written (l : list Z) (b : pbuf) (r : outcome (err * option pbuf)) : Prop :=
  exists e b', r = Ok (e, Some b') /\ pb_ok b' /\ pb_size b' = pb_size b /\ downward b b' /\
  if is_none (pb_error b) then
    (zlen l <= pb_posn b /\ e = E_NONE /\ b' = prepended l b) \/ (pb_posn b < zlen l /\ e <> E_NONE /\ pb_error b' = E_INVALID_LENGTH)
  else b' = b /\ e <> E_NONE.
Lemma obj_fields_written : forall l b r, obj_written l b r -> fields_written l b (let! x := r in Ok (snd x)).
Proof.
  intros l b r (e & b' & -> & H1 & H2 & H3 & H4). exists b'. cbn. split; [reflexivity|]. split; [exact H1|]. split; [exact H2|]. split; [exact H3|].
  destruct (is_none (pb_error b)); [|tauto]. destruct H4 as [(? & ? & ?)|(? & ? & ?)]; auto.
Qed.
Lemma element_written : forall tag l b r, is_tag tag -> pb_ok b -> fields_written l b r ->
  obj_written (if tag =? 0 then l else field_bytes tag (Delimited l)) b
    (let! p := r in write_start_element p tag (snd (write_end_element (Some b)))).
Proof.
  intros tag content b r Ht Hb (b1 & -> & O1 & S1 & T1 & D1). cbn [obind].
  unfold obj_written. destruct (is_none (pb_error b)) eqn:E.
  - unfold write_end_element. rewrite E. cbn [negb snd]. apply is_none_true in E.
    destruct D1 as [(L1 & Eb1) | (L1 & X1)].
    + assert (He1 : pb_error b1 = E_NONE) by (rewrite Eb1; exact E).
      assert (Hp : pb_posn b1 = pb_posn b - zlen content) by (rewrite Eb1; reflexivity).
      pose proof (zlen_nonneg _ content).
      destruct (Z.eqb_spec tag 0) as [->|Hn].
      * unfold write_start_element. destruct (Z.ltb_spec (pb_posn b) (pb_posn b1)); [lia|].
        destruct (Z.ltb_spec (pb_size b1) (pb_posn b)); [destruct Hb; lia|]. cbn. exists (pb_error b1), b1.
        split; [reflexivity|]. split; [exact O1|]. split; [exact S1|]. split; [exact T1|]. left. auto.
      * pose proof (write_start_writes b1 tag (pb_posn b) O1 ltac:(destruct Hb; lia) Hn) as W. unfold writes in W. rewrite He1 in W.
        cbn [is_none err_eqb] in W. destruct W as (e & b2 & -> & P).
        replace (pb_posn b - pb_posn b1) with (zlen content) in P by lia.
        exists e, b2. split; [reflexivity|]. destruct P as (P1 & P2 & P3 & P4). split; [exact P1|]. split; [congruence|].
        split; [eapply downward_trans; eauto|].
        rewrite <- tag_bytes_field by auto. cbn [wire_type wire_bytes]. rewrite app_assoc, zlen_app.
        destruct P4 as [(P4 & P6 & P5) | (P4 & P6 & P5)].
        -- left. split; [lia|]. split; [exact P6|]. rewrite P5, Eb1. apply prepended_app; auto; lia.
        -- right. split; [lia|]. split; [subst e; discriminate|exact P5].
    + destruct (write_start_error b1 tag (pb_posn b) ltac:(congruence)) as (e & -> & He). exists e, b1.
      split; [reflexivity|]. split; [exact O1|]. split; [exact S1|]. split; [exact T1|]. right. split; [|auto].
      destruct (tag =? 0); auto. pose proof (field_bytes_delim_len tag content). lia.
  - subst b1. apply is_none_false in E. destruct (write_start_error b tag (snd (write_end_element (Some b))) E) as (e & -> & He).
    exists e, b. split; [reflexivity|]. split; [exact O1|]. split; [exact S1|]. split; [exact T1|]. auto.
Qed.
Lemma fields_written_nil : forall b, pb_ok b -> fields_written [] b (Ok (Some b)).
Proof.
  intros b Hb. exists b. split; [reflexivity|]. split; [exact Hb|]. split; [reflexivity|]. split; [now apply downward_refl|].
  destruct (is_none (pb_error b)) eqn:E; [|reflexivity]. left. destruct Hb as (H & _). split; [change (zlen (@nil Z)) with 0; lia|].
  unfold prepended. destruct b as [[m|] s p e]; cbn in *; rewrite Z.sub_0_r; [|reflexivity]. now rewrite splice_nil.
Qed.

Definition msg_ok (n : nat) (msg : mtype -> option pbuf -> Z -> option obj -> outcome (err * option pbuf)) : Prop :=
  forall m tag o b, (rank m < n)%nat -> 0 < tag < 16 -> object_ok m o -> pb_ok b -> obj_written (message tag m o) b (msg m (Some b) tag (Some o)).

Lemma write_elements_ok : forall n msg m tag l b, msg_ok n msg -> (rank m < n)%nat -> 0 < tag < 16 -> pb_ok b ->
  all (fun x => match x with Some o => object_ok m o | None => False end) l ->
  fields_written (flat_map encoding (flat_map (fun x => match x with Some o => [FElement tag (object_fields m o)] | None => [] end) l)) b
    (write_elements (fun p x => msg m p tag x) (Some b) l).
Proof.
  intros n msg m tag l b Hm Hr Ht. revert b. induction l as [|x l IH]; intros b Hb Hl; [now apply fields_written_nil|].
  destruct Hl as [Hx Hl]. destruct x as [o|]; [|contradiction]. cbn [flat_map write_elements app]. 
  apply fields_written_bind; [exact Hb | now apply IH|]. intros b1 Hb1 _. apply obj_fields_written. now apply (Hm m tag o b1).
Qed.
Definition tag_small (f : Z * kind) : Prop := 0 < fst f < 16.
Lemma write_member_ok : forall n msg b o tag i k v, msg_ok n msg -> below n k -> 0 < tag < 16 -> pb_ok b ->
  nth_error o i = Some v -> member_ok v (tag, k) ->
  fields_written (flat_map encoding (member_fields v (tag, k))) b (write_member msg (Some b) o (WField tag i k)).
Proof.
  intros n msg b o tag i k v Hm Hk Ht Hb Hi Hv. unfold write_member. cbn [wf_kind wf_index wf_tag]. rewrite Hi.
  assert (Hok : forall f, field_ok f -> fields_written (flat_map encoding [f]) b (write_field (Some b) f))
    by (intros f Hf; cbn [flat_map]; rewrite app_nil_r; now apply write_field_written).
  assert (It : is_tag tag) by (unfold is_tag; lia).
  destruct k as [| | |m|m], v as [z|[d|]|[x|]|l]; cbn in Hv; try contradiction; cbn [member_fields fst snd]; try (now apply fields_written_nil).
  - destruct (Z.eqb_spec z 0); [now apply fields_written_nil|]. apply (Hok (FNumber tag UInt32 z)). cbn. auto.
  - apply (Hok (FString tag d)). cbn. tauto.
  - apply (Hok (FBytes tag d)). cbn. tauto.
  - cbn [flat_map]. rewrite app_nil_r. apply obj_fields_written. now apply (Hm m tag x b).
  - apply (write_elements_ok n msg m tag l b Hm Hk Ht Hb).
    clear - Hv. exact Hv.
Qed.
(** Writes in sequence: the bytes come out in the reverse order *)
Lemma write_members_ok : forall n msg o ws b, msg_ok n msg -> pb_ok b ->
  Forall (fun w => exists v, nth_error o (wf_index w) = Some v /\ member_ok v (wf_tag w, wf_kind w) /\ 0 < wf_tag w < 16 /\ below n (wf_kind w)) ws ->
  fields_written (flat_map encoding (flat_map (fun w => match nth_error o (wf_index w) with Some v => member_fields v (wf_tag w, wf_kind w) | None => [] end) (rev ws)))
    b (write_members msg (Some b) o ws).
Proof.
  intros n msg o ws b Hm. revert b. induction ws as [|w ws IH]; intros b Hb Hw; [now apply fields_written_nil|].
  inversion Hw as [|? ? (v & Hi & Hv & Ht & Hk) Hws]; subst. cbn [write_members rev]. rewrite flat_map_app, flat_map_app. 
  apply fields_written_bind; [exact Hb| |intros b1 Hb1 _; now apply IH].
  cbn [flat_map]. rewrite app_nil_r, Hi. destruct w as [tag i k]. now apply (write_member_ok n).
Qed.

(** The tables agree with the schema *)
Lemma writer_schema : forall m o, object_ok m o ->
  Forall (fun w => exists v, nth_error o (wf_index w) = Some v /\ member_ok v (wf_tag w, wf_kind w) /\ 0 < wf_tag w < 16 /\ below (rank m) (wf_kind w)) (writer m) /\
  flat_map (fun w => match nth_error o (wf_index w) with Some v => member_fields v (wf_tag w, wf_kind w) | None => [] end) (rev (writer m)) = object_fields m o.
Proof.
  intros m o H. unfold object_ok in H.
  destruct m; cbn [schema] in H;
    repeat (match type of H with all2 _ ?l (_ :: _) => destruct l as [|? l]; [contradiction|] end; let H1 := fresh in destruct H as [H1 H]);
    (match type of H with all2 _ ?l [] => destruct l; [|contradiction] end);
    (split; [cbn [writer]; repeat (apply Forall_cons; [eexists; split; [reflexivity|]; split; [assumption|]; split; [cbn; lia|cbn; auto; lia]|]); apply Forall_nil
            | unfold object_fields; cbn [writer rev app flat_map flat2 schema nth_error wf_index wf_tag wf_kind]; rewrite ?app_nil_r; reflexivity]).
Qed.
Lemma write_object_ok : forall depth m tag o b, (rank m < depth)%nat -> is_tag tag -> object_ok m o -> pb_ok b ->
  obj_written (message tag m o) b (write_object depth m (Some b) tag (Some o)).
Proof.
  induction depth as [|depth IH]; intros m tag o b Hr Ht Ho Hb; [lia|]. cbn [write_object].
  destruct (writer_schema m o Ho) as [W1 W2].
  pose proof (write_members_ok (rank m) (write_object depth) o (writer m) b) as W. rewrite W2 in W.
  unfold message. cbn [encoding]. apply element_written; auto. apply W; auto.
  intros m' tag' o' b' Hr' Ht' Ho' Hb'. apply IH; auto; [lia|unfold is_tag; lia].
Qed.
