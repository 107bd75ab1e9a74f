(** Loading certificates and chains; files. *)
From Coq Require Import ZifyBool ZifyNat.
From Verif Require Import Base MCipher SCipher MHash MNames MProto SProto PProtoNum PProtoRead PProto MCert SCert PCert PCertRead PCertBack PCertSafe TCert MLoader SLoader.

(** The fields of an object have the numbers of its type. *)
Lemma member_tags : forall v t k, Forall (fun f => field_tag f = t) (member_fields v (t, k)).
Proof.
  intros v t k. destruct v as [n|[d|]|[o|]|l], k; cbn [member_fields fst snd]; try (apply Forall_nil); try (destruct (n =? 0)); repeat (apply Forall_cons || apply Forall_nil); auto.
  apply Forall_forall. intros f Hf. apply in_flat_map in Hf. destruct Hf as ([o|] & _ & Hf); [|contradiction]. destruct Hf as [<-|[]]. reflexivity.
Qed.
Lemma object_tags : forall m o, Forall (fun f => exists k, In (field_tag f, k) (schema m)) (object_fields m o).
Proof.
  intros m o. unfold object_fields. assert (G : forall ks, incl ks (schema m) -> Forall (fun f => exists k, In (field_tag f, k) (schema m)) (flat2 member_fields o ks));
    [|apply G; apply incl_refl].
  induction o as [|v o IH]; intros [|[t k] ks] Hk; cbn [flat2]; try apply Forall_nil. apply Forall_app. split.
  - eapply Forall_impl; [|apply member_tags]. intros f <-. exists k. apply Hk. now left.
  - apply IH. intros x Hx. apply Hk. now right.
Qed.

Lemma peek_empty : forall b, pb_ok b -> pb_posn b = pb_size b -> peek_tag (Some b) = Ok 0.
Proof.
  intros b Hb E. unfold peek_tag, peek_varint. destruct (pb_data b) as [mem|]; [|reflexivity]. destruct (is_none (pb_error b)) eqn:Ee; cbn [negb obind].
  - rewrite E, Z.add_0_r. destruct Hb as (B1 & B2 & _). unfold usize. rewrite Z.mod_small by lia. rewrite Z.leb_refl. reflexivity.
  - now rewrite Ee.
Qed.
Lemma peek_message : forall m o b, object_ok m o -> pb_ok b -> next_bytes b (message 0 m o) -> pb_posn b + zlen (message 0 m o) = pb_size b ->
  exists t, peek_tag (Some b) = Ok t /\ (match object_fields m o with f :: _ => t = field_tag f | [] => t = 0 end).
Proof.
  intros m o b Ho Hb Hn Hs. destruct (object_back (S (rank m)) m o ltac:(lia) Ho) as [A _]. pose proof (object_tags m o) as T. unfold message in *. cbn [encoding] in *.
  change (0 =? 0) with true in *. cbv iota in *. destruct (object_fields m o) as [|f fs]; cbn [flat_map] in *.
  - exists 0. split; [|reflexivity]. rewrite zlen_nil in Hs. apply peek_empty; [exact Hb|lia].
  - destruct A as [A _]. destruct (allowed_facts _ _ A) as [Ht Hf]. destruct (next_split _ _ _ Hb Hn) as [N1 _].
    destruct (peek_field f b Hf Ht Hb N1) as (t & E & T1 & _). exists t. split; [exact E|]. apply T1.
    apply Forall_inv in T. destruct T as [k T]. clear - T. destruct m; cbn in T; intuition; congruence || (match goal with H : (_, _) = (_, _) |- _ => injection H as H _; lia end).
Qed.

(** ** The first certificate of a chain *)
Lemma start_top : forall b, pb_error b = E_NONE -> read_start_element (Some b) 0 = Ok (E_NONE, pb_size b, Some b).
Proof. intros b He. unfold read_start_element, read_tag. cbn [Z.ltb Z.compare]. now rewrite He. Qed.
Lemma chain_message : forall l, message 0 CertificateChain [VArray l] = flat_map (fun x => match x with Some c => message 8 Certificate c | None => [] end) l.
Proof.
  intros l. unfold message, object_fields. cbn [schema flat2 encoding]. change (0 =? 0) with true. cbv iota. rewrite app_nil_r.
  cbn [member_fields snd fst]. induction l as [|[c|] l IH]; cbn [flat_map app]; [reflexivity| |exact IH]. rewrite IH. reflexivity.
Qed.
Lemma certificate_pos : forall c, object_ok Certificate c -> 0 < zlen (message 8 Certificate c).
Proof.
  intros c Hc. destruct (object_back (S (rank Certificate)) Certificate c ltac:(lia) Hc) as [A _]. unfold message.
  apply encoding_pos; [|cbn; lia]. apply field_ok_element. split; [unfold is_tag; lia|]. revert A. generalize (object_fields Certificate c). intros fs. induction fs as [|f fs IH]; intros A; constructor; cbn in A; [|tauto].
  destruct A as [A _]. now apply allowed_facts in A.
Qed.
Lemma first_ok : forall l rounds fuel b cert n, all (fun x => match x with Some c => object_ok Certificate c | None => False end) l -> pb_ok b ->
  let data := flat_map (fun x => match x with Some c => message 8 Certificate c | None => [] end) l in
  next_bytes b data -> pb_posn b + zlen data = pb_size b -> zlen data <= Z.of_nat fuel -> zlen data <= Z.of_nat rounds ->
  first_certificate rounds fuel enough_memory (pb_size b) cert (Some b) n =
    Ok (Some (match cert with Some _ => cert | None => match l with x :: _ => x | [] => None end end, Some (advanced (zlen data) b))).
Proof.
  induction l as [|[c|] l IH]; intros rounds fuel b cert n Hl Hb data Hn Hs Hf Hr; [| |destruct Hl as [[] _]].
  - unfold data in *. cbn [flat_map] in *. rewrite zlen_nil in *. rewrite advanced_0. destruct Hn as [He _].
    assert (E : read_at_end_element (Some b) (pb_size b) = true) by (unfold read_at_end_element; rewrite He; cbn; lia).
    destruct rounds; cbn [first_certificate]; rewrite E; destruct cert; reflexivity.
  - destruct Hl as [Hc Hl]. unfold data in *. cbn [flat_map] in *. pose proof (certificate_pos c Hc) as P.
    set (d1 := message 8 Certificate c) in *. set (d2 := flat_map _ l) in *. rewrite zlen_app in *. pose proof (zlen_nonneg _ d2).
    destruct rounds as [|rounds]; [lia|]. destruct (next_split _ _ _ Hb Hn) as [N1 N2]. pose proof (advanced_ok _ _ Hb N1) as Hb'.
    destruct (C54_read_back Certificate 8 c b n fuel Hc ltac:(unfold is_tag; lia) Hb N1 ltac:(lia) ltac:(fold d1; lia)) as [n' R]. fold d1 in R.
    cbn [first_certificate]. rewrite R. cbn [obind is_none err_eqb negb].
    assert (E : read_at_end_element (Some b) (pb_size b) = false) by (destruct Hn as [He _]; unfold read_at_end_element; rewrite He; cbn; lia).
    rewrite E. change (pb_size b) with (pb_size (advanced (zlen d1) b)). rewrite IH; auto.
    + fold d2. rewrite advanced_advanced. destruct cert; reflexivity.
    + fold d2. cbn [advanced with_posn pb_posn pb_size]. lia.
    + fold d2. lia.
    + fold d2. lia.
Qed.

Lemma certificate_alone : forall c b fuel, object_ok Certificate c -> pb_ok b -> next_bytes b (message 0 Certificate c) ->
  pb_posn b + zlen (message 0 Certificate c) = pb_size b -> zlen (message 0 Certificate c) <= Z.of_nat fuel ->
  load_certificate_from_buffer fuel enough_memory (Some b) = Ok (Some (E_NONE, Some c)) /\
  load_certificate_chain_from_buffer fuel enough_memory (Some b) = Ok (Some (E_NONE, Some [VArray [Some c]])).
Proof.
  intros c b fuel Hc Hb Hn Hs Hf. destruct (peek_message Certificate c b Hc Hb Hn Hs) as (t & Et & Ht).
  assert (T8 : t =? 8 = false).
  { pose proof (object_tags Certificate c) as T. destruct (object_fields Certificate c) as [|f fs]; [subst t; reflexivity|]. apply Forall_inv in T. destruct T as [k T]. subst t.
    cbn in T. destruct T as [T|[T|[T|[]]]]; injection T as <- _; reflexivity. }
  assert (He : pb_error b = E_NONE) by (destruct Hn; auto).
  unfold load_certificate_from_buffer, load_certificate_chain_from_buffer. rewrite He, Et. cbn [is_none err_eqb negb obind]. rewrite T8. cbn [negb].
  unfold enough_memory at 2. cbn [negb]. split.
  - destruct (C54_read_back Certificate 0 c b 0 fuel Hc ltac:(unfold is_tag; lia) Hb Hn ltac:(auto) Hf) as [n' ->]. reflexivity.
  - destruct (C54_read_back Certificate 0 c b 1 fuel Hc ltac:(unfold is_tag; lia) Hb Hn ltac:(auto) Hf) as [n' ->]. reflexivity.
Qed.
Lemma chain_loads : forall c l b fuel, let chain := [VArray (Some c :: l)] in object_ok CertificateChain chain -> pb_ok b -> next_bytes b (message 0 CertificateChain chain) ->
  pb_posn b + zlen (message 0 CertificateChain chain) = pb_size b -> zlen (message 0 CertificateChain chain) <= Z.of_nat fuel ->
  load_certificate_from_buffer fuel enough_memory (Some b) = Ok (Some (E_NONE, Some c)) /\
  load_certificate_chain_from_buffer fuel enough_memory (Some b) = Ok (Some (E_NONE, Some chain)).
Proof.
  intros c l b fuel chain Hc Hb Hn Hs Hf. destruct (peek_message CertificateChain chain b Hc Hb Hn Hs) as (t & Et & Ht).
  assert (t = 8) by exact Ht. subst t. assert (He : pb_error b = E_NONE) by (destruct Hn; auto).
  unfold load_certificate_from_buffer, load_certificate_chain_from_buffer. rewrite He, Et. cbn [is_none err_eqb negb obind Z.eqb Pos.eqb]. split.
  - rewrite start_top by exact He. cbn [obind]. unfold chain in *. rewrite chain_message in *.
    rewrite first_ok with (l := Some c :: l); auto; [|apply Hc].
    cbn [obind]. unfold read_end_element. cbn [advanced with_posn pb_error pb_posn]. rewrite He. cbn [is_none err_eqb negb].
    rewrite Hs, (Z.eqb_refl (pb_size b)). reflexivity.
  - destruct (C54_read_back CertificateChain 0 chain b 0 fuel Hc ltac:(unfold is_tag; lia) Hb Hn ltac:(auto) Hf) as [n' ->]. reflexivity.
Qed.

(** ** Files *)
Lemma measure_ok : forall m o, object_ok m o ->
  if zlen (message 0 m o) <=? MAX_PAYLOAD_LEN then
    exists p, cert_write m (Some (prepare_measure MAX_PAYLOAD_LEN)) 0 (Some o) = Ok (E_NONE, p) /\ finish_measure p = (E_NONE, zlen (message 0 m o))
  else exists e p, cert_write m (Some (prepare_measure MAX_PAYLOAD_LEN)) 0 (Some o) = Ok (e, p) /\ e <> E_NONE.
Proof.
  intros m o Ho. assert (Hb : pb_ok (prepare_measure MAX_PAYLOAD_LEN)) by (unfold MAX_PAYLOAD_LEN; split; [cbn; lia|]; split; [cbn; lia|exact I]).
  pose proof (C54_object_written m 0 o _ Ho ltac:(unfold is_tag; lia) Hb eq_refl) as W. cbn [prepare_measure pb_posn pb_data pb_size] in W.
  destruct (zlen (message 0 m o) <=? MAX_PAYLOAD_LEN) eqn:E.
  - destruct W as (b' & -> & _ & Ee & Es & Ep & _). exists (Some b'). split; [reflexivity|]. unfold finish_measure. rewrite Ee. cbn [is_none err_eqb negb].
    rewrite Es, Ep. f_equal. unfold usize. pose proof (zlen_nonneg _ (message 0 m o)). unfold MAX_PAYLOAD_LEN in *. rewrite Z.mod_small; lia.
  - destruct W as (e & b' & -> & He & _). eauto.
Qed.
Lemma save_file_ok : forall m o new_memory, object_ok m o -> memory_ok new_memory ->
  if zlen (message 0 m o) <=? MAX_PAYLOAD_LEN then save_to_file m o new_memory = Ok (E_NONE, Some (message 0 m o))
  else exists e, save_to_file m o new_memory = Ok (e, None) /\ e <> E_NONE.
Proof.
  intros m o mem Ho Hm. pose proof (measure_ok m o Ho) as M. unfold save_to_file. destruct (zlen (message 0 m o) <=? MAX_PAYLOAD_LEN) eqn:E.
  - destruct M as (p & -> & F). cbn [obind is_none err_eqb negb]. rewrite F. cbn [is_none err_eqb negb]. pose proof (zlen_nonneg _ (message 0 m o)).
    set (n := zlen (message 0 m o)) in *. destruct (Hm n ltac:(lia)) as [B Z].
    assert (Hb : pb_ok (PBuf (Some (mem n)) n n E_NONE)) by (unfold MAX_PAYLOAD_LEN in *; split; [cbn; lia|]; split; [cbn; lia|]; cbn; auto).
    pose proof (C54_object_written m 0 o _ Ho ltac:(unfold is_tag; lia) Hb eq_refl) as W. cbn [pb_posn pb_data pb_size] in W. fold n in W. rewrite Z.leb_refl in W.
    destruct W as (b' & -> & _ & Ee & Es & Ep & Ed). cbn [obind is_none err_eqb negb]. unfold finish_output. rewrite Ee. cbn [is_none err_eqb negb].
    destruct (pb_data b') as [mem'|] eqn:Em; [|contradiction]. cbn [is_none err_eqb negb]. rewrite Z.sub_diag in Ep. rewrite Es, Ep, Z.sub_0_r. unfold usize.
    rewrite Z.mod_small by (unfold MAX_PAYLOAD_LEN in *; lia). rewrite Ep in Ed. assert (Zm : zlen mem' = zlen (mem n)) by (rewrite Ed; apply splice_length; fold n; lia).
    rewrite load_ok by lia.
    cbn [obind]. rewrite Ed. unfold n. rewrite splice_sub_same; [reflexivity|lia|fold n; lia].
  - destruct M as (e & p & -> & He). cbn [obind]. replace (is_none e) with false by (symmetry; now apply is_none_false). cbn [negb]. eauto.
Qed.
