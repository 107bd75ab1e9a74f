(** Properties of certificate and key objects: C54 (saved objects are read back),
    C57 (running out of memory) and C70 (any input). *)
From Coq Require Import ZifyBool ZifyNat.
From Verif Require Import Base MProto SProto PProto PProtoRead MCert SCert PCert PCertRead PCertBack PCertSafe MArray SArray PArray.

(** C54, writing.  An object is written as the message of its fields in the
    format of doc/noise-certificate.proto, just before the bytes already written,
    or the call fails because the buffer is too small. *)
Theorem C54_object_written : forall m tag o b, object_ok m o -> is_tag tag -> pb_ok b -> pb_error b = E_NONE ->
  if zlen (message tag m o) <=? pb_posn b then
    exists b', cert_write m (Some b) tag (Some o) = Ok (E_NONE, Some b') /\ pb_ok b' /\ pb_error b' = E_NONE /\
      pb_size b' = pb_size b /\ pb_posn b' = pb_posn b - zlen (message tag m o) /\
      match pb_data b, pb_data b' with
      | Some mem, Some mem' => mem' = splice (pb_posn b') (message tag m o) mem
      | None, None => True
      | _, _ => False
      end
  else exists e b', cert_write m (Some b) tag (Some o) = Ok (e, Some b') /\ e <> E_NONE /\ pb_error b' = E_INVALID_LENGTH.
Proof.
  intros m tag o b Ho Ht Hb He. destruct (write_object_ok 5 m tag o b) as (e & b' & E & H1 & H2 & H3 & H4); auto; [destruct m; cbn; lia|].
  rewrite He in H4. cbn [is_none err_eqb] in H4. unfold cert_write. rewrite E. destruct (Z.leb_spec (zlen (message tag m o)) (pb_posn b)).
  - destruct H4 as [(_ & -> & Eb) | (X & _)]; [|lia]. exists b'. split; [reflexivity|]. split; [exact H1|]. rewrite Eb. unfold prepended. cbn [pb_error pb_size pb_posn pb_data].
    split; [exact He|]. split; [reflexivity|]. split; [reflexivity|]. destruct (pb_data b); cbn; auto.
  - destruct H4 as [(X & _) | (_ & X1 & X2)]; [lia|]. eauto.
Qed.
Print Assumptions C54_object_written.

(** Whether there is room or not, writing goes downwards from the position: no
    byte above it or below the new position changes. *)
Theorem C54_writes_below_position : forall m tag o b mem, object_ok m o -> is_tag tag -> pb_ok b -> pb_data b = Some mem ->
  exists e b' mem', cert_write m (Some b) tag (Some o) = Ok (e, Some b') /\ pb_data b' = Some mem' /\ 0 <= pb_posn b' <= pb_posn b /\
    take (pb_posn b') mem' = take (pb_posn b') mem /\ drop (pb_posn b) mem' = drop (pb_posn b) mem.
Proof.
  intros m tag o b mem Ho Ht Hb Em. destruct (write_object_ok 5 m tag o b) as (e & b' & E & H1 & H2 & (H3 & H4 & H5) & _); auto; [destruct m; cbn; lia|].
  destruct H3 as [_ H3]. rewrite Em in H3, H5. destruct (pb_data b') as [mem'|] eqn:E'; [|contradiction]. exists e, b', mem'. auto.
Qed.
Print Assumptions C54_writes_below_position.

(** C54, reading.  A message with known and unknown fields in any order is read
    as what it means, and exactly its bytes are consumed.  (For tag 0 the message
    is everything up to the end of the buffer.) *)
Theorem C54_any_message_read : forall m tag fs b n fuel, Forall (fun f => allowed f m) fs -> is_tag tag -> pb_ok b ->
  next_bytes b (encoding (FElement tag fs)) -> (tag = 0 -> pb_posn b + zlen (encoding (FElement tag fs)) = pb_size b) ->
  zlen (encoding (FElement tag fs)) <= Z.of_nat fuel ->
  exists n', cert_read fuel enough_memory m (Some b) tag n =
    Ok (Some (E_NONE, Some (meaning m fs), Some (advanced (zlen (encoding (FElement tag fs))) b), n')).
Proof.
  intros m tag fs b n fuel Hfs Ht Hb Hn H0 Hf. apply read_object_ok; auto; [destruct m; cbn; lia|]. clear - Hfs. induction Hfs; cbn; auto.
Qed.
Print Assumptions C54_any_message_read.

(** C54.  What is written is read back as the same object. *)
Theorem C54_read_back : forall m tag o b n fuel, object_ok m o -> is_tag tag -> pb_ok b ->
  next_bytes b (message tag m o) -> (tag = 0 -> pb_posn b + zlen (message tag m o) = pb_size b) -> zlen (message tag m o) <= Z.of_nat fuel ->
  exists n', cert_read fuel enough_memory m (Some b) tag n = Ok (Some (E_NONE, Some o, Some (advanced (zlen (message tag m o)) b), n')).
Proof.
  intros m tag o b n fuel Ho Ht Hb Hn H0 Hf. destruct (object_back (S (rank m)) m o) as [A E]; auto.
  destruct (read_object_ok fuel 5 m tag (object_fields m o) b n) as [n' R]; auto; [destruct m; cbn; lia|]. exists n'. unfold cert_read, message. now rewrite R, E.
Qed.
Print Assumptions C54_read_back.

(** C54 from end to end: save to a buffer, load the bytes that were saved. *)
Theorem C54_saved_and_loaded : forall m tag o mem size fuel, object_ok m o -> is_tag tag -> bytes mem -> 0 <= size <= zlen mem -> size < 2^64 ->
  zlen (message tag m o) <= size -> size <= Z.of_nat fuel ->
  exists b n, cert_write m (Some (prepare_output mem size)) tag (Some o) = Ok (E_NONE, Some b) /\
    let saved := written (prepare_output mem size) b in
    finish_output (Some b) = (E_NONE, Some (pb_posn b), zlen saved) /\
    cert_read fuel enough_memory m (Some (prepare_input saved (zlen saved))) tag 0 =
      Ok (Some (E_NONE, Some o, Some (advanced (zlen saved) (prepare_input saved (zlen saved))), n)).
Proof.
  intros m tag o mem size fuel Ho Ht Hmem Hs Hs64 Hl Hf.
  assert (Hb : pb_ok (prepare_output mem size)) by (split; [cbn; lia|]; split; [cbn; lia|]; cbn; split; [lia|exact Hmem]).
  pose proof (C54_object_written m tag o _ Ho Ht Hb eq_refl) as W. cbn [prepare_output pb_posn pb_data] in W.
  destruct (Z.leb_spec (zlen (message tag m o)) size); [|lia]. destruct W as (b & Eb & Ob & Ee & Es & Ep & Ed).
  destruct (pb_data b) as [mem'|] eqn:Em; [|contradiction]. cbn [prepare_output pb_size] in Es.
  pose proof (zlen_nonneg _ (message tag m o)).
  assert (Sv : written (prepare_output mem size) b = message tag m o).
  { unfold written. rewrite Em. cbn [prepare_output pb_posn]. rewrite Ep. replace (size - (size - zlen (message tag m o))) with (zlen (message tag m o)) by lia.
    rewrite Ed, Ep. apply splice_sub_same; lia. }
  assert (Hin : pb_ok (prepare_input (message tag m o) (zlen (message tag m o)))).
  { unfold pb_ok, prepare_input. cbn [pb_posn pb_size pb_data]. split; [lia|]. split; [lia|]. split; [lia|]. destruct Ob as (_ & _ & Ob). rewrite Em in Ob. destruct Ob as [_ Ob].
    rewrite <- Sv. unfold written. rewrite Em. now apply bytes_sub. }
  destruct (C54_read_back m tag o (prepare_input (message tag m o) (zlen (message tag m o))) 0 fuel Ho Ht Hin) as [n R].
  - split; [reflexivity|]. exists (message tag m o). split; [reflexivity|]. unfold prepare_input. cbn [pb_posn pb_size]. split; [lia|]. unfold sub. rewrite drop_le0 by lia. now apply take_all.
  - intros _. unfold prepare_input. cbn [pb_posn pb_size]. lia.
  - lia.
  - exists b, n. split; [exact Eb|]. cbn zeta. rewrite Sv. split; [|exact R].
    unfold finish_output. rewrite Ee. cbn [is_none err_eqb negb]. rewrite ?Em. rewrite ?Es, ?Ep. f_equal. unfold usize. rewrite ?Z.mod_small by lia. lia.
Qed.
Print Assumptions C54_saved_and_loaded.

(** A certificate with a subject that has a key and two pieces of meta
    information, and one signature *)
Definition text (l : list Z) : value := VBlock (Some l).
Definition example_certificate : obj :=
  [VInt 1;
   VObject (Some [text [97]; text [98; 99]; VBlock None; VArray [Some [text [50; 53]; text [0; 255]]]; VArray [Some [text [1]; text []]; Some [VBlock None; text [195; 169]]]]);
   VArray [Some [text [105]; VBlock None; VObject (Some [text [50]; text [7]]); VBlock None; VObject (Some [text [9; 9]; VBlock None; text [50; 48]; VArray []]); text [4; 5; 6]]]].
Example certificate_ok : object_ok Certificate example_certificate.
Proof.
  assert (T : forall l, forallb (fun c => (0 <=? c) && (c <? 256)) l = true -> zlen l < 2^64 -> protobuf_is_utf8 l (zlen l) = Ok true -> bytes l /\ zlen l < 2^64 /\ accepted l).
  { intros l H1 H2 H3. split; [|split; [exact H2|exact H3]]. apply Forall_forall. intros c Hc. rewrite forallb_forall in H1. specialize (H1 c Hc). unfold is_byte. lia. }
  assert (B : forall l, forallb (fun c => (0 <=? c) && (c <? 256)) l = true -> zlen l < 2^64 -> bytes l /\ zlen l < 2^64).
  { intros l H1 H2. split; [|exact H2]. apply Forall_forall. intros c Hc. rewrite forallb_forall in H1. specialize (H1 c Hc). unfold is_byte. lia. }
  cbn [object_ok example_certificate all2 schema member_ok snd text all].
  repeat match goal with |- _ /\ _ => split end; auto;
    lazymatch goal with
    | |- bytes _ => (eapply B; [reflexivity|reflexivity])
    | |- accepted _ => reflexivity
    | |- _ <= _ => lia
    | |- _ < _ => reflexivity
    | |- True => exact I
    end.
Qed.
Example certificate_message : message 0 Certificate example_certificate =
  [8; 1; 18; 30; 10; 1; 97; 18; 2; 98; 99; 34; 8; 10; 2; 50; 53; 18; 2; 0; 255; 42; 5; 10; 1; 1; 18; 0; 42; 4; 18; 2; 195; 169;
   26; 26; 10; 1; 105; 26; 6; 10; 1; 50; 18; 1; 7; 42; 8; 10; 2; 9; 9; 26; 2; 50; 48; 122; 3; 4; 5; 6].
Proof. reflexivity. Qed.
Example certificate_saved_and_loaded : exists b n,
  cert_write Certificate (Some (prepare_output (zeros 100) 100)) 0 (Some example_certificate) = Ok (E_NONE, Some b) /\
  cert_read 100 enough_memory Certificate (Some (prepare_input (written (prepare_output (zeros 100) 100) b) (zlen (written (prepare_output (zeros 100) 100) b)))) 0 0
    = Ok (Some (E_NONE, Some example_certificate, Some (advanced (zlen (written (prepare_output (zeros 100) 100) b)) (prepare_input (written (prepare_output (zeros 100) 100) b) (zlen (written (prepare_output (zeros 100) 100) b)))), n)).
Proof.
  destruct (C54_saved_and_loaded Certificate 0 example_certificate (zeros 100) 100 100 certificate_ok) as (b & n & H1 & _ & H2);
    [unfold is_tag; lia | apply bytes_zeros | rewrite zlen_zeros by lia; lia | lia | now vm_compute | lia|]. eauto.
Qed.
(** Fields out of order, a repeated single field and unknown fields, one with a large number *)
Definition odd_fields : list field :=
  [FString 2 [65]; FNumber 100 UInt64 12345; FString 2 [66]; FBytes 9 [1; 2]; FString 1 [67]].
Example odd_allowed : Forall (fun f => allowed f MetaInfo) odd_fields.
Proof.
  repeat constructor; cbn; try lia; try (unfold is_tag; lia); try reflexivity; try (repeat constructor; unfold is_byte; lia).
Qed.
Example odd_meaning : meaning MetaInfo odd_fields = [text [67]; text [66]].
Proof. reflexivity. Qed.

(** C70.  Reading an object from any bytes whatever, with any allocation failures,
    stays inside the buffer (no outcome UB); with enough memory it ends, within as
    many rounds of each loop as there are bytes, and returns either an error and no
    object or an object that can be saved again. *)
Theorem C70_any_input_safe : forall m tag b mem n fuel alloc, 0 <= tag -> pb_ok b -> pb_data b = Some mem -> pb_error b = E_NONE ->
  cert_read fuel alloc m (Some b) tag n <> UB /\
  (forall e x p n', cert_read fuel alloc m (Some b) tag n = Ok (Some (e, x, p, n')) ->
    (x = None <-> e <> E_NONE) /\ exists b', p = Some b' /\ pb_ok b' /\ pb_data b' = pb_data b /\ pb_size b' = pb_size b /\ pb_posn b <= pb_posn b').
Proof.
  intros m tag b mem n fuel alloc Ht Hb Em He. destruct (read_object_safe fuel alloc 5 m tag b mem n) as (r & E & R); auto; [destruct m; cbn; lia|].
  unfold cert_read. split; [congruence|]. intros e x p n' E'. rewrite E in E'. injection E' as ->. destruct R as (b' & -> & (K1 & K2 & K3 & K4) & R1 & R2 & _).
  split; [|exists b'; auto]. split; [|exact R1]. intros X Y. now apply R2.
Qed.
Print Assumptions C70_any_input_safe.
Theorem C70_any_input_ends : forall m tag b mem n fuel, 0 <= tag -> pb_ok b -> pb_data b = Some mem -> pb_error b = E_NONE ->
  pb_size b - pb_posn b <= Z.of_nat fuel ->
  exists e x b' n', cert_read fuel enough_memory m (Some b) tag n = Ok (Some (e, x, Some b', n')) /\
    ((e = E_NONE /\ exists o, x = Some o /\ object_ok m o) \/ (e <> E_NONE /\ x = None /\ pb_error b' <> E_NONE)).
Proof.
  intros m tag b mem n fuel Ht Hb Em He Hf. destruct (read_object_safe fuel enough_memory 5 m tag b mem n) as (r & E & R); auto; [destruct m; cbn; lia|].
  assert (G : good fuel enough_memory b) by (split; [reflexivity|exact Hf]). unfold cert_read. rewrite E.
  destruct r as [[[[e x] p] n']|]; [|contradiction]. destruct R as (b' & -> & _ & R1 & R2 & R3). destruct (R3 G) as (_ & R4 & R5).
  exists e, x, b', n'. split; [reflexivity|]. destruct (is_none e) eqn:Ee; [apply is_none_true in Ee; left; auto | apply is_none_false in Ee; right; auto].
Qed.
Print Assumptions C70_any_input_ends.
Example garbage_input : exists e x b' n',
  cert_read 7 enough_memory SubjectInfo (Some (prepare_input [34; 200; 1; 255; 10; 3; 97] 7)) 0 0 = Ok (Some (e, x, Some b', n')).
Proof.
  destruct (C70_any_input_ends SubjectInfo 0 (prepare_input [34; 200; 1; 255; 10; 3; 97] 7) [34; 200; 1; 255; 10; 3; 97] 0 7 ltac:(lia)) as (e & x & b' & n' & H & _);
    [|reflexivity|reflexivity|cbn; lia|eauto 10].
  split; [cbn; lia|]. split; [cbn; lia|]. cbn. split; [now vm_compute|]. repeat constructor; unfold is_byte; lia.
Qed.

(** C57.  The property fails.  (1) When the array of an object cannot grow, the
    element just read is dropped and no error is returned. *)
Theorem C57_element_lost_refuted : exists data alloc i, alloc i = false /\
  cert_read 10 alloc SubjectInfo (Some (prepare_input data (zlen data))) 0 0 =
    Ok (Some (E_NONE, Some (empty_object SubjectInfo), Some (advanced (zlen data) (prepare_input data (zlen data))), 4%nat)) /\ (i < 4)%nat /\
  cert_read 10 enough_memory SubjectInfo (Some (prepare_input data (zlen data))) 0 0 <>
    cert_read 10 alloc SubjectInfo (Some (prepare_input data (zlen data))) 0 0.
Proof.
  exists [34; 3; 10; 1; 65], (fun i => negb (Nat.eqb i 3)), 3%nat. split; [reflexivity|]. split; [vm_compute; reflexivity|]. split; [lia|].
  vm_compute. discriminate.
Qed.
Print Assumptions C57_element_lost_refuted.
(** (2) When an element itself cannot be allocated, a NULL pointer is put in the
    array and no error is returned. *)
Theorem C57_null_element_refuted : exists data alloc i l o, alloc i = false /\ (i < 5)%nat /\
  cert_read 10 alloc SubjectInfo (Some (prepare_input data (zlen data))) 0 0 =
    Ok (Some (E_NONE, Some [VBlock None; VBlock None; VBlock None; VArray (None :: l); o], Some (advanced (zlen data) (prepare_input data (zlen data))), 5%nat)).
Proof.
  exists [34; 0], (fun i => negb (Nat.eqb i 1)), 1%nat. eexists _, _. split; [reflexivity|]. split; [lia|]. vm_compute. reflexivity.
Qed.
Print Assumptions C57_null_element_refuted.
(** (3) When no more memory can be had at all, the reader does not return. *)
Theorem C57_never_returns_refuted : exists data alloc, alloc 0%nat = true /\ forall fuel,
  cert_read fuel alloc SubjectInfo (Some (prepare_input data (zlen data))) 0 0 = Ok None.
Proof.
  exists [34; 0], (fun i => Nat.eqb i 0). split; [reflexivity|]. intros fuel. unfold cert_read.
  set (alloc := fun i => Nat.eqb i 0). change (zlen [34; 0]) with 2. set (b := prepare_input [34; 0] 2).
  change (read_object 5 fuel alloc SubjectInfo (Some b) 0 0) with
    (let! r := read_members fuel (read_object 4 fuel alloc) alloc SubjectInfo 2 (fresh SubjectInfo) (Some b) 1 in
     match r with
     | None => Ok None
     | Some (o, p, n) => let '(e, p) := read_end_element p 2 in Ok (Some (e, if is_none e then Some o else None, p, n))
     end).
  assert (L : forall k n, (0 < n)%nat -> read_members k (read_object 4 fuel alloc) alloc SubjectInfo 2 (fresh SubjectInfo) (Some b) n = Ok None).
  { induction k; intros n Hn; [reflexivity|]. cbn [read_members]. change (read_at_end_element (Some b) 2) with false. cbn iota.
    assert (M : read_member (read_object 4 fuel alloc) alloc SubjectInfo (fresh SubjectInfo) (Some b) n = Ok (Some (fresh SubjectInfo, Some b, S (S n)))).
    { unfold read_member. change (peek_tag (Some b)) with (Ok 4). cbn [obind]. change (find_case SubjectInfo 4) with (Some (RCase 4 4 3 (KArray PublicKeyInfo))). cbv iota.
      cbn [read_object]. assert (A : forall j, (0 < j)%nat -> alloc j = false) by (intros [|j] Hj; [lia|reflexivity]).
      rewrite A by lia. cbn [negb obind]. change (nth_error (fresh SubjectInfo) 3) with (Some (VArray [])). cbv iota. rewrite A by lia. reflexivity. }
    rewrite M. cbn [obind]. apply IHk. lia. }
  rewrite L by lia. reflexivity.
Qed.
Print Assumptions C57_never_returns_refuted.
(** What holds: for the types whose members are only integers, strings and blocks
    (PublicKeyInfo, MetaInfo, PrivateKeyInfo and EncryptedPrivateKey), the reader
    ends for every input and every pattern of failures, and success means that no
    allocation failed. *)
Theorem C57_flat_objects_partial : forall m tag b mem n fuel alloc, In m [PublicKeyInfo; MetaInfo; PrivateKeyInfo; EncryptedPrivateKey] ->
  0 <= tag -> pb_ok b -> pb_data b = Some mem -> pb_error b = E_NONE -> pb_size b - pb_posn b <= Z.of_nat fuel ->
  exists e x p n', cert_read fuel alloc m (Some b) tag n = Ok (Some (e, x, p, n')) /\ (e <> E_NONE -> x = None) /\
    forall i, (n <= i < n')%nat -> alloc i = false -> e <> E_NONE.
Proof.
  intros m tag b mem n fuel alloc Hm Ht Hb Em He Hf. destruct (leaf_object alloc fuel 5 m tag b mem n) as (e & x & p & n' & E & X & Y); auto; [|lia|].
  - unfold leaf. cbn in Hm. intuition; subst m; reflexivity.
  - exists e, x, p, n'. split; [exact E|]. split; [exact X|]. intros i Hi Ai Z0. specialize (Y Z0 i Hi). congruence.
Qed.
Print Assumptions C57_flat_objects_partial.
Example flat_out_of_memory : exists p n', cert_read 10 (fun i => Nat.eqb i 0) MetaInfo (Some (prepare_input [10; 1; 65] 3)) 0 0 = Ok (Some (E_NO_MEMORY, None, p, n')).
Proof. eexists _, _. vm_compute. reflexivity. Qed.

(** ** The arrays of the certificate model *)
(** [at_capacity] of the certificate model is what the dynamic arrays do: after
    any calls on an empty array, the next one allocates iff [at_capacity] says so. *)
Definition room (n : Z) : Z :=
  if n =? 0 then 0 else if n <=? 4 then 4 else if n <=? 8 then 8 else if n <=? 16 then 16 else if n <=? 32 then 32 else 64 * ((n + 63) / 64).
Lemma call_room : forall size a o e a' f, array_call size a o = Ok (e, a', f) ->
  a' = a \/ (ar_count a' = usize (ar_count a + 1) /\ ar_max a' = if ar_max a <=? ar_count a then grow_array (ar_max a) else ar_max a).
Proof.
  assert (M : forall alloc a size e a' f, make_room alloc a size = Ok (e, a', f) ->
    (e <> E_NONE /\ a' = a) \/ (e = E_NONE /\ ar_count a' = ar_count a /\ ar_max a' = if ar_max a <=? ar_count a then grow_array (ar_max a) else ar_max a)).
  { intros alloc a size e a' f. unfold make_room. destruct (ar_max a <=? ar_count a).
    - cbv zeta. destruct (calloc alloc (grow_array (ar_max a)) size); [|intros [= <- <- _]; left; now split].
      match goal with |- obind ?x _ = _ -> _ => destruct x as [m|]; [|discriminate] end. cbn [obind].
      match goal with |- obind ?x _ = _ -> _ => destruct x as [old|]; [|discriminate] end. cbn [obind]. intros [= <- <- _]. right. auto.
    - intros [= <- <- _]. right. auto. }
  assert (A : forall alloc a size v e a' f, add_to_array alloc a v size = Ok (e, a', f) ->
    a' = a \/ (ar_count a' = usize (ar_count a + 1) /\ ar_max a' = if ar_max a <=? ar_count a then grow_array (ar_max a) else ar_max a)).
  { intros alloc a size v e a' f. unfold add_to_array. destruct (make_room alloc a size) as [[[e1 a1] old]|] eqn:E; [|discriminate]. cbn [obind].
    destruct (M _ _ _ _ _ _ E) as [(N & ->)|(-> & C & X)].
    - destruct e1; try (now destruct N); cbn [is_none err_eqb negb]; intros [= _ <- _]; auto.
    - cbn [is_none err_eqb negb]. destruct (ar_data a1); [|discriminate].
      repeat (match goal with |- obind ?x _ = _ -> _ => destruct x; [|discriminate] end; cbn [obind]). intros [= _ <- _]. right. cbn. rewrite C, X. auto. }
  intros size a [alloc v|alloc i v] e a' f; cbn [array_call]; [apply A|]. unfold insert_into_array. destruct (ar_count a <=? i); [apply A|].
  destruct (make_room alloc a size) as [[[e1 a1] old]|] eqn:E; [|discriminate]. cbn [obind].
  destruct (M _ _ _ _ _ _ E) as [(N & ->)|(-> & C & X)].
  - destruct e1; try (now destruct N); cbn [is_none err_eqb negb]; intros [= _ <- _]; auto.
  - cbn [is_none err_eqb negb]. destruct (ar_data a1); [|discriminate].
    repeat (match goal with |- obind ?x _ = _ -> _ => destruct x; [|discriminate] end; cbn [obind]). intros [= _ <- _]. right. cbn. rewrite C, X. auto.
Qed.
Lemma room_step : forall n, 0 <= n < 2^63 -> (if room n <=? n then grow_array (room n) else room n) = room (n + 1).
Proof.
  intros n H. unfold grow_array.
  destruct (Z.ltb_spec n 33).
  - assert (In n (map Z.of_nat (seq 0 33))) by (apply in_map_iff; exists (Z.to_nat n); rewrite in_seq; lia).
    assert (F : forallb (fun n => (if room n <=? n then grow_array (room n) else room n) =? room (n + 1)) (map Z.of_nat (seq 0 33)) = true) by (vm_compute; reflexivity).
    rewrite forallb_forall in F. apply F in H1. now apply Z.eqb_eq in H1.
  - assert (R : forall m, 33 <= m -> room m = 64 * ((m + 63) / 64)) by (intros m Hm; unfold room; repeat match goal with |- context [if ?b then _ else _] => destruct b eqn:?; [lia|] end; reflexivity).
    rewrite !R by lia. change (2^63) with 9223372036854775808 in *. unfold usize. change (2^64) with 18446744073709551616.
    destruct (Z.leb_spec (64 * ((n + 63) / 64)) n).
    + destruct (Z.leb_spec 64 (64 * ((n + 63) / 64))); [|Z.div_mod_to_equations; lia]. rewrite Z.mod_small by (Z.div_mod_to_equations; lia). Z.div_mod_to_equations; lia.
    + Z.div_mod_to_equations; lia.
Qed.
Theorem C68_next_call_allocates : forall size ops errs freed a, 0 < size -> Forall (op_fits size) ops ->
  array_run size empty_array ops = Ok (errs, freed, a) -> (ar_max a <=? ar_count a) = at_capacity (ar_count a).
Proof.
  intros size ops errs freed a Hs Hf E.
  assert (G : forall ops a es errs freed a', holds size a es -> Forall (op_fits size) ops -> ar_max a = room (ar_count a) ->
    array_run size a ops = Ok (errs, freed, a') -> ar_max a' = room (ar_count a') /\ 0 <= ar_count a' < 2^63).
  { clear - Hs. induction ops as [|o ops IH]; intros a es errs freed a' H F R E.
    - injection E as _ _ <-. split; [exact R|]. destruct H as (C & _ & L & M & _). pose proof (zlen_nonneg _ es). nia.
    - inversion F as [|? ? F1 F2]; subst. destruct (call_ok size a o es Hs F1 H) as (e & a1 & old & E1 & _ & K).
      cbn [array_run] in E. rewrite E1 in E. cbn [obind] in E. destruct (array_run size a1 ops) as [[[es1 fs1] a2]|] eqn:E2; [|discriminate]. injection E as _ _ <-.
      assert (C0 : 0 <= ar_count a < 2^63) by (destruct H as (C & _ & L & M & _); pose proof (zlen_nonneg _ es); nia).
      assert (exists es', holds size a1 es') as (es' & H') by (destruct K as [(_ & K)|(_ & -> & _)]; eauto).
      apply (IH a1 es' es1 fs1 a2); auto. destruct (call_room _ _ _ _ _ _ E1) as [-> | (C1 & X1)]; [exact R|].
      rewrite X1, C1, R, room_step by exact C0. f_equal. unfold usize. rewrite Z.mod_small; lia. }
  assert (H0 : holds size empty_array []) by (unfold holds, empty_array; cbn [ar_count ar_max ar_data]; rewrite zlen_nil; split; [reflexivity|]; split; [constructor|]; split; [lia|]; split; [lia|reflexivity]).
  destruct (G ops empty_array [] errs freed a H0 Hf eq_refl E) as [R C].
  rewrite R. set (n := ar_count a) in *. clearbody n. clear - C. unfold at_capacity.
  destruct (Z.ltb_spec n 64).
  - assert (In n (map Z.of_nat (seq 0 64))) as I by (apply in_map_iff; exists (Z.to_nat n); rewrite in_seq; lia).
    assert (F : forallb (fun n => Bool.eqb (room n <=? n) (existsb (Z.eqb n) [0; 4; 8; 16; 32])) (map Z.of_nat (seq 0 64)) = true) by (vm_compute; reflexivity).
    rewrite forallb_forall in F. apply F in I. now apply Bool.eqb_prop in I.
  - assert (R : room n = 64 * ((n + 63) / 64)) by (unfold room; repeat match goal with |- context [if ?b then _ else _] => destruct b eqn:?; [lia|] end; reflexivity).
    rewrite R. destruct (Z.leb_spec (64 * ((n + 63) / 64)) n), (Z.eqb_spec (n mod 64) 0); auto; Z.div_mod_to_equations; lia.
Qed.
Print Assumptions C68_next_call_allocates.
Example C68_next_call_case : exists a, array_run 1 empty_array (repeat (Add true [7]) 4) = Ok (repeat E_NONE 4, repeat None 4, a) /\
  ar_count a = 4 /\ at_capacity 4 = true.
Proof. eexists. split; [vm_compute; reflexivity|]. split; reflexivity. Qed.
