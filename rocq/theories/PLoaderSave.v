(** Proofs about the key loader: saving and loading a private key. *)
From Coq Require Import String ZifyBool ZifyNat.
From Verif Require Import Base Str MCipher SCipher PCipher MHash SHash SHashLib PHash PHash2 THash MNames SNames PNames TNames
  MProto SProto PProtoNum PProto PProtoRead MCert SCert PCert TCert MLoader SLoader PLoader.
Local Opaque derived protected_key.

Definition enc_object (name salt data : list Z) (it : Z) : obj :=
  [VInt 1; VBlock (Some name); VBlock (Some salt); VInt it; VBlock (Some data)].
Lemma enc_object_ok : forall name salt data it, bytes name -> zlen name < 2^64 -> accepted name -> bytes salt -> zlen salt < 2^64 ->
  bytes data -> zlen data < 2^64 -> 0 <= it < 2^32 -> object_ok EncryptedPrivateKey (enc_object name salt data it).
Proof. intros. unfold object_ok, enc_object. cbn [schema all2]. cbn [member_ok snd]. split; [lia|]. auto 10. Qed.
Lemma enc_object_len : forall name salt data it, zlen data <= zlen (message 0 EncryptedPrivateKey (enc_object name salt data it)).
Proof.
  intros. unfold message. cbn [encoding]. change (0 =? 0) with true. cbv iota.
  unfold object_fields, enc_object. cbn [schema flat2]. rewrite !flat_map_app, !zlen_app.
  repeat match goal with |- context [flat_map encoding (member_fields (VBlock (Some data)) (15, KBytes))] =>
    change (flat_map encoding (member_fields (VBlock (Some data)) (15, KBytes))) with (field_bytes 15 (Delimited data) ++ []) end.
  rewrite zlen_app. pose proof (field_bytes_delim_len 15 data).
  repeat match goal with |- context [zlen (flat_map encoding ?x)] => let v := fresh in pose proof (zlen_nonneg _ (flat_map encoding x)) as v; set (zlen (flat_map encoding x)) in *; clearbody v || idtac end.
  rewrite ?zlen_nil. lia.
Qed.
Lemma message_bytes : forall m o, object_ok m o -> zlen (message 0 m o) < 2^64 -> bytes (message 0 m o).
Proof.
  intros m o Ho Hl. pose proof (zlen_nonneg _ (message 0 m o)) as N. set (n := zlen (message 0 m o)) in *.
  assert (Zn : zlen (zeros n) = n) by (apply zlen_zeros; lia).
  assert (Hb : pb_ok (PBuf (Some (zeros n)) n n E_NONE)).
  { split; [cbn; lia|]. split; [cbn; lia|]. cbn [pb_data pb_size]. split; [lia|apply bytes_zeros]. }
  pose proof (C54_object_written m 0 o _ Ho ltac:(unfold is_tag; lia) Hb eq_refl) as W. cbn [pb_posn pb_data] in W. fold n in W.
  rewrite Z.leb_refl in W. destruct W as (b' & _ & Ob & _ & _ & Ep & Ed). destruct (pb_data b') as [mem'|] eqn:Em; [|contradiction].
  destruct Ob as (_ & _ & Ob). rewrite Em in Ob. destruct Ob as [_ Ob]. rewrite Ep, Z.sub_diag, splice_0 in Ed. subst mem'.
  apply bytes_app in Ob. tauto.
Qed.

Section Save.
Variable cipher_of : Z -> option cipher_alg.
Variable hash_of : Z -> option (hash_alg * hctx).
Variables (name : list Z) (ca : cipher_alg) (H : list Z -> list Z) (B lim : Z).
Variables (pw : list Z) (salts : nat -> list Z) (o : obj) (b : pbuf) (mem rest : list Z).
Hypothesis Hpr : protection cipher_of hash_of name ca H B lim.
Hypothesis Hpw : bytes pw.
Hypothesis Hpl : zlen pw < lim.
Hypothesis Hsalts : salts_ok salts.
Hypothesis Ho : object_ok PrivateKey o.
Hypothesis Hb : pb_ok b.
Hypothesis Hmem : pb_data b = Some mem.
Hypothesis Herr : pb_error b = E_NONE.
Notation plain := (message 0 PrivateKey o).
Notation mac := (ca_mac_len ca).
Notation save fuel := (save_private_key_to_buffer cipher_of hash_of fuel salts (Some o) (Some b) (Some pw) (zlen pw) (Some (name ++ 0 :: rest))).

Lemma mac_nonneg : 0 <= mac.
Proof. destruct Hpr as (? & ? & ? & ? & ? & _ & _ & C & _). pose proof (shape_mac _ (correct_shape _ C)). lia. Qed.
Lemma buffer_facts : 0 <= pb_posn b <= pb_size b /\ pb_size b < 2^64 /\ pb_size b <= zlen mem /\ bytes mem.
Proof. destruct Hb as (H1 & H2 & H3). rewrite Hmem in H3. tauto. Qed.
Lemma lower_ok : mac <= pb_posn b -> pb_ok (with_posn (pb_posn b - mac) b).
Proof. intros. pose proof mac_nonneg. pose proof buffer_facts. split; [cbn; lia|]. split; [cbn; lia|]. cbn [with_posn pb_data pb_size]. rewrite Hmem. tauto. Qed.

(** No room for the MAC *)
Lemma save_no_mac : pb_posn b < mac -> forall fuel, save fuel = Ok (Some (E_INVALID_LENGTH, Some b)).
Proof.
  intros Hp fuel. destruct Hpr as (cid & hid & ha & hc & L & Hn & Hc & Cc & Kc & Hh & Lh & Ch).
  unfold save_private_key_to_buffer. rewrite (parse_ok _ _ _ rest Hn). cbn [obind is_none err_eqb negb]. rewrite Hc.
  unfold cipherstate_get_key_length, cipherstate_get_mac_length. cbn [cipherstate_new cs_alg]. rewrite Kc. cbn [Z.eqb Pos.eqb negb]. rewrite Hh.
  replace (pb_posn b <? mac) with true by lia. cbn [obind is_none err_eqb negb]. unfold clean_between. cbn [pb_posn pb_data].
  rewrite Z.ltb_irrefl, Hmem, Z.sub_diag. change (zeros 0) with (@nil Z). pose proof buffer_facts.
  rewrite store_ok by (rewrite ?zlen_nil; lia). rewrite splice_nil by lia. cbn [obind pb_size pb_posn pb_error]. rewrite <- Hmem.
  destruct b; reflexivity.
Qed.
(** No room for the plaintext: what was written of it is wiped *)
Lemma save_no_room : mac <= pb_posn b -> pb_posn b < zlen plain + mac -> exists e p, e <> E_NONE /\ 0 <= p <= pb_posn b /\ forall fuel,
  save fuel = Ok (Some (e, Some (PBuf (Some (splice p (zeros (pb_posn b - p)) mem)) (pb_size b) (pb_posn b) E_NONE))).
Proof.
  intros Hp Hr. destruct Hpr as (cid & hid & ha & hc & L & Hn & Hc & Cc & Kc & Hh & Lh & Ch).
  pose proof (lower_ok Hp) as Lo. pose proof mac_nonneg. pose proof buffer_facts as (F1 & F2 & F3 & F4).
  destruct (write_object_ok 5 PrivateKey 0 o (with_posn (pb_posn b - mac) b)) as (e & b' & E & W1 & W2 & (W3 & W4 & W5) & W6); [cbn; lia|unfold is_tag; lia|exact Ho|exact Lo|].
  cbn [with_posn pb_error pb_posn pb_size pb_data] in *. rewrite Herr in W6. cbn [is_none err_eqb] in W6.
  destruct W6 as [(X & _)|(_ & Ee & _)]; [lia|]. destruct W3 as [_ W3]. cbn [with_posn pb_data] in W3. rewrite Hmem in W3, W5. destruct (pb_data b') as [mem'|] eqn:Em; [|contradiction].
  destruct W5 as [W5 W7]. exists e, (pb_posn b'). split; [exact Ee|]. split; [lia|]. intros fuel.
  unfold save_private_key_to_buffer. rewrite (parse_ok _ _ _ rest Hn). cbn [obind is_none err_eqb negb]. rewrite Hc.
  unfold cipherstate_get_key_length, cipherstate_get_mac_length. cbn [cipherstate_new cs_alg]. rewrite Kc. cbn [Z.eqb Pos.eqb negb]. rewrite Hh.
  replace (pb_posn b <? mac) with false by lia. unfold cert_write. rewrite E. cbn [obind]. replace (is_none e) with false by (symmetry; now apply is_none_false).
  cbn [negb]. unfold clean_between. cbn [pb_posn pb_data pb_size pb_error]. rewrite Em. replace (pb_posn b <? pb_posn b') with false by lia.
  rewrite store_ok by (rewrite ?zlen_zeros; lia). cbn [obind]. rewrite Herr. do 6 f_equal. unfold splice. rewrite W5. f_equal. f_equal.
  rewrite zlen_zeros by lia. replace (pb_posn b' + (pb_posn b - pb_posn b')) with (mac + (pb_posn b - mac)) by lia. rewrite <- !drop_drop by lia. now rewrite W7.
Qed.

(** There is room for the plaintext and the MAC *)
Notation from := (pb_posn b - mac - zlen plain).
Notation mem1 := (splice from plain mem).
Definition after (r0 : outcome (option (list Z * list Z))) : outcome (option (err * option pbuf)) :=
  let! r := r0 in
  match r with
  | None => Ok None
  | Some (salt, m) =>
    let! data := load m from (zlen plain + mac) in
    let! b := clean_between (PBuf (Some m) (pb_size b) (pb_posn b) E_NONE) from (pb_posn b) in
    let! r := cert_write EncryptedPrivateKey (Some b) 0 (Some (enc_object name salt data KEY_ITERATIONS)) in
    Ok (Some r)
  end.
Lemma save_middle : zlen plain + mac <= pb_posn b -> exists ha hc L, library_hash ha H B L lim /\ hctx_ok ha hc /\ forall fuel,
  save fuel = after (encrypt_loop fuel salts 0 ha hc (cipherstate_new ca) (Some pw) (zlen pw) mem1 from (zlen plain) (zlen plain + mac)).
Proof.
  intros Hr. pose proof mac_nonneg. pose proof (zlen_nonneg _ plain). assert (Hp : mac <= pb_posn b) by lia. pose proof (lower_ok Hp) as Lo.
  pose proof buffer_facts as (F1 & F2 & F3 & F4).
  destruct Hpr as (cid & hid & ha & hc & L & Hn & Hc & Cc & Kc & Hh & Lh & Ch). exists ha, hc, L. split; [exact Lh|]. split; [exact Ch|].
  pose proof (C54_object_written PrivateKey 0 o _ Ho ltac:(unfold is_tag; lia) Lo Herr) as W. cbn [with_posn pb_error pb_posn pb_size pb_data] in W.
  replace (zlen plain <=? pb_posn b - mac) with true in W by lia. destruct W as (b' & E & W1 & W2 & W3 & W4 & W5). rewrite Hmem in W5.
  destruct (pb_data b') as [mem'|] eqn:Em; [|contradiction]. rewrite W4 in W5. intros fuel.
  unfold save_private_key_to_buffer. rewrite (parse_ok _ _ _ rest Hn). cbn [obind is_none err_eqb negb]. rewrite Hc.
  unfold cipherstate_get_key_length, cipherstate_get_mac_length. cbn [cipherstate_new cs_alg]. rewrite Kc. cbn [Z.eqb Pos.eqb negb]. rewrite Hh.
  replace (pb_posn b <? mac) with false by lia. rewrite E. cbn [obind is_none err_eqb negb].
  rewrite string_at_ok by (apply (name_facts _ _ _ Hn)). cbn [obind pb_data pb_posn pb_size pb_error]. rewrite Em, W4, W5, Herr.
  replace (pb_posn b - (pb_posn b - mac - zlen plain)) with (zlen plain + mac) by lia. replace (zlen plain + mac - mac) with (zlen plain) by lia. reflexivity.
Qed.
Lemma middle_sub : zlen plain + mac <= pb_posn b -> exists spare, sub from (zlen plain + mac) mem1 = plain ++ spare /\ bytes spare.
Proof.
  intros Hr. pose proof mac_nonneg. pose proof (zlen_nonneg _ plain). pose proof buffer_facts as (F1 & F2 & F3 & F4).
  exists (sub (pb_posn b - mac) mac mem). split; [|unfold sub; apply bytes_take, bytes_drop; exact F4].
  unfold sub, splice. rewrite drop_app_ge by (rewrite zlen_take; lia). rewrite (drop_le0 _ (_ - _)) by (rewrite zlen_take; lia).
  rewrite take_app_ge by lia. f_equal. replace (zlen plain + mac - zlen plain) with mac by lia. do 2 f_equal. lia.
Qed.
Lemma plain_bytes : zlen plain + mac <= pb_posn b -> bytes plain.
Proof. intros Hr. pose proof mac_nonneg. pose proof buffer_facts as (F1 & F2 & F3 & F4). apply message_bytes; [exact Ho|lia]. Qed.

Lemma save_long : zlen plain + mac <= pb_posn b -> MAX_PAYLOAD_LEN < zlen plain + mac -> forall fuel, save fuel = Ok None.
Proof.
  intros Hr Hl fuel. pose proof (zlen_nonneg _ plain). pose proof mac_nonneg. pose proof buffer_facts as (F1 & F2 & F3 & F4).
  destruct (save_middle Hr) as (ha & hc & L & Lh & Ch & ->). destruct (middle_sub Hr) as (spare & Es & _).
  destruct Hpr as (_ & _ & _ & _ & _ & _ & _ & Cc & Kc & _).
  rewrite (loop_long ca ha H B L lim pw salts mem1 from plain spare Cc Kc Lh Hpw Hpl Hsalts) with (D := fun j => derived H B pw (salts j) 20000);
    [reflexivity|lia|rewrite splice_length; lia|exact Es|reflexivity|exact Hl|exact Ch|reflexivity].
Qed.
Notation ct i := (protected_key ca H B pw (salts i) 20000 o).
Lemma save_short : zlen plain + mac <= pb_posn b -> zlen plain + mac <= MAX_PAYLOAD_LEN -> forall i fuel, salt_used H B pw salts i -> (i < fuel)%nat ->
  zlen (ct i) = zlen plain + mac /\ bytes (ct i) /\
  save fuel = let! r := cert_write EncryptedPrivateKey (Some (PBuf (Some (splice from (zeros (zlen plain + mac)) mem)) (pb_size b) (pb_posn b) E_NONE)) 0
                          (Some (enc_object name (salts i) (ct i) KEY_ITERATIONS)) in Ok (Some r).
Proof.
  intros Hr Hl i fuel [Hu Hj] Hi. pose proof (zlen_nonneg _ plain). pose proof mac_nonneg. pose proof buffer_facts as (F1 & F2 & F3 & F4).
  destruct (save_middle Hr) as (ha & hc & L & Lh & Ch & ->). destruct (middle_sub Hr) as (spare & Es & _).
  destruct Hpr as (_ & _ & _ & _ & _ & _ & _ & Cc & Kc & _).
  assert (Ec : ct i = snd (ca_encrypt ca (fst (derived H B pw (salts i) 20000)) (snd (derived H B pw (salts i) 20000)) [] plain)).
  { Local Transparent protected_key. unfold protected_key. destruct (derived H B pw (salts i) 20000). reflexivity. }
  Local Opaque protected_key.
  rewrite (loop_ok ca ha H B L lim pw salts mem1 from plain spare Cc Kc Lh Hpw Hpl Hsalts) with (D := fun j => derived H B pw (salts j) 20000) (d := i);
    [|clear Hu Hj; lia|clear Hu Hj; rewrite splice_length; lia|exact Es|now apply plain_bytes|reflexivity|exact Hl|exact Ch|reflexivity
     |intros j Hj'; apply Hj; clear - Hj'; lia|exact Hu|exact Hi].
  change (0 + i)%nat with i. cbv beta. rewrite <- Ec. 
  assert (Zc : zlen (ct i) = zlen plain + mac) by (rewrite Ec; apply (shape_enc _ (correct_shape _ Cc))).
  assert (Bc : bytes (ct i)).
  { rewrite Ec. destruct (Hsalts i) as [Bs Zs]. destruct (derived_ok ha H B L lim pw (salts i) 20000 Lh Hpw Bs Hpl) as (D1 & D2 & D3).
    - destruct (library_law _ _ _ _ _ Lh) as (_ & _ & Hlim & _). clear Hu Hj. destruct Lh; lia.
    - clear; lia.
    - apply (shape_enc_bytes _ (correct_shape _ Cc)); [exact D1|apply Forall_nil|now apply plain_bytes]. }
  split; [exact Zc|]. split; [exact Bc|]. clear Hu Hj Ec. generalize dependent (ct i). intros c Zc Bc. unfold after. cbn [obind].
  rewrite splice_cover by (rewrite ?Zc; lia). rewrite load_ok; [|lia|lia|rewrite splice_length; lia]. cbn [obind].
  replace (sub from (zlen plain + mac) (splice from c mem)) with c by (rewrite <- Zc; symmetry; apply splice_sub_same; lia).
  unfold clean_between. cbn [pb_data pb_size pb_posn pb_error]. replace (pb_posn b <? from) with false by lia.
  replace (pb_posn b - from) with (zlen plain + mac) by lia.
  assert (Zz : zlen (zeros (zlen plain + mac)) = zlen plain + mac) by (apply zlen_zeros; lia).
  rewrite store_ok; [|lia|rewrite splice_length; lia]. cbn [obind]. rewrite splice_cover by lia. reflexivity.
Qed.
Lemma salt_facts : forall i, accepted name /\ bytes name /\ zlen name < 30 /\ bytes (salts i) /\ zlen (salts i) = 16.
Proof.
  intros i. destruct Hpr as (cid & hid & _ & _ & _ & Hn & _). destruct (name_facts _ _ _ Hn) as (N1 & N2 & N3 & _). destruct (Hsalts i). auto.
Qed.
Notation file i := (saved_key ca H B name pw (salts i) o).
Lemma file_message : forall i, file i = message 0 EncryptedPrivateKey (enc_object name (salts i) (ct i) KEY_ITERATIONS).
Proof. reflexivity. Qed.
Lemma file_object : forall i, zlen (ct i) < 2^64 -> bytes (ct i) -> object_ok EncryptedPrivateKey (enc_object name (salts i) (ct i) KEY_ITERATIONS).
Proof. intros i Hz Hc. destruct (salt_facts i) as (? & ? & ? & ? & ?). unfold KEY_ITERATIONS. apply enc_object_ok; auto; generalize dependent (ct i); intros; lia. Qed.
Lemma save_final : zlen plain + mac <= pb_posn b -> zlen plain + mac <= MAX_PAYLOAD_LEN -> forall i fuel, salt_used H B pw salts i -> (i < fuel)%nat ->
  if zlen (file i) <=? pb_posn b then
    save fuel = Ok (Some (E_NONE, Some (PBuf (Some (splice (pb_posn b - zlen (file i)) (file i) mem)) (pb_size b) (pb_posn b - zlen (file i)) E_NONE)))
  else exists e b', save fuel = Ok (Some (e, Some b')) /\ e <> E_NONE.
Proof.
  intros Hr Hl i fuel Hu Hi. destruct (save_short Hr Hl i fuel Hu Hi) as (Zc & Bc & ->). clear Hu.
  pose proof (zlen_nonneg _ plain). pose proof mac_nonneg. pose proof buffer_facts as (F1 & F2 & F3 & F4).
  assert (Oe : object_ok EncryptedPrivateKey (enc_object name (salts i) (ct i) KEY_ITERATIONS)) by (apply file_object; [|exact Bc]; generalize dependent (ct i); intros; lia).
  pose proof (enc_object_len name (salts i) (ct i) KEY_ITERATIONS) as Le.
  rewrite file_message. generalize dependent (enc_object name (salts i) (ct i) KEY_ITERATIONS). intros eo Oe Le. rewrite Zc in Le.
  assert (Zz : zlen (zeros (zlen plain + mac)) = zlen plain + mac) by (apply zlen_zeros; lia).
  assert (Hb2 : pb_ok (PBuf (Some (splice from (zeros (zlen plain + mac)) mem)) (pb_size b) (pb_posn b) E_NONE)).
  { split; [cbn; lia|]. split; [cbn; lia|]. cbn [pb_data pb_size]. rewrite splice_length by lia. split; [lia|]. apply bytes_splice; [apply bytes_zeros|exact F4]. }
  pose proof (C54_object_written EncryptedPrivateKey 0 eo _ Oe ltac:(unfold is_tag; lia) Hb2 eq_refl) as W. cbn [pb_posn pb_data pb_size] in W.
  destruct (Z.leb_spec (zlen (message 0 EncryptedPrivateKey eo)) (pb_posn b)).
  - destruct W as (b' & -> & _ & W1 & W2 & W3 & W4). cbn [obind]. destruct b' as [[m'|] s' p' e']; cbn [pb_error pb_size pb_posn pb_data] in *; [|contradiction].
    subst. rewrite splice_cover by lia. reflexivity.
  - destruct W as (e & b' & -> & W1 & _). cbn [obind]. eauto.
Qed.
End Save.
