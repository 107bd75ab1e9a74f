(** C66: the echo protocol's identifiers. *)
From Coq Require Import String.
From Verif Require Import Base Str MSymm MNames SNames SUtil MEcho SEcho PNames TNames.

(** ** Field by field *)
Lemma switch_in : forall cases v c, switch cases v = Some c -> In (v, c) cases.
Proof.
  induction cases as [|[l c'] r IH]; intros v c H; cbn in H; [discriminate|].
  destruct (Z.eqb_spec v l) as [->|]; [injection H as <-; now left|right; auto].
Qed.
Lemma byte_cases : forall (P : Z -> bool) b, forallb P (map Z.of_nat (seq 0 256)) = true -> is_byte b -> P b = true.
Proof.
  intros P b H Hb. rewrite forallb_forall in H. apply H. apply in_map_iff. exists (Z.to_nat b). unfold is_byte in Hb.
  split; [lia|]. apply in_seq. lia.
Qed.
Definition text_in (v : Z) (s : list Z) (l : list (Z * string)) : bool :=
  existsb (fun e => (fst e =? v) && if list_eq_dec Z.eq_dec (str (snd e)) s then true else false) l.
Lemma text_in_ok : forall v s l, text_in v s l = true <-> exists t, In (v, t) l /\ s = str t.
Proof.
  intros v s l. unfold text_in. rewrite existsb_exists. split.
  - intros ([v' t] & Hin & H). cbn [fst snd] in H. destruct (Z.eqb_spec v' v) as [->|]; [|discriminate].
    destruct (list_eq_dec Z.eq_dec (str t) s) as [<-|]; [|discriminate]. exists t. now split.
  - intros (t & Hin & ->). exists (v, t). cbn [fst snd]. split; [assumption|]. rewrite Z.eqb_refl.
    now destruct (list_eq_dec Z.eq_dec (str t) (str t)).
Qed.
Definition no_entry (v : Z) (l : list (Z * string)) : bool := forallb (fun e => negb (fst e =? v)) l.
Lemma no_entry_ok : forall v l, no_entry v l = true -> forall t, ~ In (v, t) l.
Proof.
  intros v l H t Hin. unfold no_entry in H. rewrite forallb_forall in H. specialize (H _ Hin). cbn in H. now rewrite Z.eqb_refl in H.
Qed.

(** Every byte is in the table of the specification exactly when the switch
    knows it, and the names agree. *)
Definition field_agrees (cases : list (Z * Z)) (cat : Z) (table : list (Z * string)) (b : Z) : bool :=
  match switch cases b with
  | Some id => match noise_id_to_name cat id with Some s => text_in b s table | None => false end
  | None => no_entry b table
  end.
Lemma field_to : forall cases cat table b,
  forallb (field_agrees cases cat table) (map Z.of_nat (seq 0 256)) = true -> is_byte b ->
  (exists id s t, switch cases b = Some id /\ registered cat id s /\ In (b, t) table /\ s = str t) \/
  (switch cases b = None /\ forall t, ~ In (b, t) table).
Proof.
  intros cases cat table b H Hb. pose proof (byte_cases _ b H Hb) as E. unfold field_agrees in E.
  destruct (switch cases b) as [id|]; [left|right].
  - destruct (noise_id_to_name cat id) as [s|] eqn:En; [|discriminate]. apply id_to_name_iff in En.
    apply text_in_ok in E as (t & Hin & ->). exists id, (str t), t. auto.
  - split; [reflexivity|]. now apply no_entry_ok.
Qed.
(** The tables give one name for a byte. *)
Definition unique (table : list (Z * string)) : bool :=
  forallb (fun e => forallb (fun e' => implb (fst e =? fst e') (if list_eq_dec Z.eq_dec (str (snd e)) (str (snd e')) then true else false)) table) table.
Lemma unique_ok : forall table v t t', unique table = true -> In (v, t) table -> In (v, t') table -> str t = str t'.
Proof.
  intros table v t t' H H1 H2. unfold unique in H. rewrite forallb_forall in H. specialize (H _ H1). cbv beta in H.
  rewrite forallb_forall in H. specialize (H _ H2). cbn [fst snd] in H. rewrite Z.eqb_refl in H. unfold implb in H.
  destruct (list_eq_dec Z.eq_dec (str t) (str t')) as [E|]; [exact E|discriminate].
Qed.

(** The dh byte holds two fields. *)
Definition dh_agrees (b : Z) : bool :=
  match switch to_dh (Z.land b ECHO_DH_MASK), switch to_hybrid (Z.land b ECHO_HYBRID_MASK) with
  | Some id, Some hid =>
    match noise_id_to_name DH_CATEGORY id with
    | None => false
    | Some s => if hid =? 0 then text_in b s echo_dhs
                else match noise_id_to_name DH_CATEGORY hid with
                     | Some h => text_in b (s ++ str "+" ++ h) echo_dhs
                     | None => false
                     end
    end
  | _, _ => no_entry b echo_dhs
  end.
Lemma dh_to : forall b, is_byte b ->
  (exists id hid s t, switch to_dh (Z.land b ECHO_DH_MASK) = Some id /\ switch to_hybrid (Z.land b ECHO_HYBRID_MASK) = Some hid /\
     registered DH_CATEGORY id s /\ In (b, t) echo_dhs /\
     ((hid = 0 /\ str t = s) \/ exists h, registered DH_CATEGORY hid h /\ str t = s ++ str "+" ++ h)) \/
  ((switch to_dh (Z.land b ECHO_DH_MASK) = None \/ switch to_hybrid (Z.land b ECHO_HYBRID_MASK) = None) /\
   forall t, ~ In (b, t) echo_dhs).
Proof.
  intros b Hb. assert (H : forallb dh_agrees (map Z.of_nat (seq 0 256)) = true) by (vm_compute; reflexivity).
  pose proof (byte_cases _ b H Hb) as E. unfold dh_agrees in E. clear H.
  destruct (switch to_dh _) as [id|]; [|right; split; [now left|now apply no_entry_ok]].
  destruct (switch to_hybrid _) as [hid|]; [|right; split; [now right|now apply no_entry_ok]].
  left. destruct (noise_id_to_name DH_CATEGORY id) as [s|] eqn:En; [|discriminate]. apply id_to_name_iff in En.
  destruct (Z.eqb_spec hid 0) as [->|Hh].
  - apply text_in_ok in E as (t & Hin & ->). exists id, 0, (str t), t. repeat (split; [easy|]). now left.
  - destruct (noise_id_to_name DH_CATEGORY hid) as [h|] eqn:Eh; [|discriminate]. apply id_to_name_iff in Eh.
    apply text_in_ok in E as (t & Hin & E). exists id, hid, s, t. repeat (split; [easy|]). right. exists h. now split.
Qed.

Ltac table := vm_compute; reflexivity.
Lemma psk_to : forall b, is_byte b ->
  (exists id s t, switch to_psk b = Some id /\ registered PREFIX_CATEGORY id s /\ In (b, t) echo_prefixes /\ s = str t) \/
  (switch to_psk b = None /\ forall t, ~ In (b, t) echo_prefixes).
Proof. intros. apply field_to; [table|assumption]. Qed.
Lemma pattern_to : forall b, is_byte b ->
  (exists id s t, switch to_pattern b = Some id /\ registered PATTERN_CATEGORY id s /\ In (b, t) echo_patterns /\ s = str t) \/
  (switch to_pattern b = None /\ forall t, ~ In (b, t) echo_patterns).
Proof. intros. apply field_to; [table|assumption]. Qed.
Lemma cipher_to : forall b, is_byte b ->
  (exists id s t, switch to_cipher b = Some id /\ registered CIPHER_CATEGORY id s /\ In (b, t) echo_ciphers /\ s = str t) \/
  (switch to_cipher b = None /\ forall t, ~ In (b, t) echo_ciphers).
Proof. intros. apply field_to; [table|assumption]. Qed.
Lemma hash_to : forall b, is_byte b ->
  (exists id s t, switch to_hash b = Some id /\ registered HASH_CATEGORY id s /\ In (b, t) echo_hashes /\ s = str t) \/
  (switch to_hash b = None /\ forall t, ~ In (b, t) echo_hashes).
Proof. intros. apply field_to; [table|assumption]. Qed.

(** For all 2^40 identifiers: the library's identifier is accepted exactly when
    the echo protocol defines it, and then it is the protocol of that name. *)
Theorem C66_to_noise_exact : forall id, echo_id_ok id ->
  exists ok nid, echo_to_noise_protocol_id id = (ok, nid) /\
    (ok = true <-> exists text, echo_name id text) /\
    (forall text, ok = true -> (protocol_text nid text <-> echo_name id text)).
Proof.
  intros id (B1 & B2 & B3 & B4 & B5). unfold echo_to_noise_protocol_id. eexists _, _. split; [reflexivity|].
  destruct (psk_to _ B1) as [(i1 & s1 & t1 & E1 & R1 & I1 & Es1)|[E1 N1]]; rewrite E1; cbn [is_some andb assigned];
    [|split; [split; [discriminate|intros (x & ? & ? & ? & ? & ? & H & _); now apply N1 in H]|discriminate]].
  destruct (pattern_to _ B2) as [(i2 & s2 & t2 & E2 & R2 & I2 & Es2)|[E2 N2]]; rewrite E2; cbn [is_some andb assigned];
    [|split; [split; [discriminate|intros (x & ? & ? & ? & ? & ? & _ & H & _); now apply N2 in H]|discriminate]].
  destruct (cipher_to _ B3) as [(i3 & s3 & t3 & E3 & R3 & I3 & Es3)|[E3 N3]]; rewrite E3; cbn [is_some andb assigned];
    [|split; [split; [discriminate|intros (x & ? & ? & ? & ? & ? & _ & _ & _ & H & _); now apply N3 in H]|discriminate]].
  destruct (dh_to _ B4) as [(i4 & h4 & s4 & t4 & E4 & F4 & R4 & I4 & H4)|[E4 N4]];
    [|split; [split; [destruct E4 as [-> | ->]; cbn [is_some andb]; [discriminate|rewrite andb_false_r; discriminate]|
              intros (x & ? & ? & ? & ? & ? & _ & _ & H & _); now apply N4 in H]|
              destruct E4 as [-> | ->]; cbn [is_some andb]; [discriminate|rewrite andb_false_r; discriminate]]].
  rewrite E4, F4. cbn [is_some andb assigned].
  destruct (hash_to _ B5) as [(i5 & s5 & t5 & E5 & R5 & I5 & Es5)|[E5 N5]]; rewrite E5; cbn [is_some andb assigned];
    [|split; [split; [discriminate|intros (x & ? & ? & ? & ? & ? & _ & _ & _ & _ & H & _); now apply N5 in H]|discriminate]].
  set (text := str t1 ++ str "_" ++ str t2 ++ str "_" ++ str t4 ++ str "_" ++ str t3 ++ str "_" ++ str t5).
  assert (HE : echo_name id text) by (exists t1, t2, t4, t3, t5; repeat (split; [assumption|]); reflexivity).
  assert (HT : protocol_text (ProtocolId i1 i2 i4 i3 i5 h4) text).
  { exists s1, s2, s4, s3, s5. repeat (split; [assumption|]). cbn [pi_hybrid]. unfold text. subst s1 s2 s3 s5.
    destruct H4 as [[-> ->]|(h & Rh & ->)]; [left; now split|right]. exists h. split; [assumption|]. now rewrite <- !app_assoc. }
  split; [split; [intros _; now exists text|reflexivity]|]. intros text' _. split; intros H.
  - now rewrite (text_fun _ _ _ H HT).
  - replace text' with text; [exact HT|]. destruct H as (u1 & u2 & u4 & u3 & u5 & J1 & J2 & J4 & J3 & J5 & ->). unfold text.
    rewrite (unique_ok echo_prefixes _ _ _ ltac:(table) I1 J1), (unique_ok echo_patterns _ _ _ ltac:(table) I2 J2),
      (unique_ok echo_ciphers _ _ _ ltac:(table) I3 J3), (unique_ok echo_dhs _ _ _ ltac:(table) I4 J4),
      (unique_ok echo_hashes _ _ _ ltac:(table) I5 J5). reflexivity.
Qed.

(** ** And back *)
Definition inverse (from to : list (Z * Z)) : bool :=
  forallb (fun e => match switch from (snd e) with Some v => v =? fst e | None => false end) to.
Lemma inverse_ok : forall from to b id, inverse from to = true -> switch to b = Some id -> switch from id = Some b.
Proof.
  intros from to b id H E. apply switch_in in E. unfold inverse in H. rewrite forallb_forall in H. specialize (H _ E).
  cbn [fst snd] in H. destruct (switch from id) as [v|]; [|discriminate]. apply Z.eqb_eq in H. now subst.
Qed.

Lemma get_of_text : forall nid text rest, protocol_text nid text -> c_string text ->
  echo_get_protocol_id (text ++ 0 :: rest) =
  let psk := switch get_psk (pi_prefix nid) in
  let pattern := switch get_pattern (pi_pattern nid) in
  let cipher := switch get_cipher (pi_cipher nid) in
  let dh := switch get_dh (pi_dh nid) in
  let hybrid := switch get_hybrid (pi_hybrid nid) in
  let hash := switch get_hash (pi_hash nid) in
  Ok (is_some psk && is_some pattern && is_some cipher && is_some dh && is_some hybrid && is_some hash,
      EchoId (assigned psk) (assigned pattern) (assigned cipher) (Z.lor (assigned dh) (assigned hybrid)) (assigned hash)).
Proof.
  intros nid text rest Ht Hc. unfold echo_get_protocol_id. rewrite strlen_ok by assumption.
  assert (E : noise_protocol_name_to_id (Some (text ++ 0 :: rest)) (zlen text) = Ok (E_NONE, Some nid)).
  { pose proof (name_to_id_eq text) as E. rewrite (parse_all_complete _ _ Ht) in E. rewrite <- E.
    unfold noise_protocol_name_to_id, read_ptr. rewrite zlen_app. pose proof (zlen_nonneg _ (0 :: rest)).
    destruct (Z.leb_spec (zlen text) (zlen text + zlen (0 :: rest))); [|lia].
    rewrite Z.leb_refl, take_app_exact, (take_all _ (zlen text) text) by lia. reflexivity. }
  rewrite E. reflexivity.
Qed.
Lemma dh_back : forall b i h, is_byte b ->
  switch to_dh (Z.land b ECHO_DH_MASK) = Some i -> switch to_hybrid (Z.land b ECHO_HYBRID_MASK) = Some h ->
  exists d d', switch get_dh i = Some d /\ switch get_hybrid h = Some d' /\ Z.lor d d' = b.
Proof.
  intros b i h Hb Ei Eh. apply (inverse_ok get_dh) in Ei; [|table]. apply (inverse_ok get_hybrid) in Eh; [|table].
  eexists _, _. split; [exact Ei|]. split; [exact Eh|].
  assert (H : forallb (fun b => Z.lor (Z.land b ECHO_DH_MASK) (Z.land b ECHO_HYBRID_MASK) =? b) (map Z.of_nat (seq 0 256)) = true) by table.
  apply Z.eqb_eq, (byte_cases _ b H Hb).
Qed.
Lemma echo_text_string : forall nid text, protocol_text nid text -> c_string text.
Proof.
  intros nid text (a1 & a2 & a3 & a4 & a5 & R1 & R2 & R3 & R4 & R5 & H'). apply reg_facts in R1, R2, R3, R4, R5.
  assert (Hu : c_string (str "_") /\ c_string (str "+")) by (split; (apply Forall_cons; [cbn; lia|apply Forall_nil])). unfold c_string in *.
  destruct H' as [(_ & ->)|(h & Rh & ->)]; [|apply reg_facts in Rh]; rewrite !Forall_app; unfold c_string in *; tauto.
Qed.

(** A name maps to an echo identifier exactly when it is the name of one: for
    every NUL-terminated string. *)
Theorem C66_get_exact : forall name rest, c_string name ->
  exists ok id, echo_get_protocol_id (name ++ 0 :: rest) = Ok (ok, id) /\ echo_id_ok id /\
    (ok = true -> echo_name id name) /\
    (forall id', echo_id_ok id' -> echo_name id' name -> ok = true /\ id = id').
Proof.
  intros name rest Hc.
  assert (Back : forall id', echo_id_ok id' -> echo_name id' name ->
    echo_get_protocol_id (name ++ 0 :: rest) = Ok (true, id')).
  { intros id' Hid Hn. destruct (C66_to_noise_exact id' Hid) as (ok & nid & E & [_ H1] & H2).
    assert (ok = true) by (apply H1; now exists name). subst ok. apply (H2 name eq_refl) in Hn.
    rewrite (get_of_text nid) by assumption. unfold echo_to_noise_protocol_id in E.
    destruct Hid as (B1 & B2 & B3 & B4 & B5).
    destruct (switch to_psk (ei_psk id')) as [i1|] eqn:E1; [|discriminate].
    destruct (switch to_pattern (ei_pattern id')) as [i2|] eqn:E2; [|discriminate].
    destruct (switch to_cipher (ei_cipher id')) as [i3|] eqn:E3; [|discriminate].
    destruct (switch to_dh _) as [i4|] eqn:E4; [|discriminate].
    destruct (switch to_hybrid _) as [h4|] eqn:F4; [|discriminate].
    destruct (switch to_hash (ei_hash id')) as [i5|] eqn:E5; [|discriminate].
    cbn [assigned is_some andb] in E. injection E as <-. cbn [pi_prefix pi_pattern pi_dh pi_cipher pi_hash pi_hybrid].
    apply (inverse_ok get_psk) in E1; [|table]. apply (inverse_ok get_pattern) in E2; [|table].
    apply (inverse_ok get_cipher) in E3; [|table]. apply (inverse_ok get_hash) in E5; [|table].
    destruct (dh_back _ _ _ B4 E4 F4) as (d & d' & D1 & D2 & D3). rewrite E1, E2, E3, E5, D1, D2.
    cbn [assigned is_some andb]. rewrite D3. now destruct id'. }
  destruct (parse_all name) as [nid|] eqn:EP.
  - pose proof (parse_all_sound _ _ EP) as Ht. pose proof (get_of_text nid name rest Ht Hc) as E. cbv zeta in E.
    remember (is_some _ && _ && _ && _ && _ && _) as ok eqn:Eok. set (id := EchoId _ _ _ _ _) in E.
    assert (Hid : echo_id_ok id).
    { unfold id, echo_id_ok. cbn [ei_psk ei_pattern ei_cipher ei_dh ei_hash].
      assert (A : forall cases v, forallb (fun e => (0 <=? snd e) && (snd e <? 256)) cases = true -> is_byte (assigned (switch cases v))).
      { intros cases v H. destruct (switch cases v) as [c|] eqn:Ec; [|cbn; unfold is_byte; lia]. apply switch_in in Ec.
        rewrite forallb_forall in H. specialize (H _ Ec). cbn [snd] in H. cbn [assigned]. unfold is_byte. lia. }
      split; [apply A; table|]. split; [apply A; table|]. split; [apply A; table|]. split; [|apply A; table].
      assert (H : forallb (fun e => forallb (fun f => (0 <=? Z.lor (snd e) (snd f)) && (Z.lor (snd e) (snd f) <? 256)) ((0, 0) :: get_hybrid)) ((0, 0) :: get_dh) = true) by table.
      rewrite forallb_forall in H.
      assert (B : forall cases v, exists k, In (k, assigned (switch cases v)) ((0, 0) :: cases)).
      { intros cases v. destruct (switch cases v) as [c|] eqn:Ec; [exists v; right; now apply switch_in|exists 0; now left]. }
      destruct (B get_dh (pi_dh nid)) as [k Hk], (B get_hybrid (pi_hybrid nid)) as [k' Hk'].
      specialize (H _ Hk). rewrite forallb_forall in H. specialize (H _ Hk'). cbn [snd] in H. unfold is_byte. lia. }
    exists ok, id. split; [exact E|]. split; [exact Hid|]. split.
    + intros ->. destruct (C66_to_noise_exact id Hid) as (ok' & nid' & E' & _ & H2).
      assert (A : ok' = true /\ nid' = nid).
      { unfold echo_to_noise_protocol_id, id in E'. cbn [ei_psk ei_pattern ei_cipher ei_dh ei_hash] in E'. unfold id in *. clear E.
        destruct nid as [p1 p2 p3 p4 p5 p6]. cbn [pi_prefix pi_pattern pi_dh pi_cipher pi_hash pi_hybrid] in *.
        destruct (switch get_psk p1) as [c1|] eqn:E1; [|discriminate]. destruct (switch get_pattern p2) as [c2|] eqn:E2; [|discriminate].
        destruct (switch get_cipher p4) as [c3|] eqn:E3; [|discriminate]. destruct (switch get_dh p3) as [c4|] eqn:E4; [|discriminate].
        destruct (switch get_hybrid p6) as [c6|] eqn:E6; [|discriminate]. destruct (switch get_hash p5) as [c5|] eqn:E5; [|discriminate].
        cbn [assigned] in E'.
        assert (D : forallb (fun e => forallb (fun f => (Z.land (Z.lor (snd e) (snd f)) ECHO_DH_MASK =? snd e) &&
                     (Z.land (Z.lor (snd e) (snd f)) ECHO_HYBRID_MASK =? snd f)) get_hybrid) get_dh = true) by table.
        rewrite forallb_forall in D. specialize (D _ (switch_in _ _ _ E4)). rewrite forallb_forall in D.
        specialize (D _ (switch_in _ _ _ E6)). cbn [snd] in D. apply andb_prop in D as [D1 D2]. apply Z.eqb_eq in D1, D2.
        rewrite D1, D2 in E'. apply (inverse_ok to_psk) in E1; [|table]. apply (inverse_ok to_pattern) in E2; [|table].
        apply (inverse_ok to_cipher) in E3; [|table]. apply (inverse_ok to_dh) in E4; [|table].
        apply (inverse_ok to_hybrid) in E6; [|table]. apply (inverse_ok to_hash) in E5; [|table].
        rewrite E1, E2, E3, E4, E5, E6 in E'. cbn [assigned is_some andb] in E'. injection E' as <- <-. now split. }
      destruct A as [-> ->]. now apply H2.
    + intros id' Hid' Hn. rewrite (Back id' Hid' Hn) in E. injection E as E1 E2. split; [congruence|now rewrite E2].
  - exists false, (EchoId 0 0 0 0 0). split; [|split; [|split; [discriminate|]]].
    + unfold echo_get_protocol_id. rewrite strlen_ok by assumption.
      assert (E : noise_protocol_name_to_id (Some (name ++ 0 :: rest)) (zlen name) = Ok (E_UNKNOWN_NAME, Some zero_id)).
      { pose proof (name_to_id_eq name) as E. rewrite EP in E. rewrite <- E.
        unfold noise_protocol_name_to_id, read_ptr. rewrite zlen_app. pose proof (zlen_nonneg _ (0 :: rest)).
        destruct (Z.leb_spec (zlen name) (zlen name + zlen (0 :: rest))); [|lia].
        rewrite Z.leb_refl, take_app_exact, (take_all _ (zlen name) name) by lia. reflexivity. }
      rewrite E. reflexivity.
    + unfold echo_id_ok, is_byte. cbn. lia.
    + intros id' Hid' Hn. exfalso. destruct (C66_to_noise_exact id' Hid') as (ok & nid & E & [_ H1] & H2).
      assert (ok = true) by (apply H1; now exists name). apply (H2 name H) in Hn. apply parse_all_complete in Hn. congruence.
Qed.

(** Every identifier the server accepts comes back from its formatted name, for
    every buffer the name fits in. *)
Theorem C66_round_trip : forall id nid mem len mem', echo_id_ok id ->
  echo_to_noise_protocol_id id = (true, nid) ->
  0 < len <= zlen mem -> len < 2^64 ->
  noise_protocol_id_to_name (Some mem) len (Some (nid, [0; 0; 0; 0])) = Ok (E_NONE, Some mem') ->
  echo_get_protocol_id mem' = Ok (true, id).
Proof.
  intros id nid mem len mem' Hid E Hl Hl2 F.
  destruct (C39_format_exact nid [0; 0; 0; 0] mem len Hl Hl2) as (e & m & Ef & _ & _ & H1 & H2 & _).
  rewrite F in Ef. injection Ef as <- <-. destruct (proj1 H1 eq_refl) as (_ & name & Ht & _).
  destruct (H2 eq_refl name Ht) as ((rest & ->) & _).
  pose proof (echo_text_string _ _ Ht) as Hc.
  destruct (C66_to_noise_exact id Hid) as (ok & nid' & E' & _ & H3). rewrite E in E'. injection E' as <- <-.
  apply (H3 name eq_refl) in Ht.
  destruct (C66_get_exact name rest Hc) as (ok & id' & E' & _ & _ & H4). destruct (H4 id Hid Ht) as [-> ->]. exact E'.
Qed.
(** 128 bytes are always enough. *)
Theorem C66_round_trip_fits : forall id nid mem, echo_id_ok id ->
  echo_to_noise_protocol_id id = (true, nid) -> zlen mem = 128 ->
  exists mem', noise_protocol_id_to_name (Some mem) 128 (Some (nid, [0; 0; 0; 0])) = Ok (E_NONE, Some mem') /\
    echo_get_protocol_id mem' = Ok (true, id).
Proof.
  intros id nid mem Hid E Hl.
  destruct (C39_format_exact nid [0; 0; 0; 0] mem 128 ltac:(lia) ltac:(lia)) as (e & m & Ef & _ & _ & H1 & _ & _ & _ & _).
  destruct (C66_to_noise_exact id Hid) as (ok & nid' & E' & [H2 _] & H3). rewrite E in E'. injection E' as <- <-.
  destruct (H2 eq_refl) as (text & Hn). apply (H3 text eq_refl) in Hn.
  assert (e = E_NONE).
  { apply H1. split; [repeat constructor|]. exists text. split; [assumption|].
    destruct Hn as (a1 & a2 & a3 & a4 & a5 & R1 & R2 & R3 & R4 & R5 & H'). apply reg_facts in R1, R2, R3, R4, R5.
    destruct H' as [(_ & ->)|(h & Rh & ->)]; [|apply reg_facts in Rh]; rewrite !zlen_app;
      change (zlen (str "_")) with 1; change (zlen (str "+")) with 1; lia. }
  subst e. exists m. split; [exact Ef|]. apply (C66_round_trip id nid mem 128 m Hid E ltac:(lia) ltac:(lia) Ef).
Qed.

(** Noise_XXhfs_25519+NewHope_AESGCM_SHA512 and NoisePSK_NN_448_ChaChaPoly_BLAKE2b *)
Example C66_example :
  echo_get_protocol_id (str "Noise_XXhfs_25519+NewHope_AESGCM_SHA512" ++ [0]) = Ok (true, EchoId 0 0x8A 1 0x30 1) /\
  fst (echo_to_noise_protocol_id (EchoId 0 0x8A 1 0x30 1)) = true /\
  echo_get_protocol_id (str "NoisePSK_NN_448_ChaChaPoly_BLAKE2b" ++ [0; 7]) = Ok (true, EchoId 1 0 0 1 3) /\
  fst (echo_to_noise_protocol_id (EchoId 1 0 0 1 3)) = true /\
  fst (echo_to_noise_protocol_id (EchoId 2 0 0 1 3)) = false /\
  fst (echo_to_noise_protocol_id (EchoId 1 0 0 0x43 3)) = false.
Proof. repeat split; vm_compute; reflexivity. Qed.

Print Assumptions C66_to_noise_exact.
Print Assumptions C66_get_exact.
Print Assumptions C66_round_trip.
Print Assumptions C66_round_trip_fits.
