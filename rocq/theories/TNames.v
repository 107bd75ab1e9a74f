(** Properties C37, C38, C39: algorithm and protocol names. *)
From Coq Require Import ZifyBool ZifyNat String.
From Verif Require Import Base Str MCipher MHash MSymm MNames SUtil SNames PNames.

(** ** C37 *)
(** Both lookups are exactly the registry, for every category value (0 means
    any), every identifier and every byte string. *)
Theorem C37_lookup_exact : forall category id name,
  (noise_id_to_name category id = Some name <-> registered category id name) /\
  (id <> 0 -> (noise_name_to_id category (Some name) (zlen name) = Ok id <-> registered category id name)) /\
  (noise_name_to_id category (Some name) (zlen name) = Ok 0 <-> forall i, ~ registered category i name) /\
  (noise_id_to_name category id = None <-> forall n, ~ registered category id n).
Proof.
  intros category id name.
  assert (E : noise_name_to_id category (Some name) (zlen name) = Ok (name_to_id_loop algorithm_names category name (zlen name))).
  { unfold noise_name_to_id, read_ptr. rewrite Z.leb_refl, take_all by lia. reflexivity. }
  split; [apply id_to_name_iff|]. split; [|split; [|apply id_to_name_none]].
  - intros Hi. rewrite E, <- name_loop_iff by auto. remember (name_to_id_loop _ _ _ _) as f. split; [intros H; now inversion H|now intros ->].
  - rewrite E, <- name_loop_0. remember (name_to_id_loop _ _ _ _) as f. split; [intros H; now inversion H|now intros ->].
Qed.
Print Assumptions C37_lookup_exact.

(** The two functions are inverse to each other in every category. *)
Theorem C37_lookup_inverse : forall category id name,
  noise_id_to_name category id = Some name <->
  (id <> 0 /\ noise_name_to_id category (Some name) (zlen name) = Ok id).
Proof.
  intros category id name. destruct (C37_lookup_exact category id name) as (H1 & H2 & _). rewrite H1. split.
  - intros Hr. assert (id <> 0) by (pose proof (reg_facts _ _ _ Hr); lia). split; auto. now apply H2.
  - intros [Hi H]. now apply H2.
Qed.
Print Assumptions C37_lookup_inverse.

Example C37_example :
  noise_id_to_name (NOISE_ID 68 0) (NOISE_ID 68 1) = Some (str "25519") /\
  noise_name_to_id (NOISE_ID 68 0) (Some (str "25519")) 5 = Ok (NOISE_ID 68 1) /\
  noise_name_to_id (NOISE_ID 67 0) (Some (str "25519")) 5 = Ok 0 /\
  noise_name_to_id (NOISE_ID 68 0) (Some (str "25519")) 4 = Ok 0 /\
  noise_name_to_id 0 (Some (str "XXfallback")) 10 = Ok (NOISE_ID 80 16) /\
  noise_name_to_id 0 (Some (str "XXfallback")) 2 = Ok (NOISE_ID 80 9).
Proof. repeat split. Qed.

(** ** C38 *)
(** The parser accepts exactly the protocol names, and reads them correctly. *)
Theorem C38_parse_exact : forall name,
  exists e id, noise_protocol_name_to_id (Some name) (zlen name) = Ok (e, Some id) /\
    ((e = E_NONE /\ protocol_text id name) \/
     (e = E_UNKNOWN_NAME /\ id = ProtocolId 0 0 0 0 0 0 /\ forall i, ~ protocol_text i name)).
Proof.
  intros name. rewrite name_to_id_eq. destruct (parse_all name) as [id|] eqn:E.
  - exists E_NONE, id. split; auto. left. split; auto. now apply parse_all_sound.
  - exists E_UNKNOWN_NAME, zero_id. split; auto. right. split; auto. split; auto. intros i H. apply parse_all_complete in H. congruence.
Qed.
Print Assumptions C38_parse_exact.

(** Formatting then parsing gives the structure back: for every structure, every
    buffer and whatever the buffer held before. *)
Theorem C38_format_then_parse : forall id reserved mem len mem',
  0 < len <= zlen mem -> len < 2^64 ->
  noise_protocol_id_to_name (Some mem) len (Some (id, reserved)) = Ok (E_NONE, Some mem') ->
  exists name, holds_string mem' name /\ c_string name /\ Forall (fun r => r = 0) reserved /\
    noise_protocol_name_to_id (Some name) (zlen name) = Ok (E_NONE, Some id).
Proof.
  intros id reserved mem len mem' Hl Hl2 H. destruct (format_all id reserved mem len Hl Hl2) as (e & m & E & _ & R).
  rewrite E in H. inversion H; subst. destruct R as [(_ & Hres & text & Ht & _ & ->)|(_ & [(R & _)|(R & _)])]; [|discriminate R|discriminate R].
  exists text. split; [exists (drop (zlen (text ++ [0])) mem); rewrite <- app_assoc; reflexivity|]. split.
  - destruct Ht as (a1 & a2 & a3 & a4 & a5 & R1 & R2 & R3 & R4 & R5 & H'). apply reg_facts in R1, R2, R3, R4, R5.
    assert (Hu : c_string (str "_") /\ c_string (str "+")) by (split; (apply Forall_cons; [cbn; lia|apply Forall_nil])). unfold c_string in *.
    destruct H' as [(_ & ->)|(h & Rh & ->)]; [|apply reg_facts in Rh]; rewrite !Forall_app; unfold c_string in *; tauto.
  - split; auto. rewrite name_to_id_eq, (parse_all_complete _ _ Ht). reflexivity.
Qed.
Print Assumptions C38_format_then_parse.

(** Parsing then formatting gives the string back, for every string and every
    buffer with room for it and its NUL. *)
Theorem C38_parse_then_format : forall name id mem len,
  noise_protocol_name_to_id (Some name) (zlen name) = Ok (E_NONE, Some id) ->
  zlen name < len <= zlen mem -> len < 2^64 ->
  exists mem', noise_protocol_id_to_name (Some mem) len (Some (id, [0; 0; 0; 0])) = Ok (E_NONE, Some mem') /\
    holds_string mem' name.
Proof.
  intros name id mem len H Hl Hl2. rewrite name_to_id_eq in H. destruct (parse_all name) as [i|] eqn:E; [|discriminate H].
  inversion H; subst i. apply parse_all_sound in E. pose proof (zlen_nonneg _ name).
  destruct (format_all id [0; 0; 0; 0] mem len ltac:(lia) Hl2) as (e & m & Ef & _ & R).
  destruct R as [(-> & _ & text & Ht & _ & ->)|(_ & [(-> & [R|R])|(-> & _ & R)])].
  - rewrite (text_fun _ _ _ E Ht) in *. eexists. split; [exact Ef|]. exists (drop (zlen (text ++ [0])) mem). rewrite <- app_assoc. reflexivity.
  - exfalso. apply R. repeat constructor.
  - exfalso. eapply R; eauto.
  - exfalso. specialize (R _ E). lia.
Qed.
Print Assumptions C38_parse_then_format.

Example C38_example :
  noise_protocol_name_to_id (Some (str "NoisePSK_XXfallback+hfs_25519+NewHope_AESGCM_BLAKE2b")) 52 =
    Ok (E_NONE, Some (ProtocolId (NOISE_ID 78 2) (NOISE_ID 80 60) (NOISE_ID 68 1) (NOISE_ID 67 2) (NOISE_ID 72 2) (NOISE_ID 68 3))) /\
  noise_protocol_name_to_id (Some (str "Noise_XX_25519_AESGCM_SHA256")) 28 =
    Ok (E_NONE, Some (ProtocolId (NOISE_ID 78 1) (NOISE_ID 80 9) (NOISE_ID 68 1) (NOISE_ID 67 2) (NOISE_ID 72 3) 0)) /\
  noise_protocol_name_to_id (Some (str "Noise_XX_25519_AESGCM_SHA256_")) 29 = Ok (E_UNKNOWN_NAME, Some zero_id) /\
  noise_protocol_id_to_name (Some (repeat 255 32)) 29
    (Some (ProtocolId (NOISE_ID 78 1) (NOISE_ID 80 9) (NOISE_ID 68 1) (NOISE_ID 67 2) (NOISE_ID 72 3) 0, [0; 0; 0; 0])) =
    Ok (E_NONE, Some (str "Noise_XX_25519_AESGCM_SHA256" ++ [0; 255; 255; 255])).
Proof. repeat split. Qed.

(** ** C39 *)
(** Every structure and every buffer: the outcome is exactly determined, the
    bytes beyond [len] are untouched and nothing is read or written outside. *)
Theorem C39_format_exact : forall id reserved mem len,
  0 < len <= zlen mem -> len < 2^64 ->
  exists e mem', noise_protocol_id_to_name (Some mem) len (Some (id, reserved)) = Ok (e, Some mem') /\
    zlen mem' = zlen mem /\ drop len mem' = drop len mem /\
    (e = E_NONE <-> (Forall (fun r => r = 0) reserved /\ exists name, protocol_text id name /\ zlen name < len)) /\
    (e = E_NONE -> forall name, protocol_text id name ->
       holds_string mem' name /\ drop (zlen name + 1) mem' = drop (zlen name + 1) mem) /\
    (e <> E_NONE -> holds_string mem' []) /\
    (forall name, protocol_text id name -> Forall (fun r => r = 0) reserved -> len <= zlen name -> e = E_INVALID_LENGTH) /\
    (128 <= len -> e <> E_NONE -> e = E_UNKNOWN_ID).
Proof.
  intros id reserved mem len Hl Hl2. destruct (format_all id reserved mem len Hl Hl2) as (e & m & E & [F1 F2] & R).
  exists e, m. split; auto. split; auto. split; auto.
  destruct R as [(-> & Hres & text & Ht & Hlt & ->)|(Hs & R)].
  - split; [split; eauto|]. split.
    + intros _ name Hn. rewrite (text_fun _ _ _ Hn Ht). split.
      * exists (drop (zlen (text ++ [0])) mem). rewrite <- app_assoc. reflexivity.
      * replace (zlen text + 1) with (zlen (text ++ [0])) by (rewrite zlen_app, zlen_cons, zlen_nil; lia). apply drop_app_exact.
    + split; [congruence|]. split; [|congruence]. intros name Hn _ Hle. rewrite (text_fun _ _ _ Hn Ht) in Hle. lia.
  - destruct R as [(-> & R)|(-> & R1 & R2)].
    + split; [split; [discriminate|]|]. { intros (Hr & name & Hn & _). destruct R as [R|R]; [tauto|]. exfalso; eapply R; eauto. }
      split; [discriminate|]. split; auto. split; auto. intros name Hn Hr _. destruct R as [R|R]; [tauto|]. exfalso; eapply R; eauto.
    + split; [split; [discriminate|]|]. { intros (Hr & name & Hn & Hlt). specialize (R2 _ Hn). lia. }
      split; [discriminate|]. split; auto. split; auto. intros; lia.
Qed.
Print Assumptions C39_format_exact.

Theorem C39_format_null : forall name len id,
  (len = 0 -> exists e, noise_protocol_id_to_name name len id = Ok (e, name) /\ e <> E_NONE) /\
  (name = None -> noise_protocol_id_to_name name len id = Ok (E_INVALID_PARAM, None)) /\
  (forall mem, name = Some mem -> id = None -> 0 < len <= zlen mem ->
     noise_protocol_id_to_name name len id = Ok (E_INVALID_PARAM, Some (0 :: drop 1 mem))).
Proof.
  intros name len id. split; [|split].
  - intros ->. destruct id as [[i r]|], name as [m|]; cbn; eexists; split; try reflexivity; discriminate.
  - intros ->. destruct id as [[i r]|]; reflexivity.
  - intros mem -> -> Hl. unfold noise_protocol_id_to_name. destruct (Z.eqb_spec len 0); [lia|].
    rewrite store_ok by (rewrite ?zlen_cons, ?zlen_nil; lia). cbn [obind]. rewrite splice_0. reflexivity.
Qed.
Print Assumptions C39_format_null.

(** A 28 byte name does not fit into 28 bytes. *)
Example C39_example :
  let id := ProtocolId (NOISE_ID 78 1) (NOISE_ID 80 9) (NOISE_ID 68 1) (NOISE_ID 67 2) (NOISE_ID 72 3) 0 in
  exists m, noise_protocol_id_to_name (Some (repeat 255 32)) 28 (Some (id, [0; 0; 0; 0])) = Ok (E_INVALID_LENGTH, Some m) /\
    hd 1 m = 0 /\ drop 28 m = repeat 255 4 /\ protocol_text id (str "Noise_XX_25519_AESGCM_SHA256").
Proof.
  cbv zeta. eexists. split; [vm_compute; reflexivity|]. split; [reflexivity|]. split; [reflexivity|].
  apply parse_all_sound. vm_compute. reflexivity.
Qed.

(** ** C38, continued: a SymmetricState does not depend on how it was created *)
Lemma strlen_ok : forall name rest, c_string name -> c_strlen (name ++ 0 :: rest) = zlen name.
Proof. intros name rest H. unfold c_strlen. apply scan_app; [|reflexivity]. eapply Forall_impl; [|apply H]. cbn. intros a Ha. destruct (Z.eqb_spec 0 a); lia. Qed.
Theorem C38_new_by_id_is_new_by_name : forall cipher hash id name rest,
  noise_protocol_name_to_id (Some name) (zlen name) = Ok (E_NONE, Some id) -> c_string name ->
  symmetricstate_new_by_name cipher hash (Some (name ++ 0 :: rest)) =
  symmetricstate_new_by_id (cipher (pi_cipher id)) (hash (pi_hash id)) (Some (id, [0; 0; 0; 0])).
Proof.
  intros cipher hash id name rest H Hc. unfold symmetricstate_new_by_name. rewrite strlen_ok by auto.
  assert (E : noise_protocol_name_to_id (Some (name ++ 0 :: rest)) (zlen name) = Ok (E_NONE, Some id)).
  { rewrite <- H. unfold noise_protocol_name_to_id, read_ptr. rewrite zlen_app. pose proof (zlen_nonneg _ (0 :: rest)).
    destruct (Z.leb_spec (zlen name) (zlen name + zlen (0 :: rest))); [|lia]. rewrite Z.leb_refl, take_app_exact, (take_all _ (zlen name) name) by lia. reflexivity. }
  rewrite E. cbn [obind]. rewrite take_app_exact. unfold symmetricstate_new_by_id.
  destruct (C38_parse_exact name) as (e & i & E2 & [(-> & Ht)|(-> & _)]); rewrite E2 in H; [|discriminate H]. inversion H; subst i.
  destruct (C39_format_exact id [0; 0; 0; 0] (zeros MAX_PROTOCOL_NAME) MAX_PROTOCOL_NAME) as (e & m & Ef & _ & _ & H1 & H2 & _ & H3 & H4).
  { unfold MAX_PROTOCOL_NAME. rewrite zlen_zeros; lia. } { reflexivity. }
  rewrite Ef. cbn [obind].
  assert (e = E_NONE).
  { apply H1. split; [repeat constructor|]. exists name. split; auto.
    destruct (Z.lt_ge_cases (zlen name) MAX_PROTOCOL_NAME) as [|Hge]; auto.
    specialize (H3 name Ht ltac:(repeat constructor) Hge). subst e. specialize (H4 ltac:(unfold MAX_PROTOCOL_NAME; lia) ltac:(discriminate)). discriminate H4. }
  subst e. destruct (H2 eq_refl name Ht) as ((r & ->) & _). rewrite strlen_ok by auto. rewrite take_app_exact. reflexivity.
Qed.
Print Assumptions C38_new_by_id_is_new_by_name.
