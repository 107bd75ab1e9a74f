(** C26 and C27: the message buffer and the sizes of handshake messages. *)
From Coq Require Import ZifyBool ZifyNat String.
From Verif Require Import Base SNames MCipher SCipher MHash SHash MSymm SSymm MPatterns SPatterns MDh SDh MHandshake SHandshake SHsApi
  PHandshake PHsTok PHsMsg SNoise PHsStart PHsRun PHsOpen SAgree PHsSize PHsAgree PHsTalk PHsStage Toy ToyHash ToyDh ToyHs ToyNoise THsStart.

(** C26, writing.  At any point of a handshake with any buffer: nothing behind
    the first [max] bytes changes; a successful call writes exactly the keys and
    tags of the message pattern and the payload.  (An access outside the
    buffers is undefined behaviour in the model: no result.) *)
Theorem C26_write_stays_inside : forall lib id N pat initiator log0 s s1 ops env mem size max payload,
  provides lib id N -> has_pattern id pat -> fallback_pattern pat = false ->
  set_up N id lib initiator log0 s -> handshakestate_start s = Ok (E_NONE, s1) ->
  Forall handshake_call (ops ++ [HWrite env (NBuf (Some mem) size max) payload]) ->
  exists log s2 e mem' n s3,
    hs_run lib s1 ops = Ok (log, s2) /\
    hs_step lib s2 (HWrite env (NBuf (Some mem) size max) payload) = Ok (message_result e (NBuf (Some mem') n max) None, s3) /\
    zlen mem' = zlen mem /\ drop max mem' = drop max mem /\ 0 <= n <= max /\
    (e = E_NONE -> n = message_overhead N id pat (messages_done log) + zlen (payload_bytes payload)) /\
    (hs_action s2 = ACTION_WRITE_MESSAGE -> max < message_overhead N id pat (messages_done log) + zlen (payload_bytes payload) -> e <> E_NONE).
Proof.
  intros lib id N pat i log0 s s1 ops env mem size max payload V Hp Hf Su Es Fo. apply Forall_app in Fo as [Fo Fw]. inversion Fw as [|? ? Hc _]; subst.
  destruct (start_stage lib id N V _ _ _ _ _ Hp Hf Su Es) as (name & k & _ & _ & W). cbv zeta in W.
  destruct (where_run lib id N V _ _ _ _ _ W Fo) as (log & s2 & q & E1 & F1 & W1). rewrite Nat.add_0_l in W1.
  assert (Hm : 0 <= max <= zlen mem) by (destruct Hc as (_ & X & _); cbn in X; tauto).
  destruct (Z.eq_dec (hs_action s2) ACTION_WRITE_MESSAGE) as [Ea|Ea].
  - destruct (where_at id N _ _ _ _ _ W1 Ea (or_introl eq_refl)) as (p & -> & Nm & Wr). rewrite Z.eqb_refl in Wr.
    destruct W1 as [Hh St]. destruct (holds_step lib id N V _ _ _ Hh Hc) as (r & s3 & q' & E2 & F2 & T).
    inversion F2 as [|p0 env0 mem0 n0 max0 payload0 mem' m p' log1 q0 Wr0 Wm Hl Hz Ht Hd F'|p0 env0 mem0 n0 max0 payload0 mem' e log1 q0 Wr0 Nm0 He _ Hz Hd F'| | | | |st o r0 log1 q0 Hs He F']; subst.
    + exists log, s2, E_NONE, mem', (zlen m), s3. split; [exact E1|]. split; [exact E2|]. split; [exact Hz|]. split; [exact Hd|].
      assert (Ro : rand_ok (SNoise.rand_of env)) by (intros t z Hz0; destruct Hc as (R & _); apply R; exact Hz0).
      destruct (write_message_size N id (pv_cipher_ok _ _ _ V) (pv_dh_ok _ _ _ V) (pv_hyb_ok _ _ _ V) _ _ _ _ _ Ro (holds_sized id N _ _ Hh) Wm) as (ts & ms & M1 & _ & _ & _ & M5 & _).
      pose proof (stage_hd id N _ _ _ _ _ St M1) as So. rewrite Wr in So. rewrite So in M5. pose proof (zlen_nonneg _ m). repeat split; intros; lia.
    + exists log, s2, e, mem', 0, s3. split; [exact E1|]. split; [exact E2|]. split; [exact Hz|]. split; [exact Hd|]. split; [lia|]. split; intros; congruence.
    + destruct Hs; congruence.
  - assert (E2 : hs_step lib s2 (HWrite env (NBuf (Some mem) size max) payload) = Ok (message_result E_INVALID_STATE (NBuf (Some mem) 0 max) None, s2)).
    { cbn [hs_step]. unfold write_message. cbn [b_data b_max]. destruct Hc as (_ & _ & Hpay).
      replace (match payload with Some p0 => is_null_ptr (b_data p0) | None => false end) with false by (destruct payload as [[[pd|] ? ?]|]; cbn in *; tauto || reflexivity).
      apply Z.eqb_neq in Ea. rewrite Ea. reflexivity. }
    exists log, s2, E_INVALID_STATE, mem, 0, s2. split; [exact E1|]. split; [exact E2|]. split; [reflexivity|]. split; [reflexivity|].
    split; [lia|]. split; [discriminate|]. intros X. contradiction.
Qed.
Print Assumptions C26_write_stays_inside.

(** C26.  If the call succeeds with some buffer, then with any other it either
    fits and succeeds with the same message, or does not and the result is
    INVALID_LENGTH and an empty message. *)
Theorem C26_write_invalid_length : forall lib id N pat initiator log0 s s1 ops log s2 env mem size max payload mem1 size1 max1 r s3,
  provides lib id N -> has_pattern id pat -> fallback_pattern pat = false ->
  set_up N id lib initiator log0 s -> handshakestate_start s = Ok (E_NONE, s1) ->
  Forall handshake_call (ops ++ [HWrite env (NBuf (Some mem) size max) payload; HWrite env (NBuf (Some mem1) size1 max1) payload]) ->
  hs_run lib s1 ops = Ok (log, s2) ->
  hs_step lib s2 (HWrite env (NBuf (Some mem) size max) payload) = Ok (r, s3) -> hr_err r = E_NONE ->
  exists m mem2 mem3 s4, hr_message r = Some (NBuf (Some mem2) (zlen m) max) /\ take (zlen m) mem2 = m /\
    if zlen m <=? max1 then
      zlen m <= 65535 ->
      hs_step lib s2 (HWrite env (NBuf (Some mem1) size1 max1) payload) = Ok (message_result E_NONE (NBuf (Some mem3) (zlen m) max1) None, s4) /\ take (zlen m) mem3 = m
    else hs_step lib s2 (HWrite env (NBuf (Some mem1) size1 max1) payload) = Ok (message_result E_INVALID_LENGTH (NBuf (Some mem3) 0 max1) None, s4).
Proof.
  intros lib id N pat i log0 s s1 ops log s2 env mem size max payload mem1 size1 max1 r s3 V Hp Hf Su Es Fo Er E1 Hr. apply Forall_app in Fo as [Fo Fw].
  inversion Fw as [|? ? Hc Fw1]; subst. inversion Fw1 as [|? ? Hc1 _]; subst.
  destruct (start_stage lib id N V _ _ _ _ _ Hp Hf Su Es) as (name & k & _ & _ & W). cbv zeta in W.
  destruct (where_run lib id N V _ _ _ _ _ W Fo) as (log' & s2' & q & Er' & F1 & W1). rewrite Er in Er'. injection Er' as <- <-. rewrite Nat.add_0_l in W1.
  assert (Ea : hs_action s2 = ACTION_WRITE_MESSAGE).
  { destruct (Z.eq_dec (hs_action s2) ACTION_WRITE_MESSAGE) as [Ea|Ea]; [exact Ea|exfalso]. cbn [hs_step] in E1. unfold write_message in E1. cbn [b_data b_max] in E1.
    apply Z.eqb_neq in Ea. rewrite Ea in E1. cbn [negb] in E1. destruct (match payload with Some p0 => is_null_ptr (b_data p0) | None => false end); injection E1 as <- <-; discriminate Hr. }
  destruct (where_at id N _ _ _ _ _ W1 Ea (or_introl eq_refl)) as (p & -> & Nm & Wr). rewrite Z.eqb_refl in Wr. destruct W1 as [Hh St].
  destruct (holds_step lib id N V _ _ _ Hh Hc) as (r' & s3' & q' & E2 & F2 & T). rewrite E1 in E2. injection E2 as <- <-.
  inversion F2 as [|p0 env0 mem0 n0 max0 payload0 mem' m p' log1 q0 Wr0 Wm Hl Hz Ht Hd F'|p0 env0 mem0 n0 max0 payload0 mem' e log1 q0 Wr0 Nm0 He _ Hz Hd F'| | | | |st o r0 log1 q0 Hs He F']; subst; [|cbn in Hr; congruence|destruct Hs; congruence].
  destruct (holds_step lib id N V _ _ _ Hh Hc1) as (r' & s4 & q1 & E2 & F3 & T1).
  exists m, mem'. inversion F3 as [|p0 env0 mem0 n0 max0 payload0 mem3 m1 p1 log1 q0 Wr1 Wm1 Hl1 Hz1 Ht1 Hd1 F4|p0 env0 mem0 n0 max0 payload0 mem3 e log1 q0 Wr1 Nm0 He He1 Hz1 Hd1 F4| | | | |st o r0 log1 q0 Hs He F4]; subst; [| |destruct Hs; congruence].
  - rewrite Wm in Wm1. injection Wm1 as <- <-. exists mem3, s4. split; [reflexivity|]. split; [exact Ht|]. destruct (Z.leb_spec (zlen m) max1); [|lia]. intros _. split; [exact E2|exact Ht1].
  - destruct (He1 _ _ Wm) as [Hx ->]. exists mem3, s4. split; [reflexivity|]. split; [exact Ht|]. destruct (Z.leb_spec (zlen m) max1); [|exact E2]. intros Hx1. lia.
Qed.
Print Assumptions C26_write_invalid_length.

(** C26, reading.  The memory holds the message and nothing else, so an access
    outside the message would be undefined behaviour; and a message shorter
    than the keys and tags of its pattern is never accepted. *)
Theorem C26_read_stays_inside : forall lib id N pat initiator log0 s s1 ops env msg payload,
  provides lib id N -> has_pattern id pat -> fallback_pattern pat = false ->
  set_up N id lib initiator log0 s -> handshakestate_start s = Ok (E_NONE, s1) ->
  Forall handshake_call (ops ++ [HRead env (NBuf (Some msg) (zlen msg) (zlen msg)) payload]) ->
  exists log s2 e mem payload' s3,
    hs_run lib s1 ops = Ok (log, s2) /\
    hs_step lib s2 (HRead env (NBuf (Some msg) (zlen msg) (zlen msg)) payload) = Ok (message_result e (NBuf (Some mem) (zlen msg) (zlen msg)) payload', s3) /\
    zlen mem = zlen msg /\
    (hs_action s2 = ACTION_READ_MESSAGE -> zlen msg < message_overhead N id pat (messages_done log) ->
       e <> E_NONE /\ hs_action s3 = ACTION_FAILED /\ payload' = option_map emptied payload).
Proof.
  intros lib id N pat i log0 s s1 ops env msg payload V Hp Hf Su Es Fo. apply Forall_app in Fo as [Fo Fw]. inversion Fw as [|? ? Hc _]; subst.
  destruct (start_stage lib id N V _ _ _ _ _ Hp Hf Su Es) as (name & k & _ & _ & W). cbv zeta in W.
  destruct (where_run lib id N V _ _ _ _ _ W Fo) as (log & s2 & q & E1 & F1 & W1). rewrite Nat.add_0_l in W1. pose proof (zlen_nonneg _ msg) as Zn.
  assert (Sp : zlen (splice 0 (zeros (zlen msg)) msg) = zlen msg) by (rewrite splice_0, zlen_app, zlen_drop, zlen_zeros by lia; lia).
  destruct (Z.eq_dec (hs_action s2) ACTION_READ_MESSAGE) as [Ea|Ea].
  - destruct (where_at id N _ _ _ _ _ W1 Ea (or_intror eq_refl)) as (p & -> & Nm & Wr). change (ACTION_READ_MESSAGE =? ACTION_WRITE_MESSAGE) with false in Wr.
    destruct W1 as [Hh St]. destruct (holds_step lib id N V _ _ _ Hh Hc) as (r & s3 & q' & E2 & F2 & T).
    inversion F2 as [| | |p0 env0 mem0 n0 max0 payload0 pl p' log1 q0 Wr0 Wm Hr F'|p0 env0 mem0 n0 max0 payload0 e log1 q0 Wr0 Nm0 He Hw F'| | |st o r0 log1 q0 Hs He F']; subst; [| |destruct Hs; congruence].
    + do 6 eexists. split; [exact E1|]. split; [exact E2|]. split; [exact Sp|]. intros _ Hl. exfalso.
      destruct (read_message_size N id (pv_cipher_ok _ _ _ V) (pv_dh_ok _ _ _ V) (pv_hyb_ok _ _ _ V) _ _ _ _ Wm) as (ts & ms & M1 & _ & _ & _ & M5 & _).
      pose proof (stage_hd id N _ _ _ _ _ St M1) as So. rewrite Wr in So. rewrite So, take_all in M5 by lia. pose proof (zlen_nonneg _ pl). lia.
    + inversion F'; subst. do 6 eexists. split; [exact E1|]. split; [exact E2|]. split; [exact Sp|]. intros _ _. split; [exact He|]. split; [exact T|reflexivity].
  - assert (E2 : exists mem p', hs_step lib s2 (HRead env (NBuf (Some msg) (zlen msg) (zlen msg)) payload) = Ok (message_result E_INVALID_STATE (NBuf (Some mem) (zlen msg) (zlen msg)) p', s2) /\ zlen mem = zlen msg).
    { cbn [hs_step]. unfold read_message. cbn [b_data b_max b_size]. destruct Hc as (_ & Hpay).
      replace (match payload with Some p0 => is_null_ptr (b_data p0) | None => false end) with false by (destruct payload as [[[pd|] ? ?]|]; cbn in *; tauto || reflexivity).
      destruct (Z.ltb_spec (zlen msg) (zlen msg)); [lia|]. apply Z.eqb_neq in Ea. rewrite Ea. cbn [negb obind]. do 2 eexists. split; reflexivity. }
    destruct E2 as (mem & p' & E2 & Zm). do 6 eexists. split; [exact E1|]. split; [exact E2|]. split; [exact Zm|]. intros X. contradiction.
Qed.
Print Assumptions C26_read_stays_inside.

(** The theorems apply to a NoisePSK_IK initiator after the calls of
    [toy_ik_calls].  The sizes in the pattern: the first message has an
    ephemeral key, an encrypted static key and a tagged payload. *)
Example C26_example :
  (exists log s s1, set_up toy_suite (toy_id PREFIX_PSK 14 0) toy_lib true log s /\ handshakestate_start s = Ok (E_NONE, s1)) /\
  has_pattern (toy_id PREFIX_PSK 14 0) (Pattern [] [S_] [[E_; ES_; S_; SS_]; [E_; EE_; SE_]]) /\
  map (message_overhead toy_suite (toy_id PREFIX_PSK 14 0) (Pattern [] [S_] [[E_; ES_; S_; SS_]; [E_; EE_; SE_]])) [0; 1]%nat = [32 + (32 + 1) + 1; 32 + 1] /\
  Forall handshake_call (toy_ik_calls ++ [HWrite toy_env (NBuf (Some (zeros 20)) 0 20) None]).
Proof.
  split; [|split; [|split]].
  - destruct (toy_set_up (toy_id PREFIX_PSK 14 0) true [toy_peer 9; toy_psk; toy_static 7; toy_prologue [1; 2; 3]] [E_NONE; E_NONE; E_NONE; E_NONE]) as (log & s & Su & Es);
      [vm_compute; reflexivity|toy_calls_ok|vm_compute; reflexivity|].
    destruct (toy_started _ log s E_NONE ACTION_WRITE_MESSAGE Es) as (s1 & E1 & _); [vm_compute; reflexivity|]. eauto.
  - exists 14, "IK"%string. split; [cbn; tauto|]. split; [apply np_basic; reflexivity|reflexivity].
  - vm_compute. reflexivity.
  - apply Forall_app. split; [exact toy_ik_calls_ok|]. apply Forall_cons; [|apply Forall_nil]. cbn [handshake_call b_data b_size b_max].
    split; [|split; [|exact I]].
    + intros t n Hn. cbn [toy_env env_rand]. split; [unfold zlen; rewrite repeat_length; lia|].
      apply Forall_forall. intros x Hx. apply repeat_spec in Hx. subst x. unfold is_byte. lia.
    + split; [apply bytes_zeros|]. split; [vm_compute; split; discriminate|reflexivity].
Qed.

(** C27 is false: the limit is checked for the encrypted payload alone, not for
    the message.  With every library, the first message of Noise_NN with a
    payload of 65535 - MACLEN bytes is written, and has more than 65535 bytes. *)
Lemma first_generates : forall a D, dh_suite a D -> forall r o, GENERATE D false r o <> None.
Proof. intros a D [base mult H1 H2|eval H1|kg sb sa H1 H2 H3] r o; cbn; try discriminate. destruct (kg r); discriminate. Qed.
Lemma dh_long : forall a D, dh_suite a D -> 32 <= DHLEN D false <= 2048.
Proof. intros a D [base mult H1 H2|eval H1|kg sb sa H1 H2 H3]; cbn; lia. Qed.
Definition NN_pattern : pattern := Pattern [] [] [[E_]; [E_; EE_]].
Theorem C27_messages_over_the_limit_refuted : forall lib id N log0 s s1 env mem size max payload,
  provides lib id N -> has_pattern id NN_pattern -> psk_mode id = false ->
  set_up N id lib true log0 s -> handshakestate_start s = Ok (E_NONE, s1) ->
  handshake_call (HWrite env (NBuf (Some mem) size max) payload) -> zlen (payload_bytes payload) = 65535 - ca_mac_len (n_cipher N) -> 70000 <= max ->
  exists mem' n s2, hs_step lib s1 (HWrite env (NBuf (Some mem) size max) payload) = Ok (message_result E_NONE (NBuf (Some mem') n max) None, s2) /\ 65535 < n.
Proof.
  intros lib id N log0 s s1 env mem size max payload V Hp Hk Su Es Hc Zp Hm.
  destruct (start_stage lib id N V _ _ _ _ _ Hp eq_refl Su Es) as (name & k & _ & _ & W). cbv zeta in W.
  pose proof (where_action id N _ _ _ _ W) as Ac. cbv beta iota in Ac. destruct W as [Hh St].
  match type of Hh with PHsTalk.holds _ _ _ ?x => set (p := x) in * end.
  assert (Pm : p_messages p = [[E_]; [E_; EE_]]) by reflexivity. assert (Pw : p_writing p = true) by reflexivity. assert (Ps : p_second p = false) by reflexivity.
  pose proof (st_keyed id N _ _ _ St) as Kn. cbn [firstn concat fold_left] in Kn.
  assert (Ro : rand_ok (SNoise.rand_of env)) by (intros t z Hz0; destruct Hc as (R & _); apply R; exact Hz0).
  destruct (holds_step lib id N V _ _ _ Hh Hc) as (r & s3 & q' & E2 & F2 & T).
  assert (Ex : exists m p', nWriteMessage N id (SNoise.rand_of env) p (SNoise.payload_bytes payload) = Some (m, p')).
  { unfold nWriteMessage, WriteMessage. rewrite Pm. cbn [WriteTokens WriteToken]. rewrite Ps.
    destruct (GENERATE (n_dh N) false _ _) as [kp|] eqn:Eg.
    - rewrite Hk. cbn [MixEphemeral with_sym p_sym]. unfold EncryptAndHash. cbn [MixHash ns_k]. destruct (ns_k (p_sym p)) as [x|] eqn:Ek; [discriminate Kn|]. eauto.
    - exfalso. exact (first_generates _ _ (pv_dh_ok _ _ _ V) _ _ Eg). }
  destruct Ex as (m & p1 & Em).
  destruct (write_message_size N id (pv_cipher_ok _ _ _ V) (pv_dh_ok _ _ _ V) (pv_hyb_ok _ _ _ V) _ _ _ _ _ Ro (holds_sized id N _ _ Hh) Em) as (ts & ms & M1 & _ & _ & _ & M5 & _).
  rewrite Pm in M1. injection M1 as <- <-. rewrite Ps, Kn, Zp in M5. cbn [overhead_of keyed_by] in M5. rewrite Hk in M5. cbn [orb tag] in M5.
  pose proof (pv_mac _ _ _ V) as Hmac. pose proof (shape_mac _ (correct_shape _ (pv_cipher_ok _ _ _ V))).
  assert (Dl : 32 <= DHLEN (n_dh N) false <= 2048) by exact (dh_long _ _ (pv_dh_ok _ _ _ V)).
  inversion F2 as [|p0 env0 mem0 n0 max0 payload0 mem' m0 p' log1 q0 Wr0 Wm Hl Hz Ht Hd F'|p0 env0 mem0 n0 max0 payload0 mem' e log1 q0 Wr0 Nm0 He Hx Hz Hd F'| | | | |st o r0 log1 q0 Hs He F'].
  - subst. rewrite Em in Wm. injection Wm as <- <-. eexists mem', _, s3. split; [exact E2|]. lia.
  - destruct (Hx _ _ Em) as [Hy _]. lia.
  - subst. destruct Hs as [Hs|Hs]; [rewrite Pw in Hs|rewrite Pm in Hs]; discriminate Hs.
Qed.
Print Assumptions C27_messages_over_the_limit_refuted.
Example C27_example : exists log s s1 payload, set_up toy_suite (toy_id PREFIX_STANDARD 4 0) toy_lib true log s /\ handshakestate_start s = Ok (E_NONE, s1) /\
  has_pattern (toy_id PREFIX_STANDARD 4 0) NN_pattern /\
  handshake_call (HWrite toy_env (NBuf (Some (zeros 70000)) 0 70000) payload) /\ zlen (payload_bytes payload) = 65535 - ca_mac_len (n_cipher toy_suite).
Proof.
  destruct (toy_set_up (toy_id PREFIX_STANDARD 4 0) true [] []) as (log & s & Su & Es); [vm_compute; reflexivity|toy_calls_ok|vm_compute; reflexivity|].
  destruct (toy_started _ log s E_NONE ACTION_WRITE_MESSAGE Es) as (s1 & E1 & _); [vm_compute; reflexivity|].
  assert (Z1 : zlen (zeros 70000) = 70000) by (apply zlen_zeros; discriminate). assert (Z2 : zlen (zeros 65534) = 65534) by (apply zlen_zeros; discriminate).
  exists log, s, s1, (Some (NBuf (Some (zeros 65534)) 65534 65534)). split; [exact Su|]. split; [exact E1|]. split; [|split].
  - exists 4, "NN"%string. split; [cbn; tauto|]. split; [apply np_basic; reflexivity|reflexivity].
  - cbn [handshake_call b_data b_size b_max]. rewrite Z1, Z2. split; [|split].
    + intros t n Hn. cbn [toy_env env_rand]. split; [unfold zlen; rewrite repeat_length; lia|].
      apply Forall_forall. intros x Hx. apply repeat_spec in Hx. subst x. unfold is_byte. lia.
    + split; [apply bytes_zeros|]. split; [lia|reflexivity].
    + split; [apply bytes_zeros|lia].
  - cbn [payload_bytes contents b_data b_size]. rewrite take_all by lia. rewrite Z2. reflexivity.
Qed.
