(** C31: fallback to another pattern after a first message that was not understood. *)
From Coq Require Import ZifyBool String.
From Verif Require Import Base MUtil MCipher SCipher PCipher TCipher MHash SHash MSymm SSymm PSymm MPatterns SPatterns MDh SDh PDh
  MHandshake SHandshake SHsApi PHandshake PHsTok PHsMsg SNoise PHsRun PHsOpen SAgree PHsSize PHsAgree PHsTalk THsAgree SFallback PHsFall PHsFall2.
From Verif Require Import Toy ToyHash ToyDh ToyHs ToyNoise.

(** C31.  The initiator has sent its first message (of XK, KK, IK or one of
    their variants), with whatever idea of the responder's static key, and
    perhaps failed to read an answer.  The responder has read something that
    starts with the ephemeral keys of that message.  If both call fallback and
    start, then both calls succeed, the roles are exchanged, and the handshake
    of the fallback pattern between the two succeeds whatever the payloads:
    both end at SPLIT with the same handshake hash, and split gives matching
    CipherStates. *)
Theorem C31_fallback_agrees : forall lib id N pat static good initiator responder,
  provides lib id N -> has_pattern id pat -> can_fall_back pat = true ->
  psk_mode id = false \/ uses pat true F_ = false ->
  dh_agrees (n_dh N) static good -> dh_agrees (n_hyb N) (fun _ => False) good ->
  misunderstood lib N id pat static good initiator responder ->
  exists w0 w r0 r,
    handshakestate_fallback_to responder (fallback_number pat) = Ok (E_NONE, w0) /\ handshakestate_start w0 = Ok (E_NONE, w) /\
    handshakestate_fallback_to initiator (fallback_number pat) = Ok (E_NONE, r0) /\ handshakestate_start r0 = Ok (E_NONE, r) /\
    hs_role w = ROLE_INITIATOR /\ hs_role r = ROLE_RESPONDER /\
    forall fpat turns, has_pattern (fallback_id id pat) fpat ->
      turns_ok N (fallback_id id pat) good true (psk_mode id) (messages fpat) turns ->
      exchange lib w r turns agreed /\ exchange lib w r turns (transport N lib).
Proof.
  intros lib id N pat static good a b V Hp Hc Hpf Ad Ah M.
  destruct (fallen lib id N V static good Ad Ah pat a b Hp Hc Hpf M) as (a2 & a3 & b2 & b3 & pA & pB & EA & EA' & RA & EB & EB' & RB & HB & HA & J & Em & Wr & Sc & Kn).
  exists b2, b3, a2, a3. split; [exact EB|]. split; [exact EB'|]. split; [exact EA|]. split; [exact EA'|]. split; [exact RB|]. split; [exact RA|].
  intros fpat turns Hf Tk. pose proof (fallback_provides lib id N V pat) as V'.
  destruct (fpat_in (uses pat true F_)) as (fn & Hin). pose proof (pattern_in_all _ _ Hf _ _ _ Hin eq_refl) as Ef. rewrite Ef in Em. split.
  - apply (exchange_ok lib (fallback_id id pat) N V' static good Ad Ah agreed) with (ms := messages fpat) (pA := pB) (pB := pA) (xa := shape_of b3) (xb := shape_of a3); auto.
    + intros sA sB qA qB xa xb Ha Hb Jq Eq. pose proof (jo_linked _ _ _ _ _ _ _ Jq) as L. pose proof (li_messages _ _ _ _ _ L) as Eqb. rewrite Eq in Eqb.
      assert (Act : forall s q, holds (fallback_id id pat) N s q -> p_messages q = [] -> hs_action s = ACTION_SPLIT).
      { intros s q (dv & dr & hv & hr & _ & _ & At) X. pose proof (a_action _ _ _ _ _ _ _ _ _ _ _ _ _ At) as Y. rewrite X in Y. exact Y. }
      split; [exact (Act _ _ Ha Eq)|]. split; [exact (Act _ _ Hb Eqb)|]. exists (ns_h (p_sym qA)). split; [exact (so_h _ _ (jo_sym _ _ _ _ _ _ _ Jq))|].
      intros mem n Hn. split; [apply (holds_hash lib _ N V'); assumption|]. rewrite <- (li_sym _ _ _ _ _ L). apply (holds_hash lib _ N V'); assumption.
    + rewrite Sc, Kn. exact Tk.
  - apply (exchange_ok lib (fallback_id id pat) N V' static good Ad Ah (transport N lib)) with (ms := messages fpat) (pA := pB) (pB := pA) (xa := shape_of b3) (xb := shape_of a3); auto; [|rewrite Sc, Kn; exact Tk].
    clear - V'. intros sA sB qA qB xa xb Ha Hb J Em. pose proof (jo_linked _ _ _ _ _ _ _ J) as L.
    exact (transport_ok lib _ N V' _ _ _ _ _ _ Ha Hb L Em).
Qed.
Print Assumptions C31_fallback_agrees.

(** The hypotheses are met: NoisePSK_IK where the initiator has the public key
    of somebody else; the responder fails to read the message, and the initiator
    fails to read something. *)
Definition toy_at (id : protocol_id) (initiator : bool) (ops : list hs_op) : outcome handshakestate :=
  let! x := toy_set id initiator ops in let! y := handshakestate_start (snd x) in match y with (E_NONE, s) => Ok s | _ => UB end.
Definition toy_ik : protocol_id := toy_id PREFIX_PSK 14 DH_NONE.
Definition toy_ik_pattern : pattern := Pattern [] [S_] [[E_; ES_; S_; SS_]; [E_; EE_; SE_]].
Lemma toy_ik_has : has_pattern toy_ik toy_ik_pattern.
Proof. exists 14, "IK"%string. split; [cbn; tauto|]. split; [|reflexivity]. constructor; cbn; tauto. Qed.
Definition toy_wrong (initiator : bool) : list hs_op :=
  if initiator then [toy_peer 11; toy_psk; toy_static 7; toy_prologue [1; 2; 3]] else [toy_static 9; toy_prologue [1; 2; 3]; toy_psk].
Definition toy_write (mx : Z) (pay : option nbuf) : hs_op := HWrite toy_env (NBuf (Some (zeros mx)) 0 mx) pay.
Definition toy_read (m : list Z) : hs_op := HRead toy_env2 (NBuf (Some m) (zlen m) (zlen m)) None.
Definition toy_written (mx0 : Z) (r : outcome (hs_res * handshakestate)) : option (list Z * Z) :=
  match r with Ok (HRes E_NONE (Some (NBuf (Some mem) n mx)) None None None None, _) => if mx =? mx0 then Some (mem, n) else None | _ => None end.
Definition toy_err (r : outcome (hs_res * handshakestate)) : option err := match r with Ok (r, _) => Some (hr_err r) | UB => None end.
Definition toy_message : list Z := Eval vm_compute in
  match toy_written 200 (let! a := toy_at toy_ik true (toy_wrong true) in hs_step toy_lib a (toy_write 200 (Some (NBuf (Some [5; 6]) 2 2)))) with Some (mem, n) => take n mem | None => [] end.

Lemma toy_proper : forall n s, option_map (fun d => (dd_private (ds_data d), dd_public (ds_data d))) (ko_static (hs_local s)) = Some (repeat n 32, toy_base (repeat n 32)) ->
  is_byte n -> all_zerob (toy_base (repeat n 32)) = false -> proper_static toy_suite (good_pair 32 toy_base) s.
Proof.
  intros n s Ed Hn Hz k Lk. unfold local_pair in Lk. destruct (ko_static (hs_local s)) as [d|]; [|contradiction]. cbn [option_map] in Ed.
  apply (f_equal (fun o => match o with Some x => x | None => ([], []) end)) in Ed. cbv iota in Ed.
  destruct Lk as [_ Sp]. unfold static_pair in Sp. cbn [n_dh toy_suite toy_curve_functions curve25519_functions PAIR] in Sp. rewrite Ed in Sp.
  apply (f_equal (fun o => match o with Some x => x | None => k end)) in Sp. cbv iota in Sp. subst k. unfold good_pair. cbn [fst snd].
  split; [|split; [reflexivity|exact Hz]]. split; [unfold zlen; rewrite repeat_length; reflexivity|]. apply Forall_forall. intros x Hx. apply repeat_spec in Hx. subst x. exact Hn.
Qed.
Lemma toy_open : forall id i ops n log s, toy_set id i ops = Ok (log, s) -> is_byte n -> all_zerob (toy_base (repeat n 32)) = false ->
  toy_keys (toy_set id i ops) <> None ->
  match toy_keys (toy_set id i ops) with Some (_, _, Some x, _, _) => x = (repeat n 32, toy_base (repeat n 32)) | _ => False end -> proper_static toy_suite (good_pair 32 toy_base) s.
Proof.
  intros id i ops n log s Es Hn Hz _ H. rewrite Es in H. cbn [toy_keys] in H. apply (toy_proper n); [|exact Hn|exact Hz].
  destruct (ko_static (hs_local s)); cbn [option_map] in *; [now rewrite H|contradiction].
Qed.
Lemma toy_at_inv : forall id i ops s1, toy_at id i ops = Ok s1 -> exists log s, toy_set id i ops = Ok (log, s) /\ handshakestate_start s = Ok (E_NONE, s1).
Proof.
  intros id i ops s1 H. unfold toy_at in H. destruct (toy_set id i ops) as [[log s]|]; [|discriminate H]. cbn [obind snd] in H.
  destruct (handshakestate_start s) as [[e s']|] eqn:Q; [|discriminate H]. cbn [obind] in H. destruct e; try discriminate H. injection H as <-. exists log, s. split; [reflexivity|assumption].
Qed.
Lemma toy_written_inv : forall mx0 r mem n, toy_written mx0 r = Some (mem, n) -> exists s, r = Ok (message_result E_NONE (NBuf (Some mem) n mx0) None, s).
Proof.
  intros mx0 [[[e msg pay x y z] s]|] mem n H; [|discriminate H]. cbn [toy_written] in H. destruct e; try discriminate H. destruct msg as [[[d|] sz mx]|]; try discriminate H.
  destruct pay, x, y, z; try discriminate H. destruct (Z.eqb_spec mx mx0) as [-> |]; [|discriminate H]. injection H as -> ->. exists s. reflexivity.
Qed.

(** The scene for any protocol: the first message [m] has payload [pay] and is written to a buffer of [mx] bytes; the responder reads it; the initiator then reads [bad]. *)
Lemma toy_scene : forall id pat pay m junk mx bad ea eb, ea <> E_NONE ->
  new_err (handshakestate_new_by_id toy_lib (Some (id, [0; 0; 0; 0])) (role_id true)) = Some E_NONE ->
  new_err (handshakestate_new_by_id toy_lib (Some (id, [0; 0; 0; 0])) (role_id false)) = Some E_NONE ->
  toy_errs (toy_set id true (toy_wrong true)) = Some [E_NONE; E_NONE; E_NONE; E_NONE] ->
  toy_errs (toy_set id false (toy_wrong false)) = Some [E_NONE; E_NONE; E_NONE] ->
  toy_written mx (let! a := toy_at id true (toy_wrong true) in hs_step toy_lib a (toy_write mx pay)) = Some (m ++ junk, zlen m) ->
  (let! a := toy_at id true (toy_wrong true) in let! x := hs_step toy_lib a (toy_write mx pay) in let! y := hs_step toy_lib (snd x) (toy_read bad) in Ok (hr_err (fst y), hs_action (snd y))) = Ok (ea, ACTION_FAILED) ->
  (let! b := toy_at id false (toy_wrong false) in let! y := hs_step toy_lib b (toy_read m) in Ok (hr_err (fst y), hs_action (snd y))) = Ok (eb, ACTION_FAILED) ->
  toy_keys (toy_set id true (toy_wrong true)) = Some ([1; 2; 3], Some (repeat 99 32), Some (repeat 7 32, toy_base (repeat 7 32)), Some (toy_base (repeat 7 32)), Some (toy_base (repeat 11 32))) ->
  toy_keys (toy_set id false (toy_wrong false)) = Some ([1; 2; 3], Some (repeat 99 32), Some (repeat 9 32, toy_base (repeat 9 32)), Some (toy_base (repeat 9 32)), None) ->
  handshake_call (toy_write mx pay) -> handshake_call (toy_read m) -> handshake_call (toy_read bad) ->
  exists a b, misunderstood toy_lib toy_suite id pat (good_pair 32 toy_base) (fun _ => True) a b /\ hs_action a = ACTION_FAILED /\ hs_action b = ACTION_FAILED /\
    exists b1 r, toy_at id false (toy_wrong false) = Ok b1 /\ hs_step toy_lib b1 (toy_read m) = Ok (r, b).
Proof.
  intros id pat pay m junk mx bad ea eb Nea Na Nb Sea Seb Wa Wa2 Wb Ka Kb C1 C2 C3.
  destruct (toy_set_up id true (toy_wrong true) [E_NONE; E_NONE; E_NONE; E_NONE] Na) as (la & a & Sa & Ea); [toy_calls_ok|exact Sea|].
  destruct (toy_set_up id false (toy_wrong false) [E_NONE; E_NONE; E_NONE] Nb) as (lb & b & Sb & Eb); [toy_calls_ok|exact Seb|].
  destruct (toy_at id true (toy_wrong true)) as [a1|] eqn:Ta; [|discriminate Wa]. destruct (toy_at id false (toy_wrong false)) as [b1|] eqn:Tb; [|discriminate Wb].
  destruct (toy_at_inv _ _ _ _ Ta) as (la' & a' & Ea' & Sta). destruct (toy_at_inv _ _ _ _ Tb) as (lb' & b' & Eb' & Stb). rewrite Ea in Ea'. rewrite Eb in Eb'. injection Ea' as <- <-. injection Eb' as <- <-.
  cbn [obind] in Wa, Wa2, Wb. destruct (toy_written_inv _ _ _ _ Wa) as (a2 & Ew). rewrite Ew in Wa2. cbn [obind snd] in Wa2.
  destruct (hs_step toy_lib a2 (toy_read bad)) as [[ra a3]|] eqn:Era; [|discriminate Wa2]. cbn [obind fst snd] in Wa2. injection Wa2 as Ra Aa.
  destruct (hs_step toy_lib b1 (toy_read m)) as [[rb b2]|] eqn:Erb; [|discriminate Wb]. cbn [obind fst snd] in Wb. injection Wb as Rb Ab.
  rewrite Ea in Ka. rewrite Eb in Kb. cbn [toy_keys] in Ka, Kb. injection Ka as A1 A2 A3 A4 A5. injection Kb as B1 B2 B3 B4 B5.
  exists a3, b2. split; [|split; [exact Aa|]; split; [exact Ab|]; exists b1, rb; auto]. constructor. exists a, la, a1, a2, b, lb, b1. split; [exact Sa|]. split; [exact Sb|]. split; [now rewrite A1, B1|]. split; [now rewrite A2, B2|].
  split; [apply (toy_proper 7); [exact A3|unfold is_byte; lia|vm_compute; reflexivity]|].
  split; [apply (toy_proper 9); [exact B3|unfold is_byte; lia|vm_compute; reflexivity]|]. split; [exact Sta|]. split; [exact Stb|]. split.
  - exists toy_env, (zeros mx), 0, mx, pay, (m ++ junk), m, toy_env2, m, (zlen m), (zlen m), None, rb.
    cbv zeta. split; [exact C1|]. split; [auto|]. split; [exact Ew|]. split; [apply take_app_exact|]. split; [exact C2|].
    split; [|exact Erb]. now rewrite (take_all _ (zlen m) m) by apply Z.le_refl.
  - right. exists toy_env2, bad, (zlen bad), (zlen bad), None, ra. cbv zeta. split; [exact C3|]. split; [exact Era|]. rewrite Ra. exact Nea.
Qed.
Lemma toy_read_call : forall m, bytes m -> zlen m < 2^64 -> handshake_call (toy_read m).
Proof. intros m Hb Hl. cbn [handshake_call toy_read b_data b_size b_max]. split; [|exact Logic.I]. split; [exact Hb|]. pose proof (zlen_nonneg _ m). lia. Qed.
Lemma toy_write_call : forall mx pay, 0 <= mx < 2^64 -> match pay with Some (NBuf (Some d) n x) => bytes d /\ n = zlen d /\ x = zlen d /\ zlen d < 2^64 | Some _ => False | None => True end -> handshake_call (toy_write mx pay).
Proof.
  intros mx pay Hmx Hp. cbn [handshake_call toy_write b_data b_size b_max].
  assert (R : forall k t, rng_ok (fun n => repeat ((t + k) mod 256) (Z.to_nat n))).
  { intros k t n Hn. split; [unfold zlen; rewrite repeat_length; lia|].
    apply Forall_forall. intros x Hx. apply repeat_spec in Hx. subst x. unfold is_byte. apply Z.mod_pos_bound. lia. }
  split; [intros t; apply (R 100 t)|]. split; [split; [apply bytes_zeros|]; rewrite zlen_zeros; lia|].
  destruct pay as [[[d|] n x]|]; [|contradiction|exact Logic.I]. destruct Hp as (Hb & -> & -> & Hl). pose proof (zlen_nonneg _ d). cbn. split; [exact Hb|]. lia.
Qed.
Lemma toy_misunderstood : exists a b, misunderstood toy_lib toy_suite toy_ik toy_ik_pattern (good_pair 32 toy_base) (fun _ => True) a b /\ hs_action a = ACTION_FAILED /\ hs_action b = ACTION_FAILED.
Proof.
  destruct (toy_scene toy_ik toy_ik_pattern (Some (NBuf (Some [5; 6]) 2 2)) toy_message (zeros 132) 200 (repeat 9 48) E_MAC_FAILURE E_MAC_FAILURE) as (a & b & M & Aa & Ab & _);
    [discriminate|vm_compute; reflexivity|vm_compute; reflexivity|vm_compute; reflexivity|vm_compute; reflexivity|vm_compute; reflexivity|vm_compute; reflexivity|vm_compute; reflexivity|vm_compute; reflexivity|vm_compute; reflexivity| | | |].
  - apply toy_write_call; [lia|]. split; [apply toy_bytes; reflexivity|]. repeat split; vm_compute; reflexivity.
  - apply toy_read_call; [apply toy_bytes; vm_compute; reflexivity|vm_compute; reflexivity].
  - apply toy_read_call; [apply toy_bytes; vm_compute; reflexivity|vm_compute; reflexivity].
  - exists a, b. auto.
Qed.
Definition toy_fallback_pattern : pattern := Pattern [] [E_] [[E_; EE_; S_; SE_]; [S_; ES_]].
Lemma toy_fallback_has : has_pattern (fallback_id toy_ik toy_ik_pattern) toy_fallback_pattern.
Proof. destruct (fpat_in false) as (n & Hi). exact (in_all_pattern (fallback_id toy_ik toy_ik_pattern) 16 n _ Hi eq_refl). Qed.
Lemma toy_fallback_turns : turns_ok toy_suite (fallback_id toy_ik toy_ik_pattern) (fun _ => True) true (psk_mode toy_ik) (messages toy_fallback_pattern) toy_turns.
Proof.
  assert (R : forall k t, rng_ok (fun n => repeat ((t + k) mod 256) (Z.to_nat n))).
  { intros k t n Hn. split; [unfold zlen; rewrite repeat_length; lia|].
    apply Forall_forall. intros x Hx. apply repeat_spec in Hx. subst x. unfold is_byte. apply Z.mod_pos_bound. lia. }
  assert (Z0 : zlen (zeros 2200) = 2200) by (apply zlen_zeros; lia).
  assert (T : forall env p, (forall t, rng_ok (env_rand env t)) -> bytes p -> zlen p <= 10 -> turn_ok (fun _ => True) (toy_turn env p)).
  { intros env p He Hb Hl. unfold turn_ok, toy_turn. cbn [t_rand t_mem t_size t_max t_payload t_env t_tail t_out handshake_call b_data b_size b_max payload_bytes].
    rewrite Z0. change (zlen (zeros 10)) with 10. pose proof (zlen_nonneg _ p). unfold contents. cbn [b_data b_size]. rewrite ?take_all by lia.
    split; [split; [exact He|]; split; [split; [apply bytes_zeros|]; split; [lia|vm_compute; reflexivity]|]; split; [exact Hb|lia]|].
    split; [auto|]. split; [apply toy_bytes; reflexivity|lia]. }
  cbn [messages toy_fallback_pattern toy_turns turns_ok].
  split; [apply T; [intros t; apply (R 100 t)|apply toy_bytes; reflexivity|vm_compute; discriminate]|]. split; [vm_compute; discriminate|]. split; [vm_compute; discriminate|].
  split; [apply T; [intros t; apply (R 200 t)|apply toy_bytes; reflexivity|vm_compute; discriminate]|]. split; [vm_compute; discriminate|]. split; [vm_compute; discriminate|]. exact Logic.I.
Qed.
Example C31_example : exists w r, exchange toy_lib w r toy_turns agreed /\ exchange toy_lib w r toy_turns (transport toy_suite toy_lib).
Proof.
  destruct toy_misunderstood as (a & b & M & _). destruct toy_agrees as [Ad Ah].
  destruct (C31_fallback_agrees toy_lib toy_ik toy_suite toy_ik_pattern (good_pair 32 toy_base) (fun _ => True) a b
    (toy_provides PREFIX_PSK 14 DH_NONE (or_introl eq_refl)) toy_ik_has eq_refl (or_intror eq_refl) Ad Ah M) as (w0 & w & r0 & r & _ & _ & _ & _ & _ & _ & T).
  exists w, r. exact (T _ _ toy_fallback_has toy_fallback_turns).
Qed.

(** The two restrictions of the theorem are needed.  In the PSK hfs protocols
    the hybrid key of the first message is encrypted under a key that depends
    on the responder's static key: a responder for which the message was not
    meant does not get it, and cannot fall back.  (In the Noise specification
    of the time this is a matter of the protocol, not of the library.) *)
Definition toy_hfs_message : list Z := Eval vm_compute in
  match toy_written 2200 (let! a := toy_at toy_ikhfs true (toy_wrong true) in hs_step toy_lib a (toy_write 2200 None)) with Some (mem, n) => take n mem | None => [] end.
Theorem C31_psk_hybrid_refuted : exists lib id N pat static good initiator responder,
  provides lib id N /\ has_pattern id pat /\ can_fall_back pat = true /\ psk_mode id = true /\ uses pat true F_ = true /\
  dh_agrees (n_dh N) static good /\ dh_agrees (n_hyb N) (fun _ => False) good /\
  misunderstood lib N id pat static good initiator responder /\
  handshakestate_fallback_to responder (fallback_number pat) = Ok (E_INVALID_STATE, responder).
Proof.
  destruct (toy_scene toy_ikhfs toy_ikhfs_pattern None toy_hfs_message (zeros (2200 - zlen toy_hfs_message)) 2200 (repeat 9 2000) E_INVALID_LENGTH E_MAC_FAILURE) as (a & b & M & Aa & Ab & b1 & r & Tb & Er);
    [discriminate|vm_compute; reflexivity|vm_compute; reflexivity|vm_compute; reflexivity|vm_compute; reflexivity|vm_compute; reflexivity|vm_compute; reflexivity|vm_compute; reflexivity|vm_compute; reflexivity|vm_compute; reflexivity| | | |].
  - apply toy_write_call; [lia|exact Logic.I].
  - apply toy_read_call; [apply toy_bytes; vm_compute; reflexivity|vm_compute; reflexivity].
  - apply toy_read_call; [apply toy_bytes; vm_compute; reflexivity|vm_compute; reflexivity].
  - assert (W : (let! b := toy_at toy_ikhfs false (toy_wrong false) in let! y := hs_step toy_lib b (toy_read toy_hfs_message) in
      Ok (has_bit (hs_requirements (snd y)) REQ_FALLBACK_POSSIBLE, pi_pattern (ss_id (hs_symmetric (snd y))), hs_role (snd y),
          (dhstate_has_public_key (ko_ephemeral (hs_remote (snd y))), is_null_ptr (ko_hybrid (hs_remote (snd y))), dhstate_has_public_key (ko_hybrid (hs_remote (snd y)))))) =
      Ok (true, 80 * 256 + 58, ROLE_RESPONDER, (true, false, false))) by (vm_compute; reflexivity).
    rewrite Tb in W. cbn [obind] in W. rewrite Er in W. cbn [obind snd] in W. injection W as W1 W2 W3 W4 W5 W6.
    exists toy_lib, toy_ikhfs, toy_suite, toy_ikhfs_pattern, (good_pair 32 toy_base), (fun _ => True), a, b.
    split; [exact (toy_provides PREFIX_PSK 58 DH_NEWHOPE (or_intror eq_refl))|]. split; [exact toy_ikhfs_has|]. split; [reflexivity|]. split; [reflexivity|]. split; [reflexivity|].
    split; [apply toy_agrees|]. split; [apply toy_agrees|]. split; [exact M|].
    unfold handshakestate_fallback_to. cbv zeta. rewrite W1, W2. change ((80 * 256 + 58 <? PATTERN_NN) || negb true) with false. cbv iota.
    assert (Lk : noise_pattern_lookup (fallback_number toy_ikhfs_pattern) <> None /\ forall x, noise_pattern_lookup (fallback_number toy_ikhfs_pattern) = Some x -> has_bit (pattern_flags x) FLAG_REMOTE_EPHEM_REQ = true).
    { split; [vm_compute; discriminate|]. intros x Ex. vm_compute in Ex. injection Ex as <-. reflexivity. }
    destruct (noise_pattern_lookup _) as [x|]; [|destruct Lk as [X _]; congruence]. destruct Lk as [_ Lk]. rewrite (Lk x eq_refl). cbn [negb].
    rewrite W3, Ab. change (ROLE_RESPONDER =? ROLE_INITIATOR) with false. change (negb (ACTION_FAILED =? ACTION_FAILED)) with false. cbn [andb]. rewrite W4, W5, W6. reflexivity.
Qed.
Print Assumptions C31_psk_hybrid_refuted.

(** A protocol where the initiator has no static key (NK here) may fall back too,
    but the object can then never be started: XXfallback wants a static key of
    it, and there is no object to put that into. *)
Theorem C31_no_static_refuted : exists lib id N log a0 a1 env mem max payload res a2 a3,
  provides lib id N /\ has_pattern id (Pattern [] [S_] [[E_; ES_]; [E_; EE_]]) /\ set_up N id lib true log a0 /\ handshakestate_start a0 = Ok (E_NONE, a1) /\
  hs_step lib a1 (HWrite env (NBuf (Some mem) 0 max) payload) = Ok (res, a2) /\ hr_err res = E_NONE /\
  handshakestate_fallback a2 = Ok (E_NONE, a3) /\
  hs_step lib a3 (HKey LocalStatic (DSetPrivate (Some (repeat 7 32)) 32)) = Ok (plain E_INVALID_PARAM, a3) /\
  handshakestate_start a3 = Ok (E_LOCAL_KEY_REQUIRED, a3).
Proof.
  pose (id := toy_id PREFIX_STANDARD 5 DH_NONE). pose (write := toy_write 200 None).
  destruct (toy_set_up id true [toy_peer 9] [E_NONE]) as (la & a & Sa & Ea); [vm_compute; reflexivity|toy_calls_ok|vm_compute; reflexivity|].
  assert (W : (let! a := toy_at id true [toy_peer 9] in let! x := hs_step toy_lib a write in let! y := handshakestate_fallback (snd x) in
      Ok (hr_err (fst x), fst y, hs_action (snd y), pi_pattern (ss_id (hs_symmetric (snd y))), has_bit (hs_requirements (snd y)) REQ_FALLBACK_PREMSG, has_bit (hs_requirements (snd y)) REQ_LOCAL_REQUIRED, is_null_ptr (ko_static (hs_local (snd y))))) =
      Ok (E_NONE, E_NONE, ACTION_NONE, PATTERN_XX_FALLBACK, true, true, true)) by (vm_compute; reflexivity).
  destruct (toy_at id true [toy_peer 9]) as [a1|] eqn:Ta; [|discriminate W]. destruct (toy_at_inv _ _ _ _ Ta) as (la' & a' & Ea' & Sta). rewrite Ea in Ea'. injection Ea' as <- <-. cbn [obind] in W.
  destruct (hs_step toy_lib a1 write) as [[res a2]|] eqn:Ew; [|discriminate W]. cbn [obind fst snd] in W.
  destruct (handshakestate_fallback a2) as [[e a3]|] eqn:Ef; [|discriminate W]. cbn [obind fst snd] in W. injection W as W1 W2 W3 W4 W5 W6 W7. subst e.
  exists toy_lib, id, toy_suite, la, a, a1, toy_env, (zeros 200), 200, None, res, a2, a3.
  split; [exact (toy_provides PREFIX_STANDARD 5 DH_NONE (or_introl eq_refl))|].
  split; [exists 5, "NK"%string; split; [cbn; tauto|]; split; [constructor; cbn; tauto|reflexivity]|].
  split; [exact Sa|]. split; [exact Sta|]. split; [exact Ew|]. split; [exact W1|]. split; [exact Ef|].
  assert (Hn : ko_static (hs_local a3) = None) by (destruct (ko_static (hs_local a3)); [discriminate W7|reflexivity]). split.
  - unfold hs_step, key_object. rewrite Hn. reflexivity.
  - unfold handshakestate_start. rewrite W3, W4, W5, W6, Hn. reflexivity.
Qed.
Print Assumptions C31_no_static_refuted.
