(** Properties C24, C29 and C69: starting a handshake, and the messages that follow. *)
From Coq Require Import ZifyBool ZifyNat String.
From Verif Require Import Base SNames MCipher SCipher MHash SHash MSymm SSymm MPatterns SPatterns MDh SDh MHandshake SHandshake SHsApi
  PHandshake PHsTok PHsMsg SNoise PHsStart PHsRun PHsOpen Toy ToyHash ToyDh ToyHs ToyNoise.

(** C24.  For every pattern, role, algorithm choice, and everything done with
    the object before start: needs_... tells exactly what is required and still
    missing, and start succeeds exactly when nothing is; otherwise it returns
    the documented error and changes nothing.  (A fallback pattern is never
    started from scratch; see C25.) *)
Theorem C24_start_exactly_when_ready : forall lib id N pat initiator log s,
  provides lib id N -> has_pattern id pat -> fallback_pattern pat = false -> set_up N id lib initiator log s ->
  needs_local_keypair s = uses pat initiator S_ && negb (has_local_keypair s) /\
  needs_remote_public_key s = given pat (negb initiator) S_ && negb (has_remote_public_key s) /\
  needs_pre_shared_key s = psk_mode id && negb (has_pre_shared_key s) /\
  has_pre_shared_key s = known (psk_set None log) /\
  exists e s', handshakestate_start s = Ok (e, s') /\
    if needs_local_keypair s then e = E_LOCAL_KEY_REQUIRED /\ s' = s
    else if needs_remote_public_key s then e = E_REMOTE_KEY_REQUIRED /\ s' = s
    else if needs_pre_shared_key s then e = E_PSK_REQUIRED /\ s' = s
    else e = E_NONE /\ hs_action s' = if initiator then ACTION_WRITE_MESSAGE else ACTION_READ_MESSAGE.
Proof.
  intros lib id N pat i log s V Hp Hf Su.
  destruct (opened lib id N V i log s pat Su Hp) as (dview & dready & hview & hready & name & Ld & Lh & Ls & Ht & Hpf & Hfb & Rq & P).
  pose proof P as [A1 A2 A3 A4 (B1 & B2 & B3 & B4 & B5 & B6) A6 A7 A8 A9 A10 A11 A12 A13 A14 A15 A16 A17].
  assert (Hx : pi_pattern id = PATTERN_XX_FALLBACK -> false = true) by (intros X; rewrite <- Hf; auto).
  assert (K : has_pre_shared_key s = known (psk_set None log)).
  { unfold has_pre_shared_key. destruct (psk_set None log) as [q|]; [destruct A16 as (-> & Z1 & _); rewrite Z1; reflexivity|rewrite A16; reflexivity]. }
  assert (N1 : needs_local_keypair s = uses pat i S_ && negb (dhstate_has_keypair (ko_static (hs_local s)))).
  { unfold needs_local_keypair. rewrite B1. destruct (uses pat i S_); reflexivity. }
  assert (N2 : needs_remote_public_key s = given pat (negb i) S_ && negb (dhstate_has_public_key (ko_static (hs_remote s)))).
  { unfold needs_remote_public_key. rewrite B3. destruct (given pat (negb i) S_); reflexivity. }
  assert (N3 : needs_pre_shared_key s = psk_mode id && negb (known (psk_set None log))).
  { rewrite <- K. unfold needs_pre_shared_key, has_pre_shared_key. rewrite B5. destruct (psk_mode id), (zlen (hs_psk s) =? 0); reflexivity. }
  assert (H1 : has_local_keypair s = dhstate_has_keypair (ko_static (hs_local s))) by (unfold has_local_keypair; destruct (ko_static (hs_local s)); reflexivity).
  assert (H2 : has_remote_public_key s = dhstate_has_public_key (ko_static (hs_remote s))) by (unfold has_remote_public_key; destruct (ko_static (hs_remote s)); reflexivity).
  rewrite H1, H2, K. split; [exact N1|]. split; [exact N2|]. split; [exact N3|]. split; [reflexivity|].
  pose proof (start_answer N id dview dready hview hready Ls _ _ _ _ _ _ _ _ _ _ _ _ P Hx) as A. rewrite <- N1, <- N2, <- N3 in A.
  destruct (needs_local_keypair s) eqn:C1; [do 2 eexists; split; [exact A|auto]|].
  destruct (needs_remote_public_key s) eqn:C2; [do 2 eexists; split; [exact A|auto]|].
  destruct (needs_pre_shared_key s) eqn:C3; [do 2 eexists; split; [exact A|auto]|].
  destruct (not_fallback pat i Hf Hpf) as (G1 & G2 & G3). destruct (not_fallback pat (negb i) Hf Hpf) as (G1' & G2' & _).
  pose proof (start_ok N id (pv_cipher_ok _ _ _ V) (pv_hash_ok _ _ _ V) (pv_key _ _ _ V) dview dready hview hready Ld Lh Ls pat i name (prologue_set [] log) (psk_set None log) None None None None s) as St.
  cbv zeta in St. rewrite Hf in St. rewrite G3 in P. cbn [known] in St. rewrite ?G1, ?G2, ?G1', ?G2' in St.
  destruct (St Hpf P Hx eq_refl eq_refl eq_refl eq_refl) as (k & s' & E' & _).
  { intros X. rewrite X in N1. now destruct (dhstate_has_keypair _). } { intros X. rewrite X in N2. now destruct (dhstate_has_public_key _). }
  { intros X. rewrite X in N3. now destruct (known _). }
  exists E_NONE, s'. split; [exact E'|]. split; [reflexivity|]. rewrite A in E'.
  destruct (start_prologue s) as [y|]; [|discriminate E']; cbn [obind] in E'. destruct (start_psk s y) as [y1|]; [|discriminate E']; cbn [obind] in E'.
  destruct (start_keys s y1) as [y2|]; [|discriminate E']; cbn [obind] in E'. injection E' as <-. reflexivity.
Qed.
Print Assumptions C24_start_exactly_when_ready.
(** NoisePSK_IK, initiator: nothing set; the key pair missing; the key of the
    responder missing; everything there. *)
Example C24_example :
  (exists log s, set_up toy_suite (toy_id PREFIX_PSK 14 0) toy_lib true log s /\ handshakestate_start s = Ok (E_LOCAL_KEY_REQUIRED, s)) /\
  has_pattern (toy_id PREFIX_PSK 14 0) (Pattern [] [S_] [[E_; ES_; S_; SS_]; [E_; EE_; SE_]]) /\
  map (fun ops => toy_start (toy_set (toy_id PREFIX_PSK 14 0) true ops)) [[toy_static 7]; [toy_static 7; toy_peer 9]; [toy_peer 9; toy_psk; toy_static 7; toy_prologue [1; 2; 3]]] =
  [Some (E_REMOTE_KEY_REQUIRED, 0); Some (E_PSK_REQUIRED, 0); Some (E_NONE, ACTION_WRITE_MESSAGE)].
Proof.
  assert (Hp : has_pattern (toy_id PREFIX_PSK 14 0) (Pattern [] [S_] [[E_; ES_; S_; SS_]; [E_; EE_; SE_]])).
  { exists 14, "IK"%string. split; [cbn; tauto|]. split; [apply np_basic; reflexivity|reflexivity]. }
  split; [|split; [exact Hp|vm_compute; reflexivity]].
  destruct (toy_set_up (toy_id PREFIX_PSK 14 0) true [] []) as (log & s & Su & Es); [vm_compute; reflexivity|toy_calls_ok|vm_compute; reflexivity|].
  exists log, s. split; [exact Su|].
  destruct (C24_start_exactly_when_ready _ _ _ _ _ _ _ (toy_provides PREFIX_PSK 14 0 (or_introl eq_refl)) Hp eq_refl Su) as (_ & _ & _ & _ & e & s' & E & R).
  replace (needs_local_keypair s) with true in R; [destruct R as [-> ->]; exact E|].
  assert (X : match toy_set (toy_id PREFIX_PSK 14 0) true [] with Ok (_, s) => needs_local_keypair s | UB => false end = true) by (vm_compute; reflexivity).
  rewrite Es in X. now rewrite X.
Qed.

(** XXfallback itself cannot be started from scratch. *)
Theorem C24_fallback_needs_a_first_handshake : forall lib id N initiator log s,
  provides lib id N -> pi_pattern id = 80 * 256 + 16 -> set_up N id lib initiator log s ->
  handshakestate_start s = Ok (E_NOT_APPLICABLE, s).
Proof.
  intros lib id N i log s V Hp Su.
  destruct (opened lib id N V i log s (Pattern [] [E_] [[E_; EE_; S_; SE_]; [S_; ES_]]) Su) as (dview & dready & hview & hready & name & Ld & Lh & Ls & Ht & Hpf & Hfb & Rq & P).
  { exists 16, "XXfallback"%string. split; [cbn; tauto|]. split; [|exact Hp]. apply np_basic. reflexivity. }
  pose proof P as [A1 A2 A3 A4 (B1 & B2 & B3 & B4 & B5 & B6) A6 A7 A8 A9 A10 A11 A12 A13 A14 A15 A16 A17].
  unfold handshakestate_start. rewrite A1, A4, Hp, B6. reflexivity.
Qed.
Print Assumptions C24_fallback_needs_a_first_handshake.

(** C69.  After start, every call on the object does what the Noise
    specification says: the log of calls and results is one that [follows]
    allows, starting from the specification's Initialize. *)
Theorem C69_messages_follow_the_specification : forall lib id N pat initiator log0 s s1 ops,
  provides lib id N -> has_pattern id pat -> fallback_pattern pat = false ->
  set_up N id lib initiator log0 s -> handshakestate_start s = Ok (E_NONE, s1) -> Forall handshake_call ops ->
  exists name k log s2 q, protocol_text id name /\ local_pair N (ko_static (hs_local s)) k /\
    hs_run lib s1 ops = Ok (log, s2) /\
    follows N id (Running (nInitialize N id name (prologue_set [] log0) (psk_set None log0) pat initiator (negb initiator)
      k None None (remote_key (ko_static (hs_remote s))) None None)) log q.
Proof.
  intros lib id N pat i log0 s s1 ops V Hp Hf Su Es Fo.
  destruct (started lib id N V i log0 s s1 pat Su Hp Hf Es) as (dview & dready & hview & hready & name & k & Ld & Lh & Ht & Hpf & Lp & L1 & L2 & Kp & _ & _ & _ & At).
  destruct (run_follows N id (pv_cipher_ok _ _ _ V) (pv_hash_ok _ _ _ V) (pv_key _ _ _ V) (pv_mac _ _ _ V) dview dready hview hready Ld Lh lib ops s1 _ (At : tracks N id dview dready hview hready s1 (Running _)) Fo)
    as (log & s2 & q & E1 & _ & F).
  exists name, k, log, s2, q. auto.
Qed.
Print Assumptions C69_messages_follow_the_specification.
(** The hypotheses are met: NoisePSK_IK with a prologue; two calls out of order,
    then a message with a payload. *)
Definition toy_ik_calls : list hs_op :=
  [HRead toy_env (NBuf (Some (zeros 40)) 40 40) None; HSplit true true true;
   HWrite toy_env (NBuf (Some (zeros 200)) 0 200) (Some (NBuf (Some [5; 6; 7]) 3 3))].
Lemma toy_ik_calls_ok : Forall handshake_call toy_ik_calls.
Proof.
  assert (R : forall t, rng_ok (env_rand toy_env t)).
  { intros t n Hn. cbn [toy_env env_rand]. split; [unfold zlen; rewrite repeat_length; lia|].
    apply Forall_forall. intros x Hx. apply repeat_spec in Hx. subst x. unfold is_byte. lia. }
  repeat apply Forall_cons; try apply Forall_nil; cbn [handshake_call b_data b_size b_max]; repeat split; try (apply R; assumption); try (vm_compute; discriminate); try (vm_compute; reflexivity);
    try (apply toy_bytes; vm_compute; reflexivity).
Qed.
Example C69_example :
  (exists log s s1, set_up toy_suite (toy_id PREFIX_PSK 14 0) toy_lib true log s /\ handshakestate_start s = Ok (E_NONE, s1) /\
     prologue_set [] log = [1; 2; 3] /\ psk_set None log = Some (repeat 99 32)) /\ Forall handshake_call toy_ik_calls /\
  match toy_set (toy_id PREFIX_PSK 14 0) true [toy_peer 9; toy_psk; toy_static 7; toy_prologue [1; 2; 3]] with
  | Ok (_, s) => match handshakestate_start s with
                 | Ok (_, s1) => match hs_run toy_lib s1 toy_ik_calls with
                                 | Ok (log, s2) => (map (fun x => (hr_err (snd x), option_map b_size (hr_message (snd x)))) log, hs_action s2) =
                                     ([(E_INVALID_STATE, Some 40); (E_INVALID_STATE, None); (E_NONE, Some 69)], ACTION_READ_MESSAGE)
                                 | UB => False end
                 | UB => False end
  | UB => False end.
Proof.
  split; [|split; [exact toy_ik_calls_ok|vm_compute; reflexivity]].
  destruct (toy_set_up (toy_id PREFIX_PSK 14 0) true [toy_peer 9; toy_psk; toy_static 7; toy_prologue [1; 2; 3]] [E_NONE; E_NONE; E_NONE; E_NONE]) as (log & s & Su & Es);
    [vm_compute; reflexivity|toy_calls_ok|vm_compute; reflexivity|].
  destruct (toy_started _ log s E_NONE ACTION_WRITE_MESSAGE Es) as (s1 & E1 & _); [vm_compute; reflexivity|].
  exists log, s, s1. split; [exact Su|]. split; [exact E1|].
  assert (X : match toy_set (toy_id PREFIX_PSK 14 0) true [toy_peer 9; toy_psk; toy_static 7; toy_prologue [1; 2; 3]] with Ok (log, _) => (prologue_set [] log, psk_set None log) | UB => ([], None) end = ([1; 2; 3], Some (repeat 99 32))) by (vm_compute; reflexivity).
  rewrite Es in X. injection X as -> ->. auto.
Qed.

(** C29.  The pre-shared key and the prologue can only be set before start. *)
Theorem C29_only_before_start : forall lib s op r s',
  (exists k n, op = HSetPsk k n) \/ (exists p n, op = HSetPrologue p n) ->
  hs_action s <> ACTION_NONE -> hs_step lib s op = Ok (r, s') -> hr_err r <> E_NONE /\ s' = s.
Proof.
  intros lib s op r s' Hop Ha E. apply Z.eqb_neq in Ha. destruct Hop as [(k & n & ->)|(k & n & ->)]; cbn [hs_step] in E.
  - unfold set_pre_shared_key in E. destruct k; [|injection E as <- <-; split; [discriminate|reflexivity]].
    destruct (n =? PSK_LEN); [|injection E as <- <-; split; [discriminate|reflexivity]]. destruct (prefix_of s =? PREFIX_PSK); [|injection E as <- <-; split; [discriminate|reflexivity]].
    rewrite Ha in E. injection E as <- <-. split; [discriminate|reflexivity].
  - unfold set_prologue in E. destruct k; [|injection E as <- <-; split; [discriminate|reflexivity]].
    rewrite Ha in E. injection E as <- <-. split; [discriminate|reflexivity].
Qed.
Print Assumptions C29_only_before_start.

(** C29.  What the handshake starts from, in terms of the hash function and
    HKDF: h is the protocol name (padded or hashed), then the prologue (empty if
    none was set) is hashed; then, in a NoisePSK protocol, the key replaces ck by
    the first output of HKDF and the second is hashed; then the pre-messages. *)
Definition start_state (N : suite) (name prologue : list Z) (psk : option (list Z)) : noise_sym :=
  let H := n_H N in
  let len := ha_hash_len (n_hash N) in
  let h0 := if zlen name <=? len then name ++ zeros (len - zlen name) else H name in
  match psk with
  | None => NSym h0 (H (h0 ++ prologue)) None 0
  | Some key => let '(ck, temp) := HKDF H (ha_block_len (n_hash N)) h0 key in NSym ck (H (H (h0 ++ prologue) ++ temp)) None 0
  end.
(** One pre-message public key: hashed, nothing else (there are only static ones) *)
Definition pre_message (N : suite) (key : option (list Z)) (ts : list tok) (s : noise_sym) : noise_sym :=
  match ts, key with [], _ => s | _, Some q => NSym (ns_ck s) (n_H N (ns_h s ++ q)) (ns_k s) (ns_n s) | _, None => s end.
Theorem C29_prologue_then_psk_before_the_first_message : forall lib id N pat initiator log0 s s1 ops,
  provides lib id N -> has_pattern id pat -> fallback_pattern pat = false ->
  set_up N id lib initiator log0 s -> handshakestate_start s = Ok (E_NONE, s1) -> Forall handshake_call ops ->
  exists name p log s2 q, protocol_text id name /\ (psk_mode id = true -> psk_set None log0 <> None) /\
    hs_run lib s1 ops = Ok (log, s2) /\ follows N id (Running p) log q /\ p_messages p = messages pat /\
    let own := remote_key (ko_static (hs_local s)) in
    let peer := remote_key (ko_static (hs_remote s)) in
    p_sym p = pre_message N (if initiator then peer else own) (pre_responder pat)
             (pre_message N (if initiator then own else peer) (pre_initiator pat)
             (start_state N name (prologue_set [] log0) (psk_set None log0))).
Proof.
  intros lib id N pat i log0 s s1 ops V Hp Hf Su Es Fo.
  destruct (started lib id N V i log0 s s1 pat Su Hp Hf Es) as (dview & dready & hview & hready & name & k & Ld & Lh & Ht & Hpf & Lp & L1 & L2 & Kp & Kk & Hs & _ & At).
  destruct (run_follows N id (pv_cipher_ok _ _ _ V) (pv_hash_ok _ _ _ V) (pv_key _ _ _ V) (pv_mac _ _ _ V) dview dready hview hready Ld Lh lib ops s1 _ (At : tracks N id dview dready hview hready s1 (Running _)) Fo)
    as (log & s2 & q & E1 & _ & F).
  do 5 eexists. split; [exact Ht|]. split; [intros X Y; specialize (Kk X); rewrite Y in Kk; discriminate Kk|]. split; [exact E1|]. split; [exact F|]. split; [reflexivity|].
  cbv zeta. assert (Own : option_map (PUB (n_dh N)) k = remote_key (ko_static (hs_local s))).
  { unfold local_pair in Lp. destruct (ko_static (hs_local s)) as [d|] eqn:Ed, k as [k|]; try contradiction Lp; [|reflexivity].
    destruct Lp as [Lp Sp]. cbn [option_map remote_key]. 
    pose proof (kr_s _ _ _ _ _ _ _ _ _ _ _ (r_keys _ _ _ _ _ _ _ _ _ _ _ _ _ (a_rel _ _ _ _ _ _ _ _ _ _ _ _ _ At))) as Ks.
    rewrite L1, Ed in Ks. cbn [nInitialize Initialize p_s] in Ks. destruct Ks as (W & _ & Kt & Rd & Ev).
    rewrite <- Ev. cbn [dhstate_has_public_key]. rewrite Kt. change (negb (key_type_eqb KEYPAIR NO_KEY)) with true. cbv iota. f_equal. unfold public_key, public_len. destruct W as [Wa Wd]. rewrite Wa. exact (lk_pub _ _ _ _ Ld _ Wd Rd). }
  destruct (list_fact _ Hpf) as (_ & _ & [(A & B & _)|(A & _)]); [|congruence].
  unfold nInitialize, Initialize, MixPrologue, InitializeSymmetric, start_state, pre_message. cbn [p_sym]. rewrite Own.
  destruct i, A as [-> | ->], B as [-> | ->]; cbn [fold_left MixPre]; destruct (psk_set None log0) as [key|]; cbn [MixHash ns_ck ns_h ns_k ns_n];
    try (destruct (HKDF _ _ _ key)); try (destruct (remote_key (ko_static (hs_local s)))); try (destruct (remote_key (ko_static (hs_remote s)))); reflexivity.
Qed.
Print Assumptions C29_prologue_then_psk_before_the_first_message.

(** The hypotheses are met by the run of [C69_example] (NoisePSK_IK with a
    prologue); a different prologue or key leads to a different hash. *)
Example C29_example :
  (exists log s s1, set_up toy_suite (toy_id PREFIX_PSK 14 0) toy_lib true log s /\ handshakestate_start s = Ok (E_NONE, s1) /\
     hs_action s1 <> ACTION_NONE /\ prologue_set [] log = [1; 2; 3] /\ psk_set None log = Some (repeat 99 32)) /\
  (let h p k := ns_h (start_state toy_suite [78; 111; 105; 115; 101] p k) in
   h [1; 2; 3] (Some (repeat 99 32)) <> h [1; 2; 4] (Some (repeat 99 32)) /\
   h [1; 2; 3] (Some (repeat 99 32)) <> h [1; 2; 3] (Some (repeat 98 32)) /\ h [1; 2; 3] (Some (repeat 99 32)) <> h [1; 2; 3] None).
Proof.
  split; [|cbv zeta; repeat split; intros X; vm_compute in X; discriminate X].
  destruct (toy_set_up (toy_id PREFIX_PSK 14 0) true [toy_peer 9; toy_psk; toy_static 7; toy_prologue [1; 2; 3]] [E_NONE; E_NONE; E_NONE; E_NONE]) as (log & s & Su & Es);
    [vm_compute; reflexivity|toy_calls_ok|vm_compute; reflexivity|].
  destruct (toy_started _ log s E_NONE ACTION_WRITE_MESSAGE Es) as (s1 & E1 & Ha); [vm_compute; reflexivity|].
  exists log, s, s1. split; [exact Su|]. split; [exact E1|]. split; [rewrite Ha; discriminate|].
  assert (X : match toy_set (toy_id PREFIX_PSK 14 0) true [toy_peer 9; toy_psk; toy_static 7; toy_prologue [1; 2; 3]] with Ok (log, _) => (prologue_set [] log, psk_set None log) | UB => ([], None) end = ([1; 2; 3], Some (repeat 99 32))) by (vm_compute; reflexivity).
  rewrite Es in X. injection X as -> ->. auto.
Qed.
