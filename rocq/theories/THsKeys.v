(** C25, C28 and C33: keys that were never set, null keys, failed constructions. *)
From Coq Require Import ZifyBool ZifyNat String.
From Verif Require Import Base SNames MCipher SCipher MHash SHash MSymm SSymm MNames MPatterns SPatterns MDh SDh MHandshake SHandshake SHsApi
  PHandshake PHsTok PHsMsg SNoise PHsStart PHsRun PHsOpen SAgree PHsSize PHsAgree PHsTalk PHsStage PDh Toy ToyHash ToyDh ToyHs ToyNoise THsStart.

(** C25, for a handshake that was started with start and did not fall back.  At
    any point: the keys of every DH in the current message are there already, or
    are generated or received earlier in that message. *)
Lemma sane_keys : forall x i sec wr pre w t post l r, sane_tokens x i sec wr w (pre ++ t :: post) = true -> dh_keys i t = Some (l, r) ->
  let w' := learn_tokens wr w pre in
  match l with E_ => w_e w' | S_ => w_s w' | F_ => w_f w' | _ => false end = true /\
  match r with E_ => w_re w' | S_ => w_rs w' | F_ => w_rf w' | _ => false end = true.
Proof.
  intros x i sec wr. induction pre as [|u pre IH]; intros w t post l r Sn Dk; cbn [app sane_tokens] in Sn; apply andb_prop in Sn as [S1 S2].
  - cbv zeta. cbn [learn_tokens fold_left]. destruct t; cbn [dh_keys] in Dk; try discriminate Dk; destruct wr; cbn [sane_write sane_read sane_dh] in S1;
      destruct i; injection Dk as <- <-; apply andb_prop in S1 as [S1 S3]; auto.
  - unfold learn_tokens. cbn [fold_left]. destruct wr; apply (IH _ _ _ _ _ S2 Dk).
Qed.
Lemma learned : forall wr pre w,
  (w_e (learn_tokens wr w pre) = true -> w_e w = true \/ wr = true /\ In E_ pre) /\ (w_s (learn_tokens wr w pre) = true -> w_s w = true) /\
  (w_f (learn_tokens wr w pre) = true -> w_f w = true \/ wr = true /\ In F_ pre) /\
  (w_re (learn_tokens wr w pre) = true -> w_re w = true \/ wr = false /\ In E_ pre) /\
  (w_rs (learn_tokens wr w pre) = true -> w_rs w = true \/ wr = false /\ In S_ pre) /\
  (w_rf (learn_tokens wr w pre) = true -> w_rf w = true \/ wr = false /\ In F_ pre).
Proof.
  intros wr. induction pre as [|u pre IH]; intros w; [cbn; tauto|]. unfold learn_tokens in *. cbn [fold_left In].
  destruct (IH ((if wr then learn_write else learn_read) w u)) as (A1 & A2 & A3 & A4 & A5 & A6).
  destruct wr, u; cbn [learn_write learn_read w_e w_s w_f w_re w_rs w_rf] in *; tauto.
Qed.
Theorem C25_dh_keys_known_partial : forall lib id N pat initiator log0 s s1 ops log s2,
  provides lib id N -> has_pattern id pat -> fallback_pattern pat = false ->
  set_up N id lib initiator log0 s -> handshakestate_start s = Ok (E_NONE, s1) -> Forall handshake_call ops ->
  hs_run lib s1 ops = Ok (log, s2) -> (hs_action s2 = ACTION_WRITE_MESSAGE \/ hs_action s2 = ACTION_READ_MESSAGE) ->
  exists name k p, protocol_text id name /\ local_pair N (ko_static (hs_local s)) k /\
    follows N id (Running (nInitialize N id name (prologue_set [] log0) (psk_set None log0) pat initiator (negb initiator)
      k None None (remote_key (ko_static (hs_remote s))) None None)) log (Running p) /\
    exists ts rest, p_messages p = ts :: rest /\
    forall before t after own peer, ts = before ++ t :: after -> dh_keys initiator t = Some (own, peer) ->
      (has_own p own \/ hs_action s2 = ACTION_WRITE_MESSAGE /\ In own before) /\
      (has_peer p peer \/ hs_action s2 = ACTION_READ_MESSAGE /\ In peer before).
Proof.
  intros lib id N pat i log0 s s1 ops log s2 V Hp Hf Su Es Fo Er Ha.
  destruct (start_stage lib id N V _ _ _ _ _ Hp Hf Su Es) as (name & k & Ht & Lp & W). cbv zeta in W.
  destruct (where_run lib id N V _ _ _ _ _ W Fo) as (log' & s2' & q & Er' & F1 & W1). rewrite Er in Er'. injection Er' as <- <-.
  destruct (where_at id N _ _ _ _ _ W1 eq_refl Ha) as (p & -> & Nm & Wr). exists name, k, p. split; [exact Ht|]. split; [exact Lp|]. split; [exact F1|].
  destruct (p_messages p) as [|ts rest] eqn:Em; [congruence|]. exists ts, rest. split; [reflexivity|].
  intros pre t post l r Et Dk. destruct W1 as [(dv & dr & hv & hr & _ & _ & At) _].
  pose proof (a_sane _ _ _ _ _ _ _ _ _ _ _ _ _ At) as Sn. rewrite Em in Sn. cbn [sane_messages] in Sn. apply andb_prop in Sn as [Sn _].
  assert (Ini : p_initiator p = i).
  { assert (G : forall q1 lg q2, follows N id q1 lg q2 -> forall p1 p2, q1 = Running p1 -> q2 = Running p2 -> p_initiator p2 = p_initiator p1).
    { clear. induction 1; intros p1 p2 X1 X2.
      - rewrite X1 in X2. now injection X2 as ->.
      - injection X1 as ->. rewrite (IHfollows _ _ eq_refl X2). unfold nWriteMessage, WriteMessage in H0. destruct (p_messages p1) as [|ts ms]; [discriminate|].
        destruct (WriteTokens _ _ _ _ _ _ _ _ _ ts) as [[a p3]|] eqn:Et; [|discriminate]. destruct (EncryptAndHash _ _ _ _) as [[c v]|]; [|discriminate]. injection H0 as _ <-.
        destruct (WriteTokens_fixed _ _ _ _ _ _ _ _ _ _ _ Et) as ((F1 & _) & _). exact F1.
      - exfalso. clear -IHfollows X2 H5. remember Failed as f eqn:Ef. revert p2 X2. induction H5; intros; subst; try discriminate; eauto; try (destruct H; [destruct H|]; discriminate).
      - injection X1 as ->. rewrite (IHfollows _ _ eq_refl X2). unfold nReadMessage, ReadMessage in H0. destruct (p_messages p1) as [|ts ms]; [discriminate|].
        destruct (ReadTokens _ _ _ _ _ _ _ _ _ ts _) as [[a p3]|] eqn:Et; [|discriminate]. destruct (DecryptAndHash _ _ _ _) as [[c v]|]; [|discriminate]. injection H0 as _ <-.
        destruct (ReadTokens_fixed _ _ _ _ _ _ _ _ _ _ _ Et) as ((F1 & _) & _). exact F1.
      - exfalso. clear -IHfollows X2 H3. remember Failed as f eqn:Ef. revert p2 X2. induction H3; intros; subst; try discriminate; eauto; try (destruct H; [destruct H|]; discriminate).
      - exfalso. clear -X2 H4. remember (Done p) as f eqn:Ef. revert p2 X2. induction H4; intros; subst; try discriminate; eauto.
      - eauto.
      - eauto. }
    exact (G _ _ _ F1 _ _ eq_refl eq_refl). }
  rewrite Ini, Et in Sn. destruct (sane_keys _ _ _ _ _ _ _ _ _ _ Sn Dk) as [K1 K2]. cbv zeta in K1, K2.
  destruct (learned (p_writing p) pre (know_of (n_dh N) (n_hyb N) p)) as (A1 & A2 & A3 & A4 & A5 & A6).
  assert (Kn : forall A (o : option A), known o = true -> o <> None) by (intros A [a|] X; [discriminate|discriminate X]).
  assert (WrT : p_writing p = true -> hs_action s2 = ACTION_WRITE_MESSAGE) by (intros X; rewrite X in Wr; symmetry in Wr; apply Z.eqb_eq in Wr; exact Wr).
  assert (WrF : p_writing p = false -> hs_action s2 = ACTION_READ_MESSAGE) by (intros X; rewrite X in Wr; symmetry in Wr; apply Z.eqb_neq in Wr; destruct Ha; [contradiction|assumption]).
  split.
  - destruct l; try discriminate K1; cbn [has_own]; [left; exact (Kn _ _ (A2 K1))|destruct (A1 K1) as [X|[X Y]]; [left; exact (Kn _ _ X)|right; auto]|destruct (A3 K1) as [X|[X Y]]; [left; exact (Kn _ _ X)|right; auto]].
  - destruct r; try discriminate K2; cbn [has_peer]; [destruct (A5 K2) as [X|[X Y]]; [left; exact (Kn _ _ X)|right; auto]|destruct (A4 K2) as [X|[X Y]]; [left; exact (Kn _ _ X)|right; auto]|destruct (A6 K2) as [X|[X Y]]; [left; exact (Kn _ _ X)|right; auto]].
Qed.
Print Assumptions C25_dh_keys_known_partial.
(** The hypotheses are met: Noise_XX initiator before its first message. *)
Definition toy_log (id : protocol_id) (initiator : bool) (ops : list hs_op) : option (list err * Z * option (key_type * list Z) * option (key_type * list Z)) :=
  match toy_set id initiator ops with
  | Ok (log, s) => Some (map (fun x => hr_err (snd x)) log, hs_action s,
      option_map (fun d => (dh_key_type d, dd_public (ds_data d))) (ko_ephemeral (hs_remote s)),
      option_map (fun d => (dh_key_type d, dd_public (ds_data d))) (ko_static (hs_remote s)))
  | UB => None
  end.
Example C25_example : exists log s s1, set_up toy_suite (toy_id PREFIX_STANDARD 9 0) toy_lib true log s /\ handshakestate_start s = Ok (E_NONE, s1) /\
  hs_run toy_lib s1 [] = Ok ([], s1) /\ hs_action s1 = ACTION_WRITE_MESSAGE /\
  has_pattern (toy_id PREFIX_STANDARD 9 0) (Pattern [] [] [[E_]; [E_; EE_; S_; ES_]; [S_; SE_]]).
Proof.
  destruct (toy_set_up (toy_id PREFIX_STANDARD 9 0) true [toy_static 7] [E_NONE]) as (log & s & Su & Es); [vm_compute; reflexivity|toy_calls_ok|vm_compute; reflexivity|].
  destruct (toy_started _ log s E_NONE ACTION_WRITE_MESSAGE Es) as (s1 & E1 & A1); [vm_compute; reflexivity|].
  exists log, s, s1. split; [exact Su|]. split; [exact E1|]. split; [reflexivity|]. split; [exact A1|].
  exists 9, "XX"%string. split; [cbn; tauto|]. split; [apply np_basic; reflexivity|reflexivity].
Qed.

(** C25 is false in general: start refuses XXfallback without a first handshake,
    but not XXfallback+hfs.  The first message is then written although the
    ephemeral key of the other party, needed for its DH (ee), was never set. *)
Theorem C25_dh_keys_known_refuted : exists ops,
  has_pattern (toy_id PREFIX_STANDARD 60 DH_NEWHOPE) (Pattern [] [E_; F_] [[E_; F_; EE_; FF_; S_; SE_]; [S_; ES_]]) /\
  ops = [toy_static 7; HStart; HWrite toy_env (NBuf (Some (zeros 4000)) 0 4000) None] /\
  option_map (fun x => fst (fst x)) (toy_log (toy_id PREFIX_STANDARD 60 DH_NEWHOPE) true ops) = Some ([E_NONE; E_NONE; E_NONE], ACTION_READ_MESSAGE) /\
  match toy_log (toy_id PREFIX_STANDARD 60 DH_NEWHOPE) true ops with Some (_, _, re, _) => re = Some (NO_KEY, zeros 32) | None => False end.
Proof.
  eexists. split; [|split; [reflexivity|split; [vm_compute; reflexivity|vm_compute; reflexivity]]].
  exists 60, "XXfallback+hfs"%string. split; [cbn; tauto|]. split; [|reflexivity]. exact (np_fallback_hfs _ eq_refl).
Qed.
Print Assumptions C25_dh_keys_known_refuted.

(** C28, without fallback: a message that begins with a null ephemeral key is
    refused and the handshake has failed (for the curves; New Hope has no null key). *)
Theorem C28_null_ephemeral_rejected_partial : forall lib id N pat initiator log0 s s1 ops log s2 env msg payload rest,
  provides lib id N -> has_pattern id pat -> fallback_pattern pat = false ->
  set_up N id lib initiator log0 s -> handshakestate_start s = Ok (E_NONE, s1) ->
  Forall handshake_call (ops ++ [HRead env (NBuf (Some msg) (zlen msg) (zlen msg)) payload]) ->
  hs_run lib s1 ops = Ok (log, s2) -> hs_action s2 = ACTION_READ_MESSAGE ->
  nth (messages_done log) (messages pat) [] = E_ :: rest -> REJECTS_NULL (n_dh N) = true ->
  (forall b, all_zero (take (DHLEN (n_dh N) b) msg)) -> (* b: who generates first; the length of a key depends on it for New Hope only *)
  exists r s3, hs_step lib s2 (HRead env (NBuf (Some msg) (zlen msg) (zlen msg)) payload) = Ok (r, s3) /\ hr_err r <> E_NONE /\ hs_action s3 = ACTION_FAILED.
Proof.
  intros lib id N pat i log0 s s1 ops log s2 env msg payload rest V Hp Hf Su Es Fo Er Ea Hn Rn Hz. apply Forall_app in Fo as [Fo Fw]. inversion Fw as [|? ? Hc _]; subst.
  destruct (start_stage lib id N V _ _ _ _ _ Hp Hf Su Es) as (name & k & _ & _ & W). cbv zeta in W.
  destruct (where_run lib id N V _ _ _ _ _ W Fo) as (log' & s2' & q & Er' & F1 & W1). rewrite Er in Er'. injection Er' as <- <-. rewrite Nat.add_0_l in W1.
  destruct (where_at id N _ _ _ _ _ W1 Ea (or_intror eq_refl)) as (p & -> & Nm & Wr). change (ACTION_READ_MESSAGE =? ACTION_WRITE_MESSAGE) with false in Wr.
  destruct W1 as [Hh St]. destruct (holds_step lib id N V _ _ _ Hh Hc) as (r & s3 & q' & E2 & F2 & T). exists r, s3. split; [exact E2|].
  inversion F2 as [| | |p0 env0 mem0 n0 max0 payload0 pl p' log1 q0 Wr0 Wm Hr F'|p0 env0 mem0 n0 max0 payload0 e log1 q0 Wr0 Nm0 He Hw F'| | |st o r0 log1 q0 Hs He F']; subst; [| |destruct Hs; congruence].
  - exfalso. rewrite take_all in Wm by lia. unfold nReadMessage, ReadMessage in Wm. destruct (p_messages p) as [|ts ms] eqn:Em; [congruence|].
    pose proof (st_messages id N _ _ _ St) as Sm. rewrite Em in Sm. symmetry in Sm. destruct (skipn_cons _ _ _ _ _ Sm) as (A1 & _ & _).
    rewrite (nth_error_nth _ _ _ A1) in Hn. subst ts. cbn [ReadTokens ReadToken] in Wm. cbv zeta in Wm.
    destruct (Z.ltb_spec (zlen msg) (DHLEN (n_dh N) (negb (p_second p)))) as [Hx|Hx]; [discriminate Wm|].
    replace (all_zerob (take (DHLEN (n_dh N) (negb (p_second p))) msg)) with true in Wm; [rewrite Rn in Wm; discriminate Wm|].
    symmetry. apply all_zerob_iff, Hz.
  - inversion F'; subst. split; [exact He|exact T].
Qed.
Print Assumptions C28_null_ephemeral_rejected_partial.
Example C28_example : exists log s s1, set_up toy_suite (toy_id PREFIX_STANDARD 14 0) toy_lib false log s /\ handshakestate_start s = Ok (E_NONE, s1) /\
  hs_run toy_lib s1 [] = Ok ([], s1) /\ hs_action s1 = ACTION_READ_MESSAGE /\ REJECTS_NULL (n_dh toy_suite) = true /\
  nth (messages_done []) (messages (Pattern [] [S_] [[E_; ES_; S_; SS_]; [E_; EE_; SE_]])) [] = E_ :: [ES_; S_; SS_] /\
  (forall b, all_zero (take (DHLEN (n_dh toy_suite) b) (zeros 40 ++ [1; 2]))).
Proof.
  destruct (toy_set_up (toy_id PREFIX_STANDARD 14 0) false [toy_static 7] [E_NONE]) as (log & s & Su & Es); [vm_compute; reflexivity|toy_calls_ok|vm_compute; reflexivity|].
  destruct (toy_started _ log s E_NONE ACTION_READ_MESSAGE Es) as (s1 & E1 & A1); [vm_compute; reflexivity|].
  exists log, s, s1. split; [exact Su|]. split; [exact E1|]. split; [reflexivity|]. split; [exact A1|]. split; [reflexivity|]. split; [reflexivity|].
  intros b. change (all_zero (zeros 32)). repeat constructor.
Qed.

(** C28 is false after fallback: the responder of Noise_IK refuses a null
    ephemeral key, but keeps it; after fallback and start it writes the first
    message of XXfallback, whose DH (ee) uses that key. *)
Theorem C28_null_key_never_used_refuted : exists ops,
  has_pattern (toy_id PREFIX_STANDARD 16 0) (Pattern [] [E_] [[E_; EE_; S_; SE_]; [S_; ES_]]) /\
  ops = [toy_static 9; HStart; HRead toy_env (NBuf (Some (zeros 100)) 100 100) None; HFallback (NOISE_ID 80 16); HStart; HWrite toy_env (NBuf (Some (zeros 200)) 0 200) None] /\
  match toy_log (toy_id PREFIX_STANDARD 14 0) false ops with
  | Some (errs, action, re, _) => errs = [E_NONE; E_NONE; E_INVALID_PUBLIC_KEY; E_NONE; E_NONE; E_NONE] /\ action = ACTION_READ_MESSAGE /\ re = Some (PUBLIC, zeros 32)
  | None => False
  end.
Proof.
  eexists. split; [|split; [reflexivity|vm_compute; repeat split]].
  exists 16, "XXfallback"%string. split; [cbn; tauto|]. split; [apply np_basic; reflexivity|reflexivity].
Qed.
Print Assumptions C28_null_key_never_used_refuted.
(** Nor is a null static key refused: Noise_IX, whose first message carries it in clear. *)
Theorem C28_null_static_key_refuted : exists ops,
  has_pattern (toy_id PREFIX_STANDARD 15 0) (Pattern [] [] [[E_; S_]; [E_; EE_; SE_; S_; ES_]]) /\
  ops = [toy_static 9; HStart; HRead toy_env (NBuf (Some (repeat 5 32 ++ zeros 32)) 64 64) None; HWrite toy_env (NBuf (Some (zeros 200)) 0 200) None] /\
  match toy_log (toy_id PREFIX_STANDARD 15 0) false ops with
  | Some (errs, action, _, rs) => errs = [E_NONE; E_NONE; E_NONE; E_NONE] /\ action = ACTION_SPLIT /\ rs = Some (PUBLIC, zeros 32)
  | None => False
  end.
Proof.
  eexists. split; [|split; [reflexivity|vm_compute; repeat split]].
  exists 15, "IX"%string. split; [cbn; tauto|]. split; [apply np_basic; reflexivity|reflexivity].
Qed.
Print Assumptions C28_null_static_key_refuted.

(** C33.  A constructor that fails leaves NULL, except for failures found after
    the object was allocated: an unknown DH algorithm, or algorithms that do not
    go with the pattern.  It never leaves a live object, and when it succeeds
    there is one. *)
Definition left_behind (lib : library) (id : protocol_id) (e : err) (h : handle) : Prop :=
  (e = E_NONE -> exists s, h = Live s) /\
  (e <> E_NONE -> h = Null \/
    h = Dangling /\ (e = E_NOT_APPLICABLE \/ e = E_UNKNOWN_ID /\ (lib_dh lib (pi_dh id) = None \/ lib_dh lib (pi_hybrid id) = None))).
Lemma symmetric_id : forall c h n id e y, symmetricstate_new c h n id = Ok (e, Some y) -> ss_id y = id.
Proof.
  intros c h n id e y E. unfold symmetricstate_new in E. destruct c as [ca|]; [|discriminate]. destruct h as [[ha cx]|]; [|discriminate].
  destruct (MAX_HASHLEN <? _); [discriminate|]. destruct (_ <? ca_key_len ca); [discriminate|]. cbv zeta in E. destruct (_ <=? _).
  - injection E as _ <-. reflexivity.
  - destruct (hashstate_hash_one _ _ _ _ _) as [[[? ?] [?|]]|]; cbn [obind] in E; try discriminate E. injection E as _ <-. reflexivity.
Qed.
Lemma symmetric_live : forall c h n id, symmetricstate_new c h n id = Ok (E_NONE, None) -> False.
Proof.
  intros c h n id E. unfold symmetricstate_new in E. destruct c as [ca|]; [|discriminate]. destruct h as [[ha cx]|]; [|discriminate].
  destruct (MAX_HASHLEN <? _); [discriminate|]. destruct (_ <? ca_key_len ca); [discriminate|]. cbv zeta in E. destruct (_ <=? _); [discriminate|].
  destruct (hashstate_hash_one _ _ _ _ _) as [[[? ?] [?|]]|]; discriminate.
Qed.
Lemma new_left : forall lib y role e h, handshakestate_new lib y role = (e, h) -> left_behind lib (ss_id y) e h.
Proof.
  intros lib y role e h E. unfold handshakestate_new in E. destruct (noise_pattern_lookup _) as [pattern|]; [|injection E as <- <-; split; [discriminate|auto]].
  cbv zeta in E. set (flags := if role =? ROLE_RESPONDER then _ else _) in E. clearbody flags.
  destruct (if has_bit flags FLAG_REMOTE_EPHEM_REQ then _ else _) as [lr rr].
  pose (P := fun e => e = E_NONE \/ e = E_NOT_APPLICABLE \/ e = E_UNKNOWN_ID /\ (lib_dh lib (pi_dh (ss_id y)) = None \/ lib_dh lib (pi_hybrid (ss_id y)) = None)).
  assert (Md : forall w e, P e -> P (fst (make_dh lib w (pi_dh (ss_id y)) e))).
  { intros w e0 H. unfold make_dh. destruct (w && is_none e0); [|exact H]. destruct (lib_dh lib (pi_dh (ss_id y))) eqn:El; cbn; unfold P; auto. }
  assert (Mh : forall w e, P e -> P (fst (make_hybrid lib w (pi_hybrid (ss_id y)) e))).
  { intros w e0 H. unfold make_hybrid, make_dh. destruct (w && is_none e0), (negb (pi_hybrid (ss_id y) =? DH_NONE)); cbn; unfold P; auto.
    destruct (lib_dh lib (pi_hybrid (ss_id y))) eqn:El; cbn; auto. }
  pose proof (Md (has_bit flags FLAG_LOCAL_STATIC) E_NONE (or_introl eq_refl)) as H1. destruct (make_dh lib (has_bit flags FLAG_LOCAL_STATIC) _ _) as [e1 ls]; cbn [fst] in H1.
  pose proof (Md (has_bit flags FLAG_LOCAL_EPHEMERAL) e1 H1) as H2. destruct (make_dh lib (has_bit flags FLAG_LOCAL_EPHEMERAL) _ _) as [e2 le]; cbn [fst] in H2.
  pose proof (Mh (has_bit flags FLAG_LOCAL_HYBRID) e2 H2) as H3. destruct (make_hybrid lib (has_bit flags FLAG_LOCAL_HYBRID) _ _) as [e3 lh]; cbn [fst] in H3.
  pose proof (Md (has_bit flags FLAG_REMOTE_STATIC) e3 H3) as H4. destruct (make_dh lib (has_bit flags FLAG_REMOTE_STATIC) _ _) as [e4 rs]; cbn [fst] in H4.
  pose proof (Md (has_bit flags FLAG_REMOTE_EPHEMERAL) e4 H4) as H5. destruct (make_dh lib (has_bit flags FLAG_REMOTE_EPHEMERAL) _ _) as [e5 re]; cbn [fst] in H5.
  pose proof (Mh (has_bit flags FLAG_REMOTE_HYBRID) e5 H5) as H6. destruct (make_hybrid lib (has_bit flags FLAG_REMOTE_HYBRID) _ _) as [e6 rh]; cbn [fst] in H6.
  set (ef := if is_none e6 then _ else _) in E.
  assert (Hf : P ef).
  { subst ef. destruct (is_none e6); [|exact H6]. repeat match goal with |- context [if ?b then _ else _] => destruct b end; unfold P; auto. }
  clearbody ef. destruct (is_none ef) eqn:Ef; cbn [negb] in E; injection E as <- <-.
  - split; [eauto|]. intros X. congruence.
  - split; [intros ->; discriminate Ef|]. intros X. right. split; [reflexivity|]. destruct Hf as [Hf|Hf]; [congruence|exact Hf].
Qed.
(** Formatting a name into a buffer never turns the buffer into NULL. *)
Lemma id_text : forall m n x e o, noise_protocol_id_to_name (Some m) n (Some x) = Ok (e, o) -> o <> None.
Proof.
  intros m n [p r] e o E -> . unfold noise_protocol_id_to_name in E. destruct (n =? 0); [discriminate E|].
  repeat match type of E with obind ?x _ = _ => let y := fresh in destruct x as [y|]; cbn [obind] in E; [|discriminate E] end.
  match type of E with context [match ?z with (_, _) => _ end] => is_var z; destruct z as [[mem q] e1] end. cbv zeta in E.
  destruct (negb _); [destruct (store _ _ _); cbn [obind] in E|]; discriminate E.
Qed.
Lemma id_named : forall name e, noise_protocol_name_to_id (Some name) (c_strlen name) = Ok (e, None) -> e <> E_NONE.
Proof.
  intros name e E. exfalso. unfold noise_protocol_name_to_id in E. destruct (read_ptr _ _) as [t|]; cbn [obind] in E; [|discriminate E].
  repeat match type of E with context [match ?z with (_, _) => _ end] => destruct z end.
  match type of E with (if ?b then _ else _) = _ => destruct b end; discriminate E.
Qed.
(** Error code, and whether the pointer is dangling *)
Definition toy_new (id : protocol_id) (role : Z) : option (err * bool) :=
  match handshakestate_new_by_id toy_lib (Some (id, [0; 0; 0; 0])) role with
  | Ok (e, h) => Some (e, match h with Dangling => true | _ => false end)
  | UB => None
  end.
Theorem C33_new_by_id_left_behind_partial : forall lib id role e h,
  handshakestate_new_by_id lib (Some (id, [0; 0; 0; 0])) role = Ok (e, h) -> left_behind lib id e h.
Proof.
  intros lib p role e h E. unfold handshakestate_new_by_id in E.
  assert (Nl : forall e0, e0 <> E_NONE -> left_behind lib p e0 Null) by (intros e0 X; split; [intros ->; congruence|auto]).
  destruct (negb (role =? ROLE_INITIATOR) && negb (role =? ROLE_RESPONDER)); [injection E as <- <-; apply Nl; discriminate|].
  unfold symmetricstate_new_by_id in E. destruct (noise_protocol_id_to_name _ _ _) as [[e1 [mem|]]|] eqn:En; cbn [obind] in E; try discriminate E.
  2: now destruct (id_text _ _ _ _ _ En).
  - destruct e1; cbn [obind] in E; try (injection E as <- <-; apply Nl; discriminate).
    destruct (symmetricstate_new _ _ _ _) as [[e2 [y|]]|] eqn:Ey; cbn [obind] in E; try discriminate E.
    + rewrite <- (symmetric_id _ _ _ _ _ _ Ey). destruct e2; try (injection E as <- <-; rewrite (symmetric_id _ _ _ _ _ _ Ey); apply Nl; discriminate).
      injection E as E. exact (new_left _ _ _ _ _ E).
    + destruct e2; injection E as <- <-; try (apply Nl; discriminate). exfalso. now apply (symmetric_live _ _ _ _ Ey).
Qed.
Print Assumptions C33_new_by_id_left_behind_partial.
Theorem C33_new_by_name_left_behind_partial : forall lib name role e h,
  handshakestate_new_by_name lib (Some name) role = Ok (e, h) ->
  h = Null /\ e <> E_NONE \/
  exists id, noise_protocol_name_to_id (Some name) (c_strlen name) = Ok (E_NONE, Some id) /\ left_behind lib id e h.
Proof.
  intros lib name role e h E. unfold handshakestate_new_by_name in E.
  destruct (negb (role =? ROLE_INITIATOR) && negb (role =? ROLE_RESPONDER)); [injection E as <- <-; left; split; [reflexivity|discriminate]|].
  unfold symmetricstate_new_by_name in E. cbv zeta in E. destruct (noise_protocol_name_to_id _ _) as [[e1 [id|]]|] eqn:En; cbn [obind] in E; try discriminate E.
  - destruct e1; cbn [obind] in E; try (injection E as <- <-; left; split; [reflexivity|discriminate]).
    right. exists id. split; [reflexivity|]. assert (Nl : forall e0, e0 <> E_NONE -> left_behind lib id e0 Null) by (intros e0 X; split; [intros ->; congruence|auto]).
    destruct (symmetricstate_new _ _ _ _) as [[e2 [y|]]|] eqn:Ey; cbn [obind] in E; try discriminate E.
    + rewrite <- (symmetric_id _ _ _ _ _ _ Ey). destruct e2; try (injection E as <- <-; rewrite (symmetric_id _ _ _ _ _ _ Ey); apply Nl; discriminate).
      injection E as E. exact (new_left _ _ _ _ _ E).
    + destruct e2; injection E as <- <-; try (apply Nl; discriminate). exfalso. now apply (symmetric_live _ _ _ _ Ey).
  - destruct e1; cbn [obind] in E; try (injection E as <- <-; left; split; [reflexivity|discriminate]).
    exfalso. apply (id_named _ _ En). reflexivity.
Qed.
Print Assumptions C33_new_by_name_left_behind_partial.
(** C33 is false in general: New Hope has no static keys, so XX cannot be used
    with it; the failing constructor frees the object but leaves the caller's
    pointer to it. *)
Theorem C33_failed_new_leaves_null_refuted : exists lib id N role,
  provides lib (toy_id PREFIX_STANDARD 9 0) N /\ pi_dh id = DH_NEWHOPE /\ pi_pattern id = NOISE_ID 80 9 /\
  handshakestate_new_by_id lib (Some (id, [0; 0; 0; 0])) role = Ok (E_NOT_APPLICABLE, Dangling).
Proof.
  exists toy_lib, (ProtocolId PREFIX_STANDARD (NOISE_ID 80 9) DH_NEWHOPE (NOISE_ID 67 1) (NOISE_ID 72 3) 0), toy_suite, ROLE_INITIATOR.
  split; [apply toy_provides; now left|]. split; [reflexivity|]. split; [reflexivity|]. vm_compute. reflexivity.
Qed.
Print Assumptions C33_failed_new_leaves_null_refuted.
(** NULL is left for an unknown cipher, and an object on success. *)
Example C33_example : toy_new (ProtocolId PREFIX_STANDARD (NOISE_ID 80 9) DH_CURVE25519 (NOISE_ID 67 9) (NOISE_ID 72 3) 0) ROLE_INITIATOR = Some (E_UNKNOWN_ID, false) /\
  toy_new (toy_id PREFIX_STANDARD 9 0) ROLE_RESPONDER = Some (E_NONE, false).
Proof. split; vm_compute; reflexivity. Qed.
