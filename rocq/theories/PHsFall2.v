(** Proofs about HandshakeState: the handshake after a fallback (C31). *)
From Coq Require Import ZifyBool ZifyNat String.
From Verif Require Import Base Str SNames PNames TNames MNames MUtil MCipher SCipher PCipher MHash SHash PHash MSymm SSymm PSymm MPatterns SPatterns TPatterns MDh SDh PDh
  MHandshake SHandshake SHsApi PHandshake PHsTok PHsMsg SNoise PHsStart PHsRun PHsOpen SAgree PHsSize PHsAgree PHsTalk SFallback PHsFall.

(** ** Falling back and starting again *)
Section R.
Variables (lib : library) (id : protocol_id) (N : suite).
Hypothesis V : provides lib id N.
Local Notation D := (n_dh N).
Local Notation E := (n_hyb N).
Variable dview : dh_data -> KP D.
Variable dready : dh_data -> Prop.
Variable hview : dh_data -> KP E.
Variable hready : dh_data -> Prop.
Hypothesis Ld : dh_link (n_dh_alg N) D dview dready.
Hypothesis Lh : dh_link (n_hyb_alg N) E hview hready.
Hypothesis Ls : forall d, dready (ds_data d) /\ static_pair D d (dview (ds_data d)).
Local Notation weak := (weak (n_cipher N) (n_hash N) (n_dh_alg N) (n_hyb_alg N) D E dview dready hview hready (psk_mode id)).

Lemma refall : forall pat i s p name prol key k, has_pattern id pat -> can_fall_back pat = true -> da_ephemeral_only (n_dh_alg N) = false ->
  protocol_text id name -> weak s p -> p_initiator p = i -> p_second p = negb i -> p_s p = Some k -> shape_of s = shape_for pat i -> ss_id (hs_symmetric s) = id ->
  has_bit (hs_requirements s) REQ_FALLBACK_POSSIBLE = true ->
  (hs_action s = ACTION_FAILED \/ hs_action s = if i then ACTION_READ_MESSAGE else ACTION_WRITE_MESSAGE) ->
  psk_held key s -> hs_prologue s = prol /\ bytes prol -> (psk_mode id = true -> known key = true) ->
  (if i then known (p_e p) = true /\ known (p_f p) = uses pat true F_ else known (p_re p) = true /\ known (p_rf p) = uses pat true F_) ->
  exists name' s2 s3, handshakestate_fallback_to s (fallback_number pat) = Ok (E_NONE, s2) /\ handshakestate_start s2 = Ok (E_NONE, s3) /\
    protocol_text (fallback_id id pat) name' /\ hs_role s3 = role_id (negb i) /\
    holds (fallback_id id pat) N s3 (nInitialize N (fallback_id id pat) name' prol key (fpat_of (uses pat true F_)) (negb i) (negb i) (Some k)
      (if i then p_e p else None) (if i then p_f p else None) None (if i then None else p_re p) (if i then None else p_rf p)).
Proof.
  intros pat i s p name prol key k Hp Hc Heo Ht W Hi Hs Es Sh Id Rq Ac Ps Pr Hk Kn.
  destruct (fall_fact _ _ Hp Hc) as (_ & _ & _ & _ & _ & _ & _ & _ & _ & Uf).
  destruct (fallback_ok lib id N V dview dready hview hready Ld Lh pat i s p name prol key Hp Hc Heo Ht W Hi Hs Sh Id Rq Ac Ps Pr Kn Uf) as (name' & s2 & E2 & Ht' & P & Hst & Hrm).
  assert (Hs' : local_rel (n_dh_alg N) D dview dready true (p_second p) (ko_static (hs_local s)) (p_s p)) by (exact (kr_s _ _ _ _ _ _ _ _ _ _ _ (wk_keys _ _ _ _ _ _ _ _ _ _ _ _ _ W))).
  rewrite Es in Hs'. destruct (ko_static (hs_local s)) as [d|] eqn:Ed; [|discriminate Hs']. destruct Hs' as (_ & _ & Kt & _ & Ev).
  pose proof (fallback_provides lib id N V pat) as V'.
  set (f := uses pat true F_) in *. destruct (fpat_in f) as (fn & Hin). pose proof (facts_of _ _ _ Hin) as Fp.
  assert (Ffb : fallback_pattern (fpat_of f) = true) by (destruct f; reflexivity).
  assert (Gv : forall j, given (fpat_of f) j E_ = negb j /\ given (fpat_of f) j F_ = negb j && f /\ given (fpat_of f) j S_ = false) by (clear; intros j; destruct f, j; repeat split).
  destruct (Gv (negb i)) as (G1 & G2 & G3). destruct (Gv (negb (negb i))) as (G4 & G5 & G6).
  pose proof (start_ok N (fallback_id id pat) (pv_cipher_ok _ _ _ V') (pv_hash_ok _ _ _ V') (pv_key _ _ _ V') dview dready hview hready Ld Lh (fun _ => Ls) (fpat_of f) (negb i) name' prol key
    (if i then p_e p else None) (if i then p_f p else None) (if i then None else p_re p) (if i then None else p_rf p) s2) as St.
  cbv zeta in St. rewrite Ffb, G1, G2, G4, G5, G6, Hst, Hrm in St.
  destruct St as (k' & s3 & E3 & Lp & _ & _ & K3 & At); [exact Fp|exact P|reflexivity| | | | | |discriminate|exact Hk|].
  { destruct i; [apply Kn|reflexivity]. } { destruct i; [apply Kn|reflexivity]. } { destruct i; [reflexivity|apply Kn]. } { destruct i; [reflexivity|apply Kn]. }
  { intros _. cbn [dhstate_has_keypair]. rewrite Kt. reflexivity. }
  destruct k' as [k'|]; [|destruct Lp]. destruct Lp as [_ Lp]. destruct (Ls d) as [_ Sp]. unfold static_pair in *. rewrite Lp in Sp. injection Sp as Sp. rewrite Ev in Sp. subst k'.
  exists name', s2, s3. split; [exact E2|]. split; [exact E3|]. split; [exact Ht'|]. split; [|exists dview, dready, hview, hready; auto].
  destruct K3 as (_ & Kr & _). rewrite Kr. destruct P as [_ _ X]. exact X.
Qed.
End R.

(** ** Both parties *)
Section B.
Variables (lib : library) (id : protocol_id) (N : suite).
Hypothesis V : provides lib id N.
Variable static : KP (n_dh N) -> Prop.
Variable good : list Z -> Prop.
Hypothesis Ad : dh_agrees (n_dh N) static good.
Hypothesis Ah : dh_agrees (n_hyb N) (fun _ => False) good.
Local Notation D := (n_dh N).
Local Notation E := (n_hyb N).

Lemma fresh_unkeyed : forall pat i name prol key k rs, pattern_facts pat = true -> fallback_pattern pat = false ->
  ns_k (p_sym (nInitialize N id name prol key pat i (negb i) k None None rs None None)) = None.
Proof.
  intros pat i name prol key k rs Hpf Hf. destruct (list_fact _ Hpf) as (_ & _ & [(A & B & _)|(A & _)]); [|congruence].
  assert (M : forall v q, ns_k (MixHash (n_H N) v q) = ns_k v) by reflexivity.
  assert (P0 : ns_k (MixPrologue (n_H N) (ha_block_len (n_hash N)) prol key (InitializeSymmetric (n_H N) (ha_hash_len (n_hash N)) name)) = None)
    by (unfold MixPrologue, InitializeSymmetric; destruct key; [destruct (HKDF _ _ _ _)|]; reflexivity).
  unfold nInitialize, Initialize. cbn [p_sym].
  revert P0. generalize (MixPrologue (n_H N) (ha_block_len (n_hash N)) prol key (InitializeSymmetric (n_H N) (ha_hash_len (n_hash N)) name)). intros v P0.
  destruct A as [A|A], B as [B|B]; rewrite A, B; cbn [fold_left MixPre]; destruct i, k, rs; cbn [option_map]; rewrite ?M; exact P0.
Qed.

(** The initiator *)
Lemma initiator_side : forall pat a0 log a1 a2 a env mem size max payload mem' m, has_pattern id pat -> can_fall_back pat = true ->
  psk_mode id = false \/ uses pat true F_ = false ->
  set_up N id lib true log a0 -> proper_static N static a0 -> handshakestate_start a0 = Ok (E_NONE, a1) ->
  handshake_call (HWrite env (NBuf (Some mem) size max) payload) -> (forall k n, good (env_rand env k n)) ->
  hs_step lib a1 (HWrite env (NBuf (Some mem) size max) payload) = Ok (message_result E_NONE (NBuf (Some mem') (zlen m) max) None, a2) -> take (zlen m) mem' = m ->
  (a = a2 \/ exists env mem size max out r, let read := HRead env (NBuf (Some mem) size max) out in
     handshake_call read /\ hs_step lib a2 read = Ok (r, a) /\ hr_err r <> E_NONE) ->
  exists k ke kf rest name' s2 s3, static k /\ honest good D ke /\ (if uses pat true F_ then exists kf', kf = Some kf' /\ honest good E kf' /\ m = PUB D ke ++ PUB E kf' ++ rest else kf = None /\ m = PUB D ke ++ rest) /\
    handshakestate_fallback_to a (fallback_number pat) = Ok (E_NONE, s2) /\ handshakestate_start s2 = Ok (E_NONE, s3) /\
    protocol_text (fallback_id id pat) name' /\ hs_role s3 = role_id false /\
    holds (fallback_id id pat) N s3 (nInitialize N (fallback_id id pat) name' (prologue_set [] log) (psk_set None log) (fpat_of (uses pat true F_)) false false (Some k) (Some ke) kf None None None).
Proof.
  intros pat a0 log a1 a2 a env mem size max payload mem' m Hp Hc Hpf Su Pst Es Hw Hg Ew Tm Last.
  destruct (fall_fact _ _ Hp Hc) as (F1 & F2 & F3 & F4 & F5 & F6 & F7 & F8 & (m1 & m2 & ms & Em) & Uf).
  destruct (started_full lib id N V true log a0 a1 pat Su Hp F2 F5 Es) as (dview & dready & hview & hready & name & k & Ld & Lh & Heo & Ls & Ht & Hpf2 & Lp & Hl & Rq & Sh & Id & Psk & Prl & Hk & At).
  set (p0 := nInitialize N id name _ _ pat true _ _ _ _ _ _ _) in At.
  assert (P1 : p_messages p0 = messages pat) by reflexivity.
  destruct (write_step lib id N V dview dready hview hready Ld Lh a1 p0 env mem size max payload mem' m a2 At eq_refl ltac:(rewrite P1, Em; discriminate) Hw Ew Tm) as (Kw & p' & At' & Wm).
  assert (Hr : rand_ok (rand_of env)) by (destruct Hw as [Hw _]; intros t n Hn; apply Hw; exact Hn).
  destruct (first_write lib id N V static good Ad Ah (uses pat true F_) (rand_of env) p0 (payload_bytes payload) m p' m1 (m2 :: ms)) as (Q1 & Q2 & Q3 & ke & rest & Qe & Hke & Qf).
  { rewrite P1. exact Em. } { rewrite Em in F8. exact F8. } { intros X. destruct Hpf as [Y|Y]; [exact Y|congruence]. } { reflexivity. } { reflexivity. } { reflexivity. }
  { apply fresh_unkeyed; assumption. } { exact Hr. } { intros t n. apply Hg. } { exact Wm. }
  (* the state that falls back *)
  assert (Pm : p_messages p' = m2 :: ms /\ p_writing p' = false).
  { unfold nWriteMessage, WriteMessage in Wm. rewrite P1, Em in Wm. match type of Wm with match ?x with _ => _ end = _ => destruct x as [[x0 px]|] eqn:Et end; [|discriminate Wm].
    destruct (EncryptAndHash _ _ _ _) as [[c v]|]; [|discriminate Wm]. injection Wm as _ <-. cbn [next_message with_sym p_messages p_writing p_f].
    apply WriteTokens_fixed in Et. destruct Et as ((_ & _ & _ & W1 & W2) & W3). rewrite W1, W2, P1, Em.
    split; reflexivity. }
  destruct Pm as (Pm & Pw).
  assert (Wk : kept a1 a /\ exists p1, PHsTok.weak (n_cipher N) (n_hash N) (n_dh_alg N) (n_hyb_alg N) D E dview dready hview hready (psk_mode id) a p1 /\
    stable N p' p1 /\ p_e p1 = p_e p' /\ p_f p1 = p_f p' /\ (hs_action a = ACTION_FAILED \/ hs_action a = ACTION_READ_MESSAGE)).
  { destruct Last as [-> |(env2 & mem2 & n2 & mx2 & out & r & Hrd & Er & Ne)].
    - split; [exact Kw|]. exists p'. split; [apply rel_weak; exact (a_rel _ _ _ _ _ _ _ _ _ _ _ _ _ At')|]. split; [repeat split|]. split; [reflexivity|]. split; [reflexivity|]. right.
      pose proof (a_action _ _ _ _ _ _ _ _ _ _ _ _ _ At') as X. rewrite Pm, Pw in X. exact X.
    - destruct (read_step lib id N V dview dready hview hready Ld Lh a2 p' env2 mem2 n2 mx2 out r a At' Pw ltac:(rewrite Pm; discriminate) Hrd Er) as (Kr & p1 & W1 & Rs & Ac).
      split; [eapply kept_trans; eassumption|]. exists p1. split; [exact W1|]. destruct (somehow_own _ _ _ _ _ _ Rs) as (S1 & S2 & S3). split; [exact S1|]. split; [exact S2|]. split; [exact S3|].
      left. destruct Ac as [Ac|[Ac _]]; [exact Ac|contradiction]. }
  destruct Wk as ((X1 & X2 & X3 & X4 & X5 & X6) & p1 & W1 & (S1 & S2 & S3) & Ee & Ef & Ac).
  assert (Pe : p_e p1 = Some ke) by congruence.
  assert (Kf : known (p_f p1) = uses pat true F_ /\ if uses pat true F_ then exists kf', p_f p1 = Some kf' /\ honest good E kf' /\ m = PUB D ke ++ PUB E kf' ++ rest else p_f p1 = None /\ m = PUB D ke ++ rest).
  { destruct (uses pat true F_) eqn:U.
    - destruct Qf as (kf & Qf1 & Qf2 & Qf3). rewrite Ef, Qf1. split; [reflexivity|]. exists kf. auto.
    - assert (Pf : p_f p1 = None).
      { pose proof (f_equal x_f X6) as Y. rewrite Sh in Y. cbn [shape_for shape_of x_f] in Y. rewrite U in Y.
        pose proof (kr_f _ _ _ _ _ _ _ _ _ _ _ (wk_keys _ _ _ _ _ _ _ _ _ _ _ _ _ W1)) as Z'. destruct (ko_hybrid (hs_local a)); [discriminate Y|exact Z']. }
      rewrite Pf. auto. }
  destruct Kf as [Kf1 Kf2].
  destruct (refall lib id N V dview dready hview hready Ld Lh Ls pat true a p1 name (prologue_set [] log) (psk_set None log) k Hp Hc Heo Ht W1) as (name' & s2 & s3 & E2 & E3 & Ht' & Hr3 & Ho).
  { rewrite S1, Q1. reflexivity. } { rewrite S2, Q2. reflexivity. } { rewrite S3, Q3. reflexivity. } { rewrite X6. exact Sh. } { rewrite X5. exact Id. } { rewrite X1, Rq. exact F7. }
  { exact Ac. } { unfold psk_held in *. rewrite X3. exact Psk. } { rewrite X4. exact Prl. } { exact Hk. } { rewrite Pe. split; [reflexivity|exact Kf1]. }
  cbv iota in Ho. rewrite Pe in Ho. exists k, ke, (p_f p1), rest, name', s2, s3.
  split; [apply Pst; exact Lp|]. split; [exact Hke|]. split; [exact Kf2|]. auto.
Qed.

(** The responder *)
Lemma responder_side : forall pat b0 log b1 b env mem size max out r ke kf rest m, has_pattern id pat -> can_fall_back pat = true ->
  psk_mode id = false \/ uses pat true F_ = false ->
  set_up N id lib false log b0 -> proper_static N static b0 -> handshakestate_start b0 = Ok (E_NONE, b1) ->
  honest good D ke -> (if uses pat true F_ then exists kf', kf = Some kf' /\ honest good E kf' /\ m = PUB D ke ++ PUB E kf' ++ rest else kf = None /\ m = PUB D ke ++ rest) ->
  handshake_call (HRead env (NBuf (Some mem) size max) out) ->
  (let keys := DHLEN D false + (if uses pat true F_ then DHLEN E false else 0) in take keys (take size mem) = take keys m) ->
  hs_step lib b1 (HRead env (NBuf (Some mem) size max) out) = Ok (r, b) ->
  exists k name' s2 s3, static k /\
    handshakestate_fallback_to b (fallback_number pat) = Ok (E_NONE, s2) /\ handshakestate_start s2 = Ok (E_NONE, s3) /\
    protocol_text (fallback_id id pat) name' /\ hs_role s3 = role_id true /\
    holds (fallback_id id pat) N s3 (nInitialize N (fallback_id id pat) name' (prologue_set [] log) (psk_set None log) (fpat_of (uses pat true F_)) true true (Some k) None None None
      (Some (PUB D ke)) (option_map (PUB E) kf)).
Proof.
  intros pat b0 log b1 b env mem size max out r ke kf rest m Hp Hc Hpf Su Pst Es Hke Hm Hrd Tk Er. cbv zeta in Tk.
  destruct (fall_fact _ _ Hp Hc) as (F1 & F2 & F3 & F4 & F5 & F6 & F7 & F8 & (m1 & m2 & ms & Em) & Uf).
  destruct (started_full lib id N V false log b0 b1 pat Su Hp F2 F4 Es) as (dview & dready & hview & hready & name & k & Ld & Lh & Heo & Ls & Ht & Hpf2 & Lp & Hl & Rq & Sh & Id & Psk & Prl & Hk & At).
  set (p0 := nInitialize N id name _ _ pat false _ _ _ _ _ _ _) in At.
  assert (P1 : p_messages p0 = messages pat) by reflexivity.
  destruct (read_step lib id N V dview dready hview hready Ld Lh b1 p0 env mem size max out r b At eq_refl ltac:(rewrite P1, Em; discriminate) Hrd Er) as ((X1 & X2 & X3 & X4 & X5 & X6) & p1 & W1 & Rs & Ac).
  rewrite P1, Em in Ac. cbn [tl] in Ac. rewrite P1 in Rs.
  assert (Split : forall n a (q c : list Z), take (zlen q) c = take (zlen q) (q ++ a) -> n = zlen q -> c = q ++ drop n c).
  { intros n x q c T ->. rewrite take_app_exact in T. rewrite <- T at 1. symmetry. apply take_drop. }
  destruct Hke as (Hk1 & (Hk2 & Hk2b) & Hk3). pose proof (conj Hk1 (conj (conj Hk2 Hk2b) Hk3) : honest good D ke) as Hke.
  destruct (first_read id N good (uses pat true F_) p0 (hd [] (messages pat)) ke (take size mem) p1 F8) as [R1 R2].
  { intros X. destruct Hpf as [Y|Y]; [exact Y|congruence]. } { reflexivity. } { apply fresh_unkeyed; assumption. } { exact Hke. } { exact Rs. }
  assert (Got : stable N p0 p1 /\ p_re p1 = Some (PUB D ke) /\ p_rf p1 = option_map (PUB E) kf /\ known kf = uses pat true F_).
  { destruct (uses pat true F_) eqn:U.
    - destruct Hm as (kf' & -> & Hkf & ->). destruct Hkf as (Hf1 & (Hf2 & Hf2b) & Hf3). pose proof (conj Hf1 (conj (conj Hf2 Hf2b) Hf3) : honest good E kf') as Hkf.
      assert (Sp : take size mem = (PUB D ke ++ PUB E kf') ++ drop (DHLEN D false + DHLEN E false) (take size mem)).
      { apply (Split _ rest); rewrite zlen_app, Hk2, Hf2; [|reflexivity]. rewrite <- app_assoc. exact Tk. }
      rewrite <- app_assoc in Sp. destruct (R2 eq_refl kf' _ Hkf Sp) as (A & B & C). auto.
    - destruct Hm as (-> & ->). rewrite Z.add_0_r in Tk.
      assert (Sp : take size mem = PUB D ke ++ drop (DHLEN D false) (take size mem)) by (apply (Split _ rest); rewrite Hk2; [exact Tk|reflexivity]).
      destruct (R1 eq_refl _ Sp) as (A & B). split; [exact A|]. split; [exact B|]. split; [|reflexivity].
      pose proof (f_equal x_rf X6) as Y. rewrite Sh in Y. cbn [shape_for shape_of x_rf negb] in Y. rewrite U in Y.
      pose proof (kr_rf _ _ _ _ _ _ _ _ _ _ _ (wk_keys _ _ _ _ _ _ _ _ _ _ _ _ _ W1)) as Z'. destruct (ko_hybrid (hs_remote b)); [discriminate Y|exact Z']. }
  destruct Got as ((S1 & S2 & S3) & Gre & Grf & Kf).
  destruct (refall lib id N V dview dready hview hready Ld Lh Ls pat false b p1 name (prologue_set [] log) (psk_set None log) k Hp Hc Heo Ht W1) as (name' & s2 & s3 & E2 & E3 & Ht' & Hr3 & Ho).
  { exact S1. } { exact S2. } { exact S3. } { rewrite X6. exact Sh. } { rewrite X5. exact Id. } { rewrite X1, Rq. exact F7. }
  { destruct Ac as [Ac|[_ Ac]]; [left|right]; exact Ac. } { unfold psk_held in *. rewrite X3. exact Psk. } { rewrite X4. exact Prl. } { exact Hk. }
  { rewrite Gre, Grf. split; [reflexivity|]. destruct kf; exact Kf. }
  cbv iota in Ho. rewrite Gre, Grf in Ho. exists k, name', s2, s3. split; [apply Pst; exact Lp|]. auto.
Qed.

(** The two of them *)
Lemma fallen : forall pat a b, has_pattern id pat -> can_fall_back pat = true -> psk_mode id = false \/ uses pat true F_ = false ->
  misunderstood lib N id pat static good a b ->
  exists a2 a3 b2 b3 pA pB, let id' := fallback_id id pat in
    handshakestate_fallback_to a (fallback_number pat) = Ok (E_NONE, a2) /\ handshakestate_start a2 = Ok (E_NONE, a3) /\ hs_role a3 = role_id false /\
    handshakestate_fallback_to b (fallback_number pat) = Ok (E_NONE, b2) /\ handshakestate_start b2 = Ok (E_NONE, b3) /\ hs_role b3 = role_id true /\
    holds id' N b3 pB /\ holds id' N a3 pA /\ joint N static good (shape_of b3) (shape_of a3) pB pA /\ p_messages pB = messages (fpat_of (uses pat true F_)) /\ p_writing pB = true /\
    p_second pB = true /\ known (ns_k (p_sym pB)) = psk_mode id.
Proof.
  intros pat a b Hp Hc Hpf [(a0 & la & a1 & a2 & b0 & lb & b1 & Sa & Sb & Epr & Eps & Pa & Pb & Ea & Eb & (env & mem & size & max & payload & mem' & m & env' & rmem & rsize & rmax & out & r & Hw & Hg & Ew & Tm & Hrd & Tk & Er) & Last)].
  destruct (initiator_side pat a0 la a1 a2 a env mem size max payload mem' m Hp Hc Hpf Sa Pa Ea Hw Hg Ew Tm Last) as (ka & ke & kf & rest & na & a3 & a4 & Ska & Hke & Hm & EA & EA' & Hta & HrA & HoA).
  destruct (responder_side pat b0 lb b1 b env' rmem rsize rmax out r ke kf rest m Hp Hc Hpf Sb Pb Eb Hke Hm Hrd Tk Er) as (kb & nb & b3 & b4 & Skb & EB & EB' & Htb & HrB & HoB).
  assert (En : nb = na) by (eapply text_fun; eauto). subst nb. rewrite <- Epr, <- Eps in HoB.
  pose proof (fallback_provides lib id N V pat) as V'.
  set (f := uses pat true F_) in *.
  set (pA := nInitialize N (fallback_id id pat) na (prologue_set [] la) (psk_set None la) (fpat_of f) false false (Some ka) (Some ke) kf None None None) in *.
  set (pB := nInitialize N (fallback_id id pat) na (prologue_set [] la) (psk_set None la) (fpat_of f) true true (Some kb) None None None (Some (PUB D ke)) (option_map (PUB E) kf)) in *.
  assert (Mf : honest good D ke /\ forall x, kf = Some x -> honest good E x).
  { split; [exact Hke|]. intros x ->. destruct f; [destruct Hm as (y & Ey & Hy & _); injection Ey as <-; exact Hy|destruct Hm as [Hm _]; discriminate Hm]. }
  assert (Sy : p_sym pA = p_sym pB /\ sym_ok N (p_sym pB) /\ ns_n (p_sym pB) = 0 /\ known (ns_k (p_sym pB)) = psk_mode id).
  { pose proof (start_sym_ok lib (fallback_id id pat) N V' na (prologue_set [] la) (psk_set None la) [] ltac:(constructor)) as Z0'. cbv zeta in Z0'. cbn [fold_left] in Z0'.
    subst pA pB. unfold nInitialize, Initialize. cbn [p_sym].
    set (v := MixPrologue _ _ _ _ _) in *. clearbody v. destruct Z0' as (Z1 & Z2 & Z3).
    assert (Me : sym_ok N (MixEphemeral (n_H N) (ha_block_len (n_hash N)) (ca_key_len (n_cipher N)) (psk_mode (fallback_id id pat)) v (PUB D ke)) /\
      ns_n (MixEphemeral (n_H N) (ha_block_len (n_hash N)) (ca_key_len (n_cipher N)) (psk_mode (fallback_id id pat)) v (PUB D ke)) = 0 /\
      known (ns_k (MixEphemeral (n_H N) (ha_block_len (n_hash N)) (ca_key_len (n_cipher N)) (psk_mode (fallback_id id pat)) v (PUB D ke))) = psk_mode id).
    { change (psk_mode (fallback_id id pat)) with (psk_mode id). split; [apply (PHsAgree.mix_eph_ok N id (pv_cipher_ok _ _ _ V) (pv_hash_ok _ _ _ V) (pv_key _ _ _ V)); exact Z1|].
      unfold MixEphemeral. destruct (psk_mode id).
      - unfold MixKey. destruct (HKDF _ _ _ _). split; reflexivity.
      - cbn [MixHash ns_n ns_k]. rewrite Z3. split; [exact Z2|reflexivity]. }
    destruct f; cbn [fpat_of pre_initiator pre_responder fold_left MixPre option_map]; (split; [reflexivity|]).
    - destruct kf as [kf'|]; cbn [option_map]; [|exact Me]. destruct Me as (M1 & M2 & M3). split; [apply (PHsAgree.mix_hash_ok N (pv_hash_ok _ _ _ V)); exact M1|]. split; [exact M2|exact M3].
    - exact Me. }
  destruct Sy as (Sy1 & Sy2 & Sy3 & Sy4).
  destruct (fpat_in f) as (fn & Hin). assert (Hp' : has_pattern (fallback_id id pat) (fpat_of f)) by (apply (in_all_pattern _ (fnum f) fn); [exact Hin|reflexivity]).
  exists a3, a4, b3, b4, pA, pB. cbv zeta. split; [exact EA|]. split; [exact EA'|]. split; [exact HrA|]. split; [exact EB|]. split; [exact EB'|]. split; [exact HrB|].
  split; [exact HoB|]. split; [exact HoA|]. split; [|split; [reflexivity|split; [reflexivity|split; [reflexivity|exact Sy4]]]].
  destruct HoA as (dv & dr & hv & hr & LdA & LhA & AtA). destruct HoB as (dv' & dr' & hv' & hr' & LdB & LhB & AtB). destruct Mf as [(Mk & _) Mf].
  constructor.
  - constructor; try reflexivity; try exact Sy1.
    + constructor; try reflexivity; cbn [p_s p_rs]; [discriminate|intros x Ex; injection Ex as <-; exact Skb|apply made_empty|apply made_empty].
    + constructor; try reflexivity; cbn [p_s p_rs]; [discriminate|intros x Ex; injection Ex as <-; exact Ska|exact Mk|].
      intros x Ex. destruct (Mf x Ex) as (My & _). exact (My x eq_refl).
  - exact Sy2.
  - rewrite Sy3. exact (budget_pattern (fallback_id id pat) (fpat_of f) Hp').
  - exact (a_sane _ _ _ _ _ _ _ _ _ _ _ _ _ AtB).
  - exact (a_sane _ _ _ _ _ _ _ _ _ _ _ _ _ AtA).
Qed.
End B.
