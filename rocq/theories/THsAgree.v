(** C21 and C32: the two parties of a handshake agree.
    For every pattern that does not start from another handshake. *)
From Coq Require Import ZifyBool String.
From Verif Require Import Base MUtil MCipher SCipher PCipher TCipher MHash SHash MSymm SSymm PSymm MPatterns SPatterns MDh SDh PDh
  MHandshake SHandshake SHsApi PHandshake PHsTok PHsMsg SNoise PHsRun SAgree PHsSize PHsAgree PHsTalk.
From Verif Require Import Toy ToyHash ToyDh ToyHs ToyNoise.

(** ** The DH functions of the library agree
    The hypotheses are the mathematical properties of the primitives. *)
Lemma agrees_25519 : forall base mult,
  (forall a b, sized 32 a -> sized 32 b -> mult a (base b) = mult b (base a)) -> (forall k, sized 32 k -> sized 32 (base k)) ->
  (forall r, sized 32 r -> all_zerob (base (clamp25519 r)) = false) ->
  dh_agrees (curve25519_functions base mult) (good_pair 32 base) (fun _ => True).
Proof.
  intros base mult C Bs Nz. assert (Cl : forall r, sized 32 r -> sized 32 (clamp25519 r)) by exact sized_clamp25519.
  constructor; cbn [curve25519_functions KP PUB DHLEN RANDLEN REJECTS_NULL GENERATE DH].
  - intros r _ _. eexists; reflexivity.
  - intros r q _ _ _. eexists; reflexivity.
  - intros r1 r2 k1 k2 H1 _ H2 _ E1 E2. injection E1 as <-. injection E2 as <-. cbn [fst snd]. rewrite !Nz by assumption. eexists. split; [reflexivity|]. f_equal. apply C; auto.
  - intros _ r _ k s (P1 & P2 & P3) H1 _ E1. injection E1 as <-. cbn [fst snd]. rewrite Nz by assumption. rewrite P3. eexists. split; [reflexivity|]. rewrite P2. f_equal. apply C; auto.
  - intros s1 s2 (P1 & P2 & P3) (Q1 & Q2 & Q3). rewrite P3, Q3, P2, Q2. eexists. split; [reflexivity|]. f_equal. apply C; auto.
  - intros _ r _ k H1 _ E1 _. injection E1 as <-. cbn [snd]. auto.
  - intros s _ (P1 & P2 & P3). rewrite P2. auto.
Qed.
Lemma agrees_448 : forall eval,
  (forall a b, sized 56 a -> sized 56 b -> snd (eval a (snd (eval b basepoint448))) = snd (eval b (snd (eval a basepoint448)))) ->
  (forall k q, sized 56 k -> sized 56 q -> sized 56 (snd (eval k q))) ->
  (forall a b, sized 56 a -> sized 56 b -> fst (eval a (snd (eval b basepoint448))) = true) ->
  (forall r, sized 56 r -> all_zerob (snd (eval (clamp448 r) basepoint448)) = false) ->
  dh_agrees (curve448_functions eval) (good_pair 56 (fun k => snd (eval k basepoint448))) (fun _ => True).
Proof.
  intros eval C Bs Fs Nz. assert (Cl : forall r, sized 56 r -> sized 56 (clamp448 r)) by exact sized_clamp448.
  constructor; cbn [curve448_functions KP PUB DHLEN RANDLEN REJECTS_NULL GENERATE DH].
  - intros r _ _. eexists; reflexivity.
  - intros r q _ _ _. eexists; reflexivity.
  - intros r1 r2 k1 k2 H1 _ H2 _ E1 E2. injection E1 as <-. injection E2 as <-. cbn [fst snd]. rewrite !Nz, !Fs by auto. eexists. split; [reflexivity|]. f_equal. apply C; auto.
  - intros _ r _ k s (P1 & P2 & P3) H1 _ E1. injection E1 as <-. cbn [fst snd]. rewrite Nz by assumption. rewrite P3, P2, !Fs by auto. eexists. split; [reflexivity|]. f_equal. apply C; auto.
  - intros s1 s2 (P1 & P2 & P3) (Q1 & Q2 & Q3). rewrite P3, Q3, P2, Q2, !Fs by auto. eexists. split; [reflexivity|]. f_equal. apply C; auto.
  - intros _ r _ k H1 _ E1 _. injection E1 as <-. cbn [snd]. auto.
  - intros s _ (P1 & P2 & P3). rewrite P2. apply Bs; [assumption|exact basepoint448_sized].
Qed.
(** New Hope: for the random strings [good] the exchange is exact. *)
Lemma agrees_newhope : forall keygen sharedb shareda (good : list Z -> Prop),
  (forall r r', sized 64 r -> good r -> sized 32 r' -> good r' ->
     shareda (snd (keygen r)) (snd (sharedb (fst (keygen r)) r')) = fst (sharedb (fst (keygen r)) r')) ->
  dh_agrees (newhope_functions keygen sharedb shareda) (fun _ => False) good.
Proof.
  intros kg sb sa good Ex. constructor; cbn [newhope_functions KP PUB DHLEN RANDLEN REJECTS_NULL GENERATE DH]; try (intros; contradiction); try (intros; discriminate).
  - intros r _ _. destruct (kg r). eexists; reflexivity.
  - intros r q _ _ _. destruct (sb q r). eexists; reflexivity.
  - intros r1 r2 k1 k2 H1 G1 H2 G2 E1 E2. specialize (Ex r1 r2 H1 G1 H2 G2). destruct (kg r1) as [sa1 p1]. injection E1 as <-. cbn [snd fst] in *.
    destruct (sb sa1 r2) as [z sb2]. injection E2 as <-. cbn [snd fst] in *. eexists. split; [reflexivity|]. now rewrite Ex.
Qed.
Print Assumptions agrees_25519. Print Assumptions agrees_448. Print Assumptions agrees_newhope.

(** C21.  Two objects set up for the two roles of the same protocol, with proper
    keys, exchange messages in turns with any payloads that fit: every message
    is accepted, every payload arrives, and after the last message of the
    pattern both are at SPLIT with the same handshake hash. *)
Theorem C21_two_honest_parties_agree : forall lib id N pat static good initiator responder turns,
  provides lib id N -> has_pattern id pat -> fallback_pattern pat = false ->
  dh_agrees (n_dh N) static good -> dh_agrees (n_hyb N) (fun _ => False) good ->
  meet lib N id static initiator responder ->
  turns_ok N id good false false (messages pat) turns ->
  exchange lib initiator responder turns agreed.
Proof.
  intros lib id N pat static good a b turns V Hp Hf Ad Ah M Tk.
  destruct (meeting lib id N V static good pat a b Hp Hf M) as (pA & pB & HA & HB & J & Em & Wr & Sc & _ & Kn).
  apply (exchange_ok lib id N V static good Ad Ah agreed) with (ms := messages pat) (pA := pA) (pB := pB) (xa := shape_of a) (xb := shape_of b); auto.
  - intros sA sB qA qB xa xb Ha Hb Jq Eq. pose proof (jo_linked _ _ _ _ _ _ _ Jq) as L. pose proof (li_messages _ _ _ _ _ L) as Eqb. rewrite Eq in Eqb.
    assert (Act : forall s q, holds id N s q -> p_messages q = [] -> hs_action s = ACTION_SPLIT).
    { intros s q (dv & dr & hv & hr & _ & _ & At) X. pose proof (a_action _ _ _ _ _ _ _ _ _ _ _ _ _ At) as Y. rewrite X in Y. exact Y. }
    split; [exact (Act _ _ Ha Eq)|]. split; [exact (Act _ _ Hb Eqb)|]. exists (ns_h (p_sym qA)). split; [exact (so_h _ _ (jo_sym _ _ _ _ _ _ _ Jq))|].
    intros mem n Hn. split; [apply (holds_hash lib id N V); assumption|]. rewrite <- (li_sym _ _ _ _ _ L). apply (holds_hash lib id N V); assumption.
  - rewrite Sc, Kn. exact Tk.
Qed.
Print Assumptions C21_two_honest_parties_agree.

(** C32.  After such a handshake the CipherStates that split gives to the two
    parties match. *)
Theorem C32_transport_ciphers_match : forall lib id N pat static good initiator responder turns,
  provides lib id N -> has_pattern id pat -> fallback_pattern pat = false ->
  dh_agrees (n_dh N) static good -> dh_agrees (n_hyb N) (fun _ => False) good ->
  meet lib N id static initiator responder ->
  turns_ok N id good false false (messages pat) turns ->
  exchange lib initiator responder turns (transport N lib).
Proof.
  intros lib id N pat static good a b turns V Hp Hf Ad Ah M Tk.
  destruct (meeting lib id N V static good pat a b Hp Hf M) as (pA & pB & HA & HB & J & Em & Wr & Sc & _ & Kn).
  apply (exchange_ok lib id N V static good Ad Ah (transport N lib)) with (ms := messages pat) (pA := pA) (pB := pB) (xa := shape_of a) (xb := shape_of b); auto; [|rewrite Sc, Kn; exact Tk].
  clear - V. intros sA sB qA qB xa xb Ha Hb J Em. pose proof (jo_linked _ _ _ _ _ _ _ J) as L. pose proof (li_messages _ _ _ _ _ L) as Emb. rewrite Em in Emb.
  exact (transport_ok lib id N V _ _ _ _ _ _ Ha Hb L Em).
Qed.
Print Assumptions C32_transport_ciphers_match.

(** The hypotheses are met: NoisePSK_IKhfs with a prologue, two messages with payloads. *)
Lemma toy_agrees : dh_agrees (n_dh toy_suite) (good_pair 32 toy_base) (fun _ => True) /\ dh_agrees (n_hyb toy_suite) (fun _ => False) (fun _ => True).
Proof.
  split.
  - apply agrees_25519; [intros; apply toy_commutes|apply toy_base_sized|].
    intros r _. unfold clamp25519, toy_base. cbn [map app]. unfold all_zerob. cbn [forallb]. apply andb_false_iff. left. apply Z.eqb_neq. intros E.
    assert (X : Z.testbit (Z.lxor 85 (Z.land (byte_at r 0) 0xF8)) 0 = false) by (rewrite <- E; reflexivity).
    rewrite Z.lxor_spec, Z.land_spec in X. change (Z.testbit 85 0) with true in X. change (Z.testbit 0xF8 0) with false in X. rewrite andb_false_r in X. discriminate X.
  - apply agrees_newhope. intros r r' [Zr Br] _ [Zr' Br'] _. unfold toy_shareda, toy_sharedb, toy_keygen. cbn [fst snd].
    rewrite !take_app_le by lia. rewrite (take_all _ 32 r') by lia. reflexivity.
Qed.
Definition toy_ikhfs : protocol_id := toy_id PREFIX_PSK 58 DH_NEWHOPE.
Definition toy_ops (initiator : bool) : list hs_op :=
  if initiator then [toy_peer 9; toy_psk; toy_static 7; toy_prologue [1; 2; 3]] else [toy_static 9; toy_prologue [1; 2; 3]; toy_psk].
Definition toy_keys (r : outcome (list (hs_op * hs_res) * handshakestate)) :=
  match r with
  | Ok (log, s) => Some (prologue_set [] log, psk_set None log, option_map (fun d => (dd_private (ds_data d), dd_public (ds_data d))) (ko_static (hs_local s)),
      remote_key (ko_static (hs_local s)), remote_key (ko_static (hs_remote s)))
  | UB => None
  end.
Lemma toy_meets : exists a b, meet toy_lib toy_suite toy_ikhfs (good_pair 32 toy_base) a b.
Proof.
  destruct (toy_set_up toy_ikhfs true (toy_ops true) [E_NONE; E_NONE; E_NONE; E_NONE]) as (la & a & Sa & Ea); [vm_compute; reflexivity|toy_calls_ok|vm_compute; reflexivity|].
  destruct (toy_set_up toy_ikhfs false (toy_ops false) [E_NONE; E_NONE; E_NONE]) as (lb & b & Sb & Eb); [vm_compute; reflexivity|toy_calls_ok|vm_compute; reflexivity|].
  destruct (toy_started _ la a E_NONE ACTION_WRITE_MESSAGE Ea) as (a1 & Ea1 & _); [vm_compute; reflexivity|].
  destruct (toy_started _ lb b E_NONE ACTION_READ_MESSAGE Eb) as (b1 & Eb1 & _); [vm_compute; reflexivity|].
  assert (Ka : toy_keys (toy_set toy_ikhfs true (toy_ops true)) = Some ([1; 2; 3], Some (repeat 99 32), Some (repeat 7 32, toy_base (repeat 7 32)), Some (toy_base (repeat 7 32)), Some (toy_base (repeat 9 32)))) by (vm_compute; reflexivity).
  assert (Kb : toy_keys (toy_set toy_ikhfs false (toy_ops false)) = Some ([1; 2; 3], Some (repeat 99 32), Some (repeat 9 32, toy_base (repeat 9 32)), Some (toy_base (repeat 9 32)), None)) by (vm_compute; reflexivity).
  rewrite Ea in Ka. rewrite Eb in Kb. cbn [toy_keys] in Ka, Kb. injection Ka as A1 A2 A3 A4 A5. injection Kb as B1 B2 B3 B4 B5.
  assert (Pr : forall n s, ko_static (hs_local s) <> None -> option_map (fun d => (dd_private (ds_data d), dd_public (ds_data d))) (ko_static (hs_local s)) = Some (repeat n 32, toy_base (repeat n 32)) ->
    is_byte n -> all_zerob (toy_base (repeat n 32)) = false -> proper_static toy_suite (good_pair 32 toy_base) s).
  { intros n s _ Ed Hn Hz k Lk. unfold local_pair in Lk. destruct (ko_static (hs_local s)) as [d|]; [|contradiction]. cbn [option_map] in Ed.
    apply (f_equal (fun o => match o with Some x => x | None => ([], []) end)) in Ed. cbv iota in Ed.
    destruct Lk as [_ Sp]. unfold static_pair in Sp. cbn [n_dh toy_suite toy_curve_functions curve25519_functions PAIR] in Sp. rewrite Ed in Sp.
    apply (f_equal (fun o => match o with Some x => x | None => k end)) in Sp. cbv iota in Sp. subst k. unfold good_pair. cbn [fst snd].
    split; [|split; [reflexivity|exact Hz]]. split; [unfold zlen; rewrite repeat_length; reflexivity|]. apply Forall_forall. intros x Hx. apply repeat_spec in Hx. subst x. exact Hn. }
  exists a1, b1. constructor. exists a, la, b, lb. split; [exact Sa|]. split; [exact Sb|]. split; [now rewrite A1, B1|]. split; [now rewrite A2, B2|].
  split; [apply (Pr 7); [intros X; rewrite X in A3; discriminate A3|exact A3|unfold is_byte; lia|vm_compute; reflexivity]|].
  split; [apply (Pr 9); [intros X; rewrite X in B3; discriminate B3|exact B3|unfold is_byte; lia|vm_compute; reflexivity]|].
  split; [right; now rewrite A5, B4|]. split; [left; exact B5|]. auto.
Qed.
Definition toy_turn (env : environment) (payload : list Z) : turn :=
  Turn env (zeros 2200) 0 2200 (Some (NBuf (Some payload) (zlen payload) (zlen payload))) env [7; 7] (Some (NBuf (Some (zeros 10)) 0 10)).
Definition toy_turns : list turn := [toy_turn toy_env [1; 2; 3]; toy_turn toy_env2 [4; 5]].
Definition toy_ikhfs_pattern : pattern := Pattern [] [S_] [[E_; F_; ES_; S_; SS_]; [E_; F_; EE_; FF_; SE_]].
Lemma toy_ikhfs_has : has_pattern toy_ikhfs toy_ikhfs_pattern.
Proof.
  exists 58, "IKhfs"%string. split; [cbn; tauto|]. split; [|reflexivity].
  exact (np_hfs "IK" (Pattern [] [S_] [[E_; ES_; S_; SS_]; [E_; EE_; SE_]]) eq_refl ltac:(discriminate)).
Qed.
Lemma toy_turns_ok : turns_ok toy_suite toy_ikhfs (fun _ => True) false false (messages toy_ikhfs_pattern) toy_turns.
Proof.
  assert (R : forall k t, rng_ok (fun n => repeat ((t + k) mod 256) (Z.to_nat n))).
  { intros k t n Hn. split; [unfold zlen; rewrite repeat_length; lia|].
    apply Forall_forall. intros x Hx. apply repeat_spec in Hx. subst x. unfold is_byte. apply Z.mod_pos_bound. lia. }
  assert (Z0 : zlen (zeros 2200) = 2200) by (apply zlen_zeros; lia).
  assert (T : forall env p, (forall t, rng_ok (env_rand env t)) -> bytes p -> zlen p <= 10 -> turn_ok (fun _ => True) (toy_turn env p)).
  { intros env p He Hb Hl. unfold turn_ok, toy_turn. cbn [t_rand t_mem t_size t_max t_payload t_env t_tail t_out handshake_call b_data b_size b_max payload_bytes].
    rewrite Z0. change (zlen (zeros 10)) with 10. pose proof (zlen_nonneg _ p). unfold contents. cbn [b_data b_size]. rewrite ?take_all by lia.
    split; [split; [exact He|]; split; [split; [apply bytes_zeros|]; split; [lia|vm_compute; reflexivity]|]; split; [exact Hb|lia]|].
    split; [auto|]. split; [apply toy_bytes; reflexivity|lia]. }
  cbn [messages toy_ikhfs_pattern toy_turns turns_ok].
  split; [apply T; [intros t; apply (R 100 t)|apply toy_bytes; reflexivity|vm_compute; discriminate]|]. split; [vm_compute; discriminate|]. split; [vm_compute; discriminate|].
  split; [apply T; [intros t; apply (R 200 t)|apply toy_bytes; reflexivity|vm_compute; discriminate]|]. split; [vm_compute; discriminate|]. split; [vm_compute; discriminate|]. exact I.
Qed.
Example C21_C32_example : exists a b,
  exchange toy_lib a b toy_turns agreed /\ exchange toy_lib a b toy_turns (transport toy_suite toy_lib).
Proof.
  destruct toy_meets as (a & b & M). destruct toy_agrees as [Ad Ah]. exists a, b.
  pose proof (toy_provides PREFIX_PSK 58 DH_NEWHOPE (or_intror eq_refl)) as V. split.
  - exact (C21_two_honest_parties_agree _ _ _ _ _ _ _ _ _ V toy_ikhfs_has eq_refl Ad Ah M toy_turns_ok).
  - exact (C32_transport_ciphers_match _ _ _ _ _ _ _ _ _ V toy_ikhfs_has eq_refl Ad Ah M toy_turns_ok).
Qed.
