(** Proofs about HandshakeState: fallback (C31). *)
From Coq Require Import ZifyBool ZifyNat String.
From Verif Require Import Base Str SNames PNames TNames MNames MUtil MCipher SCipher PCipher MHash SHash PHash MSymm SSymm PSymm MPatterns SPatterns TPatterns MDh SDh PDh
  MHandshake SHandshake SHsApi PHandshake PHsTok PHsMsg SNoise PHsStart PHsRun PHsOpen SAgree PHsSize PHsAgree PHsTalk SFallback.

(** ** Facts about the patterns *)
Definition first_tokens (f : bool) (ts : list tok) : bool :=
  let clean r := forallb (fun t => match t with E_ | F_ => false | _ => true end) r in
  match ts with
  | E_ :: r => if f then match r with F_ :: r => clean r | _ => false end else clean r
  | _ => false
  end.
Definition fall_facts (e : Z * (string * pattern)) : bool :=
  let pat := snd (snd e) in
  negb (can_fall_back pat) ||
  (4 <=? fst e) && negb (fallback_pattern pat) && uses pat true E_ && uses pat false S_ && first_tokens (uses pat true F_) (hd [] (messages pat)) &&
  match messages pat with [] | [_] => false | _ => true end && Bool.eqb (uses pat true F_) (uses pat false F_).
Lemma all_fall_facts : forallb fall_facts all_patterns = true.
Proof. vm_compute. reflexivity. Qed.
Definition fpat_of (f : bool) : pattern :=
  if f then Pattern [] [E_; F_] [[E_; F_; EE_; FF_; S_; SE_]; [S_; ES_]] else Pattern [] [E_] [[E_; EE_; S_; SE_]; [S_; ES_]].
Definition fnum (f : bool) : Z := if f then 60 else 16.
Lemma fpat_in : forall f : bool, exists n, In (fnum f, (n, fpat_of f)) all_patterns.
Proof.
  assert (A : forallb (fun f : bool => existsb (fun e => (fst e =? fnum f) && pattern_eqb (snd (snd e)) (fpat_of f)) all_patterns) [true; false] = true) by (vm_compute; reflexivity).
  intros f. rewrite forallb_forall in A. assert (Hf : In f [true; false]) by (destruct f; cbn; auto). specialize (A f Hf). apply existsb_exists in A as ([k [n p]] & Hi & He). cbn [fst snd] in He.
  apply andb_prop in He as [He1 He2]. apply pattern_eqb_eq in He2. subst p. exists n. replace (fnum f) with k by lia. exact Hi.
Qed.
Lemma pattern_listed : forall id pat, has_pattern id pat -> exists k n, In (k, (n, pat)) all_patterns /\ pi_pattern id = 80 * 256 + k.
Proof.
  intros id pat Hp. pose proof Hp as (k & n & Hi & Hn & Ek). rewrite <- all_patterns_names in Hi. apply in_map_iff in Hi as ([k' [n' p']] & Ej & Ha).
  cbn [fst snd] in Ej. injection Ej as -> ->. exists k, n. split; [|exact Ek]. now rewrite <- (pattern_in_all id pat Hp k n p' Ha Ek).
Qed.
Lemma fall_fact : forall id pat, has_pattern id pat -> can_fall_back pat = true ->
  PATTERN_NN <= pi_pattern id /\ fallback_pattern pat = false /\ uses pat true E_ = true /\ uses pat false S_ = true /\
  uses pat true S_ = true /\ uses pat false E_ = true /\ given pat false S_ = true /\
  first_tokens (uses pat true F_) (hd [] (messages pat)) = true /\ (exists m1 m2 ms, messages pat = m1 :: m2 :: ms) /\
  uses pat true F_ = uses pat false F_.
Proof.
  intros id pat Hp Hc. destruct (pattern_listed _ _ Hp) as (k & n & Ha & Ek). pose proof all_fall_facts as A. rewrite forallb_forall in A. specialize (A _ Ha).
  unfold fall_facts in A. cbn [fst snd] in A. rewrite Hc in A. cbn [negb orb] in A. rewrite !andb_true_iff, negb_true_iff in A. destruct A as ((((((A1 & A2) & A3) & A4) & A5) & A6) & A7). apply eqb_prop in A7.
  unfold can_fall_back in Hc. rewrite !andb_true_iff in Hc. destruct Hc as [[C1 C2] C3]. change PATTERN_NN with (80 * 256 + 4).
  split; [clear - Ek A1; lia|]. repeat (split; [assumption|]). split; [|exact A7]. destruct (messages pat) as [|m1 [|m2 ms]]; try discriminate A6. eauto.
Qed.

(** ** Tokens that are not ephemeral keys leave those alone *)
Definition plain_tokens (ts : list tok) : Prop := ~ In E_ ts /\ ~ In F_ ts.
Lemma clean_plain : forall ts, forallb (fun t => match t with E_ | F_ => false | _ => true end) ts = true -> plain_tokens ts.
Proof. intros ts A. rewrite forallb_forall in A. split; intros X; specialize (A _ X); discriminate A. Qed.
Lemma plain_app : forall a b, plain_tokens (a ++ b) <-> plain_tokens a /\ plain_tokens b.
Proof. intros a b. unfold plain_tokens. rewrite !in_app_iff. tauto. Qed.

Section T.
Variables (lib : library) (id : protocol_id) (N : suite).
Hypothesis V : provides lib id N.
Local Notation D := (n_dh N).
Local Notation E := (n_hyb N).
Local Notation HH := (n_H N).
Local Notation BL := (ha_block_len (n_hash N)).
Local Notation KL := (ca_key_len (n_cipher N)).
Local Notation psk := (psk_mode id).
Local Notation party := (nparty N).
Local Notation EncryptAndHash := (EncryptAndHash HH (aead_encrypt (n_cipher N))).
Local Notation DecryptAndHash := (DecryptAndHash HH (aead_decrypt (n_cipher N))).
Local Notation WriteToken := (WriteToken HH BL KL (aead_encrypt (n_cipher N)) D E psk).
Local Notation WriteTokens := (WriteTokens HH BL KL (aead_encrypt (n_cipher N)) D E psk).
Local Notation ReadToken := (ReadToken HH BL KL (ca_mac_len (n_cipher N)) (aead_decrypt (n_cipher N)) D E psk).
Local Notation ReadTokens := (ReadTokens HH BL KL (ca_mac_len (n_cipher N)) (aead_decrypt (n_cipher N)) D E psk).
Local Notation read_failed := (read_failed (n_cipher N) (n_hash N) HH D E psk).
Local Notation fixed := (fixed D E).
Local Notation MixEphemeral := (MixEphemeral HH BL KL psk).

Definition stable (p p' : party) : Prop := p_initiator p' = p_initiator p /\ p_second p' = p_second p /\ p_s p' = p_s p.
Lemma fixed_stable : forall p p', fixed p p' -> stable p p'.
Proof. intros p p' (A & B & C & _). split; [exact A|split; assumption]. Qed.
Lemma stable_trans : forall a b c, stable a b -> stable b c -> stable a c.
Proof. intros a b c (?&?&?) (?&?&?). repeat split; congruence. Qed.
Definition same_peer (p p' : party) : Prop := stable p p' /\ p_re p' = p_re p /\ p_rf p' = p_rf p.
Definition same_own (p p' : party) : Prop := fixed p p' /\ p_e p' = p_e p /\ p_f p' = p_f p.
Lemma same_peer_refl : forall p, same_peer p p.
Proof. intros p. repeat split. Qed.
Lemma same_peer_trans : forall a b c, same_peer a b -> same_peer b c -> same_peer a c.
Proof. intros a b c (A & A1 & A2) (B & B1 & B2). split; [eapply stable_trans; eauto|]. split; congruence. Qed.
Lemma read_token_plain : forall t p m r p', t <> E_ -> t <> F_ -> ReadToken p t m = Some (r, p') -> same_peer p p'.
Proof.
  intros t p m r p' He Hf Et. destruct (ReadToken_fixed _ _ _ _ _ _ _ _ _ _ _ Et) as (F1 & _ & Re & _). split; [now apply fixed_stable|]. split; [now apply Re|]. clear F1 Re.
  assert (X : option_map (pair m) (DHToken HH BL KL D E p t) = Some (r, p') -> p_rf p' = p_rf p).
  { intros X. destruct (DHToken _ _ _ _ _ p t) eqn:Ed; [|discriminate X]. injection X as _ <-. apply DHToken_fixed in Ed. tauto. }
  destruct t; try (apply X; exact Et); try congruence. cbn [SHandshake.ReadToken] in Et. destruct (_ <? _); [discriminate Et|].
  destruct (DecryptAndHash _ _) as [[c v]|]; [|discriminate Et]. injection Et as _ <-. reflexivity.
Qed.
Lemma read_tokens_plain : forall ts p m r p', plain_tokens ts -> ReadTokens p ts m = Some (r, p') -> same_peer p p'.
Proof.
  induction ts as [|t ts IH]; intros p m r p' Hp Et; cbn [SHandshake.ReadTokens] in Et; [injection Et as _ <-; apply same_peer_refl|].
  destruct (ReadToken p t m) as [[r1 p1]|] eqn:E1; [|discriminate Et]. destruct Hp as [P1 P2]. cbn [In] in P1, P2.
  eapply same_peer_trans; [apply (read_token_plain t p m r1 p1); [intros ->; tauto|intros ->; tauto|exact E1]|]. apply (IH p1 r1 r p'); [split; tauto|exact Et].
Qed.
Lemma failed_plain : forall ts p m p1, plain_tokens ts -> read_failed p ts m p1 -> same_peer p p1.
Proof.
  intros ts p m p1 Hp (ts1 & t & ts2 & r & p0 & -> & Er & Hc & _). apply plain_app in Hp as [P1 [P2 P3]]. cbn [In] in P2, P3.
  destruct Hc as [-> |[(-> & _)|(-> & _)]]; [|tauto|tauto]. eapply read_tokens_plain; eauto.
Qed.
Lemma failed_cons : forall t ts p m p1 r p', ReadToken p t m = Some (r, p') -> read_failed p (t :: ts) m p1 -> read_failed p' ts r p1.
Proof.
  intros t ts p m p1 r p' Et (ts1 & t1 & ts2 & r0 & p0 & El & Er & Hc & Hn). destruct ts1 as [|u ts1]; cbn [app] in El.
  - injection El as -> ->. cbn [SHandshake.ReadTokens] in Er. injection Er as -> ->. congruence.
  - injection El as <- ->. cbn [SHandshake.ReadTokens] in Er. rewrite Et in Er. exists ts1, t1, ts2, r0, p0. auto.
Qed.
Lemma write_token_plain : forall rand t p a p', t <> E_ -> t <> F_ -> WriteToken rand p t = Some (a, p') -> same_own p p'.
Proof.
  intros rand t p a p' He Hf Et. destruct (WriteToken_fixed _ _ _ _ _ _ _ _ _ _ _ Et) as (F1 & _). split; [exact F1|]. clear F1.
  assert (X : option_map (pair ([] : list Z)) (DHToken HH BL KL D E p t) = Some (a, p') -> p_e p' = p_e p /\ p_f p' = p_f p).
  { intros X. destruct (DHToken _ _ _ _ _ p t) eqn:Ed; [|discriminate X]. injection X as _ <-. apply DHToken_fixed in Ed. tauto. }
  destruct t; try (apply X; exact Et); try congruence. cbn [SHandshake.WriteToken] in Et. destruct (p_s p); [|discriminate Et].
  destruct (EncryptAndHash _ _) as [[c v]|]; [|discriminate Et]. injection Et as _ <-. split; reflexivity.
Qed.
Lemma write_tokens_plain : forall rand ts p a p', plain_tokens ts -> WriteTokens rand p ts = Some (a, p') -> same_own p p'.
Proof.
  intros rand. induction ts as [|t ts IH]; intros p a p' Hp Et; cbn [SHandshake.WriteTokens] in Et.
  - injection Et as _ <-. split; [apply fixed_refl|auto].
  - destruct (WriteToken rand p t) as [[a1 p1]|] eqn:E1; [|discriminate Et]. destruct (WriteTokens rand p1 ts) as [[a2 p2]|] eqn:E2; [|discriminate Et]. injection Et as _ <-.
    destruct Hp as [P1 P2]. cbn [In] in P1, P2. destruct (write_token_plain rand t p a1 p1) as (A & A1 & A2); [intros ->; tauto|intros ->; tauto|exact E1|].
    destruct (IH p1 a2 p2) as (B & B1 & B2); [split; tauto|exact E2|]. split; [eapply fixed_trans; eauto|]. split; congruence.
Qed.

(** ** The first message *)
Variable static : KP D -> Prop.
Variable good : list Z -> Prop.
Hypothesis Ad : dh_agrees D static good.
Hypothesis Ah : dh_agrees E (fun _ => False) good.
Local Notation made := (made good).
(** An honest ephemeral key pair of the party that comes first *)
Definition honest (F : dh_functions) (k : KP F) : Prop :=
  made F false (Some k) None /\ sized (DHLEN F false) (PUB F k) /\ (REJECTS_NULL F = true -> all_zerob (PUB F k) = false).
Lemma honest_new : forall a F st r k, dh_suite a F -> dh_agrees F st good -> sized (RANDLEN F false) r -> good r -> GENERATE F false r None = Some k -> honest F k.
Proof.
  intros a F st r k Sf Ag Hr Hg Eg. split; [apply (made_new good F false r None k Hr Hg Eg); auto|]. split; [|exact (ag_null _ _ _ Ag false r None k Hr Hg Eg)].
  apply (generate_sized _ _ Sf false r None k Hr); [discriminate|exact Eg].
Qed.
Lemma eph_unkeyed : forall v q, psk = false -> ns_k v = None -> ns_k (MixEphemeral v q) = None.
Proof. intros v q Hp Hk. unfold SHandshake.MixEphemeral. rewrite Hp. exact Hk. Qed.

Lemma first_write : forall f rand p pl m p' ts ms, p_messages p = ts :: ms -> first_tokens f ts = true -> (f = true -> psk = false) ->
  p_second p = false -> p_re p = None -> p_rf p = None -> ns_k (p_sym p) = None -> rand_ok rand -> (forall t n, good (rand t n)) ->
  nWriteMessage N id rand p pl = Some (m, p') ->
  p_initiator p' = p_initiator p /\ p_second p' = false /\ p_s p' = p_s p /\
  exists k rest, p_e p' = Some k /\ honest D k /\
    if f then exists kf, p_f p' = Some kf /\ honest E kf /\ m = PUB D k ++ PUB E kf ++ rest else m = PUB D k ++ rest.
Proof.
  intros f rand p pl m p' ts ms Em Ft Hpsk Hs Hre Hrf Hk Hr Hg Ew. unfold nWriteMessage, WriteMessage in Ew. rewrite Em in Ew.
  destruct (WriteTokens rand p ts) as [[a p0]|] eqn:Et; [|discriminate Ew]. destruct (EncryptAndHash (p_sym p0) pl) as [[c v]|]; [|discriminate Ew]. injection Ew as <- <-.
  cbn [next_message with_sym p_initiator p_second p_s p_e p_f].
  destruct ts as [|t ts]; [discriminate Ft|]. destruct t; try discriminate Ft. cbn [first_tokens] in Ft. cbn [SHandshake.WriteTokens SHandshake.WriteToken] in Et.
  rewrite Hs, Hre in Et. destruct (GENERATE D false (rand E_ (RANDLEN D false)) None) as [k|] eqn:Eg; [|discriminate Et].
  pose proof (suite_lens _ _ (pv_dh_ok _ _ _ V) false) as [L1 _]. pose proof (suite_lens _ _ (pv_hyb_ok _ _ _ V) false) as [L2 _].
  assert (Hk1 : honest D k) by (eapply honest_new; [exact (pv_dh_ok _ _ _ V)|exact Ad|apply Hr; exact L1|apply Hg|exact Eg]).
  set (p1 := with_sym (with_e p k) (MixEphemeral (p_sym p) (PUB D k))) in *.
  destruct (WriteTokens rand p1 ts) as [[b p2]|] eqn:Et2; [|discriminate Et]. injection Et as <- <-.
  destruct f.
  - destruct ts as [|t ts]; [discriminate Ft|]. destruct t; try discriminate Ft. cbn [SHandshake.WriteTokens SHandshake.WriteToken] in Et2.
    change (p_second p1) with (p_second p) in Et2. change (p_rf p1) with (p_rf p) in Et2. rewrite Hs, Hrf in Et2.
    destruct (GENERATE E false (rand F_ (RANDLEN E false)) None) as [kf|] eqn:Eg2; [|discriminate Et2].
    assert (Hk2 : honest E kf) by (eapply honest_new; [exact (pv_hyb_ok _ _ _ V)|exact Ah|apply Hr; exact L2|apply Hg|exact Eg2]).
    unfold SSymm.EncryptAndHash in Et2. assert (K1 : ns_k (p_sym p1) = None) by (apply eph_unkeyed; auto). rewrite K1 in Et2.
    match type of Et2 with context [WriteTokens rand ?q ts] => set (p3 := q) in *; destruct (WriteTokens rand p3 ts) as [[b' p4]|] eqn:Et3; [|discriminate Et2] end.
    injection Et2 as <- <-. destruct (write_tokens_plain rand ts p3 b' p4) as ((A1 & A2 & A3 & _) & A4 & A5); [apply clean_plain; exact Ft|exact Et3|].
    rewrite A1, A2, A3, A4, A5. subst p3 p1. cbn [with_sym with_e with_f p_initiator p_second p_s p_e p_f]. repeat (split; [first [reflexivity|assumption]|]).
    exists k, (b' ++ c). split; [reflexivity|]. split; [exact Hk1|]. exists kf. split; [reflexivity|]. split; [exact Hk2|]. now rewrite !app_assoc.
  - destruct (write_tokens_plain rand ts p1 b p2) as ((A1 & A2 & A3 & _) & A4 & A5); [apply clean_plain; exact Ft|exact Et2|].
    rewrite A1, A2, A3, A4. subst p1. cbn [with_sym with_e p_initiator p_second p_s p_e p_f]. repeat (split; [first [reflexivity|assumption]|]).
    exists k, (b ++ c). split; [reflexivity|]. split; [exact Hk1|]. now rewrite !app_assoc.
Qed.

(** After reading a first message, successfully or not *)
Definition read_somehow (p : party) (ts : list tok) (m : list Z) (p1 : party) : Prop :=
  read_failed p ts m p1 \/ exists r p0, ReadTokens p ts m = Some (r, p0) /\ same_peer p0 p1 /\ p_e p1 = p_e p0 /\ p_f p1 = p_f p0.
Lemma somehow_own : forall p ts m p1, read_somehow p ts m p1 -> stable p p1 /\ p_e p1 = p_e p /\ p_f p1 = p_f p.
Proof.
  intros p ts m p1 [(ts1 & t & ts2 & r & p0 & -> & Er & Hc & _)|(r & p0 & Er & (S & _) & Y1 & Y2)]; destruct (ReadTokens_fixed _ _ _ _ _ _ _ _ _ _ _ Er) as (F1 & (A1 & A2) & _).
  - apply fixed_stable in F1. destruct Hc as [-> |[(_ & -> & _)|(_ & q & ->)]]; split; auto.
  - split; [eapply stable_trans; [apply fixed_stable; exact F1|exact S]|]. split; congruence.
Qed.
Lemma read_e : forall p q rest, p_second p = true -> sized (DHLEN D false) q -> (REJECTS_NULL D = true -> all_zerob q = false) ->
  ReadToken p E_ (q ++ rest) = Some (rest, with_sym (with_re p q) (MixEphemeral (p_sym p) q)).
Proof.
  intros p q rest Hs [Zq _] Hn. cbn [SHandshake.ReadToken]. rewrite Hs. cbn [negb]. rewrite <- Zq. rewrite zlen_app. pose proof (zlen_nonneg _ rest).
  destruct (Z.ltb_spec (zlen q + zlen rest) (zlen q)); [lia|]. rewrite take_app_exact, drop_app_exact. destruct (REJECTS_NULL D); [rewrite (Hn eq_refl)|]; reflexivity.
Qed.
Lemma read_f : forall p q rest, p_second p = true -> ns_k (p_sym p) = None -> sized (DHLEN E false) q -> (REJECTS_NULL E = true -> all_zerob q = false) ->
  exists v, ReadToken p F_ (q ++ rest) = Some (rest, with_sym (with_rf p q) v).
Proof.
  intros p q rest Hs Hk [Zq _] Hn. cbn [SHandshake.ReadToken]. rewrite Hs. unfold mac_overhead, SSymm.DecryptAndHash. rewrite Hk. cbn [negb]. rewrite Z.add_0_r, <- Zq. rewrite zlen_app. pose proof (zlen_nonneg _ rest).
  destruct (Z.ltb_spec (zlen q + zlen rest) (zlen q)); [lia|]. rewrite take_app_exact, drop_app_exact.
  destruct (REJECTS_NULL E); [rewrite (Hn eq_refl)|]; eexists; reflexivity.
Qed.
Lemma somehow_cons : forall t ts p m p1 r p', ReadToken p t m = Some (r, p') -> read_somehow p (t :: ts) m p1 -> read_somehow p' ts r p1.
Proof.
  intros t ts p m p1 r p' Et [X|(r0 & p0 & X & Y)]; [left; eapply failed_cons; eauto|]. right. cbn [SHandshake.ReadTokens] in X. rewrite Et in X. eauto.
Qed.
Lemma somehow_plain : forall ts p m p1, plain_tokens ts -> read_somehow p ts m p1 -> same_peer p p1.
Proof. intros ts p m p1 Hp [X|(r & p0 & X & Y)]; [eapply failed_plain; eauto|]. eapply same_peer_trans; [eapply read_tokens_plain; eauto|apply Y]. Qed.
Lemma first_read : forall f p ts k m p1, first_tokens f ts = true -> (f = true -> psk = false) -> p_second p = true -> ns_k (p_sym p) = None ->
  honest D k -> read_somehow p ts m p1 ->
  (f = false -> forall rest, m = PUB D k ++ rest -> stable p p1 /\ p_re p1 = Some (PUB D k)) /\
  (f = true -> forall kf rest, honest E kf -> m = PUB D k ++ PUB E kf ++ rest -> stable p p1 /\ p_re p1 = Some (PUB D k) /\ p_rf p1 = Some (PUB E kf)).
Proof.
  intros f p ts k m p1 Ft Hpsk Hs Hk (_ & S1 & N1) Rd.
  destruct ts as [|t ts]; [discriminate Ft|]. destruct t; try discriminate Ft. cbn [first_tokens] in Ft. split; intros ->.
  - intros rest ->. apply (somehow_cons _ _ _ _ _ _ _ (read_e p (PUB D k) rest Hs S1 N1)) in Rd.
    apply somehow_plain in Rd; [|apply clean_plain; exact Ft]. destruct Rd as (A & A1 & A2). split; [exact A|exact A1].
  - intros kf rest (_ & S2 & N2) ->. destruct ts as [|t ts]; [discriminate Ft|]. destruct t; try discriminate Ft.
    apply (somehow_cons _ _ _ _ _ _ _ (read_e p (PUB D k) (PUB E kf ++ rest) Hs S1 N1)) in Rd.
    destruct (read_f (with_sym (with_re p (PUB D k)) (MixEphemeral (p_sym p) (PUB D k))) (PUB E kf) rest Hs) as (v & Ef); [apply eph_unkeyed; auto|exact S2|exact N2|].
    apply (somehow_cons _ _ _ _ _ _ _ Ef) in Rd. apply somehow_plain in Rd; [|apply clean_plain; exact Ft]. destruct Rd as (A & A1 & A2).
    split; [exact A|]. split; [exact A1|exact A2].
Qed.
End T.

(** ** The call *)
Section F.
Variables (lib : library) (id : protocol_id) (N : suite).
Hypothesis V : provides lib id N.
Local Notation D := (n_dh N).
Local Notation E := (n_hyb N).
Variable dview : dh_data -> KP D.
Variable dready : dh_data -> Prop.
Variable hview : dh_data -> KP E.
Variable hready : dh_data -> Prop.
Hypothesis Ld : dh_link (n_dh_alg N) D dview dready.
Hypothesis Lh : dh_link (n_hyb_alg N) E hview hready.
Local Notation weak := (weak (n_cipher N) (n_hash N) (n_dh_alg N) (n_hyb_alg N) D E dview dready hview hready (psk_mode id)).

Lemma fallback_provides : forall pat, provides lib (fallback_id id pat) N.
Proof. intros pat. destruct V. constructor; assumption. Qed.
Lemma fallback_text : forall pat name, protocol_text id name -> exists name', protocol_text (fallback_id id pat) name' /\ zlen name' < MAX_PROTOCOL_NAME.
Proof.
  intros pat name (x1 & x2 & x3 & x4 & x5 & R1 & R2 & R3 & R4 & R5 & Hh).
  assert (Rf : exists n, registered (80 * 256) (fallback_number pat) n).
  { unfold fallback_number. destruct (uses pat true F_); [exists (str "XXfallback+hfs")|exists (str "XXfallback")]; (split; [vm_compute; tauto|right; reflexivity]). }
  destruct Rf as (n & Rf).
  pose proof (reg_facts _ _ _ R1) as (_ & Z1 & _). pose proof (reg_facts _ _ _ Rf) as (_ & Zn & _). pose proof (reg_facts _ _ _ R3) as (_ & Z3 & _). pose proof (reg_facts _ _ _ R4) as (_ & Z4 & _). pose proof (reg_facts _ _ _ R5) as (_ & Z5 & _).
  assert (Zu : zlen (str "_") = 1 /\ zlen (str "+") = 1) by (split; reflexivity). destruct Zu as [Zu Zp]. unfold MAX_PROTOCOL_NAME.
  destruct Hh as [(H0 & _)|(h & Rh & _)].
  - eexists. split.
    + exists x1, n, x3, x4, x5. cbn [fallback_id pi_prefix pi_pattern pi_dh pi_cipher pi_hash pi_hybrid]. repeat (split; [assumption|]). left. split; [exact H0|reflexivity].
    + rewrite !zlen_app, Zu. lia.
  - pose proof (reg_facts _ _ _ Rh) as (_ & Z6 & _). eexists. split.
    + exists x1, n, x3, x4, x5. cbn [fallback_id pi_prefix pi_pattern pi_dh pi_cipher pi_hash pi_hybrid]. repeat (split; [assumption|]). right. exists h. split; [exact Rh|reflexivity].
    + rewrite !zlen_app, Zu, Zp. lia.
Qed.

Lemma format_it : forall id' name', protocol_text id' name' -> zlen name' < MAX_PROTOCOL_NAME ->
  exists mem, noise_protocol_id_to_name (Some (zeros MAX_PROTOCOL_NAME)) MAX_PROTOCOL_NAME (Some (id', zeros 4)) = Ok (E_NONE, Some mem) /\ take (c_strlen mem) mem = name' /\ bytes name'.
Proof.
  intros id' name' Ht Hl. assert (Hz : zlen (zeros MAX_PROTOCOL_NAME) = MAX_PROTOCOL_NAME) by (apply zlen_zeros; discriminate).
  assert (Hz0 : 0 < MAX_PROTOCOL_NAME <= zlen (zeros MAX_PROTOCOL_NAME)) by (rewrite Hz; split; [reflexivity|apply Z.le_refl]).
  destruct (C39_format_exact id' [0; 0; 0; 0] (zeros MAX_PROTOCOL_NAME) MAX_PROTOCOL_NAME) as (e & mem & Em & _ & _ & Ee & _); [exact Hz0|reflexivity|].
  assert (e = E_NONE) by (apply Ee; split; [repeat constructor|exists name'; auto]). subst e. clear Ee.
  exists mem. change (zeros 4) with [0; 0; 0; 0]. split; [exact Em|].
  destruct (C38_format_then_parse id' [0; 0; 0; 0] (zeros MAX_PROTOCOL_NAME) MAX_PROTOCOL_NAME mem) as (nm & (r & ->) & Hc & _ & Hp); [exact Hz0|reflexivity|exact Em|].
  assert (Ht2 : protocol_text id' nm) by (destruct (C38_parse_exact nm) as (e & j & E2 & [(-> & Ht2)|(-> & _)]); rewrite E2 in Hp; [inversion Hp; subst j; exact Ht2|discriminate Hp]).
  assert (Hb : bytes nm) by (eapply Forall_impl; [|exact Hc]; cbn; unfold is_byte; lia).
  assert (Tn : take (c_strlen (nm ++ 0 :: r)) (nm ++ 0 :: r) = nm) by (rewrite strlen_ok by auto; apply take_app_exact).
  assert (nm = name') by (eapply text_fun; eauto). subst nm. auto.
Qed.
Lemma clear_local : forall a F view ready always b c o k, dh_link a F view ready -> local_rel a F view ready always b o k -> (always = true -> b = c) ->
  local_rel a F view ready always c (snd (dhstate_clear_key o)) None /\ known (snd (dhstate_clear_key o)) = known o.
Proof.
  intros a F view ready always b c [d|] k L R Hb; [|split; reflexivity]. destruct R as (W & R1 & _). split; [|reflexivity]. cbn [dhstate_clear_key snd local_rel].
  split; [apply clear_wf; [exact (lk_shape _ _ _ _ L)|exact W]|]. split; [|reflexivity]. cbn [known]. rewrite orb_false_r. intros Ha. rewrite <- (Hb Ha). apply R1. now rewrite Ha.
Qed.
Lemma clear_remote : forall a F view ready always b c o q, dh_link a F view ready -> remote_rel a always b o q -> (always = true -> b = c) ->
  remote_rel a always c (snd (dhstate_clear_key o)) None /\ known (snd (dhstate_clear_key o)) = known o.
Proof.
  intros a F view ready always b c [d|] q L R Hb; [|split; reflexivity]. destruct R as (W & R1 & _). split; [|reflexivity]. cbn [dhstate_clear_key snd remote_rel].
  split; [apply clear_wf; [exact (lk_shape _ _ _ _ L)|exact W]|]. split; [|reflexivity]. cbn [known]. rewrite orb_false_r. intros Ha. rewrite <- (Hb Ha). apply R1. now rewrite Ha.
Qed.
Lemma local_has : forall a F view ready always b o k, local_rel a F view ready always b o k -> known k = true -> dhstate_has_public_key o = true.
Proof. intros a F view ready always b [d|] [k|] R Hk; try discriminate; cbn in R. destruct R as (_ & _ & T & _). cbn. now rewrite T. Qed.
Lemma remote_has : forall a always b o q, remote_rel a always b o q -> known q = true -> dhstate_has_public_key o = true.
Proof. intros a always b [d|] [k|] R Hk; try discriminate; cbn in R. destruct R as (_ & _ & T & _). cbn. destruct (dh_key_type d); try reflexivity. congruence. Qed.
Lemma local_none : forall a F view ready always b k, local_rel a F view ready always b None k -> k = None.
Proof. auto. Qed.

Lemma fallback_symm : forall y name, sym_wf (n_cipher N) (n_hash N) y -> ss_cipher y <> None -> bytes name ->
  exists cs c' h, ss_cipher y = Some cs /\
    (if zlen name <=? ha_hash_len (ss_hash y) then Ok (ss_hctx y, name ++ zeros (ha_hash_len (ss_hash y) - zlen name))
     else let! r := hashstate_hash_one (ss_hash y) (ss_hctx y) (Some name) (zlen name) (ha_hash_len (ss_hash y)) in
          match r with (_, c', Some h) => Ok (c', h) | (_, c', None) => Ok (c', ss_h y) end) = Ok (c', h) /\
    forall id', let y' := SymState id' (Some (CipherState (cs_alg cs) false (cs_key cs) 0)) (ss_hash y) c' h h in
      sym_wf (n_cipher N) (n_hash N) y' /\ sym_view y' = Some (InitializeSymmetric (n_H N) (ha_hash_len (n_hash N)) name).
Proof.
  intros y name W Hc Hn. destruct (ss_cipher y) as [cs|] eqn:Ec; [|congruence]. exists cs. destruct W as [W1 W2 W3 W4 W5]. destruct (W5 cs Ec) as [Ca Cw].
  rewrite W1. pose proof (law_lens _ _ (pv_hash_ok _ _ _ V)) as Hl. pose proof (zlen_nonneg _ name).
  assert (Hcs : cs_wf (CipherState (cs_alg cs) false (cs_key cs) 0)) by (constructor; cbn; [lia|discriminate]).
  unfold InitializeSymmetric, sym_view. cbn [ss_cipher cs_has_key cs_n ss_ck ss_h]. destruct (Z.leb_spec (zlen name) (ha_hash_len (n_hash N))).
  - do 2 eexists. split; [reflexivity|]. split; [reflexivity|]. intros id'. cbv zeta. split; [|reflexivity].
    assert (Hz : zlen (name ++ zeros (ha_hash_len (n_hash N) - zlen name)) = ha_hash_len (n_hash N)) by (rewrite zlen_app, zlen_zeros; lia).
    assert (Hb : bytes (name ++ zeros (ha_hash_len (n_hash N) - zlen name))) by (apply bytes_app; split; [auto|apply bytes_zeros]).
    constructor; cbn; auto. intros x [= <-]. auto.
  - unfold hashstate_hash_one. rewrite Z.eqb_refl, read_ptr_some. cbn [negb obind].
    destruct (hash_run1 (n_hash N) (n_H N) (pv_hash_ok _ _ _ V) (ss_hctx y) name W2) as (c' & E1 & Hc'). rewrite E1. cbn [obind].
    do 2 eexists. split; [reflexivity|]. split; [reflexivity|]. intros id'. cbv zeta. split; [|reflexivity].
    constructor; cbn; auto; try (split; [apply (law_len _ _ (pv_hash_ok _ _ _ V))|apply (law_bytes _ _ (pv_hash_ok _ _ _ V))]). intros x [= <-]. auto.
Qed.

Lemma fallback_ok : forall pat i s p name prol key, has_pattern id pat -> can_fall_back pat = true -> da_ephemeral_only (n_dh_alg N) = false ->
  protocol_text id name -> weak s p -> p_initiator p = i -> p_second p = negb i -> shape_of s = shape_for pat i -> ss_id (hs_symmetric s) = id ->
  has_bit (hs_requirements s) REQ_FALLBACK_POSSIBLE = true ->
  (hs_action s = ACTION_FAILED \/ hs_action s = if i then ACTION_READ_MESSAGE else ACTION_WRITE_MESSAGE) ->
  match key with Some k => hs_psk s = k /\ zlen k = 32 /\ bytes k | None => hs_psk s = [] end -> hs_prologue s = prol /\ bytes prol ->
  (if i then known (p_e p) = true /\ known (p_f p) = uses pat true F_ else known (p_re p) = true /\ known (p_rf p) = uses pat true F_) ->
  uses pat true F_ = uses pat false F_ ->
  exists name' s', handshakestate_fallback_to s (fallback_number pat) = Ok (E_NONE, s') /\ protocol_text (fallback_id id pat) name' /\
    pre N (fallback_id id pat) dview dready hview hready (fpat_of (uses pat true F_)) (negb i) (negb i) true name' prol key
      (if i then p_e p else None) (if i then p_f p else None) (if i then None else p_re p) (if i then None else p_rf p) s' /\
    ko_static (hs_local s') = ko_static (hs_local s) /\ remote_key (ko_static (hs_remote s')) = None.
Proof.
  intros pat i s p name prol key Hp Hc Heo Ht [[K1 K2 K3 K4 K5 K6 K7 K8 K9] Wf Wc] Hi Hs Sh Id Rq Ac Ps Pr Kn Uf.
  destruct (fall_fact _ _ Hp Hc) as (F1 & F2 & F3 & F4 & F5 & F6 & F7 & _).
  destruct (fallback_text pat name Ht) as (name' & Ht' & Hl'). set (f := uses pat true F_) in *.
  destruct (fpat_in f) as (fn & Hin). pose proof (facts_of _ _ _ Hin) as Fp. pose proof (lookup_all _ _ _ Hin) as Lk.
  assert (Ek : 80 * 256 + fnum f = fallback_number pat) by (unfold fallback_number, fnum; reflexivity). rewrite Ek in Lk.
  unfold handshakestate_fallback_to. cbv zeta. rewrite Id, Rq, Lk. cbn [negb]. rewrite orb_false_r.
  rewrite (proj2 (Z.ltb_ge _ _) F1).
  assert (Fl : has_bit (pattern_flags (encode_pattern (fpat_of f))) FLAG_REMOTE_EPHEM_REQ = true /\ has_bit (pattern_flags (encode_pattern (fpat_of f))) FLAG_REMOTE_REQUIRED = false)
    by (destruct f; split; reflexivity).
  destruct Fl as [Fl1 Fl2]. rewrite Fl1. cbn [negb]. rewrite K1, Hi.
  replace ((if i then ROLE_INITIATOR else ROLE_RESPONDER) =? ROLE_INITIATOR) with i by (destruct i; reflexivity).
  replace (if i then negb (hs_action s =? ACTION_FAILED) && negb (hs_action s =? ACTION_READ_MESSAGE) else negb (hs_action s =? ACTION_FAILED) && negb (hs_action s =? ACTION_WRITE_MESSAGE)) with false
    by (destruct Ac as [-> | ->]; destruct i; reflexivity).
  assert (Eph : dhstate_has_public_key (ko_ephemeral (if i then hs_local s else hs_remote s)) = true).
  { destruct i; [eapply local_has; [exact K5|apply Kn]|eapply remote_has; [exact K8|apply Kn]]. }
  rewrite Eph. cbn [negb].
  pose proof (f_equal x_f Sh) as Xf. pose proof (f_equal x_rf Sh) as Xrf. pose proof (f_equal x_s Sh) as Xs. pose proof (f_equal x_e Sh) as Xe. pose proof (f_equal x_rs Sh) as Xrs. pose proof (f_equal x_re Sh) as Xre.
  cbn [shape_of shape_for x_f x_rf x_s x_e x_rs x_re] in Xf, Xrf, Xs, Xe, Xrs, Xre.
  assert (Hyb : negb (is_null_ptr (ko_hybrid (if i then hs_local s else hs_remote s))) && negb (dhstate_has_public_key (ko_hybrid (if i then hs_local s else hs_remote s))) = false).
  { destruct f eqn:Ef.
    - apply andb_false_iff. right. apply negb_false_iff. destruct i; [eapply local_has; [exact K6|apply Kn]|eapply remote_has; [exact K9|apply Kn]].
    - apply andb_false_iff. left. apply negb_false_iff. subst f. destruct i; cbn [negb] in *.
      + destruct (ko_hybrid (hs_local s)); [cbn in Xf; congruence|reflexivity].
      + destruct (ko_hybrid (hs_remote s)); [cbn in Xrf; congruence|reflexivity]. }
  rewrite Hyb.
  change (ProtocolId (pi_prefix id) (fallback_number pat) (pi_dh id) (pi_cipher id) (pi_hash id) (pi_hybrid id)) with (fallback_id id pat).
  destruct (format_it _ _ Ht' Hl') as (mem & Em & Tn & Hb). rewrite Em. cbn [obind]. rewrite Tn.
  destruct (fallback_symm (hs_symmetric s) name' Wf Wc Hb) as (cs & c' & h & Ec & Eh & Sy). specialize (Sy (fallback_id id pat)). cbv zeta in Sy. destruct Sy as [Sy1 Sy2].
  exists name'. rewrite Ec, Fl2. cbn [negb].
  destruct (req_fact (fpat_of f) (negb i) (pi_prefix id) Fp) as (_ & Rq2 & _).
  assert (Ffb : fallback_pattern (fpat_of f) = true) by (destruct f; reflexivity). rewrite Ffb in Rq2.
  assert (Tk : drop 2 (encode_pattern (fpat_of f)) = encode_messages (messages (fpat_of f)) ++ [0]) by (destruct f; reflexivity).
  assert (Ush : forall j, shape_for (fpat_of f) j = Shape true true f true true f) by (destruct f, j; reflexivity).
  assert (Ss : object_ok N (p_second p) (ko_static (hs_local s))) by (destruct (ko_static (hs_local s)) as [d|]; [|exact I]; destruct K4 as (W & R1 & _); split; [exact W|]; split; [now apply R1|exact Heo]).
  destruct (clear_remote _ _ _ _ _ _ (negb (p_second p)) _ _ Ld K7 ltac:(auto)) as [Cs1 Cs2].
  assert (Srs : object_ok N (negb (p_second p)) (snd (dhstate_clear_key (ko_static (hs_remote s))))).
  { destruct (snd (dhstate_clear_key (ko_static (hs_remote s)))) as [d|]; [|exact I]. destruct Cs1 as (W & R1 & _). split; [exact W|]. split; [now apply R1|exact Heo]. }
  assert (Rk : remote_key (snd (dhstate_clear_key (ko_static (hs_remote s)))) = None) by (destruct (ko_static (hs_remote s)); reflexivity).
  destruct (clear_remote _ _ _ _ _ _ (negb (p_second p)) _ _ Ld K8 ltac:(auto)) as [Ce1 Ce2]. destruct (clear_remote _ _ _ _ _ _ (negb (p_second p)) _ _ Lh K9 ltac:(auto)) as [Cf1 Cf2].
  destruct (clear_local _ _ _ _ _ _ (p_second p) _ _ Ld K5 ltac:(auto)) as [Ce3 Ce4]. destruct (clear_local _ _ _ _ _ _ (p_second p) _ _ Lh K6 ltac:(auto)) as [Cf3 Cf4].
  rewrite Hs in *. cbn [known] in Xf, Xrf, Xs, Xe, Xrs, Xre.
  destruct i; rewrite Eh; cbn [obind]; eexists; (split; [reflexivity|]); (split; [exact Ht'|]); (split; [|split; [reflexivity|exact Rk]]).
  all: constructor.
  all: cbn [hs_action hs_tokens hs_role hs_symmetric hs_requirements hs_local hs_remote ko_static ko_ephemeral ko_hybrid hs_fixed_ephemeral hs_fixed_hybrid hs_psk hs_prologue negb].
  all: try exact Tk.
  all: try (change (ROLE_RESPONDER =? ROLE_RESPONDER) with true; change (ROLE_INITIATOR =? ROLE_RESPONDER) with false; unfold flags_of in Rq2; cbv zeta in Rq2; cbn [negb] in Rq2; cbv iota in *; exact Rq2).
  all: try exact Sy1.
  all: try exact Sy2.
  all: try exact Ss.
  all: try exact Srs.
  all: try exact Ps.
  all: try exact Pr.
  all: try first [exact K5|exact Ce3].
  all: try first [exact K6|exact Cf3].
  all: try first [exact K8|exact Ce1].
  all: try first [exact K9|exact Cf1].
  all: match goal with |- shape_of _ = _ => idtac | |- _ => try reflexivity end.
  all: try (split; assumption).
  all: try assumption.
  - rewrite Ush. unfold shape_of. cbn [hs_local hs_remote ko_static ko_ephemeral ko_hybrid negb] in *. rewrite Cs2, Ce2, Cf2. unfold f in *. congruence.
  - rewrite Ush. unfold shape_of. cbn [hs_local hs_remote ko_static ko_ephemeral ko_hybrid negb] in *. rewrite Cs2, Ce4, Cf4. unfold f in *. congruence.
Qed.
End F.

(** ** The steps before *)
Section G.
Variables (lib : library) (id : protocol_id) (N : suite).
Hypothesis V : provides lib id N.
Local Notation D := (n_dh N).
Local Notation E := (n_hyb N).
Definition psk_held (key : option (list Z)) (s : handshakestate) : Prop := match key with Some k => hs_psk s = k /\ zlen k = 32 /\ bytes k | None => hs_psk s = [] end.

Lemma started_full : forall i log s s1 pat, set_up N id lib i log s -> has_pattern id pat -> fallback_pattern pat = false -> uses pat i S_ = true ->
  handshakestate_start s = Ok (E_NONE, s1) ->
  exists dview dready hview hready name k,
    dh_link (n_dh_alg N) (n_dh N) dview dready /\ dh_link (n_hyb_alg N) (n_hyb N) hview hready /\ da_ephemeral_only (n_dh_alg N) = false /\
    (forall d, dready (ds_data d) /\ static_pair (n_dh N) d (dview (ds_data d))) /\
    protocol_text id name /\ pattern_facts pat = true /\ local_pair N (ko_static (hs_local s)) (Some k) /\ hs_local s1 = hs_local s /\
    has_bit (hs_requirements s1) REQ_FALLBACK_POSSIBLE = given pat false S_ /\ shape_of s1 = shape_for pat i /\ ss_id (hs_symmetric s1) = id /\
    psk_held (psk_set None log) s1 /\ (hs_prologue s1 = prologue_set [] log /\ bytes (prologue_set [] log)) /\
    (psk_mode id = true -> known (psk_set None log) = true) /\
    at_ (n_cipher N) (n_hash N) (n_dh_alg N) (n_hyb_alg N) (n_dh N) (n_hyb N) dview dready hview hready (psk_mode id) s1
      (nInitialize N id name (prologue_set [] log) (psk_set None log) pat i (negb i) (Some k) None None (remote_key (ko_static (hs_remote s))) None None).
Proof.
  intros i log s s1 pat Su Hp Hf Hu Es. destruct (opened lib id N V _ _ _ _ Su Hp) as (dview & dready & hview & hready & name & Ld & Lh & Ls & Ht & Hpf & Hfb & Rq & P).
  destruct (not_fallback pat i Hf Hpf) as (G1 & G2 & G3). destruct (not_fallback pat (negb i) Hf Hpf) as (G1' & G2' & _).
  assert (Hx : pi_pattern id = PATTERN_XX_FALLBACK -> false = true) by (intros X; rewrite <- Hf; auto).
  pose proof (start_answer N id dview dready hview hready Ls _ _ _ _ _ _ _ _ _ _ _ _ P Hx) as A.
  destruct (uses pat i S_ && negb _) eqn:C1; [rewrite A in Es; discriminate Es|].
  destruct (given pat (negb i) S_ && negb _) eqn:C2; [rewrite A in Es; discriminate Es|].
  destruct (psk_mode id && negb _) eqn:C3; [rewrite A in Es; discriminate Es|]. clear A.
  assert (B1 : uses pat i S_ = true -> dhstate_has_keypair (ko_static (hs_local s)) = true) by (intros X; rewrite X in C1; now destruct (dhstate_has_keypair _)).
  assert (B2 : given pat (negb i) S_ = true -> dhstate_has_public_key (ko_static (hs_remote s)) = true) by (intros X; rewrite X in C2; now destruct (dhstate_has_public_key _)).
  assert (B3 : psk_mode id = true -> known (psk_set None log) = true) by (intros X; rewrite X in C3; now destruct (known _)).
  pose proof (start_ok N id (pv_cipher_ok _ _ _ V) (pv_hash_ok _ _ _ V) (pv_key _ _ _ V) dview dready hview hready Ld Lh Ls pat i name (prologue_set [] log) (psk_set None log) None None None None s) as St.
  cbv zeta in St. rewrite Hf in St. rewrite G3 in P. cbn [known] in St. rewrite ?G1, ?G2, ?G1', ?G2' in St.
  destruct (St Hpf P Hx eq_refl eq_refl eq_refl eq_refl B1 B2 B3) as (k & s' & E' & Lp & H1 & H2 & (Q1 & Q2 & Q3 & Q4 & Q5 & Q6) & At).
  rewrite Es in E'. injection E' as <-. destruct P as [A1 A2 A3 A4 A5 A6 A7 A8 A9 A10 A11 A12 A13 A14 A15 A16 A17].
  specialize (B1 Hu). destruct (ko_static (hs_local s)) as [d|] eqn:Ed; [|discriminate B1]. destruct A9 as (_ & _ & Eo). destruct k as [k|]; [|destruct Lp].
  exists dview, dready, hview, hready, name, k. split; [exact Ld|]. split; [exact Lh|]. split; [exact Eo|]. split; [exact (Ls Eo)|]. split; [exact Ht|]. split; [exact Hpf|]. split; [exact Lp|].
  split; [exact H1|]. split; [rewrite Q1; exact Rq|]. split; [rewrite Q6; exact A8|]. split; [rewrite Q5; exact A4|]. split; [unfold psk_held; rewrite Q3; exact A16|]. split; [rewrite Q4; exact A17|].
  split; [exact B3|exact At].
Qed.

Variable dview : dh_data -> KP D.
Variable dready : dh_data -> Prop.
Variable hview : dh_data -> KP E.
Variable hready : dh_data -> Prop.
Hypothesis Ld : dh_link (n_dh_alg N) D dview dready.
Hypothesis Lh : dh_link (n_hyb_alg N) E hview hready.
Local Notation weak := (weak (n_cipher N) (n_hash N) (n_dh_alg N) (n_hyb_alg N) D E dview dready hview hready (psk_mode id)).
Local Notation at_ := (at_ (n_cipher N) (n_hash N) (n_dh_alg N) (n_hyb_alg N) D E dview dready hview hready (psk_mode id)).

Lemma write_step : forall s p env mem n max payload mem' m s', at_ s p -> p_writing p = true -> p_messages p <> [] ->
  handshake_call (HWrite env (NBuf (Some mem) n max) payload) ->
  hs_step lib s (HWrite env (NBuf (Some mem) n max) payload) = Ok (message_result E_NONE (NBuf (Some mem') (zlen m) max) None, s') -> take (zlen m) mem' = m ->
  kept s s' /\ exists p', at_ s' p' /\ nWriteMessage N id (SNoise.rand_of env) p (SNoise.payload_bytes payload) = Some (m, p').
Proof.
  intros s p env mem n max payload mem' m s' At Hw Hm Hc Es Tm. cbn [hs_step handshake_call b_data b_size b_max] in *. destruct Hc as (He & (Hb & Hmx & H64) & Hp).
  destruct (write_message_ok (n_cipher N) (n_hash N) (n_H N) (pv_cipher_ok _ _ _ V) (pv_hash_ok _ _ _ V) (pv_key _ _ _ V) (pv_mac _ _ _ V) (n_dh_alg N) (n_hyb_alg N) D E dview dready hview hready Ld Lh (psk_mode id)
    env s p mem n max payload At Hw Hm He) as (e & s2 & mem2 & n2 & E1 & Z1 & B1 & D1 & K1 & R).
  { destruct payload as [[[pd|] ps px]|]; cbn in *; tauto. } { lia. } { lia. } { exact Hb. }
  rewrite E1 in Es. cbn [obind] in Es. injection Es as -> -> -> <-. split; [exact K1|]. destruct R as [(m2 & p' & _ & Ew & At' & Zm & Zn & Tm2)|(Ne & _)]; [|congruence].
  exists p'. split; [exact At'|]. rewrite <- Tm, Tm2. exact Ew.
Qed.
Lemma read_step : forall s p env mem n max payload r s', at_ s p -> p_writing p = false -> p_messages p <> [] ->
  handshake_call (HRead env (NBuf (Some mem) n max) payload) ->
  hs_step lib s (HRead env (NBuf (Some mem) n max) payload) = Ok (r, s') ->
  kept s s' /\ exists p1, weak s' p1 /\ read_somehow id N p (hd [] (p_messages p)) (take n mem) p1 /\
    (hs_action s' = ACTION_FAILED \/ hr_err r = E_NONE /\ hs_action s' = match tl (p_messages p) with [] => ACTION_SPLIT | _ => ACTION_WRITE_MESSAGE end).
Proof.
  intros s p env mem n max payload r s' At Hw Hm Hc Es. cbn [hs_step handshake_call b_data b_size b_max] in *. destruct Hc as ((Hb & Hs & Hmx) & Hp).
  destruct (read_message_ok (n_cipher N) (n_hash N) (n_H N) (pv_cipher_ok _ _ _ V) (pv_hash_ok _ _ _ V) (pv_key _ _ _ V) (pv_mac _ _ _ V) (n_dh_alg N) (n_hyb_alg N) D E dview dready hview hready Ld Lh (psk_mode id)
    env s p mem n max payload At Hw Hm) as (e & s2 & pay2 & E1 & K1 & R).
  { destruct payload as [[[pd|] ps px]|]; cbn in *; tauto. } { lia. } { lia. } { exact Hb. }
  rewrite E1 in Es. cbn [obind] in Es. injection Es as <- <-. split; [exact K1|]. destruct R as [(pl & p' & -> & Er & At' & _)|(Ne & _ & Af & (p1 & Wk & Rd) & _)].
  - exists p'. split; [apply rel_weak; exact (a_rel _ _ _ _ _ _ _ _ _ _ _ _ _ At')|]. pose proof (a_action _ _ _ _ _ _ _ _ _ _ _ _ _ At') as Ac.
    unfold ReadMessage in Er. destruct (p_messages p) as [|ts ms] eqn:Em; [congruence|]. cbn [hd tl].
    destruct (ReadTokens _ _ _ _ _ _ _ _ _ _ _) as [[rest p0]|] eqn:Et; [|discriminate Er]. destruct (DecryptAndHash _ _ _ _) as [[pl' v]|]; [|discriminate Er]. injection Er as -> <-.
    split; [right; exists rest, p0; split; [exact Et|]; split; [repeat split|split; reflexivity]|]. right. split; [reflexivity|]. rewrite Ac. cbn [next_message with_sym p_messages p_writing].
    destruct (ReadTokens_fixed _ _ _ _ _ _ _ _ _ _ _ Et) as ((_ & _ & _ & W1 & W2) & _). rewrite W1, W2, Em, Hw. reflexivity.
  - exists p1. split; [exact Wk|]. split; [|left; exact Af]. destruct Rd as [Rd|(rest & p0 & Er & Hc)]; [left; exact Rd|]. right. exists rest, p0. split; [exact Er|].
    destruct Hc as [-> |(pl & v & _ & ->)]; repeat split.
Qed.
End G.
