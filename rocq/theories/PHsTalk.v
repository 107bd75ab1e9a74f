(** Proofs about HandshakeState: two objects talking to each other. *)
From Coq Require Import ZifyBool ZifyNat.
From Verif Require Import Base SNames PNames MUtil MCipher SCipher PCipher TCipher MHash SHash PHash MSymm SSymm PSymm MPatterns SPatterns MDh SDh PDh
  MHandshake SHandshake SHsApi PHandshake PHsTok PHsMsg SNoise PHsStart PHsRun PHsOpen SAgree PHsSize PHsAgree.

Section P.
Variables (lib : library) (id : protocol_id) (N : suite).
Hypothesis V : provides lib id N.
Local Notation Cok := (pv_cipher_ok _ _ _ V).
Local Notation Law := (pv_hash_ok _ _ _ V).
Local Notation Klen := (pv_key _ _ _ V).
Local Notation Mac := (pv_mac _ _ _ V).
Local Notation D := (n_dh N).
Local Notation E := (n_hyb N).

(** The object [s] is at the point of the handshake that [p] describes. *)
Definition holds (s : handshakestate) (p : nparty N) : Prop :=
  exists dview dready hview hready,
    dh_link (n_dh_alg N) D dview dready /\ dh_link (n_hyb_alg N) E hview hready /\
    at_ (n_cipher N) (n_hash N) (n_dh_alg N) (n_hyb_alg N) D E dview dready hview hready (psk_mode id) s p.
Definition ended (s : handshakestate) (p : nparty N) : Prop :=
  hs_action s = ACTION_COMPLETE /\ sym_wf (n_cipher N) (n_hash N) (hs_symmetric s) /\ ss_h (hs_symmetric s) = ns_h (p_sym p).

Lemma holds_step : forall s p op, holds s p -> handshake_call op -> exists r s' q, hs_step lib s op = Ok (r, s') /\ follows N id (Running p) [(op, r)] q /\
  match q with Running p' => holds s' p' | Failed => hs_action s' = ACTION_FAILED | Done p' => ended s' p' end.
Proof.
  intros s p op (dview & dready & hview & hready & Ld & Lh & At) Hc.
  destruct (step_follows N id Cok Law Klen Mac dview dready hview hready Ld Lh lib s (Running p) op At Hc) as (r & s' & q & E1 & T & F).
  exists r, s', q. split; [exact E1|]. split; [apply F; constructor|]. destruct q; cbn [tracks] in T; [exists dview, dready, hview, hready; auto|exact T|exact T].
Qed.

Lemma holds_write : forall s p env mem n max payload m p', holds s p -> p_writing p = true ->
  handshake_call (HWrite env (NBuf (Some mem) n max) payload) ->
  nWriteMessage N id (SNoise.rand_of env) p (SNoise.payload_bytes payload) = Some (m, p') -> zlen m <= max -> zlen m <= 65535 ->
  exists mem' s', hs_step lib s (HWrite env (NBuf (Some mem) n max) payload) = Ok (message_result E_NONE (NBuf (Some mem') (zlen m) max) None, s') /\
    take (zlen m) mem' = m /\ holds s' p'.
Proof.
  intros s p env mem n max payload m p' Hh Hw Hc Hm Hl Hp. destruct (holds_step _ _ _ Hh Hc) as (r & s' & q & E1 & F & T).
  assert (Hne : p_messages p <> []) by (intros X; unfold nWriteMessage, WriteMessage in Hm; rewrite X in Hm; discriminate Hm).
  inversion F; subst.
  - match goal with X : follows _ _ _ [] _ |- _ => inversion X; subst end.
    match goal with X : nWriteMessage _ _ _ _ _ = Some _ |- _ => rewrite Hm in X; injection X as <- <- end. eauto.
  - match goal with X : forall m p', nWriteMessage _ _ _ _ _ = _ -> _ |- _ => destruct (X _ _ Hm) as [[Y|Y] _]; lia end.
  - match goal with X : _ \/ _ |- _ => destruct X; congruence end.
Qed.
Lemma splice_zeros : forall m tail, splice 0 (zeros (zlen m)) (m ++ tail) = zeros (zlen m) ++ tail.
Proof. intros m tail. rewrite splice_0. pose proof (zlen_nonneg _ m). rewrite zlen_zeros by lia. rewrite drop_app_exact. reflexivity. Qed.
Lemma holds_read : forall s p env m tail payload pl p', holds s p -> p_writing p = false ->
  handshake_call (HRead env (NBuf (Some (m ++ tail)) (zlen m) (zlen (m ++ tail))) payload) ->
  nReadMessage N id p m = Some (pl, p') -> zlen m <= 65535 -> room payload (zlen pl) ->
  exists s', hs_step lib s (HRead env (NBuf (Some (m ++ tail)) (zlen m) (zlen (m ++ tail))) payload) =
      Ok (message_result E_NONE (NBuf (Some (zeros (zlen m) ++ tail)) (zlen m) (zlen (m ++ tail))) (option_map (fun b => filled b pl) payload), s') /\ holds s' p'.
Proof.
  intros s p env m tail payload pl p' Hh Hw Hc Hm Hl Hr. destruct (holds_step _ _ _ Hh Hc) as (r & s' & q & E1 & F & T).
  assert (Hne : p_messages p <> []) by (intros X; unfold nReadMessage, ReadMessage in Hm; rewrite X in Hm; discriminate Hm).
  inversion F; subst.
  - match goal with X : follows _ _ _ [] _ |- _ => inversion X; subst end.
    match goal with X : nReadMessage _ _ _ _ = Some _ |- _ => rewrite take_app_exact in X; rewrite Hm in X; injection X as <- <- end. rewrite splice_zeros in E1. eauto.
  - match goal with X : forall pl p', nReadMessage _ _ _ _ = _ -> _ |- _ => rewrite take_app_exact in X; destruct (X _ _ Hm) as [Y|Y]; [lia|contradiction] end.
  - match goal with X : _ \/ _ |- _ => destruct X; congruence end.
Qed.
Lemma holds_split : forall s p w1 w2, holds s p -> p_messages p = [] -> w1 || w2 = true ->
  exists c1 c2 s', hs_step lib s (HSplit w1 w2 true) = Ok (HRes E_NONE None None c1 c2 None, s') /\
    (if w1 then fresh_cipher N (if p_initiator p then fst (nSplit N p) else snd (nSplit N p)) c1 else c1 = None) /\
    (if w2 then fresh_cipher N (if p_initiator p then snd (nSplit N p) else fst (nSplit N p)) c2 else c2 = None) /\ ended s' p.
Proof.
  intros s p w1 w2 Hh Hm Hw. destruct (holds_step _ _ (HSplit w1 w2 true) Hh eq_refl) as (r & s' & q & E1 & F & T).
  inversion F; subst.
  - match goal with X : follows _ _ _ [] _ |- _ => inversion X; subst end. match goal with X : nSplit N p = _ |- _ => rewrite X end. cbn [fst snd]. do 3 eexists. split; [exact E1|]. split; [assumption|]. split; [assumption|exact T].
  - match goal with X : _ \/ _ |- _ => destruct X; congruence end.
Qed.
Lemma holds_hash : forall s p mem n, holds s p -> p_messages p = [] -> 0 <= n <= zlen mem ->
  get_handshake_hash s (Some mem) n = Ok (E_NONE, Some (take n (ns_h (p_sym p) ++ zeros n) ++ drop n mem)).
Proof.
  intros s p mem n (dview & dready & hview & hready & Ld & Lh & At) Hm Hn.
  pose proof (a_rel _ _ _ _ _ _ _ _ _ _ _ _ _ At) as R. pose proof (a_action _ _ _ _ _ _ _ _ _ _ _ _ _ At) as Ac. rewrite Hm in Ac.
  pose proof (r_wf _ _ _ _ _ _ _ _ _ _ _ _ _ R) as W. pose proof (r_view _ _ _ _ _ _ _ _ _ _ _ _ _ R) as Vw.
  apply (get_hash_ok N Law); auto. unfold sym_view in Vw. destruct (ss_cipher (hs_symmetric s)); [|discriminate].
  apply (f_equal (option_map (fun x => ns_h x))) in Vw. cbn in Vw. congruence.
Qed.

(** ** The exchange *)
Variable static : KP D -> Prop.
Variable good : list Z -> Prop.
Hypothesis Ad : dh_agrees D static good.
Hypothesis Ah : dh_agrees E (fun _ => False) good.
Local Notation joint := (joint N static good).
Local Notation linked := (linked N static good).

Lemma over_nonneg : forall second keyed ts, 0 <= overhead_of N id second keyed ts.
Proof.
  intros second keyed ts. revert keyed. induction ts as [|t ts IH]; intros keyed; cbn [overhead_of].
  - unfold tag. pose proof (shape_mac _ (correct_shape _ Cok)). destruct keyed; lia.
  - specialize (IH (keyed_by id keyed t)). pose proof (shape_mac _ (correct_shape _ Cok)).
    pose proof (suite_lens _ _ (pv_dh_ok _ _ _ V) second). pose proof (suite_lens _ _ (pv_hyb_ok _ _ _ V) second). unfold tag. destruct t, keyed; lia.
Qed.
Lemma over_tag : forall second ts keyed, tag N keyed <= overhead_of N id second keyed ts.
Proof.
  intros second ts keyed. pose proof (shape_mac _ (correct_shape _ Cok)). destruct keyed; [|apply over_nonneg]. cbn [tag].
  revert second. induction ts as [|t ts IH]; intros second; cbn [overhead_of]; [cbn; lia|]. specialize (IH second).
  pose proof (suite_lens _ _ (pv_dh_ok _ _ _ V) second). pose proof (suite_lens _ _ (pv_hyb_ok _ _ _ V) second). destruct t; cbn [keyed_by orb tag]; lia.
Qed.
Lemma exchange_ok : forall final : handshakestate -> handshakestate -> Prop,
  (forall sA sB pA pB xa xb, holds sA pA -> holds sB pB -> joint xa xb pA pB -> p_messages pA = [] -> final sA sB) ->
  forall turns ms sA sB pA pB xa xb, holds sA pA -> holds sB pB -> joint xa xb pA pB -> p_messages pA = ms -> p_writing pA = true \/ ms = [] ->
  turns_ok N id good (p_second pA) (known (ns_k (p_sym pA))) ms turns -> exchange lib sA sB turns final.
Proof.
  intros final Fin. induction turns as [|t turns IH]; intros ms sA sB pA pB xa xb HA HB J Em Hw Hok.
  - destruct ms; [|contradiction Hok]. cbn [exchange]. eapply Fin; eauto.
  - destruct ms as [|ts ms]; [contradiction Hok|]. destruct Hw as [Hw|Hw]; [|discriminate Hw]. cbn [turns_ok] in Hok. destruct Hok as ((Hc & Hg & Ht & Ho) & Hmax & Hlim & Hok).
    pose proof Hc as (Hr & (Bm & Hmx & H64) & Hpl). cbn [b_data b_max] in Bm, Hmx, H64.
    assert (Bp : bytes (SNoise.payload_bytes (t_payload t))).
    { destruct (t_payload t) as [b|]; [|constructor]. cbn [SNoise.payload_bytes]. unfold contents. destruct (b_data b); [|constructor]. apply bytes_take. apply Hpl. }
    destruct (message_agrees N id Cok Law Klen Mac (pv_dh_ok _ _ _ V) (pv_hyb_ok _ _ _ V) static good Ad Ah xa xb (SNoise.rand_of (t_rand t)) pA pB ts ms (SNoise.payload_bytes (t_payload t)) J) as
      (m & pA' & pB' & Wm & Rm & Bmm & J' & W' & M' & S' & I'); auto.
    { intros k n Hn. apply Hr. exact Hn. }
    { intros k n. apply Hg. }
    destruct (write_message_size N id Cok (pv_dh_ok _ _ _ V) (pv_hyb_ok _ _ _ V) _ _ _ _ _ (fun k n Hn => Hr (tok_code k) n Hn) (linked_sized N (pv_dh_ok _ _ _ V) (pv_hyb_ok _ _ _ V) static good Ad _ _ (jo_linked _ _ _ _ _ _ _ J)) Wm)
      as (ts0 & ms0 & Em0 & Em1 & _ & _ & Zm & Kd & _).
    rewrite Em in Em0. injection Em0 as <- <-.
    pose proof (zlen_nonneg _ (SNoise.payload_bytes (t_payload t))) as Zp. pose proof (over_nonneg (p_second pA) (known (ns_k (p_sym pA))) ts) as Zo.
    destruct (holds_write sA pA (t_rand t) (t_mem t) (t_size t) (t_max t) (t_payload t) m pA' HA Hw Hc Wm) as (mem' & sA' & Es & Tk & HA'); [qlia|qlia|].
    assert (Wb : p_writing pB = false) by (rewrite (li_writing _ _ _ _ _ (jo_linked _ _ _ _ _ _ _ J)), Hw; reflexivity).
    destruct (holds_read sB pB (t_env t) m (t_tail t) (t_out t) (SNoise.payload_bytes (t_payload t)) pB' HB Wb) as (sB' & Er & HB').
    { cbn [handshake_call b_data b_size b_max]. split; [|destruct (t_out t) as [b|]; [|exact I]; destruct (b_data b); [qlia|exact Ho]].
      split; [apply bytes_app; auto|]. rewrite zlen_app. pose proof (zlen_nonneg _ m). pose proof (zlen_nonneg _ (t_tail t)). qlia. }
    { exact Rm. } { qlia. }
    { unfold room. destruct (t_out t) as [b|]; [|exact I]. destruct (b_data b); [qlia|contradiction Ho]. }
    cbn [exchange]. exists m, mem', sA', sB'. split; [exact Es|]. split; [exact Tk|]. split; [exact Er|].
    pose proof (jo_linked _ _ _ _ _ _ _ J') as L'.
    apply (IH ms sB' sA' pB' pA' xb xa HB' HA' (joint_sym _ _ _ _ _ _ _ J')).
    + rewrite (li_messages _ _ _ _ _ L'). exact M'.
    + left. rewrite (li_writing _ _ _ _ _ L'), W'. reflexivity.
    + rewrite (li_second _ _ _ _ _ L'), S', (li_sym _ _ _ _ _ L'), Kd. exact Hok.
Qed.

(** ** The start *)
Lemma own_public : forall dview dready hview hready s1 p o k, dh_link (n_dh_alg N) D dview dready ->
  at_ (n_cipher N) (n_hash N) (n_dh_alg N) (n_hyb_alg N) D E dview dready hview hready (psk_mode id) s1 p ->
  ko_static (hs_local s1) = o -> p_s p = k -> local_pair N o k -> option_map (PUB D) k = remote_key o.
Proof.
  intros dview dready hview hready s1 p o k Ld At Eo Ek Lp. unfold local_pair in Lp. destruct o as [d|], k as [k|]; try contradiction Lp; [|reflexivity].
  destruct Lp as [Lp _]. cbn [option_map remote_key].
  pose proof (kr_s _ _ _ _ _ _ _ _ _ _ _ (r_keys _ _ _ _ _ _ _ _ _ _ _ _ _ (a_rel _ _ _ _ _ _ _ _ _ _ _ _ _ At))) as Ks.
  rewrite Eo, Ek in Ks. destruct Ks as (W & _ & Kt & Rd & Ev).
  rewrite <- Ev. cbn [dhstate_has_public_key]. rewrite Kt. change (negb (key_type_eqb KEYPAIR NO_KEY)) with true. cbv iota. f_equal.
  unfold public_key, public_len. destruct W as [Wa Wd]. rewrite Wa. exact (lk_pub _ _ _ _ Ld _ Wd Rd).
Qed.
Lemma budget_patterns : forallb (fun x => budget (messages (snd x)) <=? 1000) denoted = true.
Proof. vm_compute. reflexivity. Qed.
Lemma budget_pattern : forall pat, has_pattern id pat -> budget (messages pat) <= 1000.
Proof.
  intros pat (k & n & _ & Hn & _). apply named_denoted in Hn. pose proof budget_patterns as A. rewrite forallb_forall in A. specialize (A _ Hn). cbn [snd] in A. lia.
Qed.
Lemma start_sym_ok : forall name prologue psk pre, Forall (fun f : noise_sym -> noise_sym => exists q, f = fun v => MixHash (n_H N) v q) pre ->
  let v := fold_left (fun v f => f v) pre (MixPrologue (n_H N) (ha_block_len (n_hash N)) prologue psk (InitializeSymmetric (n_H N) (ha_hash_len (n_hash N)) name)) in
  sym_ok N v /\ ns_n v = 0 /\ ns_k v = None.
Proof.
  intros name prologue psk pre Hp. cbv zeta.
  assert (B : sym_ok N (MixPrologue (n_H N) (ha_block_len (n_hash N)) prologue psk (InitializeSymmetric (n_H N) (ha_hash_len (n_hash N)) name)) /\
    ns_n (MixPrologue (n_H N) (ha_block_len (n_hash N)) prologue psk (InitializeSymmetric (n_H N) (ha_hash_len (n_hash N)) name)) = 0 /\
    ns_k (MixPrologue (n_H N) (ha_block_len (n_hash N)) prologue psk (InitializeSymmetric (n_H N) (ha_hash_len (n_hash N)) name)) = None).
  { unfold MixPrologue, InitializeSymmetric. destruct psk as [k|]; [destruct (HKDF _ _ _ _)|]; (split; [constructor|split; reflexivity]); cbn [MixHash ns_h ns_k ns_n ns_ck]; try apply (law_bytes _ _ Law); try discriminate; lia. }
  revert B. generalize (MixPrologue (n_H N) (ha_block_len (n_hash N)) prologue psk (InitializeSymmetric (n_H N) (ha_hash_len (n_hash N)) name)).
  induction Hp as [|f pre (q & ->) Hp IH]; intros v B; cbn [fold_left]; [exact B|]. apply IH. destruct B as (B1 & B2 & B3). split; [now apply (mix_hash_ok N Law)|]. split; assumption.
Qed.
Lemma meeting : forall pat a1 b1, has_pattern id pat -> fallback_pattern pat = false -> meet lib N id static a1 b1 ->
  exists pA pB, holds a1 pA /\ holds b1 pB /\ joint (shape_of a1) (shape_of b1) pA pB /\ p_messages pA = messages pat /\ p_writing pA = true /\
    p_second pA = false /\ p_initiator pA = true /\ known (ns_k (p_sym pA)) = false.
Proof.
  intros pat a1 b1 Hp Hf [(a & la & b & lb & Sa & Sb & Epr & Eps & Pa & Pb & Ra & Rb & Ea & Eb)].
  destruct (started lib id N V true la a a1 pat Sa Hp Hf Ea) as (dv & dr & hv & hr & na & ka & Ld & Lh & Hta & Hpf & Lpa & La1 & La2 & _ & Kpa & Uka & Gka & AtA).
  destruct (started lib id N V false lb b b1 pat Sb Hp Hf Eb) as (dv' & dr' & hv' & hr' & nb & kb & Ld' & Lh' & Htb & _ & Lpb & Lb1 & Lb2 & _ & Kpb & Ukb & Gkb & AtB).
  assert (En : nb = na) by (eapply text_fun; eauto). subst nb. rewrite <- Epr, <- Eps in AtB.
  assert (Oa : option_map (PUB D) ka = remote_key (ko_static (hs_local a))) by (rewrite <- La1; eapply own_public; [exact Ld|exact AtA|reflexivity|reflexivity|rewrite La1; exact Lpa]).
  assert (Ob : option_map (PUB D) kb = remote_key (ko_static (hs_local b))) by (rewrite <- Lb1; eapply own_public; [exact Ld'|exact AtB|reflexivity|reflexivity|rewrite Lb1; exact Lpb]).
  (* the responder's known key of the initiator and vice versa *)
  assert (Kb : given pat true S_ = true -> remote_key (ko_static (hs_remote b)) = option_map (PUB D) ka).
  { intros G. specialize (Gkb G). destruct Rb as [Rb|Rb]; [|rewrite Rb; symmetry; exact Oa]. unfold remote_key in Rb. destruct (ko_static (hs_remote b)); [rewrite Gkb in Rb|cbn in Gkb]; discriminate. }
  assert (Ka : given pat false S_ = true -> remote_key (ko_static (hs_remote a)) = option_map (PUB D) kb).
  { intros G. specialize (Gka G). destruct Ra as [Ra|Ra]; [|rewrite Ra; symmetry; exact Ob]. unfold remote_key in Ra. destruct (ko_static (hs_remote a)); [rewrite Gka in Ra|cbn in Gka]; discriminate. }
  pose (pA := nInitialize N id na (prologue_set [] la) (psk_set None la) pat true (negb true) ka None None (remote_key (ko_static (hs_remote a))) None None).
  pose (pB := nInitialize N id na (prologue_set [] la) (psk_set None la) pat false (negb false) kb None None (remote_key (ko_static (hs_remote b))) None None).
  assert (Sy : p_sym pB = p_sym pA /\ sym_ok N (p_sym pA) /\ ns_n (p_sym pA) = 0 /\ ns_k (p_sym pA) = None).
  { destruct (list_fact _ Hpf) as (_ & _ & [(A & B & _)|(A & _)]); [|congruence].
    subst pA pB. unfold nInitialize, Initialize. cbn [p_sym]. unfold given in Ka, Kb.
    destruct A as [A|A], B as [B|B]; rewrite A, B in *; cbn [fold_left MixPre]; try (rewrite (Ka eq_refl)); try (rewrite (Kb eq_refl)); (split; [reflexivity|]).
    - apply (start_sym_ok na (prologue_set [] la) (psk_set None la) []). constructor.
    - destruct kb as [kb|]; cbn [option_map]; [|apply (start_sym_ok na (prologue_set [] la) (psk_set None la) []); constructor].
      apply (start_sym_ok na (prologue_set [] la) (psk_set None la) [fun v => MixHash (n_H N) v (PUB D kb)]). repeat constructor; eauto.
    - destruct ka as [ka|]; cbn [option_map]; [|apply (start_sym_ok na (prologue_set [] la) (psk_set None la) []); constructor].
      apply (start_sym_ok na (prologue_set [] la) (psk_set None la) [fun v => MixHash (n_H N) v (PUB D ka)]). repeat constructor; eauto.
    - destruct ka as [ka|], kb as [kb|]; cbn [option_map].
      + apply (start_sym_ok na (prologue_set [] la) (psk_set None la) [(fun v => MixHash (n_H N) v (PUB D ka)); (fun v => MixHash (n_H N) v (PUB D kb))]). repeat constructor; eauto.
      + apply (start_sym_ok na (prologue_set [] la) (psk_set None la) [(fun v => MixHash (n_H N) v (PUB D ka))]). repeat constructor; eauto.
      + apply (start_sym_ok na (prologue_set [] la) (psk_set None la) [(fun v => MixHash (n_H N) v (PUB D kb))]). repeat constructor; eauto.
      + apply (start_sym_ok na (prologue_set [] la) (psk_set None la) []). constructor. }
  destruct Sy as (Sy1 & Sy2 & Sy3 & Sy4).
  assert (Hrs : forall x y kx, right_key x y -> option_map (PUB D) kx = remote_key (ko_static (hs_local y)) -> forall q, remote_key (ko_static (hs_remote x)) = Some q -> exists k, kx = Some k /\ q = PUB D k).
  { intros x y kx [R|R] O q Eq; [congruence|]. rewrite R, <- O in Eq. destruct kx as [k|]; [|discriminate]. injection Eq as <-. eauto. }
  assert (Ps : forall x k, proper_static N static x -> local_pair N (ko_static (hs_local x)) k -> forall k', k = Some k' -> static k').
  { intros x k P L k' ->. exact (P _ L). }
  exists pA, pB. split; [do 4 eexists; split; [exact Ld|]; split; [exact Lh|exact AtA]|]. split; [do 4 eexists; split; [exact Ld'|]; split; [exact Lh'|exact AtB]|].
  split; [|split; [reflexivity|split; [reflexivity|split; [reflexivity|split; [reflexivity|rewrite Sy4; reflexivity]]]]].
  constructor.
  - constructor; try reflexivity; try exact Sy1.
    + constructor; try reflexivity; [apply (Hrs b a ka Rb Oa)|apply (Ps a ka Pa Lpa)|apply made_empty|apply made_empty].
    + constructor; try reflexivity; [apply (Hrs a b kb Ra Ob)|apply (Ps b kb Pb Lpb)|apply made_empty|apply made_empty].
  - exact Sy2.
  - rewrite Sy3. exact (budget_pattern pat Hp).
  - exact (a_sane _ _ _ _ _ _ _ _ _ _ _ _ _ AtA).
  - exact (a_sane _ _ _ _ _ _ _ _ _ _ _ _ _ AtB).
Qed.
(** ** The end *)
Lemma fresh_keyed : forall k c, fresh_cipher N k c -> c = Some (PCipher.keyed (n_cipher N) k 0).
Proof. intros k c (cs & -> & E1 & E2 & E3 & E4). destruct cs. cbn in *. subst. reflexivity. Qed.
Lemma keyed_channel : forall k, sized (ca_key_len (n_cipher N)) k -> channel (PCipher.keyed (n_cipher N) k 0) (PCipher.keyed (n_cipher N) k 0).
Proof.
  intros k [Zk Bk] ms spare Bs Hs Hl Hm. cbn [cs_alg PCipher.keyed] in *.
  destruct (C03_channel_round_trip (n_cipher N) k ms spare (PCipher.keyed (n_cipher N) k 0) (PCipher.keyed (n_cipher N) k 0) Cok Zk Bk Bs Hs Hl Hm eq_refl eq_refl) as (s & r & s' & r' & ps & E1 & E2 & E3 & E4 & _).
  rewrite init_key_keyed in E1, E2 by exact Zk. injection E1 as <-. injection E2 as <-. exists s', r', ps. split; assumption.
Qed.
Lemma transport_ok : forall sA sB pA pB, holds sA pA -> holds sB pB -> linked pA pB -> p_messages pA = [] -> transport N lib sA sB.
Proof.
  intros sA sB pA pB Ha Hb L Em. pose proof (li_messages _ _ _ _ _ L) as Emb. rewrite Em in Emb.
  destruct (HKDF (n_H N) (ha_block_len (n_hash N)) (ns_ck (p_sym pA)) []) as [k1 k2] eqn:Eh. destruct (zlen_hkdf N _ _ _ _ Law Eh) as (Z1 & Z2 & B1 & B2).
  set (KL := ca_key_len (n_cipher N)).
  assert (Sz : sized KL (take KL k1) /\ sized KL (take KL k2)).
  { pose proof (shape_key _ (correct_shape _ Cok)). pose proof Klen. subst KL. split; (split; [rewrite zlen_take; lia|now apply bytes_take]). }
  assert (Sp : forall s p, holds s p -> p_messages p = [] -> p_sym p = p_sym pA ->
    splits lib s (PCipher.keyed (n_cipher N) (if p_initiator p then take KL k1 else take KL k2) 0) (PCipher.keyed (n_cipher N) (if p_initiator p then take KL k2 else take KL k1) 0)).
  { intros s p Hh Hm Hs w1 w2 Hw. destruct (holds_split _ _ w1 w2 Hh Hm Hw) as (c1 & c2 & s' & E1 & F1 & F2 & (Ac & _)).
    assert (Es : nSplit N p = (take KL k1, take KL k2)) by (unfold nSplit, Split; rewrite Hs, Eh; reflexivity). rewrite Es in F1, F2. cbn [fst snd] in F1, F2.
    exists s'. split; [|exact Ac]. rewrite E1. do 2 f_equal.
    assert (X1 : c1 = if w1 then Some (PCipher.keyed (n_cipher N) (if p_initiator p then take KL k1 else take KL k2) 0) else None) by (destruct w1; [now apply fresh_keyed|exact F1]).
    assert (X2 : c2 = if w2 then Some (PCipher.keyed (n_cipher N) (if p_initiator p then take KL k2 else take KL k1) 0) else None) by (destruct w2; [now apply fresh_keyed|exact F2]).
    rewrite X1, X2. reflexivity. }
  assert (Ro : forall s p, holds s p -> hs_role s = if p_initiator p then ROLE_INITIATOR else ROLE_RESPONDER).
  { intros s p (dv & dr & hv & hr & _ & _ & At). exact (kr_role _ _ _ _ _ _ _ _ _ _ _ (r_keys _ _ _ _ _ _ _ _ _ _ _ _ _ (a_rel _ _ _ _ _ _ _ _ _ _ _ _ _ At))). }
  pose proof (Sp _ _ Ha Em eq_refl) as SA. pose proof (Sp _ _ Hb Emb (li_sym _ _ _ _ _ L)) as SB. rewrite (li_initiator _ _ _ _ _ L) in SB.
  pose proof (Ro _ _ Ha) as RA. pose proof (Ro _ _ Hb) as RB. rewrite (li_initiator _ _ _ _ _ L) in RB.
  do 4 eexists. exists (ns_ck (p_sym pA)), k1, k2. split; [exact SA|]. split; [exact SB|]. rewrite RA, RB. destruct (p_initiator pA); cbn [negb].
  - split; [apply keyed_channel; apply Sz|]. split; [apply keyed_channel; apply Sz|]. split; [exact Eh|]. left. repeat split.
  - split; [apply keyed_channel; apply Sz|]. split; [apply keyed_channel; apply Sz|]. split; [exact Eh|]. right. repeat split.
Qed.
End P.
