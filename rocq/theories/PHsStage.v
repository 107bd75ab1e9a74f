(** Proofs about HandshakeState: where in the pattern a handshake is (C25-C27). *)
From Coq Require Import ZifyBool ZifyNat.
From Verif Require Import Base SNames PNames MUtil MCipher SCipher PCipher MHash SHash PHash MSymm SSymm PSymm MPatterns SPatterns MDh SDh PDh
  MHandshake SHandshake SHsApi PHandshake PHsTok PHsMsg SNoise PHsStart PHsRun PHsOpen SAgree PHsSize PHsAgree PHsTalk.

Section P.
Variables (lib : library) (id : protocol_id) (N : suite).
Hypothesis V : provides lib id N.
Local Notation Cok := (pv_cipher_ok _ _ _ V).
Local Notation Law := (pv_hash_ok _ _ _ V).
Local Notation Klen := (pv_key _ _ _ V).
Local Notation Mac := (pv_mac _ _ _ V).
Local Notation D := (n_dh N).
Local Notation E := (n_hyb N).
Local Notation holds := (holds id N).

Lemma data_public_sized : forall a F view ready d, dh_link a F view ready -> data_ok a d ->
  sized (DHLEN F (second_role d)) (take (da_public_len a (dd_role d)) (dd_public d)).
Proof.
  intros a F view ready d L (_ & P & _). unfold second_role. rewrite <- (lk_len _ _ _ _ L). eapply sized_take; [exact P|]. destruct (sh_lens _ (lk_shape _ _ _ _ L) (dd_role d)) as (X & Y). lia.
Qed.
Lemma remote_sized : forall a F view ready al sec o q, dh_link a F view ready -> remote_rel a al sec o (Some q) -> sized (DHLEN F sec) q.
Proof.
  intros a F view ready al sec o q L R. unfold remote_rel in R. destruct o as [d|]; [|discriminate]. destruct R as ([Wa Wd] & Rs & _ & <-).
  cbn [known] in Rs. rewrite orb_true_r in Rs. rewrite <- (Rs eq_refl).
  unfold public_key, public_len. rewrite Wa. exact (data_public_sized _ _ _ _ _ L Wd).
Qed.
Lemma local_sized : forall a F view ready al sec o k, dh_link a F view ready -> local_rel a F view ready al sec o (Some k) -> sized (DHLEN F sec) (PUB F k).
Proof.
  intros a F view ready al sec o k L R. unfold local_rel in R. destruct o as [d|]; [|discriminate]. destruct R as ([Wa Wd] & Rs & _ & Rd & <-).
  cbn [known] in Rs. rewrite orb_true_r in Rs. rewrite <- (Rs eq_refl). rewrite (lk_pub _ _ _ _ L _ Wd Rd). exact (data_public_sized _ _ _ _ _ L Wd).
Qed.
Lemma holds_sized : forall s p, holds s p -> keys_sized N p.
Proof.
  intros s p (dv & dr & hv & hr & Ld & Lh & At). pose proof (r_keys _ _ _ _ _ _ _ _ _ _ _ _ _ (a_rel _ _ _ _ _ _ _ _ _ _ _ _ _ At)) as K.
  constructor.
  - intros k Ek. pose proof (kr_s _ _ _ _ _ _ _ _ _ _ _ K) as X. rewrite Ek in X. exact (local_sized _ _ _ _ _ _ _ _ Ld X).
  - intros k Ek. pose proof (kr_re _ _ _ _ _ _ _ _ _ _ _ K) as X. rewrite Ek in X. exact (remote_sized _ _ _ _ _ _ _ _ Ld X).
  - intros k Ek. pose proof (kr_rf _ _ _ _ _ _ _ _ _ _ _ K) as X. rewrite Ek in X. exact (remote_sized _ _ _ _ _ _ _ _ Lh X).
Qed.

(** [p] has done [k] messages of the pattern. *)
Record stage (pat : pattern) (k : nat) (p : nparty N) : Prop := {
  st_messages : p_messages p = skipn k (messages pat);
  st_second : (if p_writing p then p_second p else negb (p_second p)) = Nat.odd k;
  st_keyed : known (ns_k (p_sym p)) = fold_left (keyed_by id) (concat (firstn k (messages pat))) false
}.
Lemma skipn_cons : forall A k (l : list A) x r, skipn k l = x :: r -> nth_error l k = Some x /\ skipn (S k) l = r /\ firstn (S k) l = firstn k l ++ [x].
Proof.
  intros A. induction k as [|k IH]; intros [|y l] x r X; cbn [skipn] in X; try discriminate.
  - injection X as <- <-. auto.
  - destruct (IH _ _ _ X) as (A1 & A2 & A3). cbn [nth_error skipn firstn]. split; [exact A1|]. split; [exact A2|]. rewrite <- app_comm_cons, <- A3. reflexivity.
Qed.
Lemma stage_next : forall pat k p p' ts ms, stage pat k p -> p_messages p = ts :: ms -> p_messages p' = ms -> p_second p' = p_second p ->
  p_writing p' = negb (p_writing p) -> known (ns_k (p_sym p')) = fold_left (keyed_by id) ts (known (ns_k (p_sym p))) -> stage pat (S k) p'.
Proof.
  intros pat k p p' ts ms [S1 S2 S3] E1 E2 E3 E4 E5. rewrite E1 in S1. symmetry in S1. destruct (skipn_cons _ _ _ _ _ S1) as (A1 & A2 & A3).
  constructor.
  - congruence.
  - rewrite E3, E4. rewrite Nat.odd_succ, <- Nat.negb_odd, <- S2. destruct (p_writing p), (p_second p); reflexivity.
  - rewrite E5, A3, concat_app, fold_left_app, <- S3. cbn [concat]. rewrite app_nil_r. reflexivity.
Qed.
Lemma stage_hd : forall pat k p ts ms, stage pat k p -> p_messages p = ts :: ms -> 
  overhead_of N id (if p_writing p then p_second p else negb (p_second p)) (known (ns_k (p_sym p))) ts = message_overhead N id pat k.
Proof.
  intros pat k p ts ms [S1 S2 S3] E1. rewrite E1 in S1. symmetry in S1. destruct (skipn_cons _ _ _ _ _ S1) as (A1 & _ & _).
  unfold message_overhead. rewrite S2, S3. now rewrite (nth_error_nth _ _ _ A1).
Qed.

Definition where_ (pat : pattern) (s : handshakestate) (q : progress N) (k : nat) : Prop :=
  match q with Running p => holds s p /\ stage pat k p | Failed => hs_action s = ACTION_FAILED | Done p => ended N s p end.
Lemma where_step : forall pat s q k op, where_ pat s q k -> handshake_call op ->
  exists r s' q', hs_step lib s op = Ok (r, s') /\ follows N id q [(op, r)] q' /\ where_ pat s' q' (k + messages_done [(op, r)]).
Proof.
  intros pat s q k op W Hc. destruct q as [p| |p]; cbn [where_] in W.
  - destruct W as [Hh St]. destruct (holds_step lib id N V _ _ _ Hh Hc) as (r & s' & q' & E1 & F & T). exists r, s', q'. split; [exact E1|]. split; [exact F|].
    pose proof (holds_sized _ _ Hh) as Ks.
    inversion F as [|p0 env mem n max payload mem' m p' log q0 Wr Wm Hl Hz Ht Hd F'|p0 env mem n max payload mem' e log q0 Wr Nm He _ Hz Hd F'
       |p0 env mem n max payload pl p' log q0 Wr Wm Hr F'|p0 env mem n max payload e log q0 Wr Nm He _ F'|p0 w1 w2 k1 k2 c1 c2 log q0 Em _ _ _ _ F'|st p0 mem n log q0 Hs F'|st o r0 log q0 Hs He F']; subst;
      try (inversion F'; subst); cbn [where_].
    + split; [exact T|]. cbn [messages_done filter message_done fst snd message_result hr_err is_none length]. rewrite Nat.add_1_r.
      assert (Ro : rand_ok (SNoise.rand_of env)) by (intros t z Hz0; destruct Hc as (R & _); apply R; exact Hz0).
      destruct (write_message_size N id Cok (pv_dh_ok _ _ _ V) (pv_hyb_ok _ _ _ V) _ _ _ _ _ Ro Ks Wm) as (ts & ms & M1 & M2 & M3 & M4 & M5 & M6 & _).
      eapply stage_next; eassumption.
    + exact T.
    + split; [exact T|]. cbn [messages_done filter message_done fst snd message_result hr_err is_none length]. rewrite Nat.add_1_r.
      destruct (read_message_size N id Cok (pv_dh_ok _ _ _ V) (pv_hyb_ok _ _ _ V) _ _ _ _ Wm) as (ts & ms & M1 & M2 & M3 & M4 & M5 & M6).
      eapply stage_next; eassumption.
    + exact T.
    + exact T.
    + split; [exact T|]. cbn. now rewrite Nat.add_0_r.
    + split; [exact T|]. unfold messages_done. cbn [filter message_done fst snd]. replace (message_done (op, r)) with false; [cbn; now rewrite Nat.add_0_r|].
      unfold message_done. cbn [fst snd]. destruct op; try reflexivity; destruct (hr_err r); try congruence; reflexivity.
  - destruct (suite_link _ _ (pv_dh_ok _ _ _ V)) as (dv & dr & Ld). destruct (suite_link _ _ (pv_hyb_ok _ _ _ V)) as (hv & hr & Lh).
    destruct (step_follows N id Cok Law Klen Mac dv dr hv hr Ld Lh lib s Failed op W Hc) as (r & s' & q' & E1 & T & F). specialize (F [] q' (fo_nil _ _ _)).
    exists r, s', q'. split; [exact E1|]. split; [exact F|]. inversion F; subst.
    + match goal with X : _ \/ _ |- _ => destruct X as [[X _]|X]; discriminate X end.
    + match goal with X : follows _ _ _ [] _ |- _ => inversion X; subst end. exact T.
  - destruct (suite_link _ _ (pv_dh_ok _ _ _ V)) as (dv & dr & Ld). destruct (suite_link _ _ (pv_hyb_ok _ _ _ V)) as (hv & hr & Lh).
    destruct (step_follows N id Cok Law Klen Mac dv dr hv hr Ld Lh lib s (Done p) op W Hc) as (r & s' & q' & E1 & T & F). specialize (F [] q' (fo_nil _ _ _)).
    exists r, s', q'. split; [exact E1|]. split; [exact F|]. inversion F; subst; match goal with X : follows _ _ _ [] _ |- _ => inversion X; subst end; exact T.
Qed.
Lemma follows_app : forall q1 log1 q2, follows N id q1 log1 q2 -> forall log2 q3, follows N id q2 log2 q3 -> follows N id q1 (log1 ++ log2) q3.
Proof. induction 1; intros log2 q3 G; cbn [app]; auto; econstructor; eauto. Qed.
Lemma where_run : forall pat ops s q k, where_ pat s q k -> Forall handshake_call ops ->
  exists log s' q', hs_run lib s ops = Ok (log, s') /\ follows N id q log q' /\ where_ pat s' q' (k + messages_done log).
Proof.
  intros pat. induction ops as [|op ops IH]; intros s q k W Hc.
  - exists [], s, q. split; [reflexivity|]. split; [constructor|]. cbn. now rewrite Nat.add_0_r.
  - inversion Hc as [|? ? H1 H2]; subst. destruct (where_step _ _ _ _ _ W H1) as (r & s1 & q1 & E1 & F1 & W1).
    destruct (IH _ _ _ W1 H2) as (log & s2 & q2 & E2 & F2 & W2). exists ((op, r) :: log), s2, q2. cbn [hs_run]. rewrite E1. cbn [obind fst snd]. rewrite E2. cbn [obind fst snd].
    split; [reflexivity|]. split; [exact (follows_app _ _ _ F1 _ _ F2)|]. revert W2. unfold messages_done. cbn [filter]. destruct (message_done (op, r)); cbn [length app]; intros W2.
    + now replace (k + S (length (filter message_done log)))%nat with (k + 1 + length (filter message_done log))%nat by lia.
    + now replace (k + length (filter message_done log))%nat with (k + 0 + length (filter message_done log))%nat by lia.
Qed.
(** From the start of the handshake *)
Lemma start_stage : forall pat initiator log0 s s1, has_pattern id pat -> fallback_pattern pat = false -> set_up N id lib initiator log0 s ->
  handshakestate_start s = Ok (E_NONE, s1) ->
  exists name k, let p := nInitialize N id name (prologue_set [] log0) (psk_set None log0) pat initiator (negb initiator) k None None (remote_key (ko_static (hs_remote s))) None None in
    protocol_text id name /\ local_pair N (ko_static (hs_local s)) k /\ where_ pat s1 (Running p) 0.
Proof.
  intros pat i log0 s s1 Hp Hf Su Es.
  destruct (started lib id N V i log0 s s1 pat Su Hp Hf Es) as (dview & dready & hview & hready & name & k & Ld & Lh & Ht & Hpf & Lp & L1 & L2 & Kp & Kk & Hs & _ & At).
  exists name, k. cbv zeta. split; [exact Ht|]. split; [exact Lp|]. split; [exists dview, dready, hview, hready; auto|].
  constructor.
  - reflexivity.
  - cbn [nInitialize Initialize p_writing p_second]. destruct i; reflexivity.
  - destruct (list_fact _ Hpf) as (_ & _ & [(A & B & _)|(A & _)]); [|congruence].
    unfold nInitialize, Initialize, MixPrologue, InitializeSymmetric. cbn [p_sym firstn concat fold_left].
    destruct A as [-> | ->], B as [-> | ->], i; cbn [fold_left MixPre]; destruct (psk_set None log0) as [key|]; cbn [MixHash ns_ck ns_h ns_k ns_n];
      try (destruct (HKDF _ _ _ key)); try (destruct (option_map _ k)); try (destruct (remote_key (ko_static (hs_remote s)))); reflexivity.
Qed.
Lemma where_action : forall pat s q k, where_ pat s q k -> match q with Running p => hs_action s = match p_messages p with [] => ACTION_SPLIT | _ => if p_writing p then ACTION_WRITE_MESSAGE else ACTION_READ_MESSAGE end
  | Failed => hs_action s = ACTION_FAILED | Done _ => hs_action s = ACTION_COMPLETE end.
Proof.
  intros pat s q k W. destruct q as [p| |p]; cbn [where_] in W; [|exact W|apply W]. destruct W as [(dv & dr & hv & hr & _ & _ & At) _]. exact (a_action _ _ _ _ _ _ _ _ _ _ _ _ _ At).
Qed.
Lemma where_at : forall pat s q k a, where_ pat s q k -> hs_action s = a -> (a = ACTION_WRITE_MESSAGE \/ a = ACTION_READ_MESSAGE) ->
  exists p, q = Running p /\ p_messages p <> [] /\ p_writing p = (a =? ACTION_WRITE_MESSAGE).
Proof.
  intros pat s q k a W Ea Ha. pose proof (where_action _ _ _ _ W) as Wa. destruct q as [p| |p]; try (rewrite Wa in Ea; subst a; destruct Ha; discriminate).
  exists p. split; [reflexivity|]. destruct (p_messages p); [rewrite Wa in Ea; subst a; destruct Ha; discriminate|]. split; [discriminate|]. rewrite Wa in Ea. subst a. destruct (p_writing p); reflexivity.
Qed.
End P.
