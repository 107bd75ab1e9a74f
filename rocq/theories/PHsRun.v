(** Proofs about HandshakeState: the calls of a handshake follow the specification. *)
From Coq Require Import ZifyBool ZifyNat.
From Verif Require Import Base MUtil MCipher SCipher PCipher MHash SHash PHash MSymm SSymm PSymm MPatterns SPatterns MDh SDh PDh
  MHandshake SHandshake SHsApi PHandshake PHsTok PHsMsg SNoise PHsStart.

Section P.
Variable N : suite.
Variable id : protocol_id.
Local Notation ca := (n_cipher N).
Local Notation alg := (n_hash N).
Local Notation H := (n_H N).
Local Notation dalg := (n_dh_alg N).
Local Notation halg := (n_hyb_alg N).
Local Notation D := (n_dh N).
Local Notation E := (n_hyb N).
Hypothesis Cok : cipher_correct ca.
Hypothesis Law : hash_law alg H.
Hypothesis Klen : ca_key_len ca <= ha_hash_len alg.
Hypothesis Mac : ca_mac_len ca <= 16.
Variable dview : dh_data -> KP D.
Variable dready : dh_data -> Prop.
Variable hview : dh_data -> KP E.
Variable hready : dh_data -> Prop.
Hypothesis Ld : dh_link dalg D dview dready.
Hypothesis Lh : dh_link halg E hview hready.
Local Notation psk := (psk_mode id).
Local Notation at_ := (at_ ca alg dalg halg D E dview dready hview hready psk).
Local Notation follows := (follows N id).

Definition tracks (s : handshakestate) (q : progress N) : Prop :=
  match q with
  | Running p => at_ s p
  | Failed => hs_action s = ACTION_FAILED
  | Done p => hs_action s = ACTION_COMPLETE /\ sym_wf ca alg (hs_symmetric s) /\ ss_h (hs_symmetric s) = ns_h (p_sym p)
  end.

Lemma take_zeros : forall n m, 0 <= n <= m -> take n (zeros m) = zeros n.
Proof.
  intros n m Hn. unfold take, zeros. replace (Z.to_nat m) with (Z.to_nat n + Z.to_nat (m - n))%nat by lia.
  rewrite repeat_app, firstn_app, repeat_length, Nat.sub_diag, firstn_O, app_nil_r. rewrite firstn_all2 by (rewrite repeat_length; lia). reflexivity.
Qed.

Lemma get_hash_ok : forall s v mem n, sym_wf ca alg (hs_symmetric s) -> ss_h (hs_symmetric s) = v ->
  (hs_action s = ACTION_SPLIT \/ hs_action s = ACTION_COMPLETE) -> 0 <= n <= zlen mem ->
  get_handshake_hash s (Some mem) n = Ok (E_NONE, Some (take n (v ++ zeros n) ++ drop n mem)).
Proof.
  intros s v mem n W V A Hn. unfold get_handshake_hash.
  replace (negb (hs_action s =? ACTION_SPLIT) && negb (hs_action s =? ACTION_COMPLETE)) with false by (destruct A as [-> | ->]; reflexivity).
  rewrite (sw_hash _ _ _ W). destruct (sw_h _ _ _ W) as [Zh Bh]. rewrite V in *. pose proof (law_lens _ _ Law).
  destruct (Z.leb_spec (ha_hash_len alg) n).
  - rewrite load_ok by lia. cbn [obind]. unfold sub. rewrite drop_le0 by lia. rewrite (take_all _ (ha_hash_len alg) v) by lia. rewrite store_ok by lia. cbn [obind].
    assert (Zs : zlen (splice 0 v mem) = zlen mem) by (apply splice_length; lia).
    rewrite store_ok by (rewrite ?zlen_zeros; lia). cbn [obind]. f_equal. f_equal. f_equal.
    rewrite splice_0. unfold splice. rewrite zlen_zeros. rewrite <- Zh. rewrite take_app_exact. rewrite take_app_ge by lia.
    rewrite <- app_assoc. f_equal. replace (zlen v + Z.max 0 (n - zlen v)) with n by lia.
    rewrite drop_app_ge by lia. rewrite drop_drop by lia. replace (n - zlen v + zlen v) with n by lia. replace (zlen v + (n - zlen v)) with n by lia. f_equal.
    { rewrite take_zeros by lia. reflexivity. } { f_equal. lia. } { lia. }
  - rewrite load_ok by lia. cbn [obind]. unfold sub. rewrite drop_le0 by lia. rewrite store_ok by (rewrite ?zlen_take; lia). cbn [obind].
    rewrite splice_0. rewrite zlen_take. replace (Z.max 0 (Z.min n (zlen v))) with n by lia. rewrite take_app_le by lia. reflexivity.
Qed.

Lemma step_follows : forall lib s q op, tracks s q -> handshake_call op ->
  exists r s' q', hs_step lib s op = Ok (r, s') /\ tracks s' q' /\ forall log q2, follows q' log q2 -> follows q ((op, r) :: log) q2.
Proof.
  intros lib s q op T Hop.
  assert (Act : forall p, q = Running p -> hs_action s = match p_messages p with [] => ACTION_SPLIT | _ => if p_writing p then ACTION_WRITE_MESSAGE else ACTION_READ_MESSAGE end).
  { intros p ->. apply (a_action _ _ _ _ _ _ _ _ _ _ _ _ _ T). }
  destruct op as [| | | | |env [md mn mx] pay|env [md mn mx] pay|w1 w2 ok|h n]; try contradiction Hop; cbn [hs_step handshake_call b_data b_size b_max] in *.
  - (* write *)
    destruct md as [mem|]; [|tauto]. destruct Hop as (He & (Hb & Hm & H64) & Hp).
    assert (Nn : match pay with Some p => is_null_ptr (b_data p) | None => false end = false) by (destruct pay as [[[pd|] ? ?]|]; cbn in *; tauto || reflexivity).
    assert (Ref : hs_action s =? ACTION_WRITE_MESSAGE = false -> exists r, hr_err r <> E_NONE /\ (let! r := write_message env s (NBuf (Some mem) mn mx) pay in
              let '(e, s', m') := r in Ok (HRes e (Some m') None None None None, s')) = Ok (r, s)).
    { intros X. unfold write_message. cbn [b_data b_max]. rewrite Nn, X. cbn [negb obind]. eexists. split; [|reflexivity]. discriminate. }
    destruct q as [p| |p]; cbn [tracks] in T.
    + destruct (p_messages p) as [|m0 ms] eqn:Ms.
      { destruct Ref as (r & R1 & R2); [rewrite (Act p eq_refl), ?Ms; reflexivity|]. exists r, s, (Running p). split; [exact R2|]. split; [exact T|]. intros log q2 F. apply fo_refused; auto. }
      destruct (p_writing p) eqn:Wr.
      2:{ destruct Ref as (r & R1 & R2); [rewrite (Act p eq_refl), ?Ms, ?Wr; reflexivity|]. exists r, s, (Running p). split; [exact R2|]. split; [exact T|]. intros log q2 F. apply fo_refused; auto. }
      destruct (write_message_ok ca alg H Cok Law Klen Mac dalg halg D E dview dready hview hready Ld Lh psk env s p mem mn mx pay T Wr ltac:(congruence) He) as (e & s' & mem' & n & E1 & Z1 & B1 & D1 & K1 & R).
      { destruct pay as [[[pd|] ps px]|]; cbn in *; tauto. } { lia. } { lia. } { exact Hb. }
      rewrite E1. cbn [obind]. destruct R as [(m & p' & -> & Ew & At & Zm & -> & Tm)|(Ne & -> & Af & _ & Spec)].
      * do 2 eexists. exists (Running p'). split; [reflexivity|]. split; [exact At|]. intros log q2 F.
        apply (fo_write N id p env mem mn mx pay mem' m p' log q2); auto.
      * do 2 eexists. exists Failed. split; [reflexivity|]. split; [exact Af|]. intros log q2 F.
        apply (fo_write_failed N id p env mem mn mx pay mem' e log q2); auto; [congruence|].
        intros m p' Ew. unfold nWriteMessage in Ew.
        change (PHsMsg.payload_bytes pay) with (SNoise.payload_bytes pay) in Spec. change (PHsTok.rand_of env) with (SNoise.rand_of env) in Spec.
        rewrite Ew in Spec. exact Spec.
    + destruct Ref as (r & R1 & R2); [rewrite T; reflexivity|]. exists r, s, Failed. split; [exact R2|]. split; [exact T|]. intros log q2 F. apply fo_refused; auto.
    + destruct Ref as (r & R1 & R2); [destruct T as [-> _]; reflexivity|]. exists r, s, (Done p). split; [exact R2|]. split; [exact T|]. intros log q2 F. apply fo_refused; auto.
  - (* read *)
    destruct md as [mem|]; [|tauto]. destruct Hop as ((Hb & Hs & Hm) & Hp).
    assert (Nn : match pay with Some p => is_null_ptr (b_data p) | None => false end = false) by (destruct pay as [[[pd|] ? ?]|]; cbn in *; tauto || reflexivity).
    assert (Ref : hs_action s =? ACTION_READ_MESSAGE = false -> exists r, hr_err r <> E_NONE /\ (let! r := read_message env s (NBuf (Some mem) mn mx) pay in
              let '(e, s', m', p') := r in Ok (HRes e (Some m') p' None None None, s')) = Ok (r, s)).
    { intros X. unfold read_message. cbn [b_data b_max b_size]. rewrite Nn, X. destruct (Z.ltb_spec mx mn); [lia|]. cbn [negb obind]. eexists. split; [|reflexivity]. discriminate. }
    destruct q as [p| |p]; cbn [tracks] in T.
    + destruct (p_messages p) as [|m0 ms] eqn:Ms.
      { destruct Ref as (r & R1 & R2); [rewrite (Act p eq_refl), ?Ms; reflexivity|]. exists r, s, (Running p). split; [exact R2|]. split; [exact T|]. intros log q2 F. apply fo_refused; auto. }
      destruct (p_writing p) eqn:Wr.
      1:{ destruct Ref as (r & R1 & R2); [rewrite (Act p eq_refl), ?Ms, ?Wr; reflexivity|]. exists r, s, (Running p). split; [exact R2|]. split; [exact T|]. intros log q2 F. apply fo_refused; auto. }
      destruct (read_message_ok ca alg H Cok Law Klen Mac dalg halg D E dview dready hview hready Ld Lh psk env s p mem mn mx pay T Wr ltac:(congruence)) as (e & s' & pay' & E1 & K1 & R).
      { destruct pay as [[[pd|] ps px]|]; cbn in *; tauto. } { lia. } { lia. } { exact Hb. }
      rewrite E1. cbn [obind]. destruct R as [(pl & p' & -> & Er & At & Rm & ->)|(Ne & -> & Af & _ & Spec)].
      * do 2 eexists. exists (Running p'). split; [reflexivity|]. split; [exact At|]. intros log q2 F.
        change (out_filled pay pl) with (option_map (fun b => filled b pl) pay).
        apply (fo_read N id p env mem mn mx pay pl p' log q2); auto.
      * do 2 eexists. exists Failed. split; [reflexivity|]. split; [exact Af|]. intros log q2 F.
        change (out_empty pay) with (option_map emptied pay).
        apply (fo_read_failed N id p env mem mn mx pay e log q2); auto; [congruence|].
        intros pl p' Er. unfold nReadMessage in Er. rewrite Er in Spec. exact Spec.
    + destruct Ref as (r & R1 & R2); [rewrite T; reflexivity|]. exists r, s, Failed. split; [exact R2|]. split; [exact T|]. intros log q2 F. apply fo_refused; auto.
    + destruct Ref as (r & R1 & R2); [destruct T as [-> _]; reflexivity|]. exists r, s, (Done p). split; [exact R2|]. split; [exact T|]. intros log q2 F. apply fo_refused; auto.
  - (* split *)
    subst ok. unfold handshakestate_split. destruct (negb w1 && negb w2) eqn:Ww.
    { cbn [obind]. do 2 eexists. exists q. split; [reflexivity|]. split; [exact T|]. intros log q2 F. apply fo_refused; [|discriminate|exact F].
      destruct q; auto. right. destruct w1, w2; auto; discriminate Ww. }
    assert (Ref : hs_action s =? ACTION_SPLIT = false -> exists r, hr_err r <> E_NONE /\ 
       (let! r0 := (if negb (hs_action s =? ACTION_SPLIT) then Ok (E_INVALID_STATE, s, None, None) else @UB (err * handshakestate * option cipherstate * option cipherstate)) in
        let '(e, s', c1, c2) := r0 in Ok (HRes e None None c1 c2 None, s')) = Ok (r, s)).
    { intros X. rewrite X. eexists. split; [|reflexivity]. discriminate. }
    destruct (hs_action s =? ACTION_SPLIT) eqn:As; cbn [negb].
    2:{ cbn [obind]. do 2 eexists. exists q. split; [reflexivity|]. split; [exact T|]. intros log q2 F. apply fo_refused; [|discriminate|exact F].
      destruct q as [p| |]; auto. left. intros X. rewrite (Act p eq_refl), X in As. discriminate As. }
    clear Ref. destruct q as [p| |p]; cbn [tracks] in T; [|rewrite T in As; discriminate As|destruct T as [T _]; rewrite T in As; discriminate As].
    destruct (p_messages p) as [|m0 ms] eqn:Ms.
    2:{ rewrite (Act p eq_refl), ?Ms in As. destruct (p_writing p); discriminate As. }
    pose proof (a_rel _ _ _ _ _ _ _ _ _ _ _ _ _ T) as R. pose proof (r_wf _ _ _ _ _ _ _ _ _ _ _ _ _ R) as W. pose proof (r_view _ _ _ _ _ _ _ _ _ _ _ _ _ R) as V.
    pose proof (kr_role _ _ _ _ _ _ _ _ _ _ _ (r_keys _ _ _ _ _ _ _ _ _ _ _ _ _ R)) as Ro.
    destruct (ss_cipher (hs_symmetric s)) as [cs|] eqn:Cs; [|unfold sym_view in V; rewrite Cs in V; discriminate V].
    assert (Vh : ss_h (hs_symmetric s) = ns_h (p_sym p)) by (unfold sym_view in V; rewrite Cs in V; apply (f_equal (option_map (fun x => ns_h x))) in V; cbn [option_map ns_h] in V; congruence).
    destruct (p_initiator p) eqn:Pi.
    + rewrite Ro. change (ROLE_INITIATOR =? ROLE_RESPONDER) with false. cbv iota.
      destruct (split_eq ca alg H Cok Law Klen (hs_symmetric s) (p_sym p) w1 w2 W V) as (y & c1 & c2 & k1 & k2 & E1 & Sp & Y1 & Y2 & W' & _ & _ & Hh & _); [destruct w1, w2; auto; discriminate Ww|].
      rewrite E1. cbn [obind is_none]. do 2 eexists. exists (Done p). split; [reflexivity|]. split.
      * split; [reflexivity|]. split; [exact W'|]. cbn [set_action set_symmetric hs_symmetric ss_h]. transitivity (ss_h (hs_symmetric s)); [exact Hh|exact Vh].
      * intros log q2 F. apply (fo_split N id p w1 w2 k1 k2 c1 c2 log q2); auto; [destruct w1, w2; auto; discriminate Ww|rewrite Pi|rewrite Pi].
        -- destruct w1; exact Y1. -- destruct w2; exact Y2.
    + rewrite Ro. change (ROLE_RESPONDER =? ROLE_RESPONDER) with true. cbv iota.
      destruct (split_eq ca alg H Cok Law Klen (hs_symmetric s) (p_sym p) w2 w1 W V) as (y & c1 & c2 & k1 & k2 & E1 & Sp & Y1 & Y2 & W' & _ & _ & Hh & _); [destruct w1, w2; auto; discriminate Ww|].
      rewrite E1. cbn [obind is_none]. do 2 eexists. exists (Done p). split; [reflexivity|]. split.
      * split; [reflexivity|]. split; [exact W'|]. cbn [set_action set_symmetric hs_symmetric ss_h]. transitivity (ss_h (hs_symmetric s)); [exact Hh|exact Vh].
      * intros log q2 F. apply (fo_split N id p w1 w2 k1 k2 c2 c1 log q2); auto; [destruct w1, w2; auto; discriminate Ww|rewrite Pi|rewrite Pi].
        -- destruct w1; exact Y2. -- destruct w2; exact Y1.
  - (* hash *)
    destruct h as [mem|]; [|contradiction Hop].
    assert (Ref : negb (hs_action s =? ACTION_SPLIT) && negb (hs_action s =? ACTION_COMPLETE) = true -> exists r, hr_err r <> E_NONE /\
       (let! r := get_handshake_hash s (Some mem) n in Ok (HRes (fst r) None None None None (snd r), s)) = Ok (r, s)).
    { intros X. unfold get_handshake_hash. rewrite X. eexists. split; [|reflexivity]. discriminate. }
    destruct q as [p| |p]; cbn [tracks] in T.
    + destruct (p_messages p) as [|m0 ms] eqn:Ms.
      * pose proof (a_rel _ _ _ _ _ _ _ _ _ _ _ _ _ T) as R. pose proof (r_wf _ _ _ _ _ _ _ _ _ _ _ _ _ R) as W. pose proof (r_view _ _ _ _ _ _ _ _ _ _ _ _ _ R) as V.
        assert (Vh : ss_h (hs_symmetric s) = ns_h (p_sym p)) by (unfold sym_view in V; destruct (ss_cipher (hs_symmetric s)); [|discriminate V]; apply (f_equal (option_map (fun x => ns_h x))) in V; cbn [option_map ns_h] in V; congruence).
        rewrite (get_hash_ok s (ns_h (p_sym p)) mem n W Vh) by (rewrite ?(Act p eq_refl), ?Ms; auto). cbn [obind fst snd].
        do 2 eexists. exists (Running p). split; [reflexivity|]. split; [exact T|]. intros log q2 F. apply (fo_hash N id _ p); auto.
      * destruct Ref as (r & R1 & R2); [rewrite (Act p eq_refl), ?Ms; destruct (p_writing p); reflexivity|]. exists r, s, (Running p). split; [exact R2|]. split; [exact T|]. intros log q2 F. apply fo_refused; auto. congruence.
    + destruct Ref as (r & R1 & R2); [rewrite T; reflexivity|]. exists r, s, Failed. split; [exact R2|]. split; [exact T|]. intros log q2 F. apply fo_refused; auto.
    + destruct T as (T1 & T2 & T3). rewrite (get_hash_ok s (ns_h (p_sym p)) mem n T2 T3) by auto. cbn [obind fst snd].
      do 2 eexists. exists (Done p). split; [reflexivity|]. split; [split; auto|]. intros log q2 F. apply (fo_hash N id _ p); auto.
Qed.

Lemma run_follows : forall lib ops s q, tracks s q -> Forall handshake_call ops ->
  exists log s' q', hs_run lib s ops = Ok (log, s') /\ tracks s' q' /\ follows q log q'.
Proof.
  intros lib. induction ops as [|op ops IH]; intros s q T F.
  - exists [], s, q. split; [reflexivity|]. split; [exact T|constructor].
  - inversion F; subst. destruct (step_follows lib s q op T) as (r & s1 & q1 & E1 & T1 & G); [assumption|].
    destruct (IH s1 q1 T1) as (log & s2 & q2 & E2 & T2 & F2); [assumption|]. exists ((op, r) :: log), s2, q2. cbn [hs_run]. rewrite E1. cbn [obind fst snd]. rewrite E2. cbn [obind fst snd].
    split; [reflexivity|]. split; [exact T2|]. now apply G.
Qed.
End P.
