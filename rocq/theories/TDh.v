(** Properties C34-C36: DHState. *)
From Coq Require Import ZifyBool.
From Verif Require Import Base MUtil TUtil MDh SCipher SDh PDh ToyDh.

Lemma dh_run_ok : forall alg, dh_shape alg -> forall ops s, dh_wf alg s -> Forall (dh_op_ok alg) ops ->
  exists hist s', dh_run s ops = Ok (hist, s') /\ map fst hist = ops /\ dh_wf alg s' /\
    dh_history (is_curve alg) (peer_held s) hist (peer_held s').
Proof.
  intros alg Sh ops. induction ops as [|op ops IH]; intros s Hw Ho; cbn [dh_run].
  - exists [], s. repeat (split; auto); try apply Hw. constructor.
  - inversion Ho as [|? ? H1 H2]; subst. destruct (dh_step_ok alg s op Sh Hw H1) as (e & s1 & E1 & W1 & F1 & _).
    rewrite E1. cbn [obind fst snd]. destruct (IH s1 W1 H2) as (hist & s2 & E2 & M & W2 & F2). rewrite E2. cbn [obind fst snd].
    exists ((op, e) :: hist), s2. split; auto. split; [cbn; now rewrite M|]. split; auto. econstructor; eauto.
Qed.

(** For every backend and call sequence, no call goes wrong, and has_keypair,
    has_public_key, get_keypair and get_public_key report exactly the key that
    the last successful call installed. *)
Theorem C34_reports_what_is_held : forall alg D, dh_suite alg D ->
  forall ops, Forall (dh_op_ok alg) ops ->
  exists hist s h, dh_run (dhstate_new alg) ops = Ok (hist, s) /\ map fst hist = ops /\
    dh_history (is_curve alg) Nothing hist h /\ reports s h.
Proof.
  intros alg D Su ops Ho. pose proof (suite_shape _ _ Su) as Sh.
  destruct (dh_run_ok alg Sh ops (dhstate_new alg) (dh_new_wf alg Sh) Ho) as (hist & s & E & M & _ & F).
  exists hist, s, (peer_held s). repeat (split; auto); apply peer_held_alt.
Qed.
Print Assumptions C34_reports_what_is_held.

(** A failing call changes nothing at all, unless it is set_keypair refusing
    the pair as mismatched (documented to clear the key). *)
Theorem C34_failure_changes_nothing : forall alg D, dh_suite alg D ->
  forall ops hist s, Forall (dh_op_ok alg) ops -> dh_run (dhstate_new alg) ops = Ok (hist, s) ->
  forall op e s', dh_op_ok alg op -> dh_step s op = Ok (e, s') -> e <> E_NONE -> e <> E_INVALID_PUBLIC_KEY -> s' = s.
Proof.
  intros alg D Su ops hist s Ho Hrun op e s' Hop Hs He1 He2. pose proof (suite_shape _ _ Su) as Sh.
  destruct (dh_run_ok alg Sh ops (dhstate_new alg) (dh_new_wf alg Sh) Ho) as (h0 & s0 & E & _ & [Ha Hd] & _).
  rewrite Hrun in E. inversion E; subst h0 s0. clear E. pose proof (sh_lens _ Sh (dd_role (ds_data s))) as [L1 L2].
  assert (Same : with_data s (ds_data s) = s) by (destruct s; reflexivity).
  assert (R : forall l k, k <= zlen l -> read_ptr (Some l) k = Ok (take k l)) by (intros l k Hk; cbn; destruct (Z.leb_spec k (zlen l)); [auto|lia]).
  destruct op as [rng|rng o|p n q m|p n|q m| | |from|pub n|r]; cbn [dh_step dh_op_ok] in *.
  - unfold dhstate_generate_keypair in Hs. rewrite Ha in Hs. destruct (da_generate alg rng (ds_data s) None) as [e0 d] eqn:E.
    destruct (sh_generate _ Sh _ _ None _ _ Hd I Hop E) as (_ & _ & _ & D4 & _). inversion Hs; subst e0. clear Hs.
    apply is_none_false in He1 as Hn. rewrite Hn, D4 by auto. auto.
  - unfold dhstate_generate_dependent_keypair in Hs. destruct Hop as [Hr Hp].
    destruct (match o with Some o => negb (da_id (ds_alg s) =? da_id (ds_alg o)) | None => false end) eqn:Eo; [now inversion Hs|].
    assert (Ho' : match option_map ds_data o with Some x => data_ok alg x | None => True end).
    { destruct o as [o|]; cbn; auto. destruct Hp as [O1 O2]. rewrite Ha in Eo. rewrite <- (O2 ltac:(lia)) at 1. exact O1. }
    rewrite Ha in Hs. destruct (da_generate alg rng (ds_data s) (option_map ds_data o)) as [e0 d] eqn:E.
    destruct (sh_generate _ Sh _ _ _ _ _ Hd Ho' Hr E) as (_ & _ & _ & D4 & _). inversion Hs; subst e0. clear Hs.
    apply is_none_false in He1 as Hn. rewrite Hn, D4 by auto. auto.
  - unfold dhstate_set_keypair in Hs. destruct p as [p|], q as [q|]; try now inversion Hs.
    destruct (negb (n =? private_len s)) eqn:E1; [now inversion Hs|]. destruct (negb (m =? public_len s)) eqn:E2; [now inversion Hs|].
    destruct Hop as ((Hn & Hpl & Hpb) & Hm & Hql & Hqb). rewrite !R in Hs by lia. cbn [obind] in Hs.
    assert (En : n = da_private_len alg (dd_role (ds_data s))) by (unfold private_len in E1; rewrite Ha in E1; lia).
    assert (Em : m = da_public_len alg (dd_role (ds_data s))) by (unfold public_len in E2; rewrite Ha in E2; lia).
    rewrite Ha in Hs. destruct (da_set_keypair alg (ds_data s) (take n p) (take m q)) as [e0 d] eqn:E.
    destruct (sh_keypair _ Sh (ds_data s) (take n p) (take m q) e0 d Hd) as (_ & _ & _ & D4 & _); auto.
    { split; [rewrite zlen_take; lia|apply bytes_take; auto]. } { split; [rewrite zlen_take; lia|apply bytes_take; auto]. }
    destruct (negb (is_none e0)) eqn:Ee; inversion Hs; subst; [|congruence]. destruct D4; congruence.
  - unfold dhstate_set_keypair_private in Hs. destruct p as [p|]; [|now inversion Hs].
    destruct (negb (n =? private_len s)) eqn:E1; [now inversion Hs|].
    destruct Hop as (Hn & Hpl & Hpb). rewrite !R in Hs by lia. cbn [obind] in Hs.
    assert (En : n = da_private_len alg (dd_role (ds_data s))) by (unfold private_len in E1; rewrite Ha in E1; lia).
    rewrite Ha in Hs. destruct (da_set_keypair_private alg (ds_data s) (take n p)) as [e0 d] eqn:E.
    destruct (sh_private _ Sh (ds_data s) (take n p) e0 d Hd) as (_ & _ & _ & D4 & _); auto.
    { split; [rewrite zlen_take; lia|apply bytes_take; auto]. }
    subst e0. cbn [is_none err_eqb negb] in Hs. inversion Hs; congruence.
  - unfold dhstate_set_public_key in Hs. destruct q as [q|]; [|now inversion Hs].
    destruct (negb (m =? public_len s)) eqn:E1; [now inversion Hs|]. destruct Hop as (Hn & Hpl & Hpb). rewrite !R in Hs by lia. cbn [obind] in Hs.
    match type of Hs with (if ?c then _ else _) = _ => destruct c end; inversion Hs; auto. congruence.
  - unfold dhstate_set_null_public_key in Hs. destruct (negb _); inversion Hs; auto; congruence.
  - inversion Hs; congruence.
  - unfold dhstate_copy in Hs. destruct Hop as [O1 O2]. destruct (negb (da_id (ds_alg s) =? da_id (ds_alg from))) eqn:Ei; [now inversion Hs|].
    rewrite Ha in Ei, Hs. assert (Ef : ds_alg from = alg) by (apply O2; lia). rewrite Ef in O1.
    destruct (da_copy alg (ds_data s) (ds_data from) None) as [e0 d] eqn:E.
    destruct (sh_copy _ Sh _ _ None _ _ Hd O1 I E) as (_ & _ & _ & -> & _). cbn [is_none err_eqb negb] in Hs. inversion Hs; congruence.
  - unfold dhstate_calculate in Hs. destruct pub as [pub|]; [|now inversion Hs].
    destruct (negb (da_id (ds_alg s) =? da_id (ds_alg pub))) eqn:Ei; [now inversion Hs|].
    destruct (negb (n =? shared_len s)); [now inversion Hs|]. destruct (negb (key_type_eqb (dh_key_type s) KEYPAIR)); [now inversion Hs|].
    destruct Hop as [O1 O2]. rewrite Ha in Ei. assert (Ef : ds_alg pub = alg) by (apply O2; lia). rewrite Ef in O1. rewrite Ha, Ef in Hs.
    destruct (da_calculate alg (ds_data s) (ds_data pub)) as [[e0 out] d] eqn:E.
    destruct (sh_calculate _ Sh _ _ _ _ _ Hd O1 E) as (_ & _ & _ & _ & D5 & _).
    match type of Hs with (if ?c then _ else _, _) = _ => idtac | _ => idtac end.
    inversion Hs as [[A B]]. match type of A with (if ?c then _ else _) = _ => destruct c end; [congruence|]. subst e0. now rewrite D5 by auto.
  - unfold or_same, dhstate_set_role in Hs. match type of Hs with context [if ?c then _ else _] => destruct c end; cbn in Hs; inversion Hs; auto. congruence.
Qed.
Print Assumptions C34_failure_changes_nothing.

(** Key lengths only change when the role of a New Hope object is set. *)
Theorem C34_lengths_constant : forall alg D, dh_suite alg D ->
  forall ops hist s, Forall (dh_op_ok alg) ops -> dh_run (dhstate_new alg) ops = Ok (hist, s) ->
  forall op e s', dh_op_ok alg op -> dh_step s op = Ok (e, s') ->
    is_curve alg = true \/ (forall r, op <> DSetRole r) ->
    private_len s' = private_len s /\ public_len s' = public_len s /\ shared_len s' = shared_len s.
Proof.
  intros alg D Su ops hist s Ho Hrun op e s' Hop Hs Hc. pose proof (suite_shape _ _ Su) as Sh.
  destruct (dh_run_ok alg Sh ops (dhstate_new alg) (dh_new_wf alg Sh) Ho) as (h0 & s0 & E & _ & W & _).
  rewrite Hrun in E. inversion E; subst h0 s0. clear E.
  destruct (dh_step_ok alg s op Sh W Hop) as (e1 & s1 & E1 & W1 & _ & L). rewrite Hs in E1. inversion E1; subst e1 s1.
  assert (Al : ds_alg s' = ds_alg s) by (destruct W, W1; congruence).
  rewrite <- (and_assoc (private_len s' = _)). split; [|unfold shared_len; now rewrite Al].
  destruct Hc as [Hc|Hc]; [|auto]. unfold private_len, public_len. rewrite Al. destruct W as [-> _]. apply (sh_curve_lens _ Sh Hc).
Qed.
Print Assumptions C34_lengths_constant.

(** They do change then: the claim that key lengths never change is false. *)
Theorem C34_lengths_never_change_refuted : exists alg D ops s hist, dh_suite alg D /\ Forall (dh_op_ok alg) ops /\
  dh_run (dhstate_new alg) ops = Ok (hist, s) /\ map snd hist = [E_NONE] /\
  public_len (dhstate_new alg) = 1824 /\ public_len s = 2048.
Proof.
  exists toy_newhope, toy_newhope_functions, [DSetRole ROLE_RESPONDER]. eexists _, _.
  split; [apply toy_newhope_suite|]. split; [repeat constructor|]. split; [cbn [dh_run dh_step or_same fst snd dhstate_set_role]; reflexivity|].
  split; [reflexivity|]. split; reflexivity.
Qed.
Print Assumptions C34_lengths_never_change_refuted.

(** A curve DHState that reports a key pair holds a matching one: its public key
    is the base point times its private key. *)
Definition pair_matches (pub_of : list Z -> list Z) (s : dhstate) : Prop :=
  dhstate_has_keypair (Some s) = true -> public_key s = pub_of (private_key s).
Definition copies_match (pub_of : list Z -> list Z) (op : dh_op) : Prop :=
  match op with DCopy from => pair_matches pub_of from | _ => True end.
Lemma noise_equal_1 : forall a b, bytes a -> bytes b -> zlen a = zlen b -> (noise_is_equal a b =? 1) = true -> a = b.
Proof. intros a b Ha Hb Hl H. apply (C40_is_equal_exact a b Ha Hb Hl). lia. Qed.
Theorem C34_keypair_matches_25519 : forall base mult, dh_suite (curve25519 base mult) (curve25519_functions base mult) ->
  forall ops hist s, Forall (dh_op_ok (curve25519 base mult)) ops -> Forall (copies_match base) ops ->
  dh_run (dhstate_new (curve25519 base mult)) ops = Ok (hist, s) -> pair_matches base s.
Proof.
  intros base mult Su. set (alg := curve25519 base mult) in *. pose proof (suite_shape _ _ Su) as Sh.
  assert (Hb : forall k, sized 32 k -> sized 32 (base k)).
  { intros k Hk. destruct (sh_private _ Sh (DhData 0 NO_KEY (zeros 32) (zeros 32) [] false) k E_NONE (set_keys k (base k) (DhData 0 NO_KEY (zeros 32) (zeros 32) [] false))) as (X & _); auto.
    - repeat split; cbn; apply bytes_zeros || constructor.
    - apply X. }
  assert (Main : forall ops s hist s', dh_wf alg s -> pair_matches base s -> Forall (dh_op_ok alg) ops -> Forall (copies_match base) ops ->
     dh_run s ops = Ok (hist, s') -> pair_matches base s').
  { induction ops as [|op ops IH]; intros s hist s' W P Ho Hc E; cbn [dh_run] in E; [inversion E; now subst|].
    inversion Ho as [|? ? O1 O2]; subst. inversion Hc as [|? ? C1 C2]; subst.
    destruct (dh_step_ok alg s op Sh W O1) as (e & s1 & E1 & W1 & _). rewrite E1 in E. cbn [obind fst snd] in E.
    destruct (dh_run s1 ops) as [[h2 s2]|] eqn:E2; [|discriminate]. cbn [obind fst snd] in E. inversion E; subst. clear E.
    eapply (IH s1); eauto. clear IH E2 O2 C2.
    destruct s as [sa sd]. destruct W as [Wa Wd]. cbn in Wa. subst sa.
    assert (Lp : forall s, ds_alg s = alg -> sized 32 (dd_private (ds_data s)) -> private_key s = dd_private (ds_data s)).
    { intros s Ha [Hl _]. unfold private_key, private_len. rewrite Ha. cbn. apply take_all. lia. }
    assert (Lq : forall s, ds_alg s = alg -> sized 32 (dd_public (ds_data s)) -> public_key s = dd_public (ds_data s)).
    { intros s Ha [Hl _]. unfold public_key, public_len. rewrite Ha. cbn. apply take_all. lia. }
    destruct W1 as [Wa1 Wd1].
    assert (Goal' : dh_key_type s1 = KEYPAIR -> dd_public (ds_data s1) = base (dd_private (ds_data s1))).
    2: { intros Hk. rewrite Lp, Lq; auto; [|apply Wd1|apply Wd1]. apply Goal'. unfold dhstate_has_keypair in Hk. destruct (dh_key_type s1); auto; discriminate. }
    assert (P0 : dd_type sd = KEYPAIR -> dd_public sd = base (dd_private sd)).
    { intros Ht. unfold pair_matches in P. rewrite Lp, Lq in P; auto; [|apply Wd|apply Wd]. apply P. unfold dhstate_has_keypair, dh_key_type. cbn. now rewrite Ht. }
    destruct op as [rng|rng o|p n q m|p n|q m| | |from|pub n|r]; cbn [dh_step] in E1.
    - inversion E1; subst. reflexivity.
    - unfold dhstate_generate_dependent_keypair in E1. destruct (match o with Some o => _ | None => false end); inversion E1; subst; [exact P0|reflexivity].
    - unfold dhstate_set_keypair in E1. destruct p as [p|], q as [q|]; try (inversion E1; subst; exact P0).
      destruct (negb _) eqn:En; [inversion E1; subst; exact P0|]. destruct (negb _) eqn:Em in E1; [inversion E1; subst; exact P0|].
      cbn [dh_op_ok] in O1. destruct O1 as ((Hn & Hpl & Hpb) & Hm & Hql & Hqb).
      unfold read_ptr in E1. destruct (Z.leb_spec n (zlen p)); [|lia]. destruct (Z.leb_spec m (zlen q)); [|lia].
      cbn [obind ds_alg ds_data da_set_keypair alg curve25519] in E1. unfold private_len, public_len in En, Em. cbn in En, Em.
      destruct (noise_is_equal (base (take n p)) (take m q) =? 1) eqn:Eq; cbn [is_none err_eqb negb] in E1; inversion E1; subst s1.
      + intros _. cbn. symmetry. apply noise_equal_1; auto; [apply Hb; split; [rewrite zlen_take; lia|now apply bytes_take]|now apply bytes_take|].
        destruct (Hb (take n p)) as [Hl _]; [split; [rewrite zlen_take; lia|now apply bytes_take]|]. rewrite Hl, zlen_take. lia.
      + discriminate.
    - unfold dhstate_set_keypair_private in E1. destruct p as [p|]; [|inversion E1; subst; exact P0].
      destruct (negb _) eqn:En; [inversion E1; subst; exact P0|]. destruct (read_ptr (Some p) n) as [x|]; [|discriminate]. cbn [obind ds_alg da_set_keypair_private alg curve25519] in E1.
      cbn [is_none err_eqb negb] in E1. inversion E1; subst. reflexivity.
    - unfold dhstate_set_public_key in E1. destruct q as [q|]; [|inversion E1; subst; exact P0].
      destruct (negb _) eqn:En; [inversion E1; subst; exact P0|]. destruct (read_ptr (Some q) m) as [x|]; [|discriminate]. cbn [obind] in E1.
      destruct (negb _) eqn:Ex in E1; inversion E1; subst; [exact P0|discriminate].
    - inversion E1; subst; discriminate.
    - inversion E1; subst; discriminate.
    - unfold dhstate_copy in E1. destruct (negb _) eqn:En; [inversion E1; subst; exact P0|]. cbn [ds_alg da_copy alg curve25519 is_none err_eqb negb] in E1.
      inversion E1; subst. cbn. intros Ht. cbn [dh_op_ok] in O1. destruct O1 as [F1 F2]. assert (Ef : ds_alg from = alg) by (apply F2; cbn [ds_alg] in En; lia).
      rewrite Ef in F1. cbn [copies_match] in C1. unfold pair_matches in C1. rewrite Lp, Lq in C1; auto; try apply F1. apply C1.
      unfold dhstate_has_keypair, dh_key_type. now rewrite Ht.
    - unfold dhstate_calculate in E1. destruct pub as [pub|]; [|inversion E1; subst; exact P0].
      destruct (negb _) in E1; [inversion E1; subst; exact P0|]. destruct (negb _) in E1; [inversion E1; subst; exact P0|]. destruct (negb _) in E1; [inversion E1; subst; exact P0|].
      cbn [ds_alg da_calculate alg curve25519] in E1. inversion E1; subst. exact P0.
    - unfold or_same, dhstate_set_role in E1. destruct (_ && _) in E1; inversion E1; subst; exact P0. }
  intros ops hist s Ho Hc E. eapply Main; eauto; [now apply dh_new_wf|]. intros Hk. discriminate Hk.
Qed.
Print Assumptions C34_keypair_matches_25519.

(** A key pair is installed, then replaced by a public key, then a rejected pair clears it. *)
Example C34_example :
  let k := repeat 9 32 in let q := repeat 3 32 in
  let ops := [DSetPrivate (Some k) 32; DSetPublic (Some q) 32; DSetPublic (Some q) 31; DSetKeypair (Some k) 32 (Some q) 32] in
  Forall (dh_op_ok toy_curve) ops /\
  match dh_run (dhstate_new toy_curve) ops with
  | Ok (hist, s) => map snd hist = [E_NONE; E_NONE; E_INVALID_LENGTH; E_INVALID_PUBLIC_KEY] /\ dhstate_has_public_key (Some s) = false
  | UB => False
  end /\
  match dh_run (dhstate_new toy_curve) [DSetPrivate (Some k) 32; DSetPublic (Some q) 31] with
  | Ok (_, s) => dhstate_get_keypair s 32 32 = (E_NONE, Some (k, repeat 92 32))
  | UB => False
  end.
Proof.
  cbv zeta. assert (B : forall v n, 0 <= v < 256 -> bytes (repeat v n)).
  { intros v n Hv. apply Forall_forall. intros x Hx. apply repeat_spec in Hx. subst. exact Hv. }
  split; [|split; [vm_compute; auto|vm_compute; reflexivity]].
  repeat apply Forall_cons; try apply Forall_nil; cbn [dh_op_ok]; unfold ptr_ok; repeat split; try lia;
    try (apply (B 9 32%nat); lia); try (apply (B 3 32%nat); lia); unfold zlen; rewrite ?repeat_length; lia.
Qed.

(** ** C35 *)
(** On a curve DHState every key of the right length, including the null key,
    is stored, and is_null_public_key is true exactly when a key is held whose
    public half is all zero. *)
Theorem C35_set_public_key_partial : forall alg D, dh_suite alg D -> is_curve alg = true ->
  forall ops hist s, Forall (dh_op_ok alg) ops -> dh_run (dhstate_new alg) ops = Ok (hist, s) ->
  forall q, zlen q = public_len s -> bytes q ->
  exists s', dhstate_set_public_key s (Some q) (zlen q) = Ok (E_NONE, s') /\
    dhstate_get_public_key s' (zlen q) = (E_NONE, Some q) /\ dhstate_has_keypair (Some s') = false /\
    (dhstate_is_null_public_key (Some s') = true <-> all_zero q).
Proof.
  intros alg D Su Hc ops hist s Ho Hrun q Hq Hb. pose proof (suite_shape _ _ Su) as Sh.
  destruct (dh_run_ok alg Sh ops (dhstate_new alg) (dh_new_wf alg Sh) Ho) as (h0 & s0 & E & _ & [Ha Hd] & _).
  rewrite Hrun in E. inversion E; subst h0 s0. clear E.
  unfold dhstate_set_public_key. rewrite Hq, Z.eqb_refl, <- Hq. unfold read_ptr. rewrite Z.leb_refl, take_all by lia. cbn [negb obind]. rewrite Ha, (sh_validate _ Sh).
  match goal with |- context [if negb (is_none (if ?c then E_NONE else E_NONE)) then _ else _] => replace (negb (is_none (if c then E_NONE else E_NONE))) with false by (destruct c; reflexivity) end.
  eexists. split; [reflexivity|]. unfold dhstate_get_public_key, dhstate_is_null_public_key, public_key, public_len. cbn [ds_alg ds_data with_data dd_role dd_public dd_type dh_key_type key_type_eqb].
  unfold public_len in Hq. rewrite <- Hq, Z.eqb_refl, take_splice by auto. split; [reflexivity|]. split; [reflexivity|].
  rewrite Ha. unfold is_curve in Hc. rewrite Hc. cbn [andb key_type_eqb]. rewrite zero_dec by auto. rewrite <- all_zerob_iff. destruct (all_zerob q); cbn; intuition congruence.
Qed.
Print Assumptions C35_set_public_key_partial.
Theorem C35_is_null_exact_partial : forall alg D, dh_suite alg D -> is_curve alg = true ->
  forall ops hist s, Forall (dh_op_ok alg) ops -> dh_run (dhstate_new alg) ops = Ok (hist, s) ->
  (dhstate_is_null_public_key (Some s) = true <-> dhstate_has_public_key (Some s) = true /\ all_zero (public_key s)).
Proof.
  intros alg D Su Hc ops hist s Ho Hrun. pose proof (suite_shape _ _ Su) as Sh.
  destruct (dh_run_ok alg Sh ops (dhstate_new alg) (dh_new_wf alg Sh) Ho) as (h0 & s0 & E & _ & [Ha Hd] & _).
  rewrite Hrun in E. inversion E; subst h0 s0. clear E.
  unfold dhstate_is_null_public_key, dhstate_has_public_key. unfold is_curve in Hc. rewrite Ha, Hc.
  rewrite zero_dec by (apply bytes_take; apply Hd). rewrite <- all_zerob_iff.
  destruct (key_type_eqb (dh_key_type s) NO_KEY), (all_zerob (public_key s)); cbn; intuition congruence.
Qed.
Print Assumptions C35_is_null_exact_partial.
(** New Hope does not allow null keys, but the null key is accepted and not
    reported as null. *)
Theorem C35_null_rejected_refuted : exists alg D q s', dh_suite alg D /\ da_nulls_allowed alg = false /\ all_zero q /\
  dhstate_set_public_key (dhstate_new alg) (Some q) (zlen q) = Ok (E_NONE, s') /\
  dhstate_has_public_key (Some s') = true /\ dhstate_is_null_public_key (Some s') = false.
Proof.
  exists toy_newhope, toy_newhope_functions, (zeros 1824). eexists. split; [apply toy_newhope_suite|]. split; [reflexivity|].
  split; [apply Forall_forall; intros x Hx; now apply repeat_spec in Hx|]. split.
  { unfold dhstate_set_public_key. replace (zlen (zeros 1824)) with 1824 by (symmetry; apply zlen_zeros; lia).
  change (negb (1824 =? public_len (dhstate_new toy_newhope))) with false. cbv iota.
  unfold read_ptr. replace (1824 <=? zlen (zeros 1824)) with true by (rewrite zlen_zeros by lia; reflexivity). cbn [obind]. reflexivity. }
  split; reflexivity.
Qed.
Print Assumptions C35_null_rejected_refuted.
Example C35_example : exists s hist, dh_run (dhstate_new toy_curve) [DSetPublic (Some (repeat 7 32)) 32] = Ok (hist, s) /\
  dh_suite toy_curve toy_curve_functions /\ is_curve toy_curve = true /\
  zlen (zeros 32) = public_len s /\ bytes (zeros 32).
Proof. eexists _, _. split; [reflexivity|]. split; [apply toy_curve_suite|]. split; [reflexivity|]. split; [reflexivity|apply bytes_zeros]. Qed.

(** ** C36 *)
(** A DH with an object holding no public key succeeds, with an all-zero result. *)
Theorem C36_no_public_key_refused_refuted : exists alg D ops hist s r s',
  dh_suite alg D /\ Forall (dh_op_ok alg) ops /\ dh_run (dhstate_new alg) ops = Ok (hist, s) /\
  dhstate_has_public_key (Some (dhstate_new alg)) = false /\
  dhstate_calculate s (Some (dhstate_new alg)) 32 = (E_NONE, Some r, s') /\ all_zero r.
Proof.
  exists toy_curve, toy_curve_functions, [DSetPrivate (Some (repeat 9 32)) 32]. eexists _, _, (zeros 32), _.
  split; [apply toy_curve_suite|]. split.
  { apply Forall_cons; [|constructor]. split; [lia|]. split; [unfold zlen; rewrite repeat_length; lia|]. apply Forall_forall. intros x Hx. apply repeat_spec in Hx. subst. unfold is_byte. lia. }
  split; [reflexivity|]. split; [reflexivity|]. split; [reflexivity|]. apply Forall_forall. intros x Hx. now apply repeat_spec in Hx.
Qed.
Print Assumptions C36_no_public_key_refused_refuted.
(** What is refused: a missing private key, another algorithm, a wrong length.
    And whenever DH succeeds with a null public key the result is all zero. *)
Theorem C36_calculate_guards_partial : forall alg D, dh_suite alg D ->
  forall ops hist s, Forall (dh_op_ok alg) ops -> dh_run (dhstate_new alg) ops = Ok (hist, s) ->
  forall pub n e r s', peer_ok alg pub -> dhstate_calculate s (Some pub) n = (e, r, s') ->
    (e = E_NONE -> dhstate_has_keypair (Some s) = true /\ da_id (ds_alg pub) = da_id alg /\ n = shared_len s /\
       exists k, r = Some k /\ zlen k = n /\ (is_curve alg = true -> all_zero (public_key pub) -> all_zero k)) /\
    (dhstate_has_keypair (Some s) = false -> e <> E_NONE /\ r = None /\ s' = s).
Proof.
  intros alg D Su ops hist s Ho Hrun pub n e r s' [O1 O2] Hcalc. pose proof (suite_shape _ _ Su) as Sh.
  destruct (dh_run_ok alg Sh ops (dhstate_new alg) (dh_new_wf alg Sh) Ho) as (h0 & s0 & E & _ & [Ha Hd] & _).
  rewrite Hrun in E. inversion E; subst h0 s0. clear E. unfold dhstate_calculate in Hcalc. unfold dhstate_has_keypair.
  destruct (negb (da_id (ds_alg s) =? da_id (ds_alg pub))) eqn:Ei; [inversion Hcalc; subst; split; [discriminate|intros _; split; [discriminate|auto]]|].
  destruct (negb (n =? shared_len s)) eqn:El; [inversion Hcalc; subst; split; [discriminate|intros _; split; [discriminate|auto]]|].
  destruct (key_type_eqb (dh_key_type s) KEYPAIR) eqn:Ek; cbn [negb] in Hcalc; [|inversion Hcalc; subst; split; [discriminate|intros _; split; [discriminate|auto]]].
  split; [|discriminate]. intros ->. rewrite Ha in *. assert (Ef : ds_alg pub = alg) by (apply O2; lia). rewrite Ef in *.
  destruct (da_calculate alg (ds_data s) (ds_data pub)) as [[e0 out] d] eqn:E.
  destruct (sh_calculate _ Sh _ _ _ _ _ Hd O1 E) as (_ & _ & _ & D4 & _).
  split; auto. split; auto. split; [lia|]. injection Hcalc as He Hr Hs. subst r. eexists. split; [reflexivity|].
  assert (Zl : forall c, zlen (cmove_zero out c) = zlen out) by (intros c; unfold cmove_zero, zlen; now rewrite map_length).
  rewrite Zl. unfold shared_len in El. rewrite Ha in El. destruct D4 as [D4 _]. split; [lia|]. intros Hc Hz. unfold is_curve in Hc. rewrite Hc.
  apply all_zerob_iff in Hz. rewrite zero_dec, Hz by (apply bytes_take; apply O1). change (Z.land 1 1) with 1. rewrite cmove_1.
  apply Forall_forall. intros x Hx. now apply repeat_spec in Hx.
Qed.
Print Assumptions C36_calculate_guards_partial.
Example C36_example : exists s hist r s', dh_run (dhstate_new toy_curve) [DSetPrivate (Some (repeat 9 32)) 32] = Ok (hist, s) /\
  dhstate_calculate s (Some s) 32 = (E_NONE, Some r, s') /\ r = repeat 85 32.
Proof. eexists _, _, _, _. split; [reflexivity|]. split; reflexivity. Qed.
