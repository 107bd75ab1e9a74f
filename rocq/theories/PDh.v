(** Proofs about DHState. *)
From Coq Require Import ZifyBool.
From Verif Require Import Base MUtil TUtil MDh SCipher SDh.

Lemma sized_zeros : forall n, 0 <= n -> sized n (zeros n).
Proof. intros n H. split; [rewrite zlen_zeros; lia|apply bytes_zeros]. Qed.
Lemma sized_splice : forall n m d l, sized n l -> sized m d -> m <= n -> sized n (splice 0 d l).
Proof.
  intros n m d l [H1 H2] [H3 H4] H. pose proof (zlen_nonneg _ d). split; [rewrite splice_length; lia|apply bytes_splice; auto].
Qed.
Lemma sized_take : forall n m l, sized n l -> 0 <= m <= n -> sized m (take m l).
Proof. intros n m l [H1 H2] H. split; [rewrite zlen_take; lia|apply bytes_take; auto]. Qed.
Lemma take_splice : forall n (d l : list Z), zlen d = n -> take n (splice 0 d l) = d.
Proof. intros n d l H. rewrite splice_0. rewrite take_app_le by lia. apply take_all. lia. Qed.
Lemma take_splice_eq : forall n m (d l : list Z), zlen d = n -> m = n -> take m (splice 0 d l) = d.
Proof. intros; subst; apply take_splice; auto. Qed.
Lemma land_byte : forall a m, is_byte a -> is_byte (Z.land a m).
Proof.
  unfold is_byte. intros a m H. replace (Z.land a m) with (Z.land a m mod 2^8); [apply Z.mod_pos_bound; lia|].
  rewrite <- Z.land_ones by lia. rewrite (Z.land_comm a m), <- Z.land_assoc. f_equal. rewrite Z.land_ones by lia. apply Z.mod_small. lia.
Qed.
Lemma sized_clamp25519 : forall k, sized 32 k -> sized 32 (clamp25519 k).
Proof.
  intros k [H1 H2]. unfold clamp25519. split.
  - rewrite !zlen_app, zlen_sub; cbn [zlen length]; change (zlen [_]) with 1; lia.
  - assert (B : forall i, is_byte (byte_at k i)).
    { intros i. unfold byte_at. destruct (le_lt_dec (length k) (Z.to_nat i)); [rewrite nth_overflow by auto; unfold is_byte; lia|].
      eapply Forall_forall; [exact H2|]. now apply nth_In. }
    apply Forall_app; split; [|apply Forall_app; split; [apply bytes_sub; auto|]]; (apply Forall_cons; [|constructor]).
    + apply land_byte, B.
    + apply lor_byte; [apply land_byte, B|unfold is_byte; lia].
Qed.
Lemma sized_clamp448 : forall k, sized 56 k -> sized 56 (clamp448 k).
Proof.
  intros k [H1 H2]. unfold clamp448. split.
  - rewrite !zlen_app, zlen_sub; cbn [zlen length]; change (zlen [_]) with 1; lia.
  - assert (B : forall i, is_byte (byte_at k i)).
    { intros i. unfold byte_at. destruct (le_lt_dec (length k) (Z.to_nat i)); [rewrite nth_overflow by auto; unfold is_byte; lia|].
      eapply Forall_forall; [exact H2|]. now apply nth_In. }
    apply Forall_app; split; [|apply Forall_app; split; [apply bytes_sub; auto|]]; (apply Forall_cons; [|constructor]).
    + apply land_byte, B.
    + apply lor_byte; [apply B|unfold is_byte; lia].
Qed.
Lemma sized_base448 : sized 56 basepoint448.
Proof. split; [reflexivity|]. apply Forall_cons; [unfold is_byte; lia|apply bytes_zeros]. Qed.

Definition role_ok (r : Z) : Prop := r = 0 \/ r = ROLE_INITIATOR \/ r = ROLE_RESPONDER.

(** ** What the proofs use about a backend *)
Record dh_shape (alg : dh_alg) : Prop := {
  sh_lens : forall r, 0 <= da_private_len alg r <= da_private_size alg /\ 0 <= da_public_len alg r <= da_public_size alg;
  sh_sizes : 0 <= da_private_size alg /\ 0 <= da_public_size alg /\ 0 <= da_poly_size alg /\ 0 <= da_shared_len alg;
  sh_generate : forall rng d o e d', data_ok alg d -> match o with Some x => data_ok alg x | None => True end -> rng_ok rng ->
    da_generate alg rng d o = (e, d') ->
    data_ok alg d' /\ dd_role d' = dd_role d /\ dd_type d' = dd_type d /\ (e <> E_NONE -> d' = d) /\ (is_curve alg = true -> e = E_NONE);
  sh_keypair : forall d p q e d', data_ok alg d -> sized (da_private_len alg (dd_role d)) p -> sized (da_public_len alg (dd_role d)) q ->
    da_set_keypair alg d p q = (e, d') ->
    data_ok alg d' /\ dd_role d' = dd_role d /\ dd_type d' = dd_type d /\ (e = E_NONE \/ e = E_INVALID_PUBLIC_KEY) /\
    take (da_private_len alg (dd_role d)) (dd_private d') = p /\
    (is_curve alg = true -> take (da_public_len alg (dd_role d)) (dd_public d') = q);
  sh_private : forall d p e d', data_ok alg d -> sized (da_private_len alg (dd_role d)) p ->
    da_set_keypair_private alg d p = (e, d') ->
    data_ok alg d' /\ dd_role d' = dd_role d /\ dd_type d' = dd_type d /\ e = E_NONE /\
    take (da_private_len alg (dd_role d)) (dd_private d') = p;
  sh_validate : forall d q, da_validate alg d q = E_NONE;
  sh_copy : forall d from o e d', data_ok alg d -> data_ok alg from -> match o with Some x => data_ok alg x | None => True end ->
    da_copy alg d from o = (e, d') ->
    data_ok alg d' /\ dd_role d' = dd_role d /\ dd_type d' = dd_type d /\ e = E_NONE /\
    (is_curve alg = true -> dd_private d' = dd_private from /\ dd_public d' = dd_public from);
  sh_calculate : forall p q e out p', data_ok alg p -> data_ok alg q -> da_calculate alg p q = (e, out, p') ->
    data_ok alg p' /\ dd_role p' = dd_role p /\ dd_type p' = dd_type p /\ sized (da_shared_len alg) out /\
    (e <> E_NONE -> p' = p) /\ (is_curve alg = true -> p' = p);
  sh_curve_lens : is_curve alg = true -> forall r r', da_private_len alg r = da_private_len alg r' /\ da_public_len alg r = da_public_len alg r'
}.

Ltac dok := unfold data_ok; cbn [dd_private dd_public dd_poly da_private_size da_public_size da_poly_size]; repeat split; auto.

Lemma shape_25519 : forall base mult,
  (forall k, sized 32 k -> sized 32 (base k)) -> (forall k q, sized 32 k -> sized 32 q -> sized 32 (mult k q)) ->
  dh_shape (curve25519 base mult).
Proof.
  intros base mult Hb Hm.
  assert (DK : forall d p q, data_ok (curve25519 base mult) d -> sized 32 p -> sized 32 q -> data_ok (curve25519 base mult) (set_keys p q d)).
  { intros d p q (A & B & C) P Q. repeat split; cbn; try apply P; try apply Q; apply C. }
  constructor.
  - intros r. cbn. lia.
  - cbn. lia.
  - intros rng d o e d' Hd _ Hr E. cbn in E. inversion E; subst. clear E. pose proof (sized_clamp25519 _ (Hr 32 ltac:(lia))) as Hk.
    split; [apply DK; auto|]. cbn. intuition congruence.
  - intros d p q e d' Hd Hp Hq E. cbn in Hp, Hq. cbn [da_set_keypair curve25519] in E.
    assert (E1 : e = E_NONE \/ e = E_INVALID_PUBLIC_KEY) by (destruct (_ =? 1) in E; inversion E; auto).
    assert (E2 : d' = set_keys p q d) by (destruct (_ =? 1) in E; inversion E; auto). subst d'.
    split; [apply DK; auto|]. cbn [dd_role dd_type set_keys dd_private dd_public da_private_len da_public_len curve25519]. destruct Hp, Hq. rewrite !take_all by lia. intuition auto.
  - intros d p e d' Hd Hp E. cbn in Hp, E. inversion E; subst. split; [apply DK; auto|]. cbn. destruct Hp. rewrite !take_all by lia. intuition auto.
  - reflexivity.
  - intros d from o e d' Hd Hf _ E. cbn in E. inversion E; subst. split; [apply DK; auto; apply Hf|]. cbn. auto.
  - intros p q e out p' Hp Hq E. cbn in E. inversion E; subst. split; auto. split; auto. split; auto. split; auto. apply Hm; [apply Hp|apply Hq].
  - intros _ r r'. cbn. auto.
Qed.

Lemma shape_448 : forall eval,
  (forall k q, sized 56 k -> sized 56 q -> sized 56 (snd (eval k q))) -> dh_shape (curve448 eval).
Proof.
  intros eval Hm.
  assert (DK : forall d p q, data_ok (curve448 eval) d -> sized 56 p -> sized 56 q -> data_ok (curve448 eval) (set_keys p q d)).
  { intros d p q (A & B & C) P Q. repeat split; cbn; try apply P; try apply Q; apply C. }
  pose proof sized_base448 as Hb.
  constructor.
  - intros r. cbn. lia.
  - cbn. lia.
  - intros rng d o e d' Hd _ Hr E. cbn [da_generate curve448] in E. inversion E; subst. clear E. pose proof (sized_clamp448 _ (Hr 56 ltac:(lia))) as Hk.
    split; [apply DK; auto|]. cbn. intuition congruence.
  - intros d p q e d' Hd Hp Hq E. cbn in Hp, Hq. cbn [da_set_keypair curve448] in E.
    assert (E1 : e = E_NONE \/ e = E_INVALID_PUBLIC_KEY) by (destruct (_ =? 1) in E; inversion E; auto).
    assert (E2 : d' = set_keys p q d) by (destruct (_ =? 1) in E; inversion E; auto). subst d'.
    split; [apply DK; auto|]. cbn [dd_role dd_type set_keys dd_private dd_public da_private_len da_public_len curve448]. destruct Hp, Hq. rewrite !take_all by lia. intuition auto.
  - intros d p e d' Hd Hp E. cbn [da_private_len curve448] in *. cbn [da_set_keypair_private curve448] in E. inversion E; subst. split; [apply DK; auto|]. cbn. destruct Hp. rewrite !take_all by lia. intuition auto.
  - reflexivity.
  - intros d from o e d' Hd Hf _ E. cbn in E. inversion E; subst. split; [apply DK; auto; apply Hf|]. cbn. auto.
  - intros p q e out p' Hp Hq E. cbn [da_calculate curve448] in E. pose proof (Hm (dd_private p) (dd_public q) (proj1 Hp) (proj1 (proj2 Hq))) as Ho.
    destruct (eval (dd_private p) (dd_public q)) as [ok o]. cbn in Ho. inversion E; subst. split; auto.
  - intros _ r r'. cbn. auto.
Qed.

Lemma shape_newhope : forall keygen sharedb shareda,
  (forall r, sized 64 r -> sized 1824 (fst (keygen r)) /\ sized 2048 (snd (keygen r))) ->
  (forall a r, sized 1824 a -> sized 32 r -> sized 32 (fst (sharedb a r)) /\ sized 2048 (snd (sharedb a r))) ->
  (forall p b, sized 2048 p -> sized 2048 b -> sized 32 (shareda p b)) ->
  dh_shape (newhope keygen sharedb shareda).
Proof.
  intros keygen sharedb shareda Hk Hb Ha. set (alg := newhope keygen sharedb shareda).
  assert (DR : forall d a, data_ok alg d -> sized 2048 a -> data_ok alg (newhope_respond sharedb d a) /\
    dd_role (newhope_respond sharedb d a) = dd_role d /\ dd_type (newhope_respond sharedb d a) = dd_type d /\ dd_private (newhope_respond sharedb d a) = dd_private d).
  { intros d a (A & B & C) Sa. unfold newhope_respond. destruct (Hb (take SENDABYTES a) (take 32 (dd_private d))) as [X Y].
    { eapply sized_take; [exact Sa|unfold SENDABYTES; lia]. } { eapply sized_take; [exact A|cbn; lia]. }
    destruct (sharedb _ _) as [sh sb]. cbn in X, Y. split; [|auto]. split; [auto|]. split; cbn; [eapply sized_splice; eauto; unfold SENDBBYTES; lia|eapply sized_splice; eauto; lia]. }
  assert (DI : forall d, data_ok alg d -> data_ok alg (newhope_initiate keygen d) /\
    dd_role (newhope_initiate keygen d) = dd_role d /\ dd_type (newhope_initiate keygen d) = dd_type d /\ dd_private (newhope_initiate keygen d) = dd_private d).
  { intros d (A & B & C). unfold newhope_initiate. destruct (Hk (take 64 (dd_private d))) as [X Y].
    { eapply sized_take; [exact A|cbn; lia]. }
    destruct (keygen _) as [sa po]. cbn in X, Y. split; [|auto]. split; [auto|]. split; cbn; [eapply sized_splice; eauto; unfold SENDBBYTES; lia|eapply sized_splice; eauto; lia]. }
  assert (PL : forall r, 0 <= newhope_private_len r <= 64) by (intros r; unfold newhope_private_len; destruct (r =? _); lia).
  assert (DS : forall d s, data_ok alg d -> sized (newhope_private_len (dd_role d)) s -> data_ok alg (newhope_seed s d)).
  { intros d s (A & B & C) Hs. repeat split; cbn; try apply B; try apply C; (eapply sized_splice; [exact A|exact Hs|cbn; apply PL]). }
  assert (SP : forall d p e d', data_ok alg d -> sized (newhope_private_len (dd_role d)) p -> newhope_set_keypair_private keygen d p = (e, d') ->
    data_ok alg d' /\ dd_role d' = dd_role d /\ dd_type d' = dd_type d /\ e = E_NONE /\ take (newhope_private_len (dd_role d)) (dd_private d') = p).
  { intros d p e d' Hd Hp E. unfold newhope_set_keypair_private in E. pose proof (DS d p Hd Hp) as Hs. destruct (DI _ Hs) as (I1 & I2 & I3 & I4).
    assert (T : take (newhope_private_len (dd_role d)) (splice 0 p (dd_private d)) = p) by (apply take_splice; apply Hp).
    change (dd_role (newhope_seed p d)) with (dd_role d) in *. destruct (dd_role d =? ROLE_RESPONDER); inversion E; subst.
    - split; [|cbn; auto]. split; [apply Hs|]. split; [cbn; apply sized_zeros; unfold SENDBBYTES; lia|apply Hs].
    - split; auto. split; auto. split; auto. split; auto. rewrite I4. exact T. }
  constructor.
  - intros r. cbn. split; [apply PL|]. unfold newhope_public_len, SENDABYTES, SENDBBYTES. destruct (r =? _); lia.
  - cbn. unfold SENDBBYTES. lia.
  - intros rng d o e d' Hd Ho Hr E. cbn [da_generate alg newhope] in E. unfold newhope_generate in E.
    assert (Hs : data_ok alg (newhope_seed (rng (newhope_private_len (dd_role d))) d)) by (apply DS; auto; apply Hr; apply PL).
    destruct (dd_role d =? ROLE_RESPONDER).
    + destruct o as [os|]; [destruct (key_type_eqb (dd_type os) NO_KEY)|]; inversion E; subst; try solve [split; [assumption|split; [reflexivity|split; [reflexivity|split; [reflexivity|discriminate]]]]].
      destruct (DR _ (dd_public os) Hs (proj1 (proj2 Ho))) as (R1 & R2 & R3 & _). split; [exact R1|]. split; [exact R2|]. split; [exact R3|]. split; [congruence|auto].
    + inversion E; subst. destruct (DI _ Hs) as (R1 & R2 & R3 & _). split; [exact R1|]. split; [exact R2|]. split; [exact R3|]. split; [congruence|auto].
  - intros d p q e d' Hd Hp Hq E. destruct (SP d p e d' Hd Hp E) as (A & B & C & D & F). repeat (split; auto). discriminate.
  - intros d p e d' Hd Hp E. exact (SP d p e d' Hd Hp E).
  - reflexivity.
  - intros d from o e d' Hd Hf Ho E. cbn [da_copy alg newhope] in E. unfold newhope_copy in E.
    set (d1 := DhData (dd_role d) (dd_type d) (dd_private from) (dd_public from) (dd_poly from) (dd_generated from)) in *.
    assert (Hd1 : data_ok alg d1) by exact Hf.
    destruct ((dd_role d =? ROLE_RESPONDER) && negb (dd_generated d1) && key_type_eqb (dd_type from) KEYPAIR); [destruct o as [o|]|]; inversion E; subst.
    + destruct (DR d1 (dd_public o) Hd1 (proj1 (proj2 Ho))) as (R1 & R2 & R3 & _). split; [exact R1|]. split; [exact R2|]. split; [exact R3|]. split; [auto|discriminate].
    + repeat (split; auto); try apply Hf; discriminate.
    + repeat (split; auto); try apply Hf; discriminate.
  - intros p q e out p' Hp Hq E. cbn [da_calculate alg newhope] in E. unfold newhope_calculate in E.
    destruct (dd_role p =? ROLE_RESPONDER); [destruct (negb (dd_generated p))|].
    + destruct (Hb (take SENDABYTES (dd_public q)) (take 32 (dd_private p))) as [X Y].
      { eapply sized_take; [apply Hq|cbn; unfold SENDABYTES, SENDBBYTES; lia]. } { eapply sized_take; [apply Hp|cbn; lia]. }
      destruct (sharedb _ _) as [sh sb]. inversion E; subst. cbn in X, Y. split.
      { split; [apply Hp|]. split; [cbn; eapply sized_splice; [apply Hp|exact Y|cbn; unfold SENDBBYTES; lia]|apply Hp]. }
      split; [reflexivity|]. split; [reflexivity|]. split; [exact X|]. split; [congruence|discriminate].
    + inversion E; subst. split; [auto|]. split; [auto|]. split; [auto|]. split; [|auto]. eapply sized_take; [apply Hp|cbn; lia].
    + inversion E; subst. split; [auto|]. split; [auto|]. split; [auto|]. split; [|auto]. apply Ha; [apply Hp|].
      eapply sized_take; [apply Hq|cbn; unfold SENDBBYTES; lia].
  - discriminate.
Qed.

Lemma suite_shape : forall alg D, dh_suite alg D -> dh_shape alg.
Proof. intros alg D [base mult H1 H2|eval H1|kg sb sa H1 H2 H3]; [now apply shape_25519|now apply shape_448|now apply shape_newhope]. Qed.

(** ** One object *)
Definition dh_wf (alg : dh_alg) (s : dhstate) : Prop := ds_alg s = alg /\ data_ok alg (ds_data s).

Lemma zero_dec : forall q, bytes q -> noise_is_zero q = if all_zerob q then 1 else 0.
Proof.
  intros q Hq. destruct (C40_is_zero_exact q Hq) as [A B]. unfold all_zerob. destruct (forallb (Z.eqb 0) q) eqn:E.
  - apply A. rewrite forallb_forall in E. apply Forall_forall. intros x Hx. specialize (E x Hx). lia.
  - apply B. intros F. rewrite Forall_forall in F. assert (T : forallb (Z.eqb 0) q = true) by (apply forallb_forall; intros x Hx; rewrite (F x Hx); reflexivity). congruence.
Qed.
Lemma all_zerob_iff : forall q, all_zerob q = true <-> all_zero q.
Proof.
  intros q. unfold all_zerob, all_zero. rewrite forallb_forall, Forall_forall. split; intros H x Hx; specialize (H x Hx); [symmetry; now apply Z.eqb_eq|subst; reflexivity].
Qed.
Lemma cmove_0 : forall l, bytes l -> cmove_zero l 0 = l.
Proof.
  intros l H. unfold cmove_zero. change (Z.lxor 255 ((- 0) mod 256)) with 255. induction H as [|x l Hx H IH]; cbn; auto.
  f_equal; auto. change 255 with (Z.ones 8). rewrite Z.land_ones by lia. apply Z.mod_small. unfold is_byte in Hx. lia.
Qed.
Lemma cmove_1 : forall l, cmove_zero l 1 = zeros (zlen l).
Proof.
  intros l. unfold cmove_zero. change (Z.lxor 255 ((- 1) mod 256)) with 0. unfold zeros, zlen. rewrite Nat2Z.id.
  induction l as [|x l IH]; cbn; auto. rewrite Z.land_0_r. f_equal; auto.
Qed.

Lemma peer_held_alt : forall s, reports s (peer_held s).
Proof.
  intros s. unfold reports, peer_held, dhstate_has_keypair, dhstate_has_public_key, dhstate_get_public_key, dhstate_get_keypair.
  rewrite !Z.eqb_refl. destruct (dh_key_type s); cbn; auto.
Qed.

Lemma clear_wf : forall alg s, dh_shape alg -> dh_wf alg s -> dh_wf alg (clear_data s).
Proof.
  intros alg s Sh [Ha (A & B & C)]. split; [auto|]. pose proof (sh_lens _ Sh (dd_role (ds_data s))) as [L1 L2].
  unfold clear_data, private_len, public_len. rewrite Ha. split; cbn [ds_data with_data dd_private dd_public dd_poly].
  - eapply sized_splice; [exact A|apply sized_zeros; lia|lia].
  - split; [|exact C]. eapply sized_splice; [exact B|apply sized_zeros; lia|lia].
Qed.

Lemma dh_step_ok : forall alg s op, dh_shape alg -> dh_wf alg s -> dh_op_ok alg op ->
  exists e s', dh_step s op = Ok (e, s') /\ dh_wf alg s' /\ dh_effect (is_curve alg) (peer_held s) op e (peer_held s') /\
    ((forall r, op <> DSetRole r) -> private_len s' = private_len s /\ public_len s' = public_len s).
Proof.
  intros alg s op Sh Hw Hop. destruct Hw as [Ha Hd].
  assert (Lens : forall s', ds_alg s' = ds_alg s -> dd_role (ds_data s') = dd_role (ds_data s) -> private_len s' = private_len s /\ public_len s' = public_len s).
  { intros s' E1 E2. unfold private_len, public_len. now rewrite E1, E2. }
  pose proof (sh_lens _ Sh (dd_role (ds_data s))) as [L1 L2].
  assert (Fail : forall op e, e <> E_NONE -> (forall p n q m, op = DSetKeypair (Some p) n (Some q) m -> e <> E_INVALID_PUBLIC_KEY) ->
     dh_effect (is_curve alg) (peer_held s) op e (peer_held s)) by (intros; now constructor).
  assert (Hs : dh_wf alg s) by (split; auto).
  destruct op as [rng|rng o|p n q m|p n|q m| | |from|pub n|r]; cbn [dh_step dh_op_ok] in *.
  - (* generate *)
    unfold dhstate_generate_keypair. rewrite Ha. destruct (da_generate alg rng (ds_data s) None) as [e d] eqn:E.
    destruct (sh_generate _ Sh _ _ None _ _ Hd I Hop E) as (D1 & D2 & D3 & D4 & _).
    destruct (is_none e) eqn:En; eexists _, _; (split; [reflexivity|]).
    + apply is_none_true in En. subst e. split; [split; auto|]. split; [|intros _; apply Lens; auto]. cbn. constructor.
    + apply is_none_false in En. rewrite (D4 En). replace (with_data s (ds_data s)) with s by (destruct s; reflexivity). split; [split; auto|]. split; [|intros _; apply Lens; auto]. apply Fail; auto. intros; discriminate.
  - destruct Hop as [Hr Ho]. unfold dhstate_generate_dependent_keypair.
    destruct (match o with Some o => negb (da_id (ds_alg s) =? da_id (ds_alg o)) | None => false end) eqn:Eo.
    { eexists _, _; split; [reflexivity|]. split; auto. split; [|auto]. apply Fail; [discriminate|intros; discriminate]. }
    assert (Ho' : match option_map ds_data o with Some x => data_ok alg x | None => True end).
    { destruct o as [o|]; cbn; auto. destruct Ho as [O1 O2]. rewrite Ha in Eo. rewrite <- (O2 ltac:(lia)) at 1. exact O1. }
    rewrite Ha. destruct (da_generate alg rng (ds_data s) (option_map ds_data o)) as [e d] eqn:E.
    destruct (sh_generate _ Sh _ _ _ _ _ Hd Ho' Hr E) as (D1 & D2 & D3 & D4 & _).
    destruct (is_none e) eqn:En; eexists _, _; (split; [reflexivity|]).
    + apply is_none_true in En. subst e. split; [split; auto|]. split; [|intros _; apply Lens; auto]. cbn. constructor.
    + apply is_none_false in En. rewrite (D4 En). replace (with_data s (ds_data s)) with s by (destruct s; reflexivity). split; [split; auto|]. split; [|intros _; apply Lens; auto]. apply Fail; auto. intros; discriminate.
  - destruct Hop as [Hp Hq]. unfold dhstate_set_keypair. destruct p as [p|], q as [q|];
      try (eexists _, _; split; [reflexivity|]; split; [auto|]; split; [apply Fail; [discriminate|intros; discriminate]|auto]).
    destruct (negb (n =? private_len s)) eqn:E1; [eexists _, _; split; [reflexivity|]; split; [auto|]; split; [apply Fail; [discriminate|intros; discriminate]|auto]|].
    destruct (negb (m =? public_len s)) eqn:E2; [eexists _, _; split; [reflexivity|]; split; [auto|]; split; [apply Fail; [discriminate|intros; discriminate]|auto]|].
    destruct Hp as (Hn & Hpl & Hpb), Hq as (Hm & Hql & Hqb).
    assert (R : forall l k, k <= zlen l -> read_ptr (Some l) k = Ok (take k l)) by (intros l k Hk; cbn; destruct (Z.leb_spec k (zlen l)); [auto|lia]).
    rewrite !R by lia. cbn [obind].
    assert (En : n = da_private_len alg (dd_role (ds_data s))) by (unfold private_len in E1; rewrite Ha in E1; lia).
    assert (Em : m = da_public_len alg (dd_role (ds_data s))) by (unfold public_len in E2; rewrite Ha in E2; lia).
    assert (Sp : sized (da_private_len alg (dd_role (ds_data s))) (take n p)) by (split; [rewrite zlen_take; lia|apply bytes_take; auto]).
    assert (Sq : sized (da_public_len alg (dd_role (ds_data s))) (take m q)) by (split; [rewrite zlen_take; lia|apply bytes_take; auto]).
    rewrite Ha. destruct (da_set_keypair alg (ds_data s) (take n p) (take m q)) as [e d] eqn:E.
    destruct (sh_keypair _ Sh _ _ _ _ _ Hd Sp Sq E) as (D1 & D2 & D3 & D4 & D5 & D6).
    destruct (is_none e) eqn:Ee; cbn [negb]; eexists _, _; (split; [reflexivity|]).
    + split; [split; auto|]. split; [|intros _; apply Lens; auto].
      unfold peer_held at 2. cbn [dh_key_type ds_data with_data dd_type set_type]. unfold private_key, public_key, private_len, public_len.
      cbn [ds_data with_data ds_alg set_type dd_role dd_private dd_public]. rewrite Ha, D2, D5. constructor. exact D6.
    + apply is_none_false in Ee. destruct D4 as [D4|D4]; [congruence|]. subst e. split; [apply clear_wf; auto; split; auto|].
      split; [|intros _; apply Lens; auto]. constructor.
  - unfold dhstate_set_keypair_private. destruct p as [p|];
      try (eexists _, _; split; [reflexivity|]; split; [auto|]; split; [apply Fail; [discriminate|intros; discriminate]|auto]).
    destruct (negb (n =? private_len s)) eqn:E1; [eexists _, _; split; [reflexivity|]; split; [auto|]; split; [apply Fail; [discriminate|intros; discriminate]|auto]|].
    destruct Hop as (Hn & Hpl & Hpb).
    assert (R : forall l k, k <= zlen l -> read_ptr (Some l) k = Ok (take k l)) by (intros l k Hk; cbn; destruct (Z.leb_spec k (zlen l)); [auto|lia]).
    rewrite !R by lia. cbn [obind].
    assert (En : n = da_private_len alg (dd_role (ds_data s))) by (unfold private_len in E1; rewrite Ha in E1; lia).
    assert (Sp : sized (da_private_len alg (dd_role (ds_data s))) (take n p)) by (split; [rewrite zlen_take; lia|apply bytes_take; auto]).
    rewrite Ha. destruct (da_set_keypair_private alg (ds_data s) (take n p)) as [e d] eqn:E.
    destruct (sh_private _ Sh _ _ _ _ Hd Sp E) as (D1 & D2 & D3 & -> & D5). cbn [is_none err_eqb negb].
    eexists _, _; (split; [reflexivity|]).
    split; [split; auto|]. split; [|intros _; apply Lens; auto].
    unfold peer_held at 2. cbn [dh_key_type ds_data with_data dd_type set_type]. unfold private_key, private_len.
    cbn [ds_data with_data ds_alg set_type dd_role dd_private dd_public]. rewrite Ha, D2, D5. constructor.
  - unfold dhstate_set_public_key. destruct q as [q|];
      try (eexists _, _; split; [reflexivity|]; split; [auto|]; split; [apply Fail; [discriminate|intros; discriminate]|auto]).
    destruct (negb (m =? public_len s)) eqn:E1; [eexists _, _; split; [reflexivity|]; split; [auto|]; split; [apply Fail; [discriminate|intros; discriminate]|auto]|].
    destruct Hop as (Hn & Hpl & Hpb).
    assert (R : forall l k, k <= zlen l -> read_ptr (Some l) k = Ok (take k l)) by (intros l k Hk; cbn; destruct (Z.leb_spec k (zlen l)); [auto|lia]).
    rewrite !R by lia. cbn [obind]. rewrite Ha, (sh_validate _ Sh).
    assert (Em : m = da_public_len alg (dd_role (ds_data s))) by (unfold public_len in E1; rewrite Ha in E1; lia).
    match goal with |- context [if negb (is_none (if ?c then E_NONE else E_NONE)) then _ else _] => replace (negb (is_none (if c then E_NONE else E_NONE))) with false by (destruct c; reflexivity) end.
    assert (Sq : sized m (take m q)) by (split; [rewrite zlen_take; lia|apply bytes_take; auto]).
    destruct Hd as (A & B & C).
    eexists _, _; (split; [reflexivity|]). split.
    { split; auto. unfold private_len. rewrite Ha. split; [|split; [|exact C]]; cbn [ds_data with_data dd_private dd_public].
      - eapply sized_splice; [exact A|apply sized_zeros; lia|lia].
      - eapply sized_splice; [exact B|exact Sq|lia]. }
    split; [|intros _; apply Lens; auto]. unfold peer_held at 2. cbn [dh_key_type ds_data with_data dd_type]. unfold public_key, public_len.
    cbn [ds_data with_data ds_alg dd_role dd_public]. rewrite Ha, <- Em, take_splice by apply Sq. constructor.
  - unfold dhstate_set_null_public_key. destruct (negb (da_nulls_allowed (ds_alg s))).
    { eexists _, _; split; [reflexivity|]. split; auto. split; [|auto]. apply Fail; [discriminate|intros; discriminate]. }
    destruct Hd as (A & B & C). eexists _, _; (split; [reflexivity|]). split.
    { split; auto. unfold private_len, public_len. rewrite Ha. split; [|split; [|exact C]]; cbn [ds_data with_data dd_private dd_public].
      - eapply sized_splice; [exact A|apply sized_zeros; lia|lia].
      - eapply sized_splice; [exact B|apply sized_zeros; lia|lia]. }
    split; [|intros _; apply Lens; auto]. unfold peer_held at 2. cbn [dh_key_type ds_data with_data dd_type]. unfold public_key, public_len.
    cbn [ds_data with_data ds_alg dd_role dd_public]. rewrite take_splice by (rewrite Ha; apply zlen_zeros; lia). constructor.
  - eexists _, _; (split; [reflexivity|]). split; [apply clear_wf; auto|]. split; [|intros _; apply Lens; auto]. constructor.
  - destruct Hop as [O1 O2]. unfold dhstate_copy. destruct (negb (da_id (ds_alg s) =? da_id (ds_alg from))) eqn:Ei.
    { eexists _, _; split; [reflexivity|]. split; auto. split; [|auto]. apply Fail; [discriminate|intros; discriminate]. }
    rewrite Ha in Ei |- *. assert (Ef : ds_alg from = alg) by (apply O2; lia). rewrite Ef in O1.
    destruct (da_copy alg (ds_data s) (ds_data from) None) as [e d] eqn:E.
    destruct (sh_copy _ Sh _ _ None _ _ Hd O1 I E) as (D1 & D2 & D3 & -> & D5). cbn [is_none err_eqb negb].
    eexists _, _; (split; [reflexivity|]). split; [split; auto|]. split; [|intros _; apply Lens; auto].
    constructor.
    + unfold peer_held. cbn [dh_key_type ds_data with_data dd_type set_type]. unfold dh_key_type. destruct (dd_type (ds_data from)); exact I.
    + intros Hc. destruct (D5 Hc) as [P1 P2]. unfold peer_held. cbn [dh_key_type ds_data with_data dd_type set_type]. unfold dh_key_type, private_key, public_key, private_len, public_len.
      cbn [ds_data with_data ds_alg set_type dd_role dd_private dd_public]. rewrite P1, P2, Ha, Ef.
      destruct (sh_curve_lens _ Sh Hc (dd_role d) (dd_role (ds_data from))) as [-> ->]. reflexivity.
  - unfold dhstate_calculate. destruct pub as [pub|];
      [|eexists _, _; split; [reflexivity|]; split; [auto|]; split; [apply Fail; [discriminate|intros; discriminate]|auto]].
    destruct (negb (da_id (ds_alg s) =? da_id (ds_alg pub))) eqn:Ei;
      [eexists _, _; split; [reflexivity|]; split; [auto|]; split; [apply Fail; [discriminate|intros; discriminate]|auto]|].
    destruct (negb (n =? shared_len s));
      [eexists _, _; split; [reflexivity|]; split; [auto|]; split; [apply Fail; [discriminate|intros; discriminate]|auto]|].
    destruct (negb (key_type_eqb (dh_key_type s) KEYPAIR));
      [eexists _, _; split; [reflexivity|]; split; [auto|]; split; [apply Fail; [discriminate|intros; discriminate]|auto]|].
    destruct Hop as [O1 O2]. rewrite Ha in Ei |- *. assert (Ef : ds_alg pub = alg) by (apply O2; lia). rewrite Ef in O1 |- *.
    destruct (da_calculate alg (ds_data s) (ds_data pub)) as [[e out] d] eqn:E.
    destruct (sh_calculate _ Sh _ _ _ _ _ Hd O1 E) as (D1 & D2 & D3 & D4 & D5 & D6).
    eexists _, _; (split; [reflexivity|]). split; [split; auto|]. split; [|intros _; apply Lens; auto].
    assert (Sk : same_kind (peer_held (with_data s d)) (peer_held s)).
    { unfold peer_held. cbn [dh_key_type ds_data with_data dd_type]. unfold dh_key_type. cbn [ds_data with_data]. rewrite D3. destruct (dd_type (ds_data s)); exact I. }
    assert (Same : d = ds_data s -> with_data s d = s) by (intros ->; destruct s; reflexivity).
    match goal with |- dh_effect _ _ _ (if ?c then _ else _) _ => destruct c end.
    + constructor; auto. intros Hc. now rewrite Same by auto.
    + destruct (is_none e) eqn:Ee.
      * apply is_none_true in Ee. subst e. constructor; auto. intros Hc. now rewrite Same by auto.
      * apply is_none_false in Ee. rewrite Same by auto. apply Fail; auto. intros; discriminate.
  - unfold or_same, dhstate_set_role. destruct (negb (r =? ROLE_INITIATOR) && negb (r =? ROLE_RESPONDER) && negb (r =? 0)); cbn [fst snd].
    { eexists _, _; split; [reflexivity|]. split; auto. split; [|auto]. apply Fail; [discriminate|intros; discriminate]. }
    eexists _, _; (split; [reflexivity|]). split; [split; auto|]. split; [|intros C; now specialize (C r)].
    constructor.
    + unfold peer_held, dh_key_type. cbn. destruct (dd_type (ds_data s)); exact I.
    + intros Hc. unfold peer_held, dh_key_type, private_key, public_key, private_len, public_len. cbn [ds_data with_data ds_alg dd_role dd_type dd_private dd_public]. rewrite Ha.
      destruct (sh_curve_lens _ Sh Hc r (dd_role (ds_data s))) as [-> ->]. reflexivity.
Qed.

Lemma dh_new_wf : forall alg, dh_shape alg -> dh_wf alg (dhstate_new alg).
Proof. intros alg Sh. pose proof (sh_sizes _ Sh). split; [auto|]. repeat split; cbn; try apply bytes_zeros; rewrite zlen_zeros; lia. Qed.
