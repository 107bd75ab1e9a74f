(** Proofs about HandshakeState: the DH backends as DH functions, and each token
    as the Noise specification has it. *)
From Coq Require Import ZifyBool ZifyNat.
From Verif Require Import Base MUtil MCipher SCipher PCipher MHash SHash PHash MSymm SSymm PSymm MPatterns SPatterns MDh SDh PDh MHandshake SHandshake.

Definition second_role (d : dh_data) : bool := dd_role d =? ROLE_RESPONDER.
Definition held_public (alg : dh_alg) (d : dh_data) : option (list Z) :=
  if key_type_eqb (dd_type d) NO_KEY then None else Some (take (da_public_len alg (dd_role d)) (dd_public d)).

(** ** A backend implements DH functions: [view] reads the key pair off an object *)
Record dh_link (alg : dh_alg) (D : dh_functions) (view : dh_data -> KP D) (ready : dh_data -> Prop) : Prop := {
  lk_shape : dh_shape alg;
  lk_type : forall t d, view (set_type t d) = view d /\ (ready (set_type t d) <-> ready d);
  lk_pub : forall d, data_ok alg d -> ready d -> PUB D (view d) = take (da_public_len alg (dd_role d)) (dd_public d);
  lk_len : forall r, da_public_len alg r = DHLEN D (r =? ROLE_RESPONDER);
  lk_small : forall b, DHLEN D b <= 2048;
  lk_null : da_nulls_allowed alg = REJECTS_NULL D;
  lk_generate : forall rng d other, data_ok alg d -> rng_ok rng ->
    match other with Some o => data_ok alg o /\ (dd_type o <> NO_KEY -> second_role o = negb (second_role d)) | None => True end ->
    match GENERATE D (second_role d) (rng (RANDLEN D (second_role d))) (match other with Some o => held_public alg o | None => None end) with
    | Some k => exists d', da_generate alg rng d other = (E_NONE, d') /\ view d' = k /\ ready d'
    | None => exists e, da_generate alg rng d other = (e, d) /\ e <> E_NONE
    end;
  lk_calculate : forall priv pub, data_ok alg (ds_data priv) -> data_ok alg (ds_data pub) -> ds_alg priv = alg -> ds_alg pub = alg ->
    dh_key_type priv = KEYPAIR -> ready (ds_data priv) -> second_role (ds_data pub) = negb (second_role (ds_data priv)) ->
    match DH D (view (ds_data priv)) (public_key pub) with
    | Some z => dhstate_calculate priv (Some pub) (shared_len priv) = (E_NONE, Some z, priv) /\ zlen z = shared_len priv
    | None => exists e z, dhstate_calculate priv (Some pub) (shared_len priv) = (e, Some z, priv) /\ e <> E_NONE /\ zlen z = shared_len priv
    end
}.

Lemma calc_null : forall alg q, bytes q ->
  (Z.land (if da_nulls_allowed alg then 1 else 0) (noise_is_zero q)) = if da_nulls_allowed alg && all_zerob q then 1 else 0.
Proof. intros alg q Hq. rewrite (zero_dec q Hq). destruct (da_nulls_allowed alg), (all_zerob q); reflexivity. Qed.

Lemma with_data_same : forall s, with_data s (ds_data s) = s.
Proof. intros []; reflexivity. Qed.

Lemma link_25519 : forall base mult,
  (forall k, sized 32 k -> sized 32 (base k)) -> (forall k q, sized 32 k -> sized 32 q -> sized 32 (mult k q)) ->
  dh_link (curve25519 base mult) (curve25519_functions base mult) (fun d => (dd_private d, dd_public d)) (fun _ => True).
Proof.
  intros base mult Hb Hm. constructor.
  - now apply shape_25519.
  - intros; split; [reflexivity|tauto].
  - intros d (_ & [P _] & _) _. cbn [PUB curve25519_functions curve25519 da_public_len snd]. symmetry. apply take_all. cbn in P. lia.
  - reflexivity.
  - cbn; lia.
  - reflexivity.
  - intros rng d other Hd Hr _. cbn. eexists. split; [reflexivity|]. split; [reflexivity|exact I].
  - intros priv pub (P1 & P2 & _) (Q1 & Q2 & _) A1 A2 K _ _. unfold dhstate_calculate. rewrite A1, A2, Z.eqb_refl, Z.eqb_refl, K. cbn [negb key_type_eqb].
    unfold public_key, public_len. rewrite A2. cbn [da_public_len curve25519]. cbn in Q2, P1. rewrite (take_all _ 32) by (destruct Q2; lia).
    rewrite calc_null by apply Q2. cbn [da_nulls_allowed curve25519 da_calculate andb DH curve25519_functions fst].
    pose proof (Hm _ _ P1 Q2) as [M1 M2]. unfold shared_len. rewrite A1. cbn [da_shared_len curve25519].
    destruct (all_zerob _) eqn:Ez.
    + split; [|rewrite zlen_zeros; lia]. rewrite Z.eqb_refl, cmove_1, M1, with_data_same. reflexivity.
    + split; [|exact M1]. rewrite cmove_0, with_data_same by exact M2. reflexivity.
Qed.

Lemma link_448 : forall eval, (forall k q, sized 56 k -> sized 56 q -> sized 56 (snd (eval k q))) ->
  dh_link (curve448 eval) (curve448_functions eval) (fun d => (dd_private d, dd_public d)) (fun _ => True).
Proof.
  intros eval Hm. constructor.
  - now apply shape_448.
  - intros; split; [reflexivity|tauto].
  - intros d (_ & [P _] & _) _. cbn [PUB curve448_functions curve448 da_public_len snd]. symmetry. apply take_all. cbn in P. lia.
  - reflexivity.
  - cbn; lia.
  - reflexivity.
  - intros rng d other Hd Hr _. cbn. eexists. split; [reflexivity|]. split; [reflexivity|exact I].
  - intros priv pub (P1 & P2 & _) (Q1 & Q2 & _) A1 A2 K _ _. unfold dhstate_calculate. rewrite A1, A2, Z.eqb_refl, Z.eqb_refl, K. cbn [negb key_type_eqb].
    unfold public_key, public_len. rewrite A2. cbn [da_public_len curve448]. cbn in Q2, P1. rewrite (take_all _ 56) by (destruct Q2; lia).
    rewrite calc_null by apply Q2. cbn [da_nulls_allowed curve448 da_calculate andb DH curve448_functions fst].
    pose proof (Hm _ _ P1 Q2) as [M1 M2]. unfold shared_len. rewrite A1. cbn [da_shared_len curve448].
    destruct (eval (dd_private (ds_data priv)) (dd_public (ds_data pub))) as [ok out]. cbn [fst snd] in *. destruct (all_zerob _) eqn:Ez.
    + split; [|rewrite zlen_zeros; lia]. rewrite Z.eqb_refl, cmove_1, M1, with_data_same. reflexivity.
    + destruct ok.
      * split; [|exact M1]. rewrite cmove_0, with_data_same by exact M2. reflexivity.
      * exists E_INVALID_PUBLIC_KEY, out. rewrite cmove_0, with_data_same by exact M2. split; [reflexivity|]. split; [discriminate|exact M1].
Qed.

Lemma link_newhope : forall keygen sharedb shareda,
  (forall r, sized 64 r -> sized 1824 (fst (keygen r)) /\ sized 2048 (snd (keygen r))) ->
  (forall a r, sized 1824 a -> sized 32 r -> sized 32 (fst (sharedb a r)) /\ sized 2048 (snd (sharedb a r))) ->
  (forall p b, sized 2048 p -> sized 2048 b -> sized 32 (shareda p b)) ->
  dh_link (newhope keygen sharedb shareda) (newhope_functions keygen sharedb shareda)
    (fun d => if second_role d then (true, take 32 (dd_poly d), take 2048 (dd_public d)) else (false, dd_poly d, take 1824 (dd_public d)))
    (fun d => dd_generated d = true).
Proof.
  intros keygen sharedb shareda Hk Hb Ha. constructor.
  - now apply shape_newhope.
  - intros; split; [reflexivity|tauto].
  - intros d (_ & [P _] & _) _. unfold second_role. cbn [PUB newhope_functions newhope da_public_len snd]. unfold newhope_public_len. destruct (_ =? _); reflexivity.
  - intros r. cbn. unfold newhope_public_len, SENDABYTES, SENDBBYTES. destruct (_ =? _); reflexivity.
  - intros []; cbn; lia.
  - reflexivity.
  - intros rng d other Hd Hr Ho. destruct Hd as (D1 & D2 & D3). cbn in D1, D2, D3. unfold second_role. cbn [GENERATE RANDLEN newhope_functions da_generate newhope]. unfold newhope_generate.
    unfold newhope_private_len. destruct (dd_role d =? ROLE_RESPONDER) eqn:R.
    + destruct other as [o|]; [|exists E_INVALID_STATE; split; [reflexivity|discriminate]]. destruct Ho as [(O1 & O2 & O3) Ho].
      unfold held_public. destruct (key_type_eqb (dd_type o) NO_KEY) eqn:Kt; [exists E_INVALID_STATE; split; [reflexivity|discriminate]|].
      specialize (Ho ltac:(intros X; rewrite X in Kt; discriminate)).
      unfold second_role in Ho. rewrite R in Ho. cbn [da_public_len newhope]. unfold newhope_public_len, newhope_respond. rewrite Ho. cbn [negb].
      cbn [dd_private newhope_seed]. cbn in O2.
      assert (T : take 32 (splice 0 (rng 32) (dd_private d)) = rng 32) by (apply take_splice; apply Hr; lia). rewrite T.
      destruct (Hb (take SENDABYTES (dd_public o)) (rng 32)) as [[X1 X2] [Y1 Y2]];
        [eapply sized_take; [exact O2|unfold SENDABYTES, SENDBBYTES; lia]|apply Hr; lia|].
      destruct (sharedb _ _) as [sh sb]. cbn [fst snd] in *. eexists. split; [reflexivity|]. cbn [dd_role dd_poly dd_public dd_generated newhope_seed].
      rewrite R. split; [|reflexivity]. f_equal; [f_equal|]; apply take_splice; assumption.
    + unfold newhope_initiate. cbn [dd_private newhope_seed].
      assert (T : take 64 (splice 0 (rng 64) (dd_private d)) = rng 64) by (apply take_splice; apply Hr; lia). rewrite T.
      destruct (Hk (rng 64)) as [[X1 X2] [Y1 Y2]]; [apply Hr; lia|]. destruct (keygen (rng 64)) as [sa po]. cbn [fst snd] in *.
      eexists. split; [reflexivity|]. cbn [dd_role dd_poly dd_public dd_generated newhope_seed]. rewrite R. split; [|reflexivity].
      f_equal; [f_equal|].
      * rewrite splice_0, drop_all by (destruct D3; lia). apply app_nil_r.
      * apply take_splice; assumption.
  - intros priv pub (P1 & P2 & P3) (Q1 & Q2 & Q3) A1 A2 K R O. unfold dhstate_calculate. rewrite A1, A2, Z.eqb_refl, Z.eqb_refl, K. cbn [negb key_type_eqb].
    cbn in P1, P2, P3, Q1, Q2, Q3. unfold public_key, public_len, shared_len. rewrite A1, A2. cbn [da_public_len newhope da_shared_len da_nulls_allowed].
    cbn [Z.land Z.eqb]. cbn [da_calculate newhope]. unfold newhope_calculate. unfold second_role in *. unfold newhope_public_len. rewrite O, R.
    destruct (dd_role (ds_data priv) =? ROLE_RESPONDER); cbn [negb DH newhope_functions].
    + pose proof (sized_take _ 32 _ P3 ltac:(lia)) as [S1 S2]. split; [|exact S1]. rewrite cmove_0, with_data_same by exact S2. reflexivity.
    + destruct (Ha (dd_poly (ds_data priv)) (take SENDBBYTES (dd_public (ds_data pub)))) as [S1 S2];
        [exact P3|eapply sized_take; [exact Q2|unfold SENDBBYTES; lia]|].
      split; [|exact S1]. rewrite cmove_0, with_data_same by exact S2. reflexivity.
Qed.

Lemma suite_link : forall alg D, dh_suite alg D -> exists view ready, dh_link alg D view ready.
Proof.
  intros alg D [base mult H1 H2|eval H1|kg sb sa H1 H2 H3]; do 2 eexists.
  - now apply link_25519.
  - now apply link_448.
  - now apply link_newhope.
Qed.
