(** Properties C16 - C18: SymmetricState. *)
From Coq Require Import ZifyBool ZifyNat.
From Verif Require Import Base MCipher SCipher PCipher MHash SHash PHash PHash2 MSymm SSymm PSymm
  MSha2 SSha2 SHashLib THash Toy ToyHash.

(** ** C16 *)
(** Every sequence of calls on a new SymmetricState (with valid pointers) is one
    that section 5.2 of the Noise specification allows: nothing is undefined,
    each successful call has the specified result and effect, each refused call
    has one of the listed reasons and no effect. *)
Theorem C16_symmetricstate_is_noise : forall ca alg H c id name ops,
  cipher_correct ca -> hash_law alg H -> ca_key_len ca <= ha_hash_len alg ->
  hctx_ok alg c -> bytes name -> Forall sym_op_ok ops ->
  exists s0 hist s,
    symmetricstate_new (Some ca) (Some (alg, c)) name id = Ok (E_NONE, Some s0) /\
    sym_run s0 ops = Ok (hist, s) /\ map fst hist = ops /\
    noise_history ca H (ha_block_len alg) (Some (InitializeSymmetric H (ha_hash_len alg) name)) hist (sym_view s).
Proof.
  intros ca alg H c id name ops Hca Hlaw Hk Hc Hn Hops.
  destruct (sym_new_eq ca alg H Hlaw Hk id name c Hc Hn) as (s0 & E0 & Hw0 & Hv0 & _).
  destruct (sym_run_ok ca alg H Hca Hlaw Hk ops s0 Hw0 Hops) as (hist & s & E & Hm & _ & _ & Hh).
  exists s0, hist, s. rewrite Hv0 in Hh. auto.
Qed.
Print Assumptions C16_symmetricstate_is_noise.

(** With one of the library's hash algorithms, HASH is the standard function
    (on messages up to the standard's length limit). *)
Theorem C16_symmetricstate_is_noise_std : forall ca alg std B L lim c id name ops,
  cipher_correct ca -> library_hash alg std B L lim -> ca_key_len ca <= L ->
  hctx_ok alg c -> bytes name -> Forall sym_op_ok ops ->
  exists H, agree lim H std /\ exists s0 hist s,
    symmetricstate_new (Some ca) (Some (alg, c)) name id = Ok (E_NONE, Some s0) /\
    sym_run s0 ops = Ok (hist, s) /\ map fst hist = ops /\
    noise_history ca H B (Some (InitializeSymmetric H L name)) hist (sym_view s).
Proof.
  intros ca alg std B L lim c id name ops Hca Hlib Hk Hc Hn Hops.
  destruct (library_law _ _ _ _ _ Hlib) as (HB & HL & _ & H & Hlaw & Hag).
  exists H. split; auto.
  destruct (C16_symmetricstate_is_noise ca alg H c id name ops Hca Hlaw) as (s0 & hist & s & E); auto; [lia|].
  rewrite HB, HL in E. eauto.
Qed.
Print Assumptions C16_symmetricstate_is_noise_std.

Definition ex_id : protocol_id := ProtocolId 0 0 0 0 0 0.
Definition ex_sym_ops : list sym_op :=
  [ SMixHash (Some [1; 2; 3]) 3; SMixKey (Some [4; 5]) 2; SEncrypt (NBuf (Some [10; 20; 0; 0]) 2 4);
    SDecrypt (NBuf (Some [9; 9; 9]) 3 3); SSplit true true; SMixHash (Some [1]) 1 ].
Lemma ex_sym_ops_ok : Forall sym_op_ok ex_sym_ops.
Proof.
  repeat (apply Forall_cons; [cbn; repeat split; try (vm_compute; congruence);
    repeat first [apply Forall_nil | apply Forall_cons; [unfold is_byte; lia|]]|]). apply Forall_nil.
Qed.
(** Six calls: three succeed, a forgery is rejected, Split succeeds and ends the life of the object. *)
Example C16_example : exists s0 hist s,
  symmetricstate_new (Some toy_cipher) (Some (sha256_alg, sha256_new)) [78; 111] ex_id = Ok (E_NONE, Some s0) /\
  sym_run s0 ex_sym_ops = Ok (hist, s) /\ length hist = 6%nat.
Proof.
  destruct (C16_symmetricstate_is_noise_std toy_cipher sha256_alg SHA256 64 32 (2^61) sha256_new ex_id [78; 111] ex_sym_ops)
    as (H & _ & s0 & hist & s & E0 & E & Hm & _);
    [apply toy_correct|constructor|cbn; lia|reflexivity|repeat constructor; unfold is_byte; lia|apply ex_sym_ops_ok|].
  exists s0, hist, s. split; auto. split; auto. rewrite <- (map_length fst), Hm. reflexivity.
Qed.

(** ** C17 *)
(** After any history: if decrypt_and_hash fails, the cipher with its key and
    nonce, the chaining key and the handshake hash are exactly as before; so a
    rejected message can be followed by the genuine one. *)
Theorem C17_rejected_payload_changes_nothing : forall ca alg H c id name ops s0 hist s b e s' b',
  cipher_correct ca -> hash_law alg H -> ca_key_len ca <= ha_hash_len alg ->
  hctx_ok alg c -> bytes name -> Forall sym_op_ok ops -> sym_op_ok (SDecrypt b) ->
  symmetricstate_new (Some ca) (Some (alg, c)) name id = Ok (E_NONE, Some s0) ->
  sym_run s0 ops = Ok (hist, s) ->
  symmetricstate_decrypt_and_hash s b = Ok (e, s', b') -> e <> E_NONE ->
  ss_cipher s' = ss_cipher s /\ ss_ck s' = ss_ck s /\ ss_h s' = ss_h s /\
  b_size b' = b_size b /\ b_max b' = b_max b.
Proof.
  intros ca alg H c id name ops s0 hist s b e s' b' Hca Hlaw Hk Hc Hn Hops Hb E0 Er Ed He.
  destruct (sym_new_eq ca alg H Hlaw Hk id name c Hc Hn) as (s0' & E0' & Hw0 & Hv0 & _).
  rewrite E0 in E0'. inversion E0'; subst s0'.
  destruct (sym_run_ok ca alg H Hca Hlaw Hk ops s0 Hw0 Hops) as (hist' & s1 & E & Hm & Hw & _).
  rewrite Er in E. inversion E; subst hist' s1. clear E E0'.
  destruct b as [[mem|] size max].
  2:{ cbn in Ed. inversion Ed; subst. auto. }
  destruct Hb as [(H0 & H1 & H2 & H3) Hsz]. cbn [b_size b_max b_data] in *.
  destruct (sym_view s) as [v|] eqn:Hv.
  2:{ unfold sym_view in Hv. destruct (ss_cipher s) eqn:Ecs; [discriminate|].
      unfold symmetricstate_decrypt_and_hash in Ed. cbn [b_data] in Ed. rewrite Ecs in Ed. inversion Ed; subst. auto. }
  destruct (dec_hash_eq ca alg H Hca Hlaw s v mem size max Hw Hv ltac:(lia) H2 H3) as (c' & Hc' & [[_ E]|[(_ & _ & _ & _ & _ & E)|[(_ & _ & _ & k & e0 & out & _ & _ & _ & _ & _ & E)|(_ & _ & _ & pt & mem' & v' & s2 & _ & E & _)]]]);
    rewrite E in Ed; inversion Ed; subst; cbn; auto; congruence.
Qed.
Print Assumptions C17_rejected_payload_changes_nothing.

(** A keyed state, and a three byte forgery that is rejected. *)
Example C17_example :
  match symmetricstate_new (Some toy_cipher) (Some (toy_hash, toy_hash_new)) [78; 111] ex_id with
  | Ok (E_NONE, Some s0) =>
    match sym_run s0 [SMixHash (Some [1; 2; 3]) 3; SMixKey (Some [4; 5]) 2] with
    | Ok (_, s) =>
      match symmetricstate_decrypt_and_hash s (NBuf (Some [9; 9; 9]) 3 3) with
      | Ok (e, s', _) => e = E_MAC_FAILURE /\ ss_h s' = ss_h s
      | UB => False
      end
    | UB => False
    end
  | _ => False
  end.
Proof. vm_compute. split; reflexivity. Qed.

(** ** C18 *)
(** After any history: the first split with a non-NULL pointer succeeds; *c1 is a CipherState with the
    first HKDF output as key and nonce zero, *c2 one with the second output (or
    NULL if not wanted).  Every later call of any kind fails: INVALID_STATE, or
    INVALID_PARAM for a NULL argument. *)
Definition null_arg (op : sym_op) : Prop :=
  match op with
  | SMixKey p _ | SMixHash p _ => p = None
  | SEncrypt b | SDecrypt b => b_data b = None
  | SSplit w1 w2 => w1 = false /\ w2 = false
  end.

Lemma after_split : forall ca H B st0 hist st, noise_history ca H B st0 hist st -> st0 = None ->
  Forall (fun p => sr_err (snd p) = E_INVALID_STATE \/ (null_arg (fst p) /\ sr_err (snd p) = E_INVALID_PARAM)) hist.
Proof.
  induction 1; intros Hst; try discriminate Hst; constructor; auto.
  subst st0. cbn. inversion H0; subst; cbn; auto.
Qed.

Theorem C18_split_once_with_specified_keys : forall ca alg H c id name ops1 w1 w2 ops2,
  cipher_correct ca -> hash_law alg H -> ca_key_len ca <= ha_hash_len alg ->
  hctx_ok alg c -> bytes name -> Forall sym_op_ok ops1 -> Forall sym_op_ok ops2 ->
  (forall a b, In (SSplit a b) ops1 -> a = false /\ b = false) ->
  w1 = true \/ w2 = true ->
  exists s0 hist1 s1 v r hist2 s2 k1 k2,
    symmetricstate_new (Some ca) (Some (alg, c)) name id = Ok (E_NONE, Some s0) /\
    sym_run s0 ops1 = Ok (hist1, s1) /\ sym_view s1 = Some v /\
    sym_run s1 (SSplit w1 w2 :: ops2) = Ok ((SSplit w1 w2, r) :: hist2, s2) /\
    sr_err r = E_NONE /\
    (k1, k2) = (take (ca_key_len ca) (fst (HKDF H (ha_block_len alg) (ns_ck v) [])),
                take (ca_key_len ca) (snd (HKDF H (ha_block_len alg) (ns_ck v) []))) /\
    keyed_if ca w1 k1 (sr_c1 r) /\ keyed_if ca w2 k2 (sr_c2 r) /\
    map fst hist2 = ops2 /\
    Forall (fun p => sr_err (snd p) = E_INVALID_STATE \/ (null_arg (fst p) /\ sr_err (snd p) = E_INVALID_PARAM)) hist2.
Proof.
  intros ca alg H c id name ops1 w1 w2 ops2 Hca Hlaw Hk Hc Hn Hops1 Hops2 Hns Hww.
  destruct (sym_new_eq ca alg H Hlaw Hk id name c Hc Hn) as (s0 & E0 & Hw0 & Hv0 & _).
  destruct (sym_run_ok ca alg H Hca Hlaw Hk ops1 s0 Hw0 Hops1) as (hist1 & s1 & E1 & Hm1 & Hw1 & _ & Hh1).
  assert (Hv1 : exists v, sym_view s1 = Some v).
  { rewrite Hv0 in Hh1. clear - Hh1 Hm1 Hns. remember (Some (InitializeSymmetric _ _ _)) as st0 eqn:Est.
    assert (Hst : exists v, st0 = Some v) by eauto. clear Est. subst ops1.
    revert Hst Hns. induction Hh1; intros Hst Hns; auto; cbn [map fst] in Hns;
      try (apply IHHh1; [eauto|intros; apply Hns; right; auto]).
    destruct (Hns w1 w2) as [-> ->]; [left; auto|]. discriminate H0. }
  destruct Hv1 as [v Hv].
  assert (Hb : w1 || w2 = true) by (destruct Hww; subst; auto with bool).
  destruct (split_eq ca alg H Hca Hlaw Hk s1 v w1 w2 Hw1 Hv Hb) as (s' & c1 & c2 & k1 & k2 & Es & Esp & K1 & K2 & Hw' & Hv' & _).
  destruct (sym_run_ok ca alg H Hca Hlaw Hk ops2 s' Hw' Hops2) as (hist2 & s2 & E2 & Hm2 & _ & _ & Hh2).
  exists s0, hist1, s1, v, (SRes E_NONE None c1 c2), hist2, s2, k1, k2.
  split; auto. split; auto. split; auto. split.
  { cbn [sym_run sym_step]. rewrite Es. cbn [obind fst snd]. rewrite E2. reflexivity. }
  split; auto. split.
  { unfold Split in Esp. destruct (HKDF H (ha_block_len alg) (ns_ck v) []). cbn. now rewrite Esp. }
  split; auto. split; auto. split; auto.
  eapply after_split; eauto.
Qed.
Print Assumptions C18_split_once_with_specified_keys.

Example C18_example :
  match symmetricstate_new (Some toy_cipher) (Some (toy_hash, toy_hash_new)) [78; 111] ex_id with
  | Ok (E_NONE, Some s0) =>
    match sym_run s0 [SMixKey (Some [4; 5]) 2; SSplit true true; SSplit true false; SMixHash (Some [1]) 1] with
    | Ok ([_; (_, SRes E_NONE _ (Some c1) (Some c2)); (_, r3); (_, r4)], _) =>
      cs_key c1 <> cs_key c2 /\ sr_err r3 = E_INVALID_STATE /\ sr_err r4 = E_INVALID_STATE
    | _ => False
    end
  | _ => False
  end.
Proof. vm_compute. split; [discriminate|split; reflexivity]. Qed.
