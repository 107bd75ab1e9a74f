(** Property C76: two holders of 25519 key pairs compute the same shared key. *)
From Coq Require Import ZifyBool.
From Verif Require Import Base MUtil TUtil SBlake2 PChaCha MPoly1305 PPoly1305 MDh SCipher SDh PDh TDh SX25519 MX25519 PX25519c TX25519 PX25519f SAgree THsAgree.

(** RFC 7748, section 6.1: the public key of a private key [k] is X25519(k, 9) *)
Definition public_of (k : list Z) : list Z := X25519 k (9 :: zeros 31).

(** X25519 is commutative in its scalars, for any byte strings. *)
Theorem C76_scalars_commute : forall a b u, X25519 a (X25519 b u) = X25519 b (X25519 a u).
Proof. exact X25519_comm. Qed.
Print Assumptions C76_scalars_commute.
(** The public key of a private key is never the null key, which the handshake refuses. *)
Theorem C76_public_key_not_null : forall k, ~ all_zero (public_of k).
Proof. intros k H. apply all_zerob_iff in H. pose proof (X25519_nine_not_null k) as N. unfold nine in N. unfold public_of in H. rewrite N in H. discriminate H. Qed.
Print Assumptions C76_public_key_not_null.

Lemma sized_public : forall k, sized 32 (public_of k).
Proof. intros k. unfold public_of. split; [apply zlen_X25519|apply bytes_X25519]. Qed.
(** Two objects of 25519, after any calls that leave them with key pairs: each can
    calculate with the other, and the two shared keys are the same. *)
Theorem C76_both_calculate_the_same : forall base, (forall k, sized 32 k -> base k = public_of k) ->
  forall ops hist a ops' hist' b,
  Forall (dh_op_ok (curve25519 base donna)) ops -> Forall (copies_match base) ops ->
  Forall (dh_op_ok (curve25519 base donna)) ops' -> Forall (copies_match base) ops' ->
  dh_run (dhstate_new (curve25519 base donna)) ops = Ok (hist, a) -> dhstate_has_keypair (Some a) = true ->
  dh_run (dhstate_new (curve25519 base donna)) ops' = Ok (hist', b) -> dhstate_has_keypair (Some b) = true ->
  exists z, dhstate_calculate a (Some b) 32 = (E_NONE, Some z, a) /\ dhstate_calculate b (Some a) 32 = (E_NONE, Some z, b).
Proof.
  intros base Hb ops hist a ops' hist' b Ho Hc Ho' Hc' Ea Ka Eb Kb.
  assert (Sz : forall k, sized 32 k -> sized 32 (base k)).
  { intros k Hk. rewrite Hb by exact Hk. apply sized_public. }
  pose proof (suite_shape _ _ (donna_suite base Sz)) as Sh.
  assert (W : forall ops hist s, Forall (dh_op_ok (curve25519 base donna)) ops -> dh_run (dhstate_new (curve25519 base donna)) ops = Ok (hist, s) ->
    peer_ok (curve25519 base donna) s /\ ds_alg s = curve25519 base donna /\ sized 32 (private_key s)).
  { intros o h s Oo Es. destruct (dh_run_ok _ Sh o _ (dh_new_wf _ Sh) Oo) as (h0 & s0 & E & _ & [Wa Wd] & _). rewrite Es in E. inversion E; subst h0 s0.
    split; [|split; [exact Wa|]].
    - split; [rewrite Wa; exact Wd|auto].
    - unfold private_key, private_len. rewrite Wa. change (da_private_len (curve25519 base donna) _) with 32. destruct Wd as ((L & B) & _).
      change (da_private_size (curve25519 base donna)) with 32 in L. rewrite take_all by lia. split; assumption. }
  destruct (W _ _ _ Ho Ea) as (Pa & Aa & Sa). destruct (W _ _ _ Ho' Eb) as (Pb & Ab & Sb).
  exists (X25519 (private_key a) (public_key b)). split.
  - exact (C63_calculate_is_x25519 base Sz ops hist a Ho Ea Ka b Pb Ab).
  - rewrite (C63_calculate_is_x25519 base Sz ops' hist' b Ho' Eb Kb a Pa Aa).
    pose proof (C34_keypair_matches_25519 base donna (donna_suite base Sz) ops hist a Ho Hc Ea Ka) as Ma.
    pose proof (C34_keypair_matches_25519 base donna (donna_suite base Sz) ops' hist' b Ho' Hc' Eb Kb) as Mb.
    rewrite Ma, Mb, !Hb by assumption. unfold public_of. now rewrite X25519_comm.
Qed.
Print Assumptions C76_both_calculate_the_same.

(** So the assumption of the handshake theorems (C21, C31, C32) about the DH functions
    holds for 25519, for any random strings. *)
Theorem C76_handshake_dh_agrees : forall base, (forall k, sized 32 k -> base k = public_of k) ->
  dh_agrees (curve25519_functions base donna) (good_pair 32 base) (fun _ => True).
Proof.
  intros base Hb.
  assert (Sz : forall k, sized 32 k -> sized 32 (base k)).
  { intros k Hk. rewrite Hb by exact Hk. apply sized_public. }
  apply agrees_25519; [|exact Sz|].
  - intros a b Ha Hk. rewrite !donna_x by auto. rewrite !Hb by assumption. unfold public_of. apply X25519_comm.
  - intros r Hr. rewrite Hb by now apply sized_clamp25519. pose proof (X25519_nine_not_null (clamp25519 r)) as N. unfold nine in N. unfold public_of. exact N.
Qed.
Print Assumptions C76_handshake_dh_agrees.

(** Alice and Bob of RFC 7748, section 6.1: private keys installed by set_keypair_private. *)
Definition alice_k : list Z :=
  [0x77;0x07;0x6d;0x0a;0x73;0x18;0xa5;0x7d;0x3c;0x16;0xc1;0x72;0x51;0xb2;0x66;0x45;0xdf;0x4c;0x2f;0x87;0xeb;0xc0;0x99;0x2a;0xb1;0x77;0xfb;0xa5;0x1d;0xb9;0x2c;0x2a].
Definition bob_k : list Z :=
  [0x5d;0xab;0x08;0x7e;0x62;0x4a;0x8a;0x4b;0x79;0xe1;0x7f;0x8b;0x83;0x80;0x0e;0xe6;0x6f;0x3b;0xb1;0x29;0x26;0x18;0xb6;0xfd;0x1c;0x2f;0x8b;0x27;0xff;0x88;0xe0;0xeb].
Example C76_example : exists hist a hist' b,
  Forall (dh_op_ok (curve25519 public_of donna)) [DSetPrivate (Some alice_k) 32] /\ Forall (copies_match public_of) [DSetPrivate (Some alice_k) 32] /\
  Forall (dh_op_ok (curve25519 public_of donna)) [DSetPrivate (Some bob_k) 32] /\ Forall (copies_match public_of) [DSetPrivate (Some bob_k) 32] /\
  dh_run (dhstate_new (curve25519 public_of donna)) [DSetPrivate (Some alice_k) 32] = Ok (hist, a) /\ dhstate_has_keypair (Some a) = true /\
  dh_run (dhstate_new (curve25519 public_of donna)) [DSetPrivate (Some bob_k) 32] = Ok (hist', b) /\ dhstate_has_keypair (Some b) = true /\
  private_key a = alice_k /\ private_key b = bob_k.
Proof.
  assert (B : forall l, forallb (fun x => (0 <=? x) && (x <? 256)) l = true -> bytes l).
  { intros l H. rewrite forallb_forall in H. apply Forall_forall. intros x Hx. specialize (H x Hx). unfold is_byte. lia. }
  set (alg := curve25519 public_of donna). eexists _, _, _, _.
  split; [apply Forall_cons; [|constructor]; split; [lia|]; split; [discriminate|]; apply B; reflexivity|].
  split; [apply Forall_cons; [exact I|constructor]|].
  split; [apply Forall_cons; [|constructor]; split; [lia|]; split; [discriminate|]; apply B; reflexivity|].
  split; [apply Forall_cons; [exact I|constructor]|].
  split; [unfold alg, dh_run, dh_step, dhstate_set_keypair_private; cbn -[public_of donna]; reflexivity|].
  split; [reflexivity|].
  split; [unfold alg, dh_run, dh_step, dhstate_set_keypair_private; cbn -[public_of donna]; reflexivity|].
  split; [reflexivity|]. split; reflexivity.
Qed.
