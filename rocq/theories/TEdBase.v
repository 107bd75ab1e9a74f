(** Property C77: the public key computed for a 25519 private key is X25519 of the key
    and 9; and property C76 for the code as it is. *)
From Coq Require Import ZifyBool.
From Verif Require Import Base MUtil TUtil SBlake2 PChaCha MPoly1305 PPoly1305 MDh SCipher SDh PDh TDh SX25519 MX25519 PX25519c TX25519 PX25519f SAgree THsAgree TDhAgree.
From Verif Require Import MEdTable MEd25519 PEd25519d.

(** The compiled code: curved25519_scalarmult_basepoint of ed25519.c:124-150 with the
    wrapping arithmetic of the machine. *)
Definition donna_base (k : list Z) : list Z :=
  match curved25519_scalarmult_basepoint wrap k with Ok r => r | UB => [] end.

(** No addition, subtraction, multiplication or left shift of field elements overflows
    its type; the result is X25519(k, 9); the machine arithmetic gives the same. *)
Theorem C77_no_overflow : forall k, bytes k -> zlen k = 32 ->
  curved25519_scalarmult_basepoint strict k = Ok (public_of k) /\ curved25519_scalarmult_basepoint wrap k = Ok (public_of k).
Proof. intros k Hk Lk. split; apply scalarmult_basepoint_ok; auto. apply strict_exact. apply wrap_exact. Qed.
Print Assumptions C77_no_overflow.

Theorem C77_base_is_x25519 : forall k, sized 32 k -> donna_base k = public_of k.
Proof. intros k [Lk Hk]. unfold donna_base. now rewrite (proj2 (C77_no_overflow k Hk Lk)). Qed.
Print Assumptions C77_base_is_x25519.

(** The 25519 object of the reference backend, with nothing left open *)
Definition ref_25519 : dh_alg := curve25519 donna_base donna.
Definition ref_25519_functions : dh_functions := curve25519_functions donna_base donna.

Lemma donna_base_sized : forall k, sized 32 k -> sized 32 (donna_base k).
Proof. intros k Hk. rewrite C77_base_is_x25519 by exact Hk. apply sized_public. Qed.
Lemma ref_25519_suite : dh_suite ref_25519 ref_25519_functions.
Proof. apply donna_suite. exact donna_base_sized. Qed.

(** After any calls that leave an object with a key pair, except copies from an
    object whose public key does not belong to its private key, the public key is
    X25519 of the private key and 9. *)
Theorem C77_public_key : forall ops hist s,
  Forall (dh_op_ok ref_25519) ops -> Forall (copies_match donna_base) ops ->
  dh_run (dhstate_new ref_25519) ops = Ok (hist, s) -> dhstate_has_keypair (Some s) = true ->
  public_key s = public_of (private_key s).
Proof.
  intros ops hist s Ho Hc E K.
  pose proof (suite_shape _ _ ref_25519_suite) as Sh.
  destruct (dh_run_ok _ Sh ops _ (dh_new_wf _ Sh) Ho) as (h0 & s0 & E' & _ & [Wa Wd] & _). rewrite E in E'. inversion E'; subst h0 s0.
  pose proof (C34_keypair_matches_25519 donna_base donna ref_25519_suite ops hist s Ho Hc E K) as M. rewrite M. apply C77_base_is_x25519.
  unfold private_key, private_len. rewrite Wa. change (da_private_len ref_25519 _) with 32. destruct Wd as ((L & B) & _).
  change (da_private_size ref_25519) with 32 in L. rewrite take_all by lia. split; assumption.
Qed.
Print Assumptions C77_public_key.

(** C76 with the base-point multiplication of the library *)
Theorem C76_shared_key : forall ops hist a ops' hist' b,
  Forall (dh_op_ok ref_25519) ops -> Forall (copies_match donna_base) ops ->
  Forall (dh_op_ok ref_25519) ops' -> Forall (copies_match donna_base) ops' ->
  dh_run (dhstate_new ref_25519) ops = Ok (hist, a) -> dhstate_has_keypair (Some a) = true ->
  dh_run (dhstate_new ref_25519) ops' = Ok (hist', b) -> dhstate_has_keypair (Some b) = true ->
  exists z, dhstate_calculate a (Some b) 32 = (E_NONE, Some z, a) /\ dhstate_calculate b (Some a) 32 = (E_NONE, Some z, b).
Proof. exact (C76_both_calculate_the_same donna_base C77_base_is_x25519). Qed.
Print Assumptions C76_shared_key.
Theorem C76_dh_agrees : dh_agrees ref_25519_functions (good_pair 32 donna_base) (fun _ => True).
Proof. exact (C76_handshake_dh_agrees donna_base C77_base_is_x25519). Qed.
Print Assumptions C76_dh_agrees.

(** Alice's public key of RFC 7748, section 6.1 *)
Definition alice_public : list Z :=
  [0x85;0x20;0xf0;0x09;0x89;0x30;0xa7;0x54;0x74;0x8b;0x7d;0xdc;0xb4;0x3e;0xf7;0x5a;0x0d;0xbf;0x3a;0x0d;0x26;0x38;0x1a;0xf4;0xeb;0xa4;0xa9;0x8e;0xaa;0x9b;0x4e;0x6a].
(** (a test only: prints true) *)
Eval vm_compute in match curved25519_scalarmult_basepoint wrap alice_k with Ok r => forallb (fun x => fst x =? snd x) (combine r alice_public) | UB => false end.
(** Alice's private key installed by set_keypair_private *)
Example C77_example : exists hist a,
  Forall (dh_op_ok ref_25519) [DSetPrivate (Some alice_k) 32] /\ Forall (copies_match donna_base) [DSetPrivate (Some alice_k) 32] /\
  dh_run (dhstate_new ref_25519) [DSetPrivate (Some alice_k) 32] = Ok (hist, a) /\ dhstate_has_keypair (Some a) = true /\ private_key a = alice_k.
Proof.
  assert (B : forall l, forallb (fun x => (0 <=? x) && (x <? 256)) l = true -> bytes l).
  { intros l H. rewrite forallb_forall in H. apply Forall_forall. intros x Hx. specialize (H x Hx). unfold is_byte. lia. }
  set (alg := ref_25519). eexists _, _.
  split; [apply Forall_cons; [|constructor]; split; [lia|]; split; [discriminate|]; apply B; reflexivity|].
  split; [apply Forall_cons; [exact I|constructor]|].
  split; [unfold alg, ref_25519, dh_run, dh_step, dhstate_set_keypair_private; cbn -[donna_base donna]; reflexivity|].
  split; reflexivity.
Qed.
