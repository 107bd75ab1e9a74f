(** Property C63: DH with 25519 objects is X25519 of RFC 7748. *)
From Coq Require Import ZifyBool.
From Verif Require Import Base MUtil TUtil SBlake2 PChaCha MPoly1305 PPoly1305 MDh SCipher SDh PDh TDh ToyDh SX25519 MX25519 PX25519c.

(** The compiled code: curve25519_donna of curve25519-donna-c64.c with the wrapping
    arithmetic of the machine, dh-curve25519.c:94-103. *)
Definition donna (k u : list Z) : list Z :=
  match curve25519_donna wrap k u with Ok r => r | UB => [] end.

Lemma zlen_X25519 : forall k u, zlen (X25519 k u) = 32.
Proof. intros. unfold X25519, encode_u. now rewrite zlen_le_bytes. Qed.
Lemma bytes_X25519 : forall k u, bytes (X25519 k u).
Proof. intros. unfold X25519, encode_u. apply bytes_le_bytes. Qed.

(** No addition, multiplication or shift of the C code overflows its type, the
    result is the X25519 function, and the machine arithmetic gives the same. *)
Theorem C63_no_overflow : forall k u, bytes k -> zlen k = 32 -> bytes u -> zlen u = 32 ->
  curve25519_donna strict k u = Ok (X25519 k u) /\ curve25519_donna wrap k u = Ok (X25519 k u).
Proof. intros k u Hk Lk Hu Lu. split; apply donna_ok; auto. apply strict_exact. apply wrap_exact. Qed.
Print Assumptions C63_no_overflow.

Lemma donna_x : forall k u, sized 32 k -> sized 32 u -> donna k u = X25519 k u.
Proof. intros k u [Lk Hk] [Lu Hu]. unfold donna. now rewrite (proj2 (C63_no_overflow k u Hk Lk Hu Lu)). Qed.
Lemma donna_suite : forall base, (forall k, sized 32 k -> sized 32 (base k)) ->
  dh_suite (curve25519 base donna) (curve25519_functions base donna).
Proof.
  intros base Hb. apply suite_25519; auto. intros k q Hk Hq. rewrite donna_x by auto. split; [apply zlen_X25519|apply bytes_X25519].
Qed.

(** ** The all-zero public key: its X25519 is zero too, so that the null-key rule of
    the library agrees with the function. *)
Definition both_inf (s : ladder_state) : Prop := ls_z2 s = 0 /\ ls_z3 s = 0.
Lemma fmult_0_l : forall a, fmult 0 a = 0. Proof. intros. unfold fmult. now rewrite Z.mul_0_l. Qed.
Lemma step_inf : forall b s, both_inf s -> both_inf (ladder_step 0 b s).
Proof.
  intros b [x2 z2 x3 z3 sw] [H1 H2]. cbn [ls_z2 ls_z3] in *. subst. unfold ladder_step, both_inf. cbv zeta.
  cbn [ls_x2 ls_z2 ls_x3 ls_z3 ls_swap]. set (s := cswap _ _). assert (Z2 : ls_z2 s = 0) by (subst s; unfold cswap; destruct (xorb _ _); reflexivity).
  rewrite Z2. split; [|apply fmult_0_l]. unfold fadd at 1 2. unfold fsub at 2 3. rewrite Z.add_0_r, Z.sub_0_r.
  unfold fsub at 1. rewrite Z.sub_diag. change (0 mod p25519) with 0. apply fmult_0_l.
Qed.
Lemma ladder_inf : forall n k s, both_inf s -> both_inf (ladder n k 0 s).
Proof. induction n as [|n IH]; intros k s H; cbn [ladder]; auto. apply IH, step_inf, H. Qed.
Lemma first_inf : forall b, both_inf (ladder_step 0 b (LS 1 0 0 1 false)).
Proof. intros [|]; split; vm_compute; reflexivity. Qed.
Lemma ladder_first : forall n k, both_inf (ladder (S n) k 0 (LS 1 0 0 1 false)).
Proof. intros n k. cbn [ladder]. apply ladder_inf, first_inf. Qed.
Lemma fpow_0 : fpow 0 (p25519 - 2) = 0.
Proof. unfold fpow. rewrite Z.pow_0_l by reflexivity. reflexivity. Qed.
Lemma number_0 : forall k, x25519_number k 0 = 0.
Proof.
  intros k. unfold x25519_number. cbv zeta. pose proof (ladder_first 254 k) as H. set (s := ladder _ _ _ _) in *.
  clearbody s. destruct H as [H1 H2].
  assert (Z2 : ls_z2 (cswap (ls_swap s) s) = 0) by (unfold cswap; destruct (ls_swap s); auto). rewrite Z2, fpow_0.
  unfold fmult. rewrite Z.mul_0_r. reflexivity.
Qed.
Lemma le_val_zero : forall u, all_zero u -> le_val u = 0.
Proof. induction u as [|a u IH]; intros H; auto. inversion H; subst. cbn. fold (le_val u). rewrite IH by auto. reflexivity. Qed.
Theorem C63_zero_key : forall k u, all_zero u -> X25519 k u = zeros 32.
Proof.
  intros k u H. unfold X25519, encode_u, decode_u. rewrite le_val_zero by auto. change (0 mod 2^255) with 0. rewrite number_0. reflexivity.
Qed.
Print Assumptions C63_zero_key.

(** ** The API.  [base] is the base-point multiplication (ed25519 code, not modelled);
    the results below hold whatever it returns, as long as it writes 32 bytes. *)

(** After any calls on an object of 25519 that leave it with a key pair, DH with any
    object of 25519 returns success and X25519 of the two keys, and changes nothing. *)
Lemma calculate_25519 : forall base s pub, (forall k, sized 32 k -> sized 32 (base k)) ->
  ds_alg s = curve25519 base donna -> ds_alg pub = curve25519 base donna ->
  sized 32 (dd_private (ds_data s)) -> sized 32 (dd_public (ds_data pub)) ->
  dhstate_has_keypair (Some s) = true ->
  dhstate_calculate s (Some pub) 32 = (E_NONE, Some (X25519 (dd_private (ds_data s)) (dd_public (ds_data pub))), s).
Proof.
  intros base s pub Hb Ha Hpub Hk Hq Hkp. unfold dhstate_calculate, shared_len, public_key, public_len. rewrite Ha, Hpub, Z.eqb_refl.
  assert (Ek : key_type_eqb (dh_key_type s) KEYPAIR = true) by exact Hkp. rewrite Ek. unfold curve25519. cbn [negb da_shared_len da_public_len da_nulls_allowed da_calculate].
  change (32 =? 32) with true. cbn [negb]. pose proof Hq as [Lq Bq]. rewrite take_all by lia. rewrite zero_dec by exact Bq.
  rewrite donna_x by assumption. assert (Same : with_data s (ds_data s) = s) by (destruct s; reflexivity). rewrite Same.
  destruct (all_zerob (dd_public (ds_data pub))) eqn:Ez.
  - apply all_zerob_iff in Ez. change (Z.land 1 1) with 1. rewrite cmove_1, zlen_X25519, C63_zero_key by exact Ez. reflexivity.
  - change (Z.land 1 0) with 0. rewrite cmove_0 by apply bytes_X25519. reflexivity.
Qed.
Theorem C63_calculate_is_x25519 : forall base, (forall k, sized 32 k -> sized 32 (base k)) ->
  forall ops hist s, Forall (dh_op_ok (curve25519 base donna)) ops ->
  dh_run (dhstate_new (curve25519 base donna)) ops = Ok (hist, s) ->
  dhstate_has_keypair (Some s) = true ->
  forall pub, peer_ok (curve25519 base donna) pub -> ds_alg pub = curve25519 base donna ->
  dhstate_calculate s (Some pub) 32 = (E_NONE, Some (X25519 (private_key s) (public_key pub)), s).
Proof.
  intros base Hb ops hist s Ho Hrun Hkp pub [O1 O2] Hpub. pose proof (suite_shape _ _ (donna_suite base Hb)) as Sh.
  destruct (dh_run_ok _ Sh ops _ (dh_new_wf _ Sh) Ho) as (h0 & s0 & E & _ & [Ha Hd] & _).
  rewrite Hrun in E. inversion E; subst h0 s0. clear E. rewrite Hpub in O1. destruct Hd as (S1 & S2 & S3). destruct O1 as (P1 & P2 & P3).
  change (da_private_size (curve25519 base donna)) with 32 in *. change (da_public_size (curve25519 base donna)) with 32 in *.
  unfold private_key, private_len, public_key, public_len. rewrite Ha, Hpub.
  change (da_private_len (curve25519 base donna) _) with 32. change (da_public_len (curve25519 base donna) _) with 32.
  destruct S1 as [L1 B1]. destruct P2 as [L2 B2]. rewrite !take_all by lia.
  apply (calculate_25519 base); auto; split; assumption.
Qed.
Print Assumptions C63_calculate_is_x25519.

(** The private key of the test vector of RFC 7748, section 5.2, installed by
    set_keypair_private, and a peer that has its u-coordinate. *)
Definition rfc_k : list Z :=
  [0xa5;0x46;0xe3;0x6b;0xf0;0x52;0x7c;0x9d;0x3b;0x16;0x15;0x4b;0x82;0x46;0x5e;0xdd;0x62;0x14;0x4c;0x0a;0xc1;0xfc;0x5a;0x18;0x50;0x6a;0x22;0x44;0xba;0x44;0x9a;0xc4].
Definition rfc_u : list Z :=
  [0xe6;0xdb;0x68;0x67;0x58;0x30;0x30;0xdb;0x35;0x94;0xc1;0xa4;0x24;0xb1;0x5f;0x7c;0x72;0x66;0x24;0xec;0x26;0xb3;0x35;0x3b;0x10;0xa9;0x03;0xa6;0xd0;0xab;0x1c;0x4c].
Definition some_base (k : list Z) : list Z := X25519 k (9 :: zeros 31).
Example C63_example : exists hist s hist' pub,
  Forall (dh_op_ok (curve25519 some_base donna)) [DSetPrivate (Some rfc_k) 32] /\
  dh_run (dhstate_new (curve25519 some_base donna)) [DSetPrivate (Some rfc_k) 32] = Ok (hist, s) /\
  dhstate_has_keypair (Some s) = true /\ private_key s = rfc_k /\
  dh_run (dhstate_new (curve25519 some_base donna)) [DSetPublic (Some rfc_u) 32] = Ok (hist', pub) /\
  peer_ok (curve25519 some_base donna) pub /\ ds_alg pub = curve25519 some_base donna /\ public_key pub = rfc_u.
Proof.
  assert (B : forall l, forallb (fun x => (0 <=? x) && (x <? 256)) l = true -> bytes l).
  { intros l H. rewrite forallb_forall in H. apply Forall_forall. intros x Hx. specialize (H x Hx). unfold is_byte. lia. }
  set (alg := curve25519 some_base donna). eexists _, _, _, _. split.
  { apply Forall_cons; [|constructor]. split; [lia|]. split; [discriminate|]. apply B. reflexivity. }
  split; [unfold alg, dh_run, dh_step, dhstate_set_keypair_private; cbn -[some_base donna]; reflexivity|].
  split; [reflexivity|]. split; [reflexivity|]. split; [cbn -[some_base donna]; reflexivity|].
  split; [|split; reflexivity]. split; [|auto].
  unfold data_ok, sized. repeat match goal with |- _ /\ _ => split end; try reflexivity; apply B; reflexivity.
Qed.
