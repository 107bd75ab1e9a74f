(** C64: a SignState always knows what kind of key it holds. *)
From Verif Require Import Base MUtil MDh MSign SCipher SDh SUtil SSign PSign.

(** For every program: every call on every object reports exactly what the
    specification of SSign.v expects, no call touches memory it was not given,
    and whatever an object holds as a key pair is one. *)
Theorem C64_reports_exactly : forall publickey sign sign_open ops,
  ed25519_shape publickey sign -> Forall sg_op_ok ops ->
  exists seens pool hs,
    sg_run publickey sign sign_open [] ops = Ok (seens, pool) /\
    expects_all publickey sign sign_open [] ops seens hs /\
    forall k q, In (HPair k q) hs -> sized 32 k /\ publickey k = q.
Proof.
  intros publickey sign sign_open ops Hs Hops.
  destruct (run_good publickey sign sign_open Hs ops [] [] (Forall2_nil _) Hops) as (seens & pool & hs & E & X & HR).
  exists seens, pool, hs. split; [exact E|]. split; [exact X|].
  intros k q Hin. clear E X. induction HR as [|s h pool hs Hr HR IH]; [easy|].
  destruct Hin as [->|Hin]; [|auto]. destruct Hr as (_ & Hp & _ & _ & <- & _ & Hq). split; assumption.
Qed.

(** sign succeeds exactly when has_keypair says yes, and verify gets as far as
    the signature check exactly when has_public_key does - after any program and
    for every message. *)
Theorem C64_sign_needs_keypair : forall publickey sign sign_open ops seens pool i s m ml g,
  ed25519_shape publickey sign -> Forall sg_op_ok ops ->
  sg_run publickey sign sign_open [] ops = Ok (seens, pool) -> nth_error pool i = Some s ->
  ptr_ok (Some m) ml -> ptr_ok (Some g) 64 ->
  exists e g', signstate_sign sign (Some s) (Some m) ml (Some g) 64 = Ok (e, g') /\
    if signstate_has_keypair (Some s)
    then e = E_NONE /\ exists k q, publickey k = q /\
         signstate_get_keypair (Some s) (Some (zeros 32)) 32 (Some (zeros 32)) 32 = Ok (E_NONE, Some k, Some q) /\
         g' = Some (sign (take ml m) k q ++ drop 64 g)
    else e = E_INVALID_PRIVATE_KEY /\ g' = Some g.
Proof.
  intros publickey sign sign_open ops seens pool i s m ml g Hs Hops E Hi Hm Hg.
  destruct (run_good publickey sign sign_open Hs ops [] [] (Forall2_nil _) Hops) as (seens' & pool' & hs & E' & _ & HR).
  rewrite E in E'. injection E' as <- <-. pose proof (forall2_nth _ _ _ _ _ HR i) as Hr. rewrite Hi in Hr.
  destruct (nth_error hs i) as [h|]; [|easy]. destruct Hm as [Hm0 [Hm1 Hm2]], Hg as [_ [Hg1 Hg2]].
  unfold signstate_sign, signstate_has_keypair, ss_signature_len. cbn [Z.eqb Pos.eqb negb].
  destruct (rep_types _ _ _ Hr) as [[_ Ht]|(k & q & _ & Ht & Hk & Hq & Sk & Sq & Hkq)].
  - rewrite Ht. cbn [negb]. eexists _, _. split; [reflexivity|]. split; reflexivity.
  - rewrite Ht. cbn [negb]. rewrite read_some by assumption. cbn [obind]. unfold ed25519_sign_with. rewrite Hk, Hq.
    destruct Hs as [_ Hsg]. destruct (Hsg (take ml m) k q) as [Sg _]; [now apply bytes_take|assumption|assumption|].
    rewrite store_front by lia. cbn [obind]. eexists _, _. split; [reflexivity|]. split; [reflexivity|].
    exists k, q. split; [assumption|]. split; [|now rewrite Sg].
    unfold signstate_get_keypair, ss_private_len, ss_public_len. cbn [Z.eqb Pos.eqb negb]. rewrite Ht. cbn [negb].
    rewrite Hk, Hq, !take_sized by assumption. destruct Sk as [Lk _], Sq as [Lq _].
    rewrite !store_front by (rewrite ?Lk, ?Lq, zlen_zeros by lia; lia). cbn [obind].
    rewrite Lk, Lq, !drop_all, !app_nil_r by (rewrite zlen_zeros by lia; lia). reflexivity.
Qed.

Theorem C64_verify_needs_public_key : forall publickey sign sign_open ops seens pool i s m ml g,
  ed25519_shape publickey sign -> Forall sg_op_ok ops ->
  sg_run publickey sign sign_open [] ops = Ok (seens, pool) -> nth_error pool i = Some s ->
  ptr_ok (Some m) ml -> ptr_ok (Some g) 64 ->
  exists e, signstate_verify sign_open (Some s) (Some m) ml (Some g) 64 = Ok e /\
    if signstate_has_public_key (Some s)
    then exists q, signstate_get_public_key (Some s) (Some (zeros 32)) 32 = Ok (E_NONE, Some q) /\
         (e = E_NONE <-> sign_open (take ml m) q (take 64 g) = true) /\ (e = E_NONE \/ e = E_INVALID_SIGNATURE)
    else e = E_INVALID_PUBLIC_KEY.
Proof.
  intros publickey sign sign_open ops seens pool i s m ml g Hs Hops E Hi Hm Hg.
  destruct (run_good publickey sign sign_open Hs ops [] [] (Forall2_nil _) Hops) as (seens' & pool' & hs & E' & _ & HR).
  rewrite E in E'. injection E' as <- <-. pose proof (forall2_nth _ _ _ _ _ HR i) as Hr. rewrite Hi in Hr.
  destruct (nth_error hs i) as [h|]; [|easy]. destruct Hm as [Hm0 [Hm1 Hm2]], Hg as [_ [Hg1 Hg2]].
  unfold signstate_verify, signstate_has_public_key, ss_signature_len. cbn [Z.eqb Pos.eqb negb].
  destruct (rep_public publickey sign_open _ _ Hr) as [[_ Ht]|(q & _ & Ht & Hq & Sq)].
  - rewrite Ht. cbn [negb]. eexists. split; reflexivity.
  - rewrite Ht. cbn [negb]. rewrite !read_some by assumption. cbn [obind]. eexists. split; [reflexivity|].
    exists q. split.
    + unfold signstate_get_public_key, ss_public_len. cbn [Z.eqb Pos.eqb negb]. rewrite Ht, Hq, take_sized by assumption.
      destruct Sq as [Lq _]. rewrite store_front by (rewrite Lq, zlen_zeros by lia; lia). cbn [obind].
      now rewrite Lq, drop_all, app_nil_r by (rewrite zlen_zeros by lia; lia).
    + unfold ed25519_verify_with. rewrite Hq. destruct (sign_open (take ml m) q (take 64 g)).
      * split; [now split|now left].
      * split; [now split|now right].
Qed.

(** A call that reports an error changes no object; queries, sign and verify
    change none in any case. *)
Definition is_query (op : sg_op) : Prop :=
  match op with
  | SHasKeypair _ | SHasPublic _ | SGetKeypair _ _ _ _ _ | SGetPublic _ _ _ | SSign _ _ _ _ _ | SVerify _ _ _ _ _
  | SFingerprint _ _ _ _ => True
  | _ => False
  end.
Lemma ok_inj : forall A (a b : A), Ok a = Ok b -> a = b.
Proof. intros A a b H. now injection H. Qed.
Theorem C64_failed_calls_change_nothing : forall publickey sign sign_open pool op seen pool',
  sg_step publickey sign sign_open pool op = Ok (seen, pool') ->
  seen_error seen <> E_NONE \/ is_query op -> pool' = pool.
Proof.
  intros publickey sign sign_open pool op seen pool' H Hq.
  assert (P : forall i (r : err * option signstate),
    put i r pool = (seen, pool') -> (fst r <> E_NONE -> snd r = nth_error pool i) -> seen_error seen <> E_NONE -> pool' = pool).
  { intros i [e o] E Hr He. unfold put in E. cbn [fst snd] in *. injection E as <- <-. cbn [seen_error code] in He.
    rewrite (Hr He). destruct (nth_error pool i) eqn:En; [now apply set_self|reflexivity]. }
  destruct op as [id|i rng|i p n q m|i p n|i q m|i|i j|i|i|i p n q m|i q m|i m ml g gl|i m ml g gl|i t b n];
    cbn [sg_step is_query] in *;
    try (destruct Hq as [Hq|[]]; []).
  - destruct (signstate_new_by_id id) as [e s] eqn:En. injection H as <- <-. unfold signstate_new_by_id in En.
    destruct (id =? SIGN_ED25519); injection En as <- <-; [now contradiction Hq|reflexivity].
  - apply ok_inj in H. eapply P; [exact H| |exact Hq]. destruct (nth_error pool i) eqn:En; cbn; [intros Hne; now contradiction Hne|reflexivity].
  - destruct (signstate_set_keypair publickey (nth_error pool i) p n q m) as [r|] eqn:Er; [|easy]. cbn [obind] in H. apply ok_inj in H.
    eapply P; [exact H| |exact Hq]. intros Hne. unfold signstate_set_keypair in Er.
    destruct (nth_error pool i) as [s|] eqn:En; [|now injection Er as <-].
    destruct p as [p|]; [|now injection Er as <-]. destruct q as [q|]; [|now injection Er as <-].
    destruct (negb (n =? _)); [now injection Er as <-|]. destruct (negb (m =? _)); [now injection Er as <-|].
    destruct (read_ptr (Some p) _) as [k|]; [|easy]. destruct (read_ptr (Some q) _) as [k2|]; [|easy]. cbn [obind] in Er.
    destruct (negb (is_none _)); injection Er as <-; [reflexivity|now contradiction Hne].
  - destruct (signstate_set_keypair_private publickey (nth_error pool i) p n) as [r|] eqn:Er; [|easy]. cbn [obind] in H. apply ok_inj in H.
    eapply P; [exact H| |exact Hq]. intros Hne. unfold signstate_set_keypair_private in Er.
    destruct (nth_error pool i) as [s|] eqn:En; [|now injection Er as <-].
    destruct p as [p|]; [|now injection Er as <-].
    destruct (negb (n =? _)); [now injection Er as <-|].
    destruct (read_ptr (Some p) _) as [k|]; [|easy]. cbn in Er. injection Er as <-. now contradiction Hne.
  - destruct (signstate_set_public_key (nth_error pool i) q m) as [r|] eqn:Er; [|easy]. cbn [obind] in H. apply ok_inj in H.
    eapply P; [exact H| |exact Hq]. intros Hne. unfold signstate_set_public_key in Er.
    destruct (nth_error pool i) as [s|] eqn:En; [|now injection Er as <-].
    destruct q as [q|]; [|now injection Er as <-].
    destruct (negb (m =? _)); [now injection Er as <-|].
    destruct (read_ptr (Some q) _) as [k|]; [|easy]. cbn in Er. injection Er as <-. now contradiction Hne.
  - apply ok_inj in H. eapply P; [exact H| |exact Hq]. destruct (nth_error pool i) eqn:En; cbn; [intros Hne; now contradiction Hne|reflexivity].
  - apply ok_inj in H. eapply P; [exact H| |exact Hq]. destruct (nth_error pool i) eqn:En; cbn [signstate_copy]; [|reflexivity].
    destruct (nth_error pool j); [|reflexivity]. destruct (negb _); [reflexivity|]. intros Hne; now contradiction Hne.
  - now injection H as _ <-.
  - now injection H as _ <-.
  - destruct (signstate_get_keypair _ _ _ _ _) as [[[e p'] q']|]; [|easy]. now injection H as _ <-.
  - destruct (signstate_get_public_key _ _ _) as [r|]; [|easy]. now injection H as _ <-.
  - destruct (signstate_sign _ _ _ _ _ _) as [r|]; [|easy]. now injection H as _ <-.
  - destruct (signstate_verify _ _ _ _ _ _) as [r|]; [|easy]. now injection H as _ <-.
  - destruct (signstate_format_fingerprint _ _ _ _) as [r|]; [|easy]. now injection H as _ <-.
Qed.

(** After clear_key, set_public_key or a copy, no private key byte remains in an
    object that no longer has a key pair. *)
Theorem C64_no_secret_left : forall publickey sign sign_open ops seens pool s,
  ed25519_shape publickey sign -> Forall sg_op_ok ops ->
  sg_run publickey sign sign_open [] ops = Ok (seens, pool) -> In s pool ->
  signstate_has_keypair (Some s) = false -> ss_private s = zeros 32.
Proof.
  intros publickey sign sign_open ops seens pool s Hs Hops E Hin Hno.
  destruct (run_good publickey sign sign_open Hs ops [] [] (Forall2_nil _) Hops) as (seens' & pool' & hs & E' & _ & HR).
  rewrite E in E'. injection E' as <- <-. clear E. induction HR as [|s' h pool hs Hr HR IH]; [easy|].
  destruct Hin as [->|Hin]; [|auto]. destruct Hr as (_ & _ & _ & Hr). cbn in Hno.
  destruct h; [apply Hr|apply Hr|]. destruct Hr as (Ht & _). now rewrite Ht in Hno.
Qed.

(** ** A program
    With a toy signature scheme: two objects, a generated key pair, a
    signature, the public key given to the second object, verification; the
    second object cannot sign; a mismatched pair is refused. *)
Definition toy_publickey (k : list Z) : list Z := map (fun b => Z.lxor b 0xFF) k.
Definition toy_sign (m k q : list Z) : list Z := take 64 (k ++ take 32 (m ++ zeros 32)).
Definition toy_open (m q g : list Z) : bool :=
  (noise_is_equal (toy_publickey (take 32 g)) q =? 1) && (noise_is_equal (drop 32 g) (take 32 (m ++ zeros 32)) =? 1).
Lemma lxor_ff : forall b, is_byte b -> is_byte (Z.lxor b 0xFF).
Proof.
  intros b Hb. unfold is_byte in *. assert (H : forallb (fun x => (0 <=? Z.lxor x 0xFF) && (Z.lxor x 0xFF <? 256)) (map Z.of_nat (seq 0 256)) = true) by reflexivity.
  rewrite forallb_forall in H. specialize (H b). lapply H; [intros H2; apply andb_prop in H2; lia|].
  apply in_map_iff. exists (Z.to_nat b). split; [lia|]. apply in_seq. lia.
Qed.
Example toy_shape : ed25519_shape toy_publickey toy_sign.
Proof.
  split.
  - intros k [Hl Hb]. split; [unfold toy_publickey, zlen in *; now rewrite map_length|].
    unfold toy_publickey, bytes in *. rewrite Forall_map. eapply Forall_impl; [|exact Hb]. apply lxor_ff.
  - intros m k q Hm [Hl Hb] _. unfold toy_sign. pose proof (zlen_nonneg Z m). split.
    + rewrite zlen_take, zlen_app, zlen_take, zlen_app, zlen_zeros by lia. lia.
    + apply bytes_take, bytes_app. split; [assumption|]. apply bytes_take, bytes_app. split; [assumption|apply bytes_zeros].
Qed.
Definition demo_rng (n : Z) : list Z := zeros n.
Definition demo_key : list Z := fresh_key (zeros 32).
Definition demo_ops : list sg_op :=
  [SNew SIGN_ED25519; SNew SIGN_ED25519; SNew 7;
   SSign 0 (Some [1]) 1 (Some (zeros 64)) 64;
   SGenerate 0 demo_rng; SSign 0 (Some [1;2]) 2 (Some (zeros 64)) 64;
   SVerify 1 (Some [1;2]) 2 (Some (toy_sign [1;2] demo_key [])) 64;
   SSetPublic 1 (Some (toy_publickey demo_key)) 32;
   SVerify 1 (Some [1;2]) 2 (Some (toy_sign [1;2] demo_key [])) 64;
   SVerify 1 (Some [1;3]) 2 (Some (toy_sign [1;2] demo_key [])) 64;
   SSign 1 (Some [1]) 1 (Some (zeros 64)) 64;
   SSetKeypair 0 (Some (zeros 32)) 32 (Some (zeros 32)) 32;
   SHasKeypair 0; SCopy 1 0; SHasKeypair 1; SClear 0; SHasPublic 0; SHasKeypair 5].
Example demo_ops_ok : Forall sg_op_ok demo_ops.
Proof.
  unfold demo_ops. repeat apply Forall_cons; try apply Forall_nil; cbn [sg_op_ok]; try exact Logic.I; unfold ptr_ok;
    try (intros n Hn; split; [now apply zlen_zeros|apply bytes_zeros]);
    repeat match goal with |- _ /\ _ => split end;
    match goal with
    | |- bytes ?l => let v := eval vm_compute in l in change (bytes v);
        unfold bytes; repeat (apply Forall_cons; [unfold is_byte; lia|]); apply Forall_nil
    | _ => vm_compute; easy
    end.
Qed.
Example demo_seen : exists seens pool, sg_run toy_publickey toy_sign toy_open [] demo_ops = Ok (seens, pool) /\
  map (fun s => (seen_error s, seen_flag s)) seens =
  [(E_NONE, false); (E_NONE, false); (E_UNKNOWN_ID, false); (E_INVALID_PRIVATE_KEY, false); (E_NONE, false); (E_NONE, false);
   (E_INVALID_PUBLIC_KEY, false); (E_NONE, false); (E_NONE, false); (E_INVALID_SIGNATURE, false); (E_INVALID_PRIVATE_KEY, false);
   (E_INVALID_PUBLIC_KEY, false); (E_NONE, true); (E_NONE, false); (E_NONE, true); (E_NONE, false); (E_NONE, false); (E_NONE, false)].
Proof. eexists _, _. split; vm_compute; reflexivity. Qed.

Print Assumptions C64_reports_exactly.
Print Assumptions C64_sign_needs_keypair.
Print Assumptions C64_verify_needs_public_key.
Print Assumptions C64_failed_calls_change_nothing.
Print Assumptions C64_no_secret_left.
