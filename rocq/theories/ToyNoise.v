(** A concrete suite and set-up, used only in Examples. *)
From Verif Require Import Base MCipher SCipher Toy MHash SHash ToyHash MSymm MPatterns MDh SDh ToyDh MHandshake SHsApi SNoise ToyHs.

Definition toy_suite : suite := Suite toy_cipher toy_hash toy_H toy_curve toy_curve_functions toy_newhope toy_newhope_functions.
Lemma toy_provides : forall prefix pat hybrid, hybrid = 0 \/ hybrid = DH_NEWHOPE -> provides toy_lib (toy_id prefix pat hybrid) toy_suite.
Proof.
  intros prefix pat hybrid Hh. constructor; cbn [toy_lib toy_id toy_suite lib_cipher lib_hash lib_dh pi_cipher pi_hash pi_dh pi_hybrid n_cipher n_hash n_H n_dh_alg n_dh n_hyb_alg n_hyb].
  - reflexivity. - exact toy_correct. - vm_compute; discriminate.
  - eexists. split; [reflexivity|]. vm_compute. repeat split; discriminate || constructor.
  - exact toy_hash_law. - vm_compute; discriminate. - reflexivity. - exact toy_curve_suite.
  - intros Hn. destruct Hh as [-> | ->]; [contradiction Hn; reflexivity|reflexivity].
  - exact toy_newhope_suite.
Qed.

(** The set-up calls in the examples *)
Definition toy_peer (n : Z) : hs_op := HKey RemoteStatic (DSetPublic (Some (toy_base (repeat n 32))) 32).
Definition toy_prologue (l : list Z) : hs_op := HSetPrologue (Some l) (zlen l).
Definition toy_psk : hs_op := HSetPsk (Some (repeat 99 32)) 32.
Definition toy_set (id : protocol_id) (initiator : bool) (ops : list hs_op) : outcome (list (hs_op * hs_res) * handshakestate) :=
  let! s := live (handshakestate_new_by_id toy_lib (Some (id, [0; 0; 0; 0])) (role_id initiator)) in hs_run toy_lib s ops.
Definition toy_errs (r : outcome (list (hs_op * hs_res) * handshakestate)) : option (list err) :=
  match r with Ok (log, _) => Some (map (fun x => hr_err (snd x)) log) | UB => None end.
Definition new_err (r : outcome (err * handle)) : option err := match r with Ok (e, Live _) => Some e | _ => None end.
(** What the caller sees of start: the error code and the action afterwards *)
Definition toy_start (r : outcome (list (hs_op * hs_res) * handshakestate)) : option (err * Z) :=
  match r with Ok (_, s) => match handshakestate_start s with Ok (e, s1) => Some (e, hs_action s1) | UB => None end | UB => None end.
Lemma toy_set_up : forall id initiator ops es, new_err (handshakestate_new_by_id toy_lib (Some (id, [0; 0; 0; 0])) (role_id initiator)) = Some E_NONE ->
  Forall (setup_call toy_suite) ops -> toy_errs (toy_set id initiator ops) = Some es ->
  exists log s, set_up toy_suite id toy_lib initiator log s /\ toy_set id initiator ops = Ok (log, s).
Proof.
  intros id i ops es En Fo Er. unfold toy_errs in Er. destruct (toy_set id i ops) as [[log s]|] eqn:E; [|discriminate Er].
  exists log, s. split; [|reflexivity]. unfold toy_set in E. destruct (handshakestate_new_by_id _ _ _) as [[e [|s0|]]|] eqn:E0; try discriminate En; try discriminate E.
  cbn [live obind] in E. injection En as ->. exact (Set_up toy_suite id toy_lib i log s s0 ops E0 Fo E).
Qed.
Lemma toy_started : forall r log s e a, r = Ok (log, s) -> toy_start r = Some (e, a) -> exists s1, handshakestate_start s = Ok (e, s1) /\ hs_action s1 = a.
Proof.
  intros r log s e a -> H. cbn [toy_start] in H. destruct (handshakestate_start s) as [[e' s1]|]; [|discriminate H]. injection H as -> <-. exists s1. auto.
Qed.
Lemma toy_bytes : forall l, forallb (fun x => (0 <=? x) && (x <? 256)) l = true -> bytes l.
Proof.
  intros l H. rewrite forallb_forall in H. apply Forall_forall. intros x Hx. specialize (H x Hx). apply andb_true_iff in H as [H1 H2].
  unfold is_byte. lia.
Qed.
Ltac toy_calls_ok := repeat (apply Forall_cons || apply Forall_nil); cbn [setup_call toy_static toy_peer toy_prologue toy_psk]; unfold ptr_ok, dh_op_ok;
  repeat split; try (intros; discriminate); try (apply toy_bytes; vm_compute; reflexivity).
