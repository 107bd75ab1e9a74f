(** Specification vocabulary for the calls on one HandshakeState (C22-C24, C30). *)
From Verif Require Import Base MCipher SCipher MSymm MDh SDh MHandshake.

(** The key objects the caller can get hold of: noise_handshakestate_get_local_keypair_dh,
    noise_handshakestate_get_remote_public_key_dh and the two fixed test keys. *)
Inductive caller_key : Type := LocalStatic | RemoteStatic | FixedEphemeral | FixedHybrid.

Inductive hs_op : Type :=
| HSetPsk (key : cptr) (n : Z)
| HSetPrologue (prologue : cptr) (n : Z)
| HKey (w : caller_key) (op : dh_op)
| HStart
| HFallback (pattern_id : Z)
| HWrite (env : environment) (message : nbuf) (payload : option nbuf)
| HRead (env : environment) (message : nbuf) (payload : option nbuf)
| HSplit (want_send want_receive create_ok : bool)
| HGetHash (hash : cptr) (max_len : Z).

(** What the caller gets: the error code, the message and payload buffers
    afterwards, the two CipherStates, the hash buffer. *)
Record hs_res : Type := HRes {
  hr_err : err; hr_message : option nbuf; hr_payload : option nbuf;
  hr_send : option cipherstate; hr_receive : option cipherstate; hr_hash : cptr }.
Definition plain (e : err) : hs_res := HRes e None None None None None.

(** A DHState call on a key object of the handshake (NULL object: INVALID_PARAM) *)
Definition key_object (lib : library) (w : caller_key) (s : handshakestate) : option dhstate * handshakestate :=
  match w with
  | LocalStatic => (ko_static (hs_local s), s)
  | RemoteStatic => (ko_static (hs_remote s), s)
  | FixedEphemeral => get_fixed_ephemeral_dh lib s
  | FixedHybrid => get_fixed_hybrid_dh lib s
  end.
Definition put_key (w : caller_key) (d : dhstate) (s : handshakestate) : handshakestate :=
  match w with
  | LocalStatic => set_local Static (Some d) s
  | RemoteStatic => set_remote Static (Some d) s
  | FixedEphemeral => set_fixed_ephemeral (Some d) s
  | FixedHybrid => set_fixed_hybrid (Some d) s
  end.

Definition hs_step (lib : library) (s : handshakestate) (op : hs_op) : outcome (hs_res * handshakestate) :=
  match op with
  | HSetPsk k n => let! r := set_pre_shared_key s k n in Ok (plain (fst r), snd r)
  | HSetPrologue p n => let! r := set_prologue s p n in Ok (plain (fst r), snd r)
  | HKey w op =>
    let '(d, s) := key_object lib w s in
    match d with
    | None => Ok (plain E_INVALID_PARAM, s)
    | Some d => let! r := dh_step d op in Ok (plain (fst r), put_key w (snd r) s)
    end
  | HStart => let! r := handshakestate_start s in Ok (plain (fst r), snd r)
  | HFallback id => let! r := handshakestate_fallback_to s id in Ok (plain (fst r), snd r)
  | HWrite env m p => let! r := write_message env s m p in
                      let '(e, s', m') := r in Ok (HRes e (Some m') None None None None, s')
  | HRead env m p => let! r := read_message env s m p in
                     let '(e, s', m', p') := r in Ok (HRes e (Some m') p' None None None, s')
  | HSplit w1 w2 ok => let! r := handshakestate_split s w1 w2 ok in
                       let '(e, s', c1, c2) := r in Ok (HRes e None None c1 c2 None, s')
  | HGetHash h n => let! r := get_handshake_hash s h n in Ok (HRes (fst r) None None None None (snd r), s)
  end.
Fixpoint hs_run (lib : library) (s : handshakestate) (ops : list hs_op) : outcome (list (hs_op * hs_res) * handshakestate) :=
  match ops with
  | [] => Ok ([], s)
  | op :: ops' =>
    let! r := hs_step lib s op in
    let! r' := hs_run lib (snd r) ops' in
    Ok ((op, fst r) :: fst r', snd r')
  end.

(** ** The documented state machine (documentation of
    noise_handshakestate_get_action and of the functions).  When a call may be made: *)
Definition call_allowed (initiator : bool) (action : Z) (op : hs_op) : bool :=
  match op with
  | HSetPsk _ _ | HSetPrologue _ _ | HStart => action =? ACTION_NONE
  | HFallback _ => (action =? ACTION_FAILED) || (action =? (if initiator then ACTION_READ_MESSAGE else ACTION_WRITE_MESSAGE))
  | HWrite _ _ _ => action =? ACTION_WRITE_MESSAGE
  | HRead _ _ _ => action =? ACTION_READ_MESSAGE
  | HSplit _ _ _ => action =? ACTION_SPLIT
  | HGetHash _ _ => (action =? ACTION_SPLIT) || (action =? ACTION_COMPLETE)
  | HKey _ _ => true
  end.
(** Arguments the documentation forbids: NULL pointers, a message whose size
    exceeds its capacity, a pre-shared key that is not 32 bytes. *)
Definition missing (b : nbuf) : bool := match b_data b with None => true | Some _ => false end.
Definition bad_arguments (op : hs_op) : bool :=
  match op with
  | HSetPsk k n => match k with None => true | Some _ => negb (n =? 32) end
  | HSetPrologue p _ => match p with None => true | Some _ => false end
  | HWrite _ m p => missing m || match p with Some p => missing p | None => false end
  | HRead _ m p => missing m || match p with Some p => missing p | None => false end || (b_max m <? b_size m)
  | HSplit w1 w2 _ => negb w1 && negb w2
  | HGetHash h _ => match h with None => true | Some _ => false end
  | HStart | HFallback _ | HKey _ _ => false
  end.
(** What an allowed call with result [e] does to the action.  After a message
    the other party's turn comes or the handshake is over. *)
Definition action_after (initiator : bool) (action : Z) (op : hs_op) (e : err) (action' : Z) : Prop :=
  match op with
  | HStart => action' = if is_none e then (if initiator then ACTION_WRITE_MESSAGE else ACTION_READ_MESSAGE) else ACTION_NONE
  | HFallback _ => action' = if is_none e then ACTION_NONE else action
  | HWrite _ _ _ => if is_none e then action' = ACTION_READ_MESSAGE \/ action' = ACTION_SPLIT else action' = ACTION_FAILED
  | HRead _ _ _ => if is_none e then action' = ACTION_WRITE_MESSAGE \/ action' = ACTION_SPLIT else action' = ACTION_FAILED
  | HSplit _ _ _ => action' = if is_none e then ACTION_COMPLETE else action
  | HSetPsk _ _ | HSetPrologue _ _ | HKey _ _ | HGetHash _ _ => action' = action
  end.
