(** Specification vocabulary for whole handshakes (C21, C24-C26, C29, C31, C32,
    C69): setting up an object through the API and the logs of calls that the
    Noise specification (SHandshake.v) allows. *)
From Coq Require Import String.
From Verif Require Import Base MCipher SCipher MHash SHash MSymm SSymm SNames SPatterns MDh SDh MHandshake SHandshake SHsApi.

(** ** The algorithms of a protocol *)
Record suite : Type := Suite {
  n_cipher : cipher_alg;
  n_hash : hash_alg;
  n_H : list Z -> list Z;
  n_dh_alg : dh_alg;
  n_dh : dh_functions;
  n_hyb_alg : dh_alg;
  n_hyb : dh_functions
}.
(** The library has working algorithms for the protocol [id]: the cipher is an
    AEAD, the hash backend computes the function [n_H], the DH backends compute
    the DH functions.  (Without a hybrid algorithm [n_hyb] plays no part.) *)
Record provides (lib : library) (id : protocol_id) (N : suite) : Prop := {
  pv_cipher : lib_cipher lib (pi_cipher id) = Some (n_cipher N);
  pv_cipher_ok : cipher_correct (n_cipher N);
  pv_mac : ca_mac_len (n_cipher N) <= 16;
  pv_hash : exists c, lib_hash lib (pi_hash id) = Some (n_hash N, c) /\ hctx_ok (n_hash N) c;
  pv_hash_ok : hash_law (n_hash N) (n_H N);
  pv_key : ca_key_len (n_cipher N) <= ha_hash_len (n_hash N);
  pv_dh : lib_dh lib (pi_dh id) = Some (n_dh_alg N);
  pv_dh_ok : dh_suite (n_dh_alg N) (n_dh N);
  pv_hyb : pi_hybrid id <> DH_NONE -> lib_dh lib (pi_hybrid id) = Some (n_hyb_alg N);
  pv_hyb_ok : dh_suite (n_hyb_alg N) (n_hyb N)
}.
Definition nparty (N : suite) : Type := party (n_dh N) (n_hyb N).
Definition psk_mode (id : protocol_id) : bool := pi_prefix id =? PREFIX_PSK.

Section Noise.
Variable N : suite.
Variable id : protocol_id.
Local Notation HASHLEN := (ha_hash_len (n_hash N)).
Local Notation BLOCKLEN := (ha_block_len (n_hash N)).
Local Notation KEYLEN := (ca_key_len (n_cipher N)).
Local Notation MACLEN := (ca_mac_len (n_cipher N)).
Definition nInitialize (name prologue : list Z) (psk : option (list Z)) (pat : pattern) (initiator second : bool)
    (s e : option (KP (n_dh N))) (f : option (KP (n_hyb N))) (rs re rf : option (list Z)) : nparty N :=
  Initialize (n_H N) HASHLEN BLOCKLEN KEYLEN (n_dh N) (n_hyb N) (psk_mode id) name prologue psk pat initiator second s e f rs re rf.
Definition nWriteMessage (rand : tok -> Z -> list Z) (p : nparty N) (payload : list Z) : option (list Z * nparty N) :=
  WriteMessage (n_H N) BLOCKLEN KEYLEN (aead_encrypt (n_cipher N)) (n_dh N) (n_hyb N) (psk_mode id) rand p payload.
Definition nReadMessage (p : nparty N) (message : list Z) : option (list Z * nparty N) :=
  ReadMessage (n_H N) BLOCKLEN KEYLEN MACLEN (aead_decrypt (n_cipher N)) (n_dh N) (n_hyb N) (psk_mode id) p message.
(** The keys for the initiator's and for the responder's transport messages *)
Definition nSplit (p : nparty N) : list Z * list Z := Split (n_H N) BLOCKLEN KEYLEN (p_sym p).

(** ** Setting up an object *)
(** Calls made between new and start: set the pre-shared key, the prologue, and
    anything that can be done with the two static key objects except changing
    their role. *)
Definition setup_call (op : hs_op) : Prop :=
  match op with
  | HSetPsk k n => ptr_ok k n
  | HSetPrologue p n => ptr_ok p n
  | HKey LocalStatic op | HKey RemoteStatic op => dh_op_ok (n_dh_alg N) op /\ (forall r, op <> DSetRole r)
  | _ => False
  end.
(** The pre-shared key and the prologue after the calls of a log: those of the
    last successful call; no key and the empty prologue at first. *)
Fixpoint psk_set (now : option (list Z)) (log : list (hs_op * hs_res)) : option (list Z) :=
  match log with
  | [] => now
  | (HSetPsk (Some k) n, r) :: log => psk_set (if is_none (hr_err r) then Some (take n k) else now) log
  | _ :: log => psk_set now log
  end.
Fixpoint prologue_set (now : list Z) (log : list (hs_op * hs_res)) : list Z :=
  match log with
  | [] => now
  | (HSetPrologue (Some p) n, r) :: log => prologue_set (if is_none (hr_err r) then take n p else now) log
  | _ :: log => prologue_set now log
  end.
(** [s] is what new_by_id for role [initiator] and some such calls lead to. *)
Definition role_id (initiator : bool) : Z := if initiator then ROLE_INITIATOR else ROLE_RESPONDER.
Inductive set_up (lib : library) (initiator : bool) (log : list (hs_op * hs_res)) (s : handshakestate) : Prop :=
| Set_up : forall s0 ops,
    handshakestate_new_by_id lib (Some (id, [0; 0; 0; 0])) (role_id initiator) = Ok (E_NONE, Live s0) ->
    Forall setup_call ops -> hs_run lib s0 ops = Ok (log, s) -> set_up lib initiator log s.

(** The key pair in a static key object, as the key pair of the DH functions.
    (New Hope has no static keys.) *)
Definition static_pair (D : dh_functions) (d : dhstate) (k : KP D) : Prop :=
  PAIR D (dd_private (ds_data d)) (dd_public (ds_data d)) = Some k.
Definition local_pair (o : option dhstate) (k : option (KP (n_dh N))) : Prop :=
  match o, k with
  | Some d, Some k => dhstate_has_keypair o = true /\ static_pair (n_dh N) d k
  | None, None => True
  | _, _ => False
  end.
Definition remote_key (o : option dhstate) : option (list Z) :=
  match o with Some d => if dhstate_has_public_key o then Some (public_key d) else None | None => None end.

(** Patterns whose handshake starts from scratch: no ephemeral key is known beforehand. *)
Definition fallback_pattern (pat : pattern) : bool := given pat true E_ || given pat false E_.
(** The pattern of the protocol *)
Definition has_pattern (pat : pattern) : Prop :=
  exists k n, In (k, n) pattern_names /\ named_pattern n pat /\ pi_pattern id = 80 * 256 + k.

(** ** Logs of a handshake *)
(** [Running p]: all is well so far; [Failed]; [Done p]: split has been called. *)
Inductive progress : Type := Running (p : nparty N) | Failed | Done (p : nparty N).
Definition rand_of (env : environment) (t : tok) (n : Z) : list Z := env_rand env (tok_code t) n.
Definition payload_bytes (payload : option nbuf) : list Z :=
  match payload with Some b => contents b | None => [] end.
Definition message_result (e : err) (m : nbuf) (p : option nbuf) : hs_res := HRes e (Some m) p None None None.
(** A payload buffer that has received nothing, or [pl] *)
Definition emptied (b : nbuf) : nbuf := NBuf (b_data b) 0 (b_max b).
Definition filled (b : nbuf) (pl : list Z) : nbuf :=
  NBuf (match b_data b with Some m => Some (splice 0 pl m) | None => None end) (zlen pl) (b_max b).
Definition room (payload : option nbuf) (n : Z) : Prop := match payload with Some b => n <= b_max b | None => True end.
(** A CipherState with this key that has not been used *)
Definition fresh_cipher (k : list Z) (c : option cipherstate) : Prop :=
  exists cs, c = Some cs /\ cs_alg cs = n_cipher N /\ cs_has_key cs = true /\ cs_key cs = k /\ cs_n cs = 0.

Inductive follows : progress -> list (hs_op * hs_res) -> progress -> Prop :=
| fo_nil : forall q, follows q [] q
(* The message the specification prescribes, if it fits *)
| fo_write : forall p env mem n max payload mem' m p' log q,
    p_writing p = true -> nWriteMessage (rand_of env) p (payload_bytes payload) = Some (m, p') ->
    zlen m <= max -> zlen mem' = zlen mem -> take (zlen m) mem' = m -> drop max mem' = drop max mem ->
    follows (Running p') log q ->
    follows (Running p) ((HWrite env (NBuf (Some mem) n max) payload, message_result E_NONE (NBuf (Some mem') (zlen m) max) None) :: log) q
(* ... an error and an empty message if it does not fit, if the encrypted
   payload exceeds 65535 bytes, or if there is no such message *)
| fo_write_failed : forall p env mem n max payload mem' e log q,
    p_writing p = true -> p_messages p <> [] -> e <> E_NONE ->
    (forall m p', nWriteMessage (rand_of env) p (payload_bytes payload) = Some (m, p') -> (max < zlen m \/ 65535 < zlen m /\ 65535 < zlen (payload_bytes payload) + MACLEN) /\ e = E_INVALID_LENGTH) ->
    zlen mem' = zlen mem -> drop max mem' = drop max mem ->
    follows Failed log q ->
    follows (Running p) ((HWrite env (NBuf (Some mem) n max) payload, message_result e (NBuf (Some mem') 0 max) None) :: log) q
(* A message is accepted exactly when the specification accepts it and its
   payload fits into the caller's buffer; the message itself is wiped. *)
| fo_read : forall p env mem n max payload pl p' log q,
    p_writing p = false -> nReadMessage p (take n mem) = Some (pl, p') -> room payload (zlen pl) ->
    follows (Running p') log q ->
    follows (Running p) ((HRead env (NBuf (Some mem) n max) payload,
      message_result E_NONE (NBuf (Some (splice 0 (zeros n) mem)) n max) (option_map (fun b => filled b pl) payload)) :: log) q
| fo_read_failed : forall p env mem n max payload e log q,
    p_writing p = false -> p_messages p <> [] -> e <> E_NONE ->
    (forall pl p', nReadMessage p (take n mem) = Some (pl, p') -> 65535 < n \/ ~ room payload (zlen pl)) ->
    follows Failed log q ->
    follows (Running p) ((HRead env (NBuf (Some mem) n max) payload,
      message_result e (NBuf (Some (splice 0 (zeros n) mem)) n max) (option_map emptied payload)) :: log) q
(* When no message is left, Split *)
| fo_split : forall p w1 w2 k1 k2 c1 c2 log q,
    p_messages p = [] -> nSplit p = (k1, k2) -> w1 || w2 = true ->
    (if w1 then fresh_cipher (if p_initiator p then k1 else k2) c1 else c1 = None) ->
    (if w2 then fresh_cipher (if p_initiator p then k2 else k1) c2 else c2 = None) ->
    follows (Done p) log q ->
    follows (Running p) ((HSplit w1 w2 true, HRes E_NONE None None c1 c2 None) :: log) q
(* The handshake hash, truncated or padded with zeros *)
| fo_hash : forall st p mem n log q,
    (st = Running p /\ p_messages p = [] \/ st = Done p) ->
    follows st log q ->
    follows st ((HGetHash (Some mem) n, HRes E_NONE None None None None (Some (take n (ns_h (p_sym p) ++ zeros n) ++ drop n mem))) :: log) q
(* Everything else is refused *)
| fo_refused : forall st op r log q,
    match st, op with
    | Running p, HWrite _ _ _ => p_writing p = false \/ p_messages p = []
    | Running p, HRead _ _ _ => p_writing p = true \/ p_messages p = []
    | Running p, HSplit w1 w2 _ => p_messages p <> [] \/ w1 || w2 = false
    | Running p, HGetHash _ _ => p_messages p <> []
    | Done _, HGetHash _ _ => False
    | _, _ => True
    end ->
    hr_err r <> E_NONE -> follows st log q -> follows st ((op, r) :: log) q.

(** The calls on a handshake in progress with proper arguments *)
Definition handshake_call (op : hs_op) : Prop :=
  match op with
  | HWrite env m p => (forall t, rng_ok (env_rand env t)) /\
      match b_data m with Some mem => bytes mem /\ 0 <= b_max m <= zlen mem /\ b_max m < 2^64 | None => False end /\
      match p with Some b => match b_data b with Some pm => bytes pm /\ 0 <= b_size b <= zlen pm | None => False end | None => True end
  | HRead env m p =>
      match b_data m with Some mem => bytes mem /\ 0 <= b_size m <= b_max m /\ b_max m <= zlen mem | None => False end /\
      match p with Some b => match b_data b with Some pm => 0 <= b_max b <= zlen pm | None => False end | None => True end
  | HSplit _ _ ok => ok = true
  | HGetHash h n => match h with Some mem => 0 <= n <= zlen mem | None => False end
  | _ => False
  end.
End Noise.
Arguments Running {N}. Arguments Failed {N}. Arguments Done {N}.
