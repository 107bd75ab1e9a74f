(** Specification vocabulary for fallback (C31). *)
From Verif Require Import Base MCipher SCipher MHash MSymm SHash SSymm SPatterns MDh SDh MHandshake SHandshake SHsApi SNoise SAgree.

(** The protocols of Noise Pipes and the like: interactive patterns where the
    initiator knows the responder's static key beforehand and has a static key
    itself (XK, KK, IK and their variants). *)
Definition can_fall_back (pat : pattern) : bool := given pat false S_ && uses pat true S_ && uses pat false E_.
(** The number of the pattern to fall back to: XXfallback, or XXfallback+hfs for the hfs patterns *)
Definition fallback_number (pat : pattern) : Z := 80 * 256 + (if uses pat true F_ then 60 else 16).
(** The protocol after fallback: the same algorithms with another pattern *)
Definition fallback_id (id : protocol_id) (pat : pattern) : protocol_id :=
  ProtocolId (pi_prefix id) (fallback_number pat) (pi_dh id) (pi_cipher id) (pi_hash id) (pi_hybrid id).

(** ** The first message is not understood
    Both parties have been set up for the same protocol, with the same prologue
    and pre-shared key (but the initiator may have any idea of the responder's
    static key, and vice versa).  The initiator has written its first message
    [m].  The responder has read some message whose ephemeral keys (the first
    bytes) are those of [m]; typically with an error, but it may also have
    understood.  The initiator may then have read something, with an error. *)
Record misunderstood (lib : library) (N : suite) (id : protocol_id) (pat : pattern) (static : KP (n_dh N) -> Prop) (good : list Z -> Prop)
    (initiator responder : handshakestate) : Prop := {
  mi_states : exists a0 log_a a1 a2 b0 log_b b1,
    set_up N id lib true log_a a0 /\ set_up N id lib false log_b b0 /\
    prologue_set [] log_a = prologue_set [] log_b /\ psk_set None log_a = psk_set None log_b /\
    proper_static N static a0 /\ proper_static N static b0 /\
    handshakestate_start a0 = Ok (E_NONE, a1) /\ handshakestate_start b0 = Ok (E_NONE, b1) /\
    (exists env mem size max payload mem' m env' rmem rsize rmax out r,
       let write := HWrite env (NBuf (Some mem) size max) payload in
       let read := HRead env' (NBuf (Some rmem) rsize rmax) out in
       let keys := DHLEN (n_dh N) false + (if uses pat true F_ then DHLEN (n_hyb N) false else 0) in
       handshake_call write /\ (forall k n, good (env_rand env k n)) /\
       hs_step lib a1 write = Ok (message_result E_NONE (NBuf (Some mem') (zlen m) max) None, a2) /\ take (zlen m) mem' = m /\
       handshake_call read /\ take keys (take rsize rmem) = take keys m /\
       hs_step lib b1 read = Ok (r, responder)) /\
    (initiator = a2 \/ exists env mem size max out r,
       let read := HRead env (NBuf (Some mem) size max) out in
       handshake_call read /\ hs_step lib a2 read = Ok (r, initiator) /\ hr_err r <> E_NONE)
}.
