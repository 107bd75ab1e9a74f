(** Specification vocabulary for two parties talking to each other (C21, C26,
    C31, C32): agreement of the DH functions, sizes of messages, exchanges. *)
From Verif Require Import Base MCipher SCipher MHash MSymm SHash SSymm SPatterns MDh SDh MHandshake SHandshake SHsApi SNoise.

(** ** The DH functions agree
    [good]: the random strings from which key pairs are generated (for the
    curves any; New Hope key exchanges fail for a negligible part of them).
    [static]: the static key pairs.  A key pair is generated by the first party
    alone; by the second with the first one's public key at hand. *)
Record dh_agrees (D : dh_functions) (static : KP D -> Prop) (good : list Z -> Prop) : Prop := {
  ag_first : forall r, sized (RANDLEN D false) r -> good r -> exists k, GENERATE D false r None = Some k;
  ag_second : forall r q, sized (RANDLEN D true) r -> good r -> sized (DHLEN D false) q -> exists k, GENERATE D true r (Some q) = Some k;
  ag_ephemeral : forall r1 r2 k1 k2, sized (RANDLEN D false) r1 -> good r1 -> sized (RANDLEN D true) r2 -> good r2 ->
    GENERATE D false r1 None = Some k1 -> GENERATE D true r2 (Some (PUB D k1)) = Some k2 ->
    exists z, DH D k1 (PUB D k2) = Some z /\ DH D k2 (PUB D k1) = Some z;
  ag_mixed : forall second r other k s, static s -> sized (RANDLEN D second) r -> good r -> GENERATE D second r other = Some k ->
    exists z, DH D s (PUB D k) = Some z /\ DH D k (PUB D s) = Some z;
  ag_static : forall s1 s2, static s1 -> static s2 -> exists z, DH D s1 (PUB D s2) = Some z /\ DH D s2 (PUB D s1) = Some z;
  ag_null : forall second r other k, sized (RANDLEN D second) r -> good r -> GENERATE D second r other = Some k -> REJECTS_NULL D = true -> all_zerob (PUB D k) = false;
  ag_static_len : forall s second, static s -> sized (DHLEN D second) (PUB D s)
}.
(** A key pair of Curve25519: the public key belongs to the private key and is not null. *)
Definition good_pair (n : Z) (base : list Z -> list Z) (k : list Z * list Z) : Prop :=
  sized n (fst k) /\ snd k = base (fst k) /\ all_zerob (snd k) = false.

(** ** Two objects for the two roles of one handshake
    The static key pair of [s], if any, is a proper one. *)
Definition proper_static (N : suite) (static : KP (n_dh N) -> Prop) (s : handshakestate) : Prop :=
  forall k, local_pair N (ko_static (hs_local s)) (Some k) -> static k.
(** If [s] knows a static public key of the other party [peer] before the
    handshake, then it is the right one. *)
Definition right_key (s peer : handshakestate) : Prop :=
  remote_key (ko_static (hs_remote s)) = None \/ remote_key (ko_static (hs_remote s)) = remote_key (ko_static (hs_local peer)).
(** Both have been set up for the same protocol, with the same prologue and
    pre-shared key, and started. *)
Record meet (lib : library) (N : suite) (id : protocol_id) (static : KP (n_dh N) -> Prop) (initiator responder : handshakestate) : Prop := {
  me_states : exists a log_a b log_b, set_up N id lib true log_a a /\ set_up N id lib false log_b b /\
    prologue_set [] log_a = prologue_set [] log_b /\ psk_set None log_a = psk_set None log_b /\
    proper_static N static a /\ proper_static N static b /\ right_key a b /\ right_key b a /\
    handshakestate_start a = Ok (E_NONE, initiator) /\ handshakestate_start b = Ok (E_NONE, responder)
}.

Section Noise.
Variable N : suite.
Variable id : protocol_id.
Variable good : list Z -> Prop.
Local Notation D := (n_dh N).
Local Notation E := (n_hyb N).

(** ** Sizes
    The bytes of a message besides its payload: the public keys and a tag for
    every encrypted field, including the payload.  [keyed]: a key has been
    mixed; [second]: the sender's key pairs are generated second. *)
Definition tag (keyed : bool) : Z := if keyed then ca_mac_len (n_cipher N) else 0.
Definition keyed_by (keyed : bool) (t : tok) : bool :=
  match t with E_ => keyed || psk_mode id | S_ | F_ => keyed | _ => true end.
Fixpoint overhead_of (second keyed : bool) (ts : list tok) : Z :=
  match ts with
  | [] => tag keyed
  | t :: ts =>
    match t with E_ => DHLEN D second | S_ => DHLEN D second + tag keyed | F_ => DHLEN E second + tag keyed | _ => 0 end +
    overhead_of second (keyed_by keyed t) ts
  end.

(** ** An exchange of messages
    One message: the writer's randomness, message buffer and payload; what
    follows the message in the reader's memory, and the reader's payload buffer. *)
Record turn : Type := Turn {
  t_rand : environment; t_mem : list Z; t_size : Z; t_max : Z; t_payload : option nbuf;
  t_env : environment; t_tail : list Z; t_out : option nbuf }.
Definition turn_ok (t : turn) : Prop :=
  handshake_call (HWrite (t_rand t) (NBuf (Some (t_mem t)) (t_size t) (t_max t)) (t_payload t)) /\ (forall k n, good (env_rand (t_rand t) k n)) /\ bytes (t_tail t) /\
  match t_out t with Some b => match b_data b with Some m => zlen (payload_bytes (t_payload t)) <= b_max b <= zlen m | None => False end | None => True end.
(** The messages fit into the buffers and into 65535 bytes. *)
Fixpoint turns_ok (second keyed : bool) (ms : list (list tok)) (turns : list turn) : Prop :=
  match ms, turns with
  | [], [] => True
  | ts :: ms, t :: turns =>
    turn_ok t /\ overhead_of second keyed ts + zlen (payload_bytes (t_payload t)) <= t_max t /\
    overhead_of second keyed ts + zlen (payload_bytes (t_payload t)) <= 65535 /\
    turns_ok (negb second) (fold_left keyed_by ts keyed) ms turns
  | _, _ => False
  end.
(** [w] writes, [r] reads exactly what was written and gets the payload, and so
    on in turns; in the end [w] and [r] are in the states [final] describes. *)
Fixpoint exchange (lib : library) (w r : handshakestate) (turns : list turn) (final : handshakestate -> handshakestate -> Prop) : Prop :=
  match turns with
  | [] => final w r
  | t :: turns =>
    exists m mem w' r',
      hs_step lib w (HWrite (t_rand t) (NBuf (Some (t_mem t)) (t_size t) (t_max t)) (t_payload t)) =
        Ok (message_result E_NONE (NBuf (Some mem) (zlen m) (t_max t)) None, w') /\ take (zlen m) mem = m /\
      hs_step lib r (HRead (t_env t) (NBuf (Some (m ++ t_tail t)) (zlen m) (zlen (m ++ t_tail t))) (t_out t)) =
        Ok (message_result E_NONE (NBuf (Some (zeros (zlen m) ++ t_tail t)) (zlen m) (zlen (m ++ t_tail t)))
              (option_map (fun b => filled b (payload_bytes (t_payload t))) (t_out t)), r') /\
      exchange lib r' w' turns final
  end.
End Noise.

(** ** At the end *)
(** Both have reached SPLIT, and get_handshake_hash gives both the same bytes,
    whatever the size of the buffer. *)
Definition agreed (w r : handshakestate) : Prop :=
  hs_action w = ACTION_SPLIT /\ hs_action r = ACTION_SPLIT /\
  exists h, bytes h /\ forall mem n, 0 <= n <= zlen mem ->
    get_handshake_hash w (Some mem) n = Ok (E_NONE, Some (take n (h ++ zeros n) ++ drop n mem)) /\
    get_handshake_hash r (Some mem) n = Ok (E_NONE, Some (take n (h ++ zeros n) ++ drop n mem)).
(** Whatever is encrypted with [s], [r] decrypts: any sequence of packets (and
    associated data), in buffers with [spare] bytes behind the plaintext. *)
Definition channel (s r : cipherstate) : Prop :=
  forall ms spare, bytes spare -> ca_mac_len (cs_alg s) <= zlen spare -> zlen ms <= 2^64 - 1 ->
  Forall (fun m => bytes (fst m) /\ bytes (snd m) /\ zlen (snd m) + ca_mac_len (cs_alg s) <= MAX_PAYLOAD_LEN) ms ->
  exists s' r' ps, send_all s spare ms = Ok (map (fun p => (E_NONE, p)) ps, s') /\
    receive_all r (map (fun x => (true, fst (fst x), snd x)) (combine ms ps)) = Ok (map (fun m => (E_NONE, snd m)) ms, r').
(** What split gives for the sending and the receiving CipherState when asked for both, or for one of them *)
Definition splits (lib : library) (s : handshakestate) (send receive : cipherstate) : Prop :=
  forall want_send want_receive, want_send || want_receive = true -> exists s',
    hs_step lib s (HSplit want_send want_receive true) =
      Ok (HRes E_NONE None None (if want_send then Some send else None) (if want_receive then Some receive else None) None, s') /\
    hs_action s' = ACTION_COMPLETE.
(** The keys are the two outputs of HKDF: the first for what the initiator sends. *)
Definition transport (N : suite) (lib : library) (w r : handshakestate) : Prop :=
  exists send_w receive_w send_r receive_r ck k1 k2,
    splits lib w send_w receive_w /\ splits lib r send_r receive_r /\ channel send_w receive_r /\ channel send_r receive_w /\
    HKDF (n_H N) (ha_block_len (n_hash N)) ck [] = (k1, k2) /\
    let key k := take (ca_key_len (n_cipher N)) k in
    (hs_role w = ROLE_INITIATOR /\ hs_role r = ROLE_RESPONDER /\ cs_key send_w = key k1 /\ cs_key send_r = key k2 \/
     hs_role r = ROLE_INITIATOR /\ hs_role w = ROLE_RESPONDER /\ cs_key send_r = key k1 /\ cs_key send_w = key k2).

(** ** Messages one after the other
    The number of messages written or read successfully in a log *)
Definition message_done (x : hs_op * hs_res) : bool :=
  match fst x with HWrite _ _ _ | HRead _ _ _ => is_none (hr_err (snd x)) | _ => false end.
Definition messages_done (log : list (hs_op * hs_res)) : nat := length (filter message_done log).
(** The size of message number [k] (from 0) of the pattern without its payload.
    Even messages come from the party that generates its keys first. *)
Definition message_overhead (N : suite) (id : protocol_id) (pat : pattern) (k : nat) : Z :=
  overhead_of N id (Nat.odd k) (fold_left (keyed_by id) (concat (firstn k (messages pat))) false) (nth k (messages pat) []).

(** ** The keys of a DH (C25)
    The local and the remote key of a DH token *)
Definition dh_keys (initiator : bool) (t : tok) : option (tok * tok) :=
  match t with
  | EE_ => Some (E_, E_)
  | ES_ => Some (if initiator then (E_, S_) else (S_, E_))
  | SE_ => Some (if initiator then (S_, E_) else (E_, S_))
  | SS_ => Some (S_, S_)
  | FF_ => Some (F_, F_)
  | E_ | S_ | F_ => None
  end.
(** The party has a key pair, or the public key of the other party, of this kind. *)
Definition has_own {N : suite} (p : nparty N) (kind : tok) : Prop :=
  match kind with E_ => p_e p <> None | S_ => p_s p <> None | F_ => p_f p <> None | _ => False end.
Definition has_peer {N : suite} (p : nparty N) (kind : tok) : Prop :=
  match kind with E_ => p_re p <> None | S_ => p_rs p <> None | F_ => p_rf p <> None | _ => False end.
