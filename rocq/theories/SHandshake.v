(** Specification: the HandshakeState of the Noise specification (section 5.3
    of the revision this library implements, with NoisePSK and the hfs extension). *)
From Verif Require Import Base MCipher MHash SHash SCipher MSymm SSymm SPatterns MDh SDh.

Definition known {A} (o : option A) : bool := match o with Some _ => true | None => false end.

Section Noise.
Variable H : list Z -> list Z.
Variables HASHLEN BLOCKLEN KEYLEN MACLEN : Z.
Variable ENCRYPT : list Z -> Z -> list Z -> list Z -> list Z.
Variable DECRYPT : list Z -> Z -> list Z -> list Z -> option (list Z).
(** The DH functions and those of the hybrid forward secrecy algorithm. *)
Variables dh hyb : dh_functions.
(** Is this a NoisePSK protocol? *)
Variable psk_mode : bool.

(** The variables of a HandshakeState.  [p_second]: this party's ephemeral key
    is generated second (it is the responder, or the initiator of a fallback
    pattern).  [p_messages]: the message patterns that remain; [p_writing]: the
    next one is written by this party. *)
Record party : Type := Party {
  p_sym : noise_sym;
  p_initiator : bool;
  p_second : bool;
  p_s : option (KP dh);
  p_e : option (KP dh);
  p_f : option (KP hyb);
  p_rs : option (list Z);
  p_re : option (list Z);
  p_rf : option (list Z);
  p_writing : bool;
  p_messages : list (list tok)
}.
Definition with_sym (p : party) (s : noise_sym) : party :=
  Party s (p_initiator p) (p_second p) (p_s p) (p_e p) (p_f p) (p_rs p) (p_re p) (p_rf p) (p_writing p) (p_messages p).
Definition with_e (p : party) (k : KP dh) : party :=
  Party (p_sym p) (p_initiator p) (p_second p) (p_s p) (Some k) (p_f p) (p_rs p) (p_re p) (p_rf p) (p_writing p) (p_messages p).
Definition with_f (p : party) (k : KP hyb) : party :=
  Party (p_sym p) (p_initiator p) (p_second p) (p_s p) (p_e p) (Some k) (p_rs p) (p_re p) (p_rf p) (p_writing p) (p_messages p).
Definition with_rs (p : party) (q : list Z) : party :=
  Party (p_sym p) (p_initiator p) (p_second p) (p_s p) (p_e p) (p_f p) (Some q) (p_re p) (p_rf p) (p_writing p) (p_messages p).
Definition with_re (p : party) (q : list Z) : party :=
  Party (p_sym p) (p_initiator p) (p_second p) (p_s p) (p_e p) (p_f p) (p_rs p) (Some q) (p_rf p) (p_writing p) (p_messages p).
Definition with_rf (p : party) (q : list Z) : party :=
  Party (p_sym p) (p_initiator p) (p_second p) (p_s p) (p_e p) (p_f p) (p_rs p) (p_re p) (Some q) (p_writing p) (p_messages p).
Definition next_message (p : party) : party :=
  Party (p_sym p) (p_initiator p) (p_second p) (p_s p) (p_e p) (p_f p) (p_rs p) (p_re p) (p_rf p) (negb (p_writing p)) (tl (p_messages p)).

Local Notation MixKey := (MixKey H BLOCKLEN KEYLEN).
Local Notation MixHash := (MixHash H).
Local Notation EncryptAndHash := (EncryptAndHash H ENCRYPT).
Local Notation DecryptAndHash := (DecryptAndHash H DECRYPT).

(** MixHash(e.public_key), and MixKey(e.public_key) in a NoisePSK protocol *)
Definition MixEphemeral (s : noise_sym) (q : list Z) : noise_sym :=
  if psk_mode then MixKey (MixHash s q) q else MixHash s q.

(** MixKey(DH(k, q)) *)
Definition MixDH (D : dh_functions) (p : party) (k : option (KP D)) (q : option (list Z)) : option party :=
  match k, q with
  | Some k, Some q => option_map (fun z => with_sym p (MixKey (p_sym p) z)) (DH D k q)
  | _, _ => None
  end.
Definition DHToken (p : party) (t : tok) : option party :=
  match t with
  | EE_ => MixDH dh p (p_e p) (p_re p)
  | ES_ => if p_initiator p then MixDH dh p (p_e p) (p_rs p) else MixDH dh p (p_s p) (p_re p)
  | SE_ => if p_initiator p then MixDH dh p (p_s p) (p_re p) else MixDH dh p (p_e p) (p_rs p)
  | SS_ => MixDH dh p (p_s p) (p_rs p)
  | FF_ => MixDH hyb p (p_f p) (p_rf p)
  | _ => None
  end.

(** WriteMessage, one token.  [rand t n]: the n random bytes used for the key
    pair of token t.  The result is what is appended to the message buffer. *)
Definition WriteToken (rand : tok -> Z -> list Z) (p : party) (t : tok) : option (list Z * party) :=
  match t with
  | E_ =>
    match GENERATE dh (p_second p) (rand E_ (RANDLEN dh (p_second p))) (p_re p) with
    | None => None
    | Some k => Some (PUB dh k, with_sym (with_e p k) (MixEphemeral (p_sym p) (PUB dh k)))
    end
  | S_ =>
    match p_s p with
    | None => None
    | Some k =>
      match EncryptAndHash (p_sym p) (PUB dh k) with
      | None => None
      | Some (c, s) => Some (c, with_sym p s)
      end
    end
  | F_ =>
    match GENERATE hyb (p_second p) (rand F_ (RANDLEN hyb (p_second p))) (p_rf p) with
    | None => None
    | Some k =>
      match EncryptAndHash (p_sym p) (PUB hyb k) with
      | None => None
      | Some (c, s) => Some (c, with_sym (with_f p k) s)
      end
    end
  | t => option_map (pair []) (DHToken p t)
  end.
Fixpoint WriteTokens (rand : tok -> Z -> list Z) (p : party) (ts : list tok) : option (list Z * party) :=
  match ts with
  | [] => Some ([], p)
  | t :: ts =>
    match WriteToken rand p t with
    | None => None
    | Some (a, p) =>
      match WriteTokens rand p ts with
      | None => None
      | Some (b, p) => Some (a ++ b, p)
      end
    end
  end.
(** WriteMessage(payload): the message and the new state *)
Definition WriteMessage (rand : tok -> Z -> list Z) (p : party) (payload : list Z) : option (list Z * party) :=
  match p_messages p with
  | [] => None
  | ts :: _ =>
    match WriteTokens rand p ts with
    | None => None
    | Some (a, p) =>
      match EncryptAndHash (p_sym p) payload with
      | None => None
      | Some (c, s) => Some (a ++ c, next_message (with_sym p s))
      end
    end
  end.

(** 16 bytes more (MACLEN) for an encrypted value *)
Definition mac_overhead (s : noise_sym) : Z := match ns_k s with None => 0 | Some _ => MACLEN end.

(** ReadMessage, one token: the rest of the message and the new state *)
Definition ReadToken (p : party) (t : tok) (msg : list Z) : option (list Z * party) :=
  match t with
  | E_ =>
    let n := DHLEN dh (negb (p_second p)) in
    if zlen msg <? n then None
    else
      let q := take n msg in
      if REJECTS_NULL dh && all_zerob q then None
      else Some (drop n msg, with_sym (with_re p q) (MixEphemeral (p_sym p) q))
  | S_ =>
    let n := DHLEN dh (negb (p_second p)) + mac_overhead (p_sym p) in
    if zlen msg <? n then None
    else
      match DecryptAndHash (p_sym p) (take n msg) with
      | None => None
      | Some (q, s) => Some (drop n msg, with_sym (with_rs p q) s)
      end
  | F_ =>
    let n := DHLEN hyb (negb (p_second p)) + mac_overhead (p_sym p) in
    if zlen msg <? n then None
    else
      match DecryptAndHash (p_sym p) (take n msg) with
      | None => None
      | Some (q, s) => if REJECTS_NULL hyb && all_zerob q then None
                       else Some (drop n msg, with_sym (with_rf p q) s)
      end
  | t => option_map (pair msg) (DHToken p t)
  end.
Fixpoint ReadTokens (p : party) (ts : list tok) (msg : list Z) : option (list Z * party) :=
  match ts with
  | [] => Some (msg, p)
  | t :: ts =>
    match ReadToken p t msg with
    | None => None
    | Some (msg, p) => ReadTokens p ts msg
    end
  end.
(** ReadMessage(message): the payload and the new state *)
Definition ReadMessage (p : party) (msg : list Z) : option (list Z * party) :=
  match p_messages p with
  | [] => None
  | ts :: _ =>
    match ReadTokens p ts msg with
    | None => None
    | Some (rest, p) =>
      match DecryptAndHash (p_sym p) rest with
      | None => None
      | Some (pl, s) => Some (pl, next_message (with_sym p s))
      end
    end
  end.

(** ** Initialize *)
Definition MixPrologue (prologue : list Z) (psk : option (list Z)) (s : noise_sym) : noise_sym :=
  let s := MixHash s prologue in
  match psk with
  | None => s
  | Some psk => let '(ck, temp) := HKDF H BLOCKLEN (ns_ck s) psk in MixHash (NSym ck (ns_h s) (ns_k s) (ns_n s)) temp
  end.
(** A pre-message: the public keys of one party *)
Definition MixPre (s_pub e_pub f_pub : option (list Z)) (s : noise_sym) (t : tok) : noise_sym :=
  match t with
  | S_ => match s_pub with Some q => MixHash s q | None => s end
  | E_ => match e_pub with Some q => MixEphemeral s q | None => s end
  | F_ => match f_pub with Some q => MixHash s q | None => s end
  | _ => s
  end.
(** Initialize(handshake_pattern, initiator, prologue, keys) on top of
    InitializeSymmetric(protocol_name) *)
Definition Initialize (name prologue : list Z) (psk : option (list Z)) (pat : pattern) (initiator second : bool)
    (s e : option (KP dh)) (f : option (KP hyb)) (rs re rf : option (list Z)) : party :=
  let pub D k := option_map (PUB D) k in
  let sym := MixPrologue prologue psk (InitializeSymmetric H HASHLEN name) in
  let sym :=
    if initiator
    then fold_left (MixPre rs re rf) (pre_responder pat) (fold_left (MixPre (pub dh s) (pub dh e) (pub hyb f)) (pre_initiator pat) sym)
    else fold_left (MixPre (pub dh s) (pub dh e) (pub hyb f)) (pre_responder pat) (fold_left (MixPre rs re rf) (pre_initiator pat) sym) in
  Party sym initiator second s e f rs re rf initiator (messages pat).
End Noise.
Arguments p_sym {dh hyb}. Arguments p_initiator {dh hyb}. Arguments p_second {dh hyb}.
Arguments p_s {dh hyb}. Arguments p_e {dh hyb}. Arguments p_f {dh hyb}.
Arguments p_rs {dh hyb}. Arguments p_re {dh hyb}. Arguments p_rf {dh hyb}.
Arguments p_writing {dh hyb}. Arguments p_messages {dh hyb}.
Arguments Party {dh hyb}.
Arguments with_sym {dh hyb}. Arguments with_e {dh hyb}. Arguments with_f {dh hyb}.
Arguments with_rs {dh hyb}. Arguments with_re {dh hyb}. Arguments with_rf {dh hyb}. Arguments next_message {dh hyb}.
