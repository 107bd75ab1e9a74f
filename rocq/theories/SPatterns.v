(** Specification of the handshake patterns, after the Noise specification
    (section 7) and its hybrid forward secrecy and noidh variants. *)
From Coq Require Import String.
From Verif Require Import Base Str SNames.

(** Public key tokens and DH tokens.  In a DH token the first letter is the
    initiator's key and the second the responder's. *)
Inductive tok : Type := S_ | E_ | F_ | EE_ | ES_ | SE_ | SS_ | FF_.
Definition tok_eq_dec : forall a b : tok, {a = b} + {a <> b}.
Proof. decide equality. Defined.

(** Pre-messages of the initiator and of the responder, then the messages, the
    first one sent by the initiator, then alternating. *)
Record pattern : Type := Pattern {
  pre_initiator : list tok;
  pre_responder : list tok;
  messages : list (list tok)
}.

Definition hfs_msg (m : list tok) : list tok :=
  flat_map (fun t => match t with E_ => [E_; F_] | EE_ => [EE_; FF_] | t => [t] end) m.
(** Every e is followed by f and every ee by ff. *)
Definition hfs (p : pattern) : pattern :=
  Pattern (hfs_msg (pre_initiator p)) (hfs_msg (pre_responder p)) (map hfs_msg (messages p)).

Definition noidh_msg (m : list tok) : list tok :=
  if in_dec tok_eq_dec S_ m then
    if in_dec tok_eq_dec E_ m then
      flat_map (fun t => match t with E_ => [E_; S_] | S_ => [] | t => [t] end) m
    else m
  else m.
(** A static key sent together with an ephemeral one goes right after it. *)
Definition noidh (p : pattern) : pattern :=
  Pattern (pre_initiator p) (pre_responder p) (map noidh_msg (messages p)).

Local Open Scope string_scope.
(** The patterns of the Noise specification by name. *)
Definition basic_pattern (name : string) : option pattern :=
  match name with
  | "N"  => Some (Pattern [] [S_] [[E_; ES_]])
  | "K"  => Some (Pattern [S_] [S_] [[E_; ES_; SS_]])
  | "X"  => Some (Pattern [] [S_] [[E_; ES_; S_; SS_]])
  | "NN" => Some (Pattern [] []   [[E_]; [E_; EE_]])
  | "KN" => Some (Pattern [S_] [] [[E_]; [E_; EE_; SE_]])
  | "NK" => Some (Pattern [] [S_] [[E_; ES_]; [E_; EE_]])
  | "KK" => Some (Pattern [S_] [S_] [[E_; ES_; SS_]; [E_; EE_; SE_]])
  | "NX" => Some (Pattern [] []   [[E_]; [E_; EE_; S_; ES_]])
  | "KX" => Some (Pattern [S_] [] [[E_]; [E_; EE_; SE_; S_; ES_]])
  | "XN" => Some (Pattern [] []   [[E_]; [E_; EE_]; [S_; SE_]])
  | "IN" => Some (Pattern [] []   [[E_; S_]; [E_; EE_; SE_]])
  | "XK" => Some (Pattern [] [S_] [[E_; ES_]; [E_; EE_]; [S_; SE_]])
  | "IK" => Some (Pattern [] [S_] [[E_; ES_; S_; SS_]; [E_; EE_; SE_]])
  | "XX" => Some (Pattern [] []   [[E_]; [E_; EE_; S_; ES_]; [S_; SE_]])
  | "IX" => Some (Pattern [] []   [[E_; S_]; [E_; EE_; SE_; S_; ES_]])
  | "XXfallback" => Some (Pattern [] [E_] [[E_; EE_; S_; SE_]; [S_; ES_]])
  | _ => None
  end.
Local Close Scope string_scope.

(** The named patterns: a basic one, its noidh variant, its hfs variant, or both. *)
Inductive named_pattern : string -> pattern -> Prop :=
| np_basic : forall n p, basic_pattern n = Some p -> named_pattern n p
| np_noidh : forall n p, basic_pattern n = Some p -> named_pattern (n ++ "noidh")%string (noidh p)
| np_hfs : forall n p, basic_pattern n = Some p -> n <> "XXfallback"%string -> named_pattern (n ++ "hfs")%string (hfs p)
| np_fallback_hfs : forall p, basic_pattern "XXfallback" = Some p -> named_pattern "XXfallback+hfs" (hfs p)
| np_noidh_hfs : forall n p, basic_pattern n = Some p -> named_pattern (n ++ "noidh+hfs")%string (hfs (noidh p)).

(** Everything that is sent, with the sender (true: initiator), in order. *)
Fixpoint message_events (from : bool) (ms : list (list tok)) : list (bool * tok) :=
  match ms with
  | [] => []
  | m :: r => map (pair from) m ++ message_events (negb from) r
  end.
Definition events (p : pattern) : list (bool * tok) :=
  map (pair true) (pre_initiator p) ++ map (pair false) (pre_responder p) ++ message_events true (messages p).

(** The two public keys a DH token combines: the initiator's and the responder's. *)
Definition dh_keys (t : tok) : option (tok * tok) :=
  match t with
  | EE_ => Some (E_, E_) | ES_ => Some (E_, S_) | SE_ => Some (S_, E_) | SS_ => Some (S_, S_) | FF_ => Some (F_, F_)
  | _ => None
  end.

(** The Noise validity rules: nothing is sent twice, no DH is performed twice,
    and a DH only combines keys whose public halves the other party has been
    given before (so that both parties can compute it). *)
Definition valid_pattern (p : pattern) : Prop :=
  forall before who t after, events p = before ++ (who, t) :: after ->
    match dh_keys t with
    | None => ~ In (who, t) before
    | Some (a, b) => In (true, a) before /\ In (false, b) before /\ (forall w, ~ In (w, t) before)
    end.

(** The key flags of a pattern: for each party, which keys it uses at all and
    which the other party must know in advance. *)
Definition uses (p : pattern) (who : bool) (t : tok) : bool :=
  if in_dec (fun a b : bool * tok => ltac:(decide equality; [apply tok_eq_dec|apply Bool.bool_dec])) (who, t) (events p) then true else false.
Definition given (p : pattern) (who : bool) (t : tok) : bool :=
  if in_dec tok_eq_dec t (if who then pre_initiator p else pre_responder p) then true else false.
Definition party_flags (p : pattern) (who : bool) : Z :=
  (if uses p who S_ then 1 else 0) + (if uses p who E_ then 2 else 0) +
  (if given p who S_ then 4 else 0) + (if given p who E_ then 8 else 0) +
  (if uses p who F_ then 16 else 0) + (if given p who F_ then 32 else 0).

(** How a pattern is written in memory: the initiator's flags, the responder's
    flags, the tokens with 255 between messages, and a final zero. *)
Definition tok_code (t : tok) : Z :=
  match t with S_ => 1 | E_ => 2 | EE_ => 3 | ES_ => 4 | SE_ => 5 | SS_ => 6 | F_ => 7 | FF_ => 8 end.
Fixpoint encode_messages (ms : list (list tok)) : list Z :=
  match ms with
  | [] => []
  | [m] => map tok_code m
  | m :: r => map tok_code m ++ [255] ++ encode_messages r
  end.
Definition encode_pattern (p : pattern) : list Z :=
  [party_flags p true; party_flags p false] ++ encode_messages (messages p) ++ [0].
