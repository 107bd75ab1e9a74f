(** A small concrete library used only in Examples: every cipher identifier
    means the toy cipher, every hash identifier the toy hash; the DH algorithms
    are the toy curve and the toy New Hope. *)
From Verif Require Import Base MCipher Toy MHash ToyHash MSymm MNames MPatterns MDh SDh ToyDh MHandshake SHsApi.

Definition toy_lib : library :=
  Library (fun _ => Some toy_cipher) (fun _ => Some (toy_hash, toy_hash_new))
          (fun id => if id =? DH_NEWHOPE then Some toy_newhope else Some toy_curve).
Definition toy_env : environment := Environment (fun t n => repeat ((t + 100) mod 256) (Z.to_nat n)) (fun n => zeros n).
Definition toy_env2 : environment := Environment (fun t n => repeat ((t + 200) mod 256) (Z.to_nat n)) (fun n => zeros n).
(** prefix, pattern number, hybrid algorithm: Noise..._25519_ChaChaPoly_SHA256 *)
Definition toy_id (prefix pat hybrid : Z) : protocol_id :=
  ProtocolId prefix (NOISE_ID 80 pat) DH_CURVE25519 (NOISE_ID 67 1) (NOISE_ID 72 3) hybrid.
Definition toy_new (prefix pat hybrid role : Z) : outcome (err * handle) :=
  handshakestate_new_by_id toy_lib (Some (toy_id prefix pat hybrid, zeros 4)) role.
Definition live (r : outcome (err * handle)) : outcome handshakestate :=
  match r with Ok (_, Live s) => Ok s | _ => UB end.
Definition toy_static (n : Z) : hs_op := HKey LocalStatic (DSetPrivate (Some (repeat n 32)) 32).
(** Noise_XX with the caller's static key set *)
Definition toy_xx (role : Z) : outcome handshakestate :=
  let! s := live (toy_new PREFIX_STANDARD 9 0 role) in
  let! r := hs_run toy_lib s [toy_static (if role =? ROLE_INITIATOR then 7 else 9)] in
  Ok (snd r).
(** The error codes of a sequence of calls and the action at the end *)
Definition toy_calls (s : outcome handshakestate) (ops : list hs_op) : option (list err * Z) :=
  match (let! s := s in hs_run toy_lib s ops) with
  | Ok (log, s) => Some (map (fun x => hr_err (snd x)) log, hs_action s)
  | UB => None
  end.
(** Messages with empty payloads, alternating, the first from [a]; the two objects afterwards *)
Fixpoint toy_exchange (n : nat) (env_a env_b : environment) (a b : handshakestate) : outcome (handshakestate * handshakestate) :=
  match n with
  | O => Ok (a, b)
  | S n =>
    let! w := hs_step toy_lib a (HWrite env_a (NBuf (Some (zeros 300)) 0 300) None) in
    match hr_message (fst w) with
    | Some m =>
      let! r := hs_step toy_lib b (HRead env_b m None) in
      let! p := toy_exchange n env_b env_a (snd r) (snd w) in
      Ok (snd p, fst p)
    | None => UB
    end
  end.
