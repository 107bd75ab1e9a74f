(** Specification vocabulary for DHState (C34-C36) and the DH functions of the
    Noise specification (section 4.1) used for handshakes. *)
From Verif Require Import Base MUtil MDh SCipher.

(** ** The DH functions of a handshake
    KP is the type of key pairs, PUB the public key in it.  For New Hope the
    second party's key depends on the first party's public key and has another
    length; the boolean says whether a key is the second party's.
    GENERATE second random other: a new key pair (None: not possible without
    the other party's key).  DH: None when the public key is invalid.
    PAIR private public: a static key pair (New Hope has none). *)
Record dh_functions : Type := DhFunctions {
  KP : Type;
  PUB : KP -> list Z;
  DHLEN : bool -> Z;
  RANDLEN : bool -> Z;
  REJECTS_NULL : bool;
  GENERATE : bool -> list Z -> option (list Z) -> option KP;
  DH : KP -> list Z -> option (list Z);
  PAIR : list Z -> list Z -> option KP
}.

Definition all_zero (l : list Z) : Prop := Forall (fun b => b = 0) l.
Definition all_zerob (l : list Z) : bool := forallb (Z.eqb 0) l.

(** The curves: a private key and its public key; DH with the null public key is zero. *)
Definition curve25519_functions (base : list Z -> list Z) (mult : list Z -> list Z -> list Z) : dh_functions :=
  DhFunctions (list Z * list Z) snd (fun _ => 32) (fun _ => 32) true
    (fun _ r _ => let k := clamp25519 r in Some (k, base k))
    (fun kp q => Some (if all_zerob q then zeros 32 else mult (fst kp) q))
    (fun priv pub => Some (priv, pub)).
Definition curve448_functions (eval : list Z -> list Z -> bool * list Z) : dh_functions :=
  DhFunctions (list Z * list Z) snd (fun _ => 56) (fun _ => 56) true
    (fun _ r _ => let k := clamp448 r in Some (k, snd (eval k basepoint448)))
    (fun kp q => if all_zerob q then Some (zeros 56)
                 else if fst (eval (fst kp) q) then Some (snd (eval (fst kp) q)) else None)
    (fun priv pub => Some (priv, pub)).
(** New Hope: the first party holds a polynomial, the second the shared key. *)
Definition newhope_functions (keygen : list Z -> list Z * list Z)
    (sharedb : list Z -> list Z -> list Z * list Z) (shareda : list Z -> list Z -> list Z) : dh_functions :=
  DhFunctions (bool * list Z * list Z) snd (fun second => if second then 2048 else 1824) (fun second => if second then 32 else 64) false
    (fun second r other =>
      if second then
        match other with
        | None => None
        | Some senda => let '(shared, sendb) := sharedb senda r in Some (true, shared, sendb)
        end
      else let '(senda, poly) := keygen r in Some (false, poly, senda))
    (fun kp q => let '(second, secret, _) := kp in Some (if second then secret else shareda secret q))
    (fun _ _ => None).

(** The backends of the library with primitives of the right shape. *)
Definition sized (n : Z) (l : list Z) : Prop := zlen l = n /\ bytes l.
Inductive dh_suite : dh_alg -> dh_functions -> Prop :=
| suite_25519 : forall base mult,
    (forall k, sized 32 k -> sized 32 (base k)) ->
    (forall k q, sized 32 k -> sized 32 q -> sized 32 (mult k q)) ->
    dh_suite (curve25519 base mult) (curve25519_functions base mult)
| suite_448 : forall eval,
    (forall k q, sized 56 k -> sized 56 q -> sized 56 (snd (eval k q))) ->
    dh_suite (curve448 eval) (curve448_functions eval)
| suite_newhope : forall keygen sharedb shareda,
    (forall r, sized 64 r -> sized 1824 (fst (keygen r)) /\ sized 2048 (snd (keygen r))) ->
    (forall a r, sized 1824 a -> sized 32 r -> sized 32 (fst (sharedb a r)) /\ sized 2048 (snd (sharedb a r))) ->
    (forall p b, sized 2048 p -> sized 2048 b -> sized 32 (shareda p b)) ->
    dh_suite (newhope keygen sharedb shareda) (newhope_functions keygen sharedb shareda).

(** ** Calls on one DHState *)
Inductive dh_op : Type :=
| DGenerate (rng : Z -> list Z)
| DGenerateDependent (rng : Z -> list Z) (other : option dhstate)
| DSetKeypair (priv : cptr) (priv_len : Z) (pub : cptr) (pub_len : Z)
| DSetPrivate (priv : cptr) (priv_len : Z)
| DSetPublic (pub : cptr) (pub_len : Z)
| DSetNull
| DClear
| DCopy (from : dhstate)
| DCalculate (pub : option dhstate) (shared_key_len : Z)
| DSetRole (role : Z).
Definition or_same (s : dhstate) (r : err * option dhstate) : err * dhstate :=
  (fst r, match snd r with Some s' => s' | None => s end).
Definition dh_step (s : dhstate) (op : dh_op) : outcome (err * dhstate) :=
  match op with
  | DGenerate rng => Ok (dhstate_generate_keypair rng s)
  | DGenerateDependent rng o => Ok (dhstate_generate_dependent_keypair rng s o)
  | DSetKeypair p n q m => dhstate_set_keypair s p n q m
  | DSetPrivate p n => dhstate_set_keypair_private s p n
  | DSetPublic q m => dhstate_set_public_key s q m
  | DSetNull => Ok (dhstate_set_null_public_key s)
  | DClear => Ok (or_same s (dhstate_clear_key (Some s)))
  | DCopy from => Ok (dhstate_copy s from)
  | DCalculate pub n => let '(e, _, s') := dhstate_calculate s pub n in Ok (e, s')
  | DSetRole r => Ok (or_same s (dhstate_set_role (Some s) r))
  end.
Fixpoint dh_run (s : dhstate) (ops : list dh_op) : outcome (list (dh_op * err) * dhstate) :=
  match ops with
  | [] => Ok ([], s)
  | op :: ops' =>
    let! r := dh_step s op in
    let! r' := dh_run (snd r) ops' in
    Ok ((op, fst r) :: fst r', snd r')
  end.

(** Other DHState objects given as arguments: any object of the library. *)
Definition data_ok (alg : dh_alg) (d : dh_data) : Prop :=
  sized (da_private_size alg) (dd_private d) /\ sized (da_public_size alg) (dd_public d) /\ sized (da_poly_size alg) (dd_poly d).
Definition peer_ok (alg : dh_alg) (o : dhstate) : Prop :=
  data_ok (ds_alg o) (ds_data o) /\ (da_id (ds_alg o) = da_id alg -> ds_alg o = alg).
Definition rng_ok (rng : Z -> list Z) : Prop := forall n, 0 <= n -> sized n (rng n).
Definition dh_op_ok (alg : dh_alg) (op : dh_op) : Prop :=
  match op with
  | DGenerate rng => rng_ok rng
  | DGenerateDependent rng o => rng_ok rng /\ match o with Some o => peer_ok alg o | None => True end
  | DSetKeypair p n q m => ptr_ok p n /\ ptr_ok q m
  | DSetPrivate p n => ptr_ok p n
  | DSetPublic q m => ptr_ok q m
  | DCopy from => peer_ok alg from
  | DCalculate pub _ => match pub with Some o => peer_ok alg o | None => True end
  | DSetNull | DClear | DSetRole _ => True
  end.

(** What a DHState holds. *)
Inductive held : Type := Nothing | PublicKey (pub : list Z) | KeyPair (priv pub : list Z).
Definition same_kind (a b : held) : Prop :=
  match a, b with
  | Nothing, Nothing | PublicKey _, PublicKey _ | KeyPair _ _, KeyPair _ _ => True
  | _, _ => False
  end.
Definition peer_held (s : dhstate) : held :=
  match dh_key_type s with
  | NO_KEY => Nothing
  | PUBLIC => PublicKey (public_key s)
  | KEYPAIR => KeyPair (private_key s) (public_key s)
  end.

(** The effect of a call with error code [e] on what is held.  [curve]: the
    algorithm is one of the curves; for New Hope the public key belonging to a
    private key is only known later, and changing the role changes lengths. *)
Inductive dh_effect (curve : bool) : held -> dh_op -> err -> held -> Prop :=
| ef_generate : forall h rng p q, dh_effect curve h (DGenerate rng) E_NONE (KeyPair p q)
| ef_generate_dep : forall h rng o p q, dh_effect curve h (DGenerateDependent rng o) E_NONE (KeyPair p q)
| ef_keypair : forall h p n q m q', (curve = true -> q' = take m q) ->
    dh_effect curve h (DSetKeypair (Some p) n (Some q) m) E_NONE (KeyPair (take n p) q')
| ef_keypair_rejected : forall h p n q m,
    dh_effect curve h (DSetKeypair (Some p) n (Some q) m) E_INVALID_PUBLIC_KEY Nothing
| ef_private : forall h p n q', dh_effect curve h (DSetPrivate (Some p) n) E_NONE (KeyPair (take n p) q')
| ef_public : forall h q m, dh_effect curve h (DSetPublic (Some q) m) E_NONE (PublicKey (take m q))
| ef_null : forall h n, dh_effect curve h DSetNull E_NONE (PublicKey (zeros n))
| ef_clear : forall h, dh_effect curve h DClear E_NONE Nothing
| ef_copy : forall h from h', same_kind h' (peer_held from) -> (curve = true -> h' = peer_held from) ->
    dh_effect curve h (DCopy from) E_NONE h'
| ef_calculate : forall h h' pub n, same_kind h' h -> (curve = true -> h' = h) -> dh_effect curve h (DCalculate pub n) E_NONE h'
| ef_role : forall h h' r, same_kind h' h -> (curve = true -> h' = h) -> dh_effect curve h (DSetRole r) E_NONE h'
(* every other failing call leaves the key alone *)
| ef_failed : forall h op e, e <> E_NONE ->
    (forall p n q m, op = DSetKeypair (Some p) n (Some q) m -> e <> E_INVALID_PUBLIC_KEY) ->
    dh_effect curve h op e h.

Inductive dh_history (curve : bool) : held -> list (dh_op * err) -> held -> Prop :=
| dhh_nil : forall h, dh_history curve h [] h
| dhh_cons : forall h0 op e h1 l h2, dh_effect curve h0 op e h1 -> dh_history curve h1 l h2 ->
    dh_history curve h0 ((op, e) :: l) h2.

(** What the query functions report for an object holding [h]. *)
Definition reports (s : dhstate) (h : held) : Prop :=
  dhstate_has_keypair (Some s) = match h with KeyPair _ _ => true | _ => false end /\
  dhstate_has_public_key (Some s) = match h with Nothing => false | _ => true end /\
  dhstate_get_public_key s (public_len s) = (E_NONE, Some (public_key s)) /\
  match h with Nothing => True | PublicKey q | KeyPair _ q => public_key s = q end /\
  dhstate_get_keypair s (private_len s) (public_len s) =
    match h with
    | KeyPair p q => (E_NONE, Some (p, q))
    | _ => (E_INVALID_STATE, Some (zeros (private_len s), zeros (public_len s)))
    end.
Definition is_curve (alg : dh_alg) : bool := da_nulls_allowed alg.
