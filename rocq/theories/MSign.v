(** Model of src/protocol/signstate.c and src/backend/ref/sign-ed25519.c.
    The Ed25519 functions of src/crypto/ed25519 are parameters: [publickey] is
    ed25519_publickey, [sign m priv pub] ed25519_sign, and [sign_open m pub sig]
    is true when ed25519_sign_open returns zero. *)
From Verif Require Import Base MUtil MDh.

(** include/noise/protocol/constants.h:108 *)
Definition SIGN_ED25519 : Z := NOISE_ID 83 1.

(** The variable part of struct NoiseSignState_s (src/protocol/internal.h:362-495)
    with the arrays of NoiseEd25519State (sign-ed25519.c:26-32). *)
Record signstate : Type := SignState {
  ss_id : Z;
  ss_type : key_type;
  ss_private : list Z;
  ss_public : list Z
}.
(** The lengths set by sign-ed25519.c:95-98 *)
Definition ss_private_len : Z := 32.
Definition ss_public_len : Z := 32.
Definition ss_signature_len : Z := 64.

(** sign-ed25519.c:90-108 (allocation succeeds; the memory is zeroed) *)
Definition ed25519_new : signstate := SignState SIGN_ED25519 NO_KEY (zeros 32) (zeros 32).
(** signstate.c:67-90: the result is the error code and the new *state *)
Definition signstate_new_by_id (id : Z) : err * option signstate :=
  if id =? SIGN_ED25519 then (E_NONE, Some ed25519_new) else (E_UNKNOWN_ID, None).

(** signstate.c:160-208; zero for the NULL pointer *)
Definition signstate_get_sign_id (s : option signstate) : Z :=
  match s with Some s => ss_id s | None => 0 end.
Definition signstate_get_public_key_length (s : option signstate) : Z :=
  match s with Some _ => ss_public_len | None => 0 end.
Definition signstate_get_private_key_length (s : option signstate) : Z :=
  match s with Some _ => ss_private_len | None => 0 end.
Definition signstate_get_signature_length (s : option signstate) : Z :=
  match s with Some _ => ss_signature_len | None => 0 end.

(** signstate.c:222-228, 242-248 *)
Definition signstate_has_keypair (s : option signstate) : bool :=
  match s with Some s => key_type_eqb (ss_type s) KEYPAIR | None => false end.
Definition signstate_has_public_key (s : option signstate) : bool :=
  match s with Some s => negb (key_type_eqb (ss_type s) NO_KEY) | None => false end.

Section Ed25519.
Variable publickey : list Z -> list Z.
Variable sign : list Z -> list Z -> list Z -> list Z.
Variable sign_open : list Z -> list Z -> list Z -> bool.

(** ** The backend *)
(** sign-ed25519.c:34-41; [rng n]: the bytes noise_rand_bytes delivers *)
Definition ed25519_generate_keypair (rng : Z -> list Z) (s : signstate) : signstate :=
  let k := clamp25519 (rng 32) in
  SignState (ss_id s) (ss_type s) k (publickey k).
(** sign-ed25519.c:43-53; equal is 0 or 1, so that the mask is all ones or zero *)
Definition ed25519_validate_keypair (priv pub : list Z) : err :=
  if noise_is_equal (publickey priv) pub =? 1 then E_NONE else E_INVALID_PUBLIC_KEY.
(** sign-ed25519.c:55-60 *)
Definition ed25519_validate_public_key (pub : list Z) : err := E_NONE.
(** sign-ed25519.c:62-68 *)
Definition ed25519_derive_public_key (priv : list Z) : err * list Z := (E_NONE, publickey priv).
(** sign-ed25519.c:70-78 *)
Definition ed25519_sign_with (s : signstate) (message : list Z) : err * list Z :=
  (E_NONE, sign message (ss_private s) (ss_public s)).
(** sign-ed25519.c:80-88 *)
Definition ed25519_verify_with (s : signstate) (message signature : list Z) : err :=
  if sign_open message (ss_public s) signature then E_NONE else E_INVALID_SIGNATURE.

(** ** src/protocol/signstate.c.  Every function gives the error code and the
    object afterwards; None is the NULL pointer. *)
(** signstate.c:264-274 *)
Definition signstate_generate_keypair (rng : Z -> list Z) (s : option signstate) : err * option signstate :=
  match s with
  | None => (E_INVALID_PARAM, s)
  | Some s =>
    let s := ed25519_generate_keypair rng s in
    (E_NONE, Some (SignState (ss_id s) KEYPAIR (ss_private s) (ss_public s)))
  end.

(** signstate.c:507-520 *)
Definition signstate_clear_key (s : option signstate) : err * option signstate :=
  match s with
  | None => (E_INVALID_PARAM, s)
  | Some s => (E_NONE, Some (SignState (ss_id s) NO_KEY (zeros ss_private_len) (zeros ss_public_len)))
  end.

(** signstate.c:300-324 *)
Definition signstate_set_keypair (s : option signstate) (private_key : cptr) (private_key_len : Z)
    (public_key : cptr) (public_key_len : Z) : outcome (err * option signstate) :=
  match s, private_key, public_key with
  | Some st, Some _, Some _ =>
    if negb (private_key_len =? ss_private_len) then Ok (E_INVALID_LENGTH, s)
    else if negb (public_key_len =? ss_public_len) then Ok (E_INVALID_LENGTH, s)
    else
      let! priv := read_ptr private_key ss_private_len in
      let! pub := read_ptr public_key ss_public_len in
      let e := ed25519_validate_keypair priv pub in
      if negb (is_none e) then Ok (e, s)
      else Ok (E_NONE, Some (SignState (ss_id st) KEYPAIR priv pub))
  | _, _, _ => Ok (E_INVALID_PARAM, s)
  end.

(** signstate.c:351-374: the public key is derived straight into the object *)
Definition signstate_set_keypair_private (s : option signstate) (private_key : cptr) (private_key_len : Z)
    : outcome (err * option signstate) :=
  match s, private_key with
  | Some st, Some _ =>
    if negb (private_key_len =? ss_private_len) then Ok (E_INVALID_LENGTH, s)
    else
      let! priv := read_ptr private_key ss_private_len in
      let '(e, pub) := ed25519_derive_public_key priv in
      let st := SignState (ss_id st) (ss_type st) (ss_private st) pub in
      if negb (is_none e) then Ok (e, snd (signstate_clear_key (Some st)))
      else Ok (E_NONE, Some (SignState (ss_id st) KEYPAIR priv (ss_public st)))
  | _, _ => Ok (E_INVALID_PARAM, s)
  end.

(** signstate.c:394-417: error code and the two buffers afterwards *)
Definition signstate_get_keypair (s : option signstate) (private_key : cptr) (private_key_len : Z)
    (public_key : cptr) (public_key_len : Z) : outcome (err * cptr * cptr) :=
  match s, private_key, public_key with
  | Some st, Some pm, Some qm =>
    if negb (private_key_len =? ss_private_len) then Ok (E_INVALID_LENGTH, private_key, public_key)
    else if negb (public_key_len =? ss_public_len) then Ok (E_INVALID_LENGTH, private_key, public_key)
    else if negb (key_type_eqb (ss_type st) KEYPAIR) then
      let! pm := store pm 0 (zeros private_key_len) in
      let! qm := store qm 0 (zeros public_key_len) in
      Ok (E_INVALID_STATE, Some pm, Some qm)
    else
      let! pm := store pm 0 (take private_key_len (ss_private st)) in
      let! qm := store qm 0 (take public_key_len (ss_public st)) in
      Ok (E_NONE, Some pm, Some qm)
  | _, _, _ => Ok (E_INVALID_PARAM, private_key, public_key)
  end.

(** signstate.c:442-463 *)
Definition signstate_set_public_key (s : option signstate) (public_key : cptr) (public_key_len : Z)
    : outcome (err * option signstate) :=
  match s, public_key with
  | Some st, Some _ =>
    if negb (public_key_len =? ss_public_len) then Ok (E_INVALID_LENGTH, s)
    else
      let! pub := read_ptr public_key ss_public_len in
      let e := ed25519_validate_public_key pub in
      if negb (is_none e) then Ok (e, s)
      else Ok (E_NONE, Some (SignState (ss_id st) PUBLIC (zeros ss_private_len) pub))
  | _, _ => Ok (E_INVALID_PARAM, s)
  end.

(** signstate.c:481-495 *)
Definition signstate_get_public_key (s : option signstate) (public_key : cptr) (public_key_len : Z)
    : outcome (err * cptr) :=
  match s, public_key with
  | Some st, Some qm =>
    if negb (public_key_len =? ss_public_len) then Ok (E_INVALID_LENGTH, public_key)
    else if key_type_eqb (ss_type st) NO_KEY then Ok (E_INVALID_STATE, public_key)
    else
      let! qm := store qm 0 (take public_key_len (ss_public st)) in
      Ok (E_NONE, Some qm)
  | _, _ => Ok (E_INVALID_PARAM, public_key)
  end.

(** signstate.c:544-558 *)
Definition signstate_sign (s : option signstate) (message : cptr) (message_len : Z)
    (signature : cptr) (signature_len : Z) : outcome (err * cptr) :=
  match s, message, signature with
  | Some st, Some _, Some sm =>
    if negb (signature_len =? ss_signature_len) then Ok (E_INVALID_LENGTH, signature)
    else if negb (key_type_eqb (ss_type st) KEYPAIR) then Ok (E_INVALID_PRIVATE_KEY, signature)
    else
      let! m := read_ptr message message_len in
      let '(e, sg) := ed25519_sign_with st m in
      let! sm := store sm 0 sg in
      Ok (e, Some sm)
  | _, _, _ => Ok (E_INVALID_PARAM, signature)
  end.

(** signstate.c:582-596 *)
Definition signstate_verify (s : option signstate) (message : cptr) (message_len : Z)
    (signature : cptr) (signature_len : Z) : outcome err :=
  match s, message, signature with
  | Some st, Some _, Some _ =>
    if negb (signature_len =? ss_signature_len) then Ok E_INVALID_LENGTH
    else if key_type_eqb (ss_type st) NO_KEY then Ok E_INVALID_PUBLIC_KEY
    else
      let! m := read_ptr message message_len in
      let! sg := read_ptr signature ss_signature_len in
      Ok (ed25519_verify_with st m sg)
  | _, _, _ => Ok E_INVALID_PARAM
  end.

(** signstate.c:609-624; when both pointers are the same nothing is copied,
    which is what copying to itself does too *)
Definition signstate_copy (s from : option signstate) : err * option signstate :=
  match s, from with
  | Some st, Some fr =>
    if negb (ss_id st =? ss_id fr) then (E_NOT_APPLICABLE, s)
    else (E_NONE, Some (SignState (ss_id st) (ss_type fr) (ss_private fr) (ss_public fr)))
  | _, _ => (E_INVALID_PARAM, s)
  end.

(** signstate.c:651-670 *)
Definition signstate_format_fingerprint (s : option signstate) (fingerprint_type : Z) (buffer : cptr) (len : Z)
    : outcome (err * cptr) :=
  match buffer with
  | None => Ok (E_INVALID_PARAM, buffer)
  | Some mem =>
    if len =? 0 then Ok (E_INVALID_LENGTH, buffer)
    else
      let! mem := store mem 0 [0] in
      match s with
      | None => Ok (E_INVALID_PARAM, Some mem)
      | Some s =>
        if key_type_eqb (ss_type s) NO_KEY then Ok (E_INVALID_STATE, Some mem)
        else noise_format_fingerprint fingerprint_type (Some mem) len (Some (ss_public s)) ss_public_len
      end
  end.
End Ed25519.
