(** Model of src/protocol/dhstate.c and of the three DH backends
    src/backend/ref/dh-curve25519.c, dh-curve448.c and dh-newhope.c *)
From Verif Require Import Base MUtil.

(** src/protocol/internal.h:206-208 *)
Inductive key_type : Type := NO_KEY | KEYPAIR | PUBLIC.
Definition key_type_eqb (a b : key_type) : bool :=
  match a, b with NO_KEY, NO_KEY | KEYPAIR, KEYPAIR | PUBLIC, PUBLIC => true | _, _ => false end.

(** include/noise/protocol/constants.h:111-112, 49-53 *)
Definition ROLE_INITIATOR : Z := NOISE_ID 82 1.
Definition ROLE_RESPONDER : Z := NOISE_ID 82 2.
Definition DH_NONE : Z := 0.
Definition DH_CURVE25519 : Z := NOISE_ID 68 1.
Definition DH_CURVE448 : Z := NOISE_ID 68 2.
Definition DH_NEWHOPE : Z := NOISE_ID 68 3.

(** The variable part of struct NoiseDHState_s (src/protocol/internal.h:213-357)
    with the arrays of the backend structures: [dd_private] is the array the
    private_key pointer leads to (random_data for New Hope), [dd_public] the
    public_key array, [dd_poly] the bytes of New Hope's private polynomial (empty
    for the curves) and [dd_generated] its generated flag. *)
Record dh_data : Type := DhData {
  dd_role : Z;
  dd_type : key_type;
  dd_private : list Z;
  dd_public : list Z;
  dd_poly : list Z;
  dd_generated : bool
}.
Definition set_type (t : key_type) (d : dh_data) : dh_data :=
  DhData (dd_role d) t (dd_private d) (dd_public d) (dd_poly d) (dd_generated d).
Definition set_keys (priv pub : list Z) (d : dh_data) : dh_data :=
  DhData (dd_role d) (dd_type d) priv pub (dd_poly d) (dd_generated d).

(** The constant part: flags, lengths (a function of the role, see
    noise_newhope_change_role), array sizes and the function pointers.
    [da_generate rng d other]: [rng n] are the n bytes noise_rand_bytes
    delivers.  [da_calculate priv pub]: error code, contents of shared_key and
    the private key object afterwards. *)
Record dh_alg : Type := DhAlg {
  da_id : Z;
  da_ephemeral_only : bool;
  da_nulls_allowed : bool;
  da_private_len : Z -> Z;
  da_public_len : Z -> Z;
  da_shared_len : Z;
  da_private_size : Z;
  da_public_size : Z;
  da_poly_size : Z;
  da_generate : (Z -> list Z) -> dh_data -> option dh_data -> err * dh_data;
  da_set_keypair : dh_data -> list Z -> list Z -> err * dh_data;
  da_set_keypair_private : dh_data -> list Z -> err * dh_data;
  da_validate : dh_data -> list Z -> err;
  da_copy : dh_data -> dh_data -> option dh_data -> err * dh_data;
  da_calculate : dh_data -> dh_data -> err * list Z * dh_data
}.

(** ** Curve25519: src/backend/ref/dh-curve25519.c:34-124.  [base k] is
    curved25519_scalarmult_basepoint, [mult k p] is curve25519_donna. *)
Definition clamp25519 (k : list Z) : list Z :=
  [Z.land (byte_at k 0) 0xF8] ++ sub 1 30 k ++ [Z.lor (Z.land (byte_at k 31) 0x7F) 0x40].
Definition curve25519 (base : list Z -> list Z) (mult : list Z -> list Z -> list Z) : dh_alg :=
  DhAlg DH_CURVE25519 false true (fun _ => 32) (fun _ => 32) 32 32 32 0
    (* 42-51 *) (fun rng d _ => let k := clamp25519 (rng 32) in (E_NONE, set_keys k (base k) d))
    (* 53-66 *) (fun d priv pub =>
      (if noise_is_equal (base priv) pub =? 1 then E_NONE else E_INVALID_PUBLIC_KEY, set_keys priv pub d))
    (* 68-75 *) (fun d priv => (E_NONE, set_keys priv (base priv) d))
    (* 77-82 *) (fun _ _ => E_NONE)
    (* 84-92 *) (fun d from _ => (E_NONE, set_keys (dd_private from) (dd_public from) d))
    (* 94-103 *) (fun priv pub => (E_NONE, mult (dd_private priv) (dd_public pub), priv)).

(** ** Curve448: src/backend/ref/dh-curve448.c:27-126.  [eval k p] is
    curve448_eval: its int result and its output. *)
Definition clamp448 (k : list Z) : list Z :=
  [Z.land (byte_at k 0) 0xFC] ++ sub 1 54 k ++ [Z.lor (byte_at k 55) 0x80].
Definition basepoint448 : list Z := 5 :: zeros 55.
Definition curve448 (eval : list Z -> list Z -> bool * list Z) : dh_alg :=
  DhAlg DH_CURVE448 false true (fun _ => 56) (fun _ => 56) 56 56 56 0
    (* 38-53 *) (fun rng d _ => let k := clamp448 (rng 56) in (E_NONE, set_keys k (snd (eval k basepoint448)) d))
    (* 55-68 *) (fun d priv pub =>
      (if noise_is_equal (snd (eval priv basepoint448)) pub =? 1 then E_NONE else E_INVALID_PUBLIC_KEY, set_keys priv pub d))
    (* 70-77 *) (fun d priv => (E_NONE, set_keys priv (snd (eval priv basepoint448)) d))
    (* 79-84 *) (fun _ _ => E_NONE)
    (* 86-94 *) (fun d from _ => (E_NONE, set_keys (dd_private from) (dd_public from) d))
    (* 96-105 *) (fun priv pub =>
      let '(ok, out) := eval (dd_private priv) (dd_public pub) in
      (if ok then E_NONE else E_INVALID_PUBLIC_KEY, out, priv)).

(** ** New Hope: src/backend/ref/dh-newhope.c:29-177; sizes from
    src/crypto/newhope/params.h:9-14 and poly.h:7-9.  [keygen seed] gives the
    1824 byte message and the 2048 bytes of the polynomial, [sharedb senda seed]
    the 32 byte shared key and the 2048 byte reply, [shareda poly sendb] the 32
    byte shared key. *)
Definition SENDABYTES : Z := 1824.
Definition SENDBBYTES : Z := 2048.
Definition newhope_private_len (role : Z) : Z := if role =? ROLE_RESPONDER then 32 else 64.
Definition newhope_public_len (role : Z) : Z := if role =? ROLE_RESPONDER then SENDBBYTES else SENDABYTES.
Section NewHope.
Variable keygen : list Z -> list Z * list Z.
Variable sharedb : list Z -> list Z -> list Z * list Z.
Variable shareda : list Z -> list Z -> list Z.

(** The call newhope_sharedb((uint8_t * )&private_key, public_key, senda,
    random_data): the shared key overwrites the start of the polynomial. *)
Definition newhope_respond (d : dh_data) (senda : list Z) : dh_data :=
  let '(shared, sendb) := sharedb (take SENDABYTES senda) (take 32 (dd_private d)) in
  DhData (dd_role d) (dd_type d) (dd_private d) (splice 0 sendb (dd_public d)) (splice 0 shared (dd_poly d)) true.
(** The call newhope_keygen(public_key, &private_key, random_data). *)
Definition newhope_initiate (d : dh_data) : dh_data :=
  let '(senda, poly) := keygen (take 64 (dd_private d)) in
  DhData (dd_role d) (dd_type d) (dd_private d) (splice 0 senda (dd_public d)) (splice 0 poly (dd_poly d)) true.
(** Copying seed bytes into random_data *)
Definition newhope_seed (seed : list Z) (d : dh_data) : dh_data :=
  DhData (dd_role d) (dd_type d) (splice 0 seed (dd_private d)) (dd_public d) (dd_poly d) (dd_generated d).

(** dh-newhope.c:39-58 *)
Definition newhope_generate (rng : Z -> list Z) (d : dh_data) (other : option dh_data) : err * dh_data :=
  if dd_role d =? ROLE_RESPONDER then
    match other with
    | None => (E_INVALID_STATE, d)
    | Some os =>
      if key_type_eqb (dd_type os) NO_KEY then (E_INVALID_STATE, d)
      else (E_NONE, newhope_respond (newhope_seed (rng (newhope_private_len (dd_role d))) d) (dd_public os))
    end
  else (E_NONE, newhope_initiate (newhope_seed (rng (newhope_private_len (dd_role d))) d)).

(** dh-newhope.c:60-78 *)
Definition newhope_set_keypair_private (d : dh_data) (priv : list Z) : err * dh_data :=
  let d := newhope_seed priv d in
  if dd_role d =? ROLE_RESPONDER
  then (E_NONE, DhData (dd_role d) (dd_type d) (dd_private d) (zeros SENDBBYTES) (dd_poly d) false)
  else (E_NONE, newhope_initiate d).

(** dh-newhope.c:95-116 *)
Definition newhope_copy (d from : dh_data) (other : option dh_data) : err * dh_data :=
  let d' := DhData (dd_role d) (dd_type d) (dd_private from) (dd_public from) (dd_poly from) (dd_generated from) in
  if (dd_role d =? ROLE_RESPONDER) && negb (dd_generated d') && key_type_eqb (dd_type from) KEYPAIR then
    match other with
    | Some o => (E_NONE, newhope_respond d' (dd_public o))
    | None => (E_NONE, d')
    end
  else (E_NONE, d').

(** dh-newhope.c:118-142.  For a deferred responder key the public key of the
    private key object is rewritten (the const qualifier is cast away). *)
Definition newhope_calculate (priv pub : dh_data) : err * list Z * dh_data :=
  if dd_role priv =? ROLE_RESPONDER then
    if negb (dd_generated priv) then
      let '(shared, sendb) := sharedb (take SENDABYTES (dd_public pub)) (take 32 (dd_private priv)) in
      (E_NONE, shared, DhData (dd_role priv) (dd_type priv) (dd_private priv) (splice 0 sendb (dd_public priv))
                              (dd_poly priv) (dd_generated priv))
    else (E_NONE, take 32 (dd_poly priv), priv)
  else (E_NONE, shareda (dd_poly priv) (take SENDBBYTES (dd_public pub)), priv).

(** dh-newhope.c:80-93, 156-177 *)
Definition newhope : dh_alg :=
  DhAlg DH_NEWHOPE true false newhope_private_len newhope_public_len 32 64 SENDBBYTES 2048
    newhope_generate
    (fun d priv _ => newhope_set_keypair_private d priv)
    newhope_set_keypair_private
    (fun _ _ => E_NONE)
    newhope_copy
    newhope_calculate.
End NewHope.

(** ** src/protocol/dhstate.c *)
Record dhstate : Type := DHState { ds_alg : dh_alg; ds_data : dh_data }.
Definition with_data (s : dhstate) (d : dh_data) : dhstate := DHState (ds_alg s) d.
Definition private_len (s : dhstate) : Z := da_private_len (ds_alg s) (dd_role (ds_data s)).
Definition public_len (s : dhstate) : Z := da_public_len (ds_alg s) (dd_role (ds_data s)).
Definition shared_len (s : dhstate) : Z := da_shared_len (ds_alg s).
(** The public_key_len bytes at the public_key pointer, and the private ones *)
Definition public_key (s : dhstate) : list Z := take (public_len s) (dd_public (ds_data s)).
Definition private_key (s : dhstate) : list Z := take (private_len s) (dd_private (ds_data s)).
Definition dh_key_type (s : dhstate) : key_type := dd_type (ds_data s).

(** dhstate.c:67-98 (allocation succeeds); util.c:135-142 zeroes the memory *)
Definition dhstate_new (alg : dh_alg) : dhstate :=
  DHState alg (DhData 0 NO_KEY (zeros (da_private_size alg)) (zeros (da_public_size alg)) (zeros (da_poly_size alg)) false).

(** dhstate.c:247-253, 267-273; None is the NULL pointer *)
Definition dhstate_has_keypair (s : option dhstate) : bool :=
  match s with Some s => key_type_eqb (dh_key_type s) KEYPAIR | None => false end.
Definition dhstate_has_public_key (s : option dhstate) : bool :=
  match s with Some s => negb (key_type_eqb (dh_key_type s) NO_KEY) | None => false end.

(** dhstate.c:331-347 (non-NULL state) *)
Definition dhstate_generate_dependent_keypair (rng : Z -> list Z) (s : dhstate) (other : option dhstate) : err * dhstate :=
  if match other with Some o => negb (da_id (ds_alg s) =? da_id (ds_alg o)) | None => false end
  then (E_INVALID_PARAM, s)
  else
    let '(e, d) := da_generate (ds_alg s) rng (ds_data s) (option_map ds_data other) in
    (e, with_data s (if is_none e then set_type KEYPAIR d else d)).
(** dhstate.c:289-302 *)
Definition dhstate_generate_keypair (rng : Z -> list Z) (s : dhstate) : err * dhstate :=
  let '(e, d) := da_generate (ds_alg s) rng (ds_data s) None in
  (e, with_data s (if is_none e then set_type KEYPAIR d else d)).

(** dhstate.c:622-635 *)
Definition clear_data (s : dhstate) : dhstate :=
  let d := ds_data s in
  with_data s (DhData (dd_role d) NO_KEY (splice 0 (zeros (private_len s)) (dd_private d))
                      (splice 0 (zeros (public_len s)) (dd_public d)) (dd_poly d) (dd_generated d)).
Definition dhstate_clear_key (s : option dhstate) : err * option dhstate :=
  match s with
  | None => (E_INVALID_PARAM, None)
  | Some s => (E_NONE, Some (clear_data s))
  end.

(** dhstate.c:373-395 (non-NULL state) *)
Definition dhstate_set_keypair (s : dhstate) (priv : cptr) (priv_len : Z) (pub : cptr) (pub_len : Z)
  : outcome (err * dhstate) :=
  match priv, pub with
  | None, _ | _, None => Ok (E_INVALID_PARAM, s)
  | Some _, Some _ =>
    if negb (priv_len =? private_len s) then Ok (E_INVALID_LENGTH, s)
    else if negb (pub_len =? public_len s) then Ok (E_INVALID_LENGTH, s)
    else
      let! p := read_ptr priv priv_len in
      let! q := read_ptr pub pub_len in
      let '(e, d) := da_set_keypair (ds_alg s) (ds_data s) p q in
      if negb (is_none e) then Ok (e, clear_data (with_data s d))
      else Ok (E_NONE, with_data s (set_type KEYPAIR d))
  end.

(** dhstate.c:422-441 (non-NULL state) *)
Definition dhstate_set_keypair_private (s : dhstate) (priv : cptr) (priv_len : Z) : outcome (err * dhstate) :=
  match priv with
  | None => Ok (E_INVALID_PARAM, s)
  | Some _ =>
    if negb (priv_len =? private_len s) then Ok (E_INVALID_LENGTH, s)
    else
      let! p := read_ptr priv priv_len in
      let '(e, d) := da_set_keypair_private (ds_alg s) (ds_data s) p in
      if negb (is_none e) then Ok (e, clear_data (with_data s d))
      else Ok (E_NONE, with_data s (set_type KEYPAIR d))
  end.

(** dhstate.c:461-484 (non-NULL state and buffers): the two output buffers
    afterwards, None when they are not written *)
Definition dhstate_get_keypair (s : dhstate) (priv_len pub_len : Z) : err * option (list Z * list Z) :=
  if negb (priv_len =? private_len s) then (E_INVALID_LENGTH, None)
  else if negb (pub_len =? public_len s) then (E_INVALID_LENGTH, None)
  else if negb (key_type_eqb (dh_key_type s) KEYPAIR) then (E_INVALID_STATE, Some (zeros priv_len, zeros pub_len))
  else (E_NONE, Some (private_key s, public_key s)).

(** dhstate.c:510-534 (non-NULL state) *)
Definition dhstate_set_public_key (s : dhstate) (pub : cptr) (pub_len : Z) : outcome (err * dhstate) :=
  match pub with
  | None => Ok (E_INVALID_PARAM, s)
  | Some _ =>
    if negb (pub_len =? public_len s) then Ok (E_INVALID_LENGTH, s)
    else
      let! q := read_ptr pub pub_len in
      let is_null := Z.land (if da_nulls_allowed (ds_alg s) then 1 else 0) (noise_is_zero q) in
      let e := da_validate (ds_alg s) (ds_data s) q in
      let e := if is_null =? 1 then E_NONE else e in
      if negb (is_none e) then Ok (e, s)
      else
        let d := ds_data s in
        Ok (E_NONE, with_data s (DhData (dd_role d) PUBLIC (splice 0 (zeros (private_len s)) (dd_private d))
                                        (splice 0 q (dd_public d)) (dd_poly d) (dd_generated d)))
  end.

(** dhstate.c:550-562 (non-NULL state and buffer) *)
Definition dhstate_get_public_key (s : dhstate) (pub_len : Z) : err * option (list Z) :=
  if negb (pub_len =? public_len s) then (E_INVALID_LENGTH, None) else (E_NONE, Some (public_key s)).

(** dhstate.c:576-589 (non-NULL state) *)
Definition dhstate_set_null_public_key (s : dhstate) : err * dhstate :=
  if negb (da_nulls_allowed (ds_alg s)) then (E_INVALID_PARAM, s)
  else
    let d := ds_data s in
    (E_NONE, with_data s (DhData (dd_role d) PUBLIC (splice 0 (zeros (private_len s)) (dd_private d))
                                 (splice 0 (zeros (public_len s)) (dd_public d)) (dd_poly d) (dd_generated d))).

(** dhstate.c:602-610 *)
Definition dhstate_is_null_public_key (s : option dhstate) : bool :=
  match s with
  | Some s =>
    if key_type_eqb (dh_key_type s) NO_KEY then false
    else da_nulls_allowed (ds_alg s) && (noise_is_zero (public_key s) =? 1)
  | None => false
  end.

(** dhstate.c:645-657 *)
Definition cmove_zero (data : list Z) (condition : Z) : list Z :=
  let mask := Z.lxor 255 ((- condition) mod 256) in map (fun b => Z.land b mask) data.

(** dhstate.c:685-717 (non-NULL private and shared_key; None: NULL public_key_state).
    Results: error, shared_key if written, the private key object. *)
Definition dhstate_calculate (priv : dhstate) (pub : option dhstate) (shared_key_len : Z)
  : err * option (list Z) * dhstate :=
  match pub with
  | None => (E_INVALID_PARAM, None, priv)
  | Some pub =>
    if negb (da_id (ds_alg priv) =? da_id (ds_alg pub)) then (E_INVALID_PARAM, None, priv)
    else if negb (shared_key_len =? shared_len priv) then (E_INVALID_LENGTH, None, priv)
    else if negb (key_type_eqb (dh_key_type priv) KEYPAIR) then (E_INVALID_PRIVATE_KEY, None, priv)
    else
      let is_null := Z.land (if da_nulls_allowed (ds_alg pub) then 1 else 0) (noise_is_zero (public_key pub)) in
      let '(e, out, d) := da_calculate (ds_alg priv) (ds_data priv) (ds_data pub) in
      (if is_null =? 1 then E_NONE else e, Some (cmove_zero out is_null), with_data priv d)
  end.

(** dhstate.c:730-748 (non-NULL, distinct objects) *)
Definition dhstate_copy (s from : dhstate) : err * dhstate :=
  if negb (da_id (ds_alg s) =? da_id (ds_alg from)) then (E_NOT_APPLICABLE, s)
  else
    let '(e, d) := da_copy (ds_alg s) (ds_data s) (ds_data from) None in
    if negb (is_none e) then (e, with_data s d)
    else (e, with_data s (set_type (dd_type (ds_data from)) d)).

(** dhstate.c:775-793 (non-NULL state) *)
Definition dhstate_format_fingerprint (s : dhstate) (fingerprint_type : Z) (buffer : cptr) (len : Z) : outcome (err * cptr) :=
  match buffer with
  | None => Ok (E_INVALID_PARAM, None)
  | Some mem =>
    if len =? 0 then Ok (E_INVALID_LENGTH, buffer)
    else
      let! mem := store mem 0 [0] in
      if key_type_eqb (dh_key_type s) NO_KEY then Ok (E_INVALID_STATE, Some mem)
      else noise_format_fingerprint fingerprint_type (Some mem) len (Some (public_key s)) (public_len s)
  end.

(** dhstate.c:805-808 *)
Definition dhstate_get_role (s : option dhstate) : Z := match s with Some s => dd_role (ds_data s) | None => 0 end.
(** dhstate.c:835-845; change_role (dh-newhope.c:144-154) is in [da_private_len]
    and [da_public_len] *)
Definition dhstate_set_role (s : option dhstate) (role : Z) : err * option dhstate :=
  match s with
  | None => (E_INVALID_PARAM, None)
  | Some s =>
    if negb (role =? ROLE_INITIATOR) && negb (role =? ROLE_RESPONDER) && negb (role =? 0) then (E_INVALID_PARAM, Some s)
    else
      let d := ds_data s in
      (E_NONE, Some (with_data s (DhData role (dd_type d) (dd_private d) (dd_public d) (dd_poly d) (dd_generated d))))
  end.
