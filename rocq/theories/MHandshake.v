(** Model of src/protocol/handshakestate.c *)
From Verif Require Import Base MUtil MCipher MHash MSymm MNames MPatterns MDh.

(** include/noise/protocol/constants.h:115-120 *)
Definition ACTION_NONE : Z := 0.
Definition ACTION_WRITE_MESSAGE : Z := NOISE_ID 65 1.
Definition ACTION_READ_MESSAGE : Z := NOISE_ID 65 2.
Definition ACTION_FAILED : Z := NOISE_ID 65 3.
Definition ACTION_SPLIT : Z := NOISE_ID 65 4.
Definition ACTION_COMPLETE : Z := NOISE_ID 65 5.
(** include/noise/protocol/constants.h:102-103, 61, 73; src/protocol/internal.h:53 *)
Definition PREFIX_STANDARD : Z := NOISE_ID 78 1.
Definition PREFIX_PSK : Z := NOISE_ID 78 2.
Definition PATTERN_NN : Z := NOISE_ID 80 4.
Definition PATTERN_XX_FALLBACK : Z := NOISE_ID 80 16.
Definition PSK_LEN : Z := 32.

(** src/protocol/internal.h:637-649 *)
Definition REQ_LOCAL_REQUIRED : Z := 1.
Definition REQ_REMOTE_REQUIRED : Z := 2.
Definition REQ_PSK : Z := 4.
Definition REQ_FALLBACK_PREMSG : Z := 8.
Definition REQ_LOCAL_PREMSG : Z := 16.
Definition REQ_REMOTE_PREMSG : Z := 32.
Definition REQ_FALLBACK_POSSIBLE : Z := 64.

(** (x & mask) != 0 *)
Definition has_bit (x mask : Z) : bool := negb (Z.land x mask =? 0).
(** Subtraction of size_t values *)
Definition size_sub (a b : Z) : Z := (a - b) mod 2^64.

(** The key objects of a HandshakeState: dh_local_static, dh_local_ephemeral,
    dh_local_hybrid and the three for the remote party *)
Record key_objects : Type := KeyObjects {
  ko_static : option dhstate;
  ko_ephemeral : option dhstate;
  ko_hybrid : option dhstate
}.
Inductive key_slot : Type := Static | Ephemeral | Hybrid.
Definition get_slot (k : key_objects) (w : key_slot) : option dhstate :=
  match w with Static => ko_static k | Ephemeral => ko_ephemeral k | Hybrid => ko_hybrid k end.
Definition put_slot (k : key_objects) (w : key_slot) (d : option dhstate) : key_objects :=
  match w with
  | Static => KeyObjects d (ko_ephemeral k) (ko_hybrid k)
  | Ephemeral => KeyObjects (ko_static k) d (ko_hybrid k)
  | Hybrid => KeyObjects (ko_static k) (ko_ephemeral k) d
  end.

(** struct NoiseHandshakeState_s, src/protocol/internal.h:531-586.  [hs_tokens]
    is the pattern from the tokens pointer on; [hs_psk] the first
    pre_shared_key_len bytes (0 or 32) of pre_shared_key; [hs_prologue] the
    prologue copy. *)
Record handshakestate : Type := HandState {
  hs_requirements : Z;
  hs_action : Z;
  hs_tokens : list Z;
  hs_role : Z;
  hs_symmetric : symmetricstate;
  hs_local : key_objects;
  hs_remote : key_objects;
  hs_fixed_ephemeral : option dhstate;
  hs_fixed_hybrid : option dhstate;
  hs_psk : list Z;
  hs_prologue : list Z
}.
Definition set_action (a : Z) (s : handshakestate) : handshakestate :=
  HandState (hs_requirements s) a (hs_tokens s) (hs_role s) (hs_symmetric s) (hs_local s) (hs_remote s)
            (hs_fixed_ephemeral s) (hs_fixed_hybrid s) (hs_psk s) (hs_prologue s).
Definition set_tokens (t : list Z) (s : handshakestate) : handshakestate :=
  HandState (hs_requirements s) (hs_action s) t (hs_role s) (hs_symmetric s) (hs_local s) (hs_remote s)
            (hs_fixed_ephemeral s) (hs_fixed_hybrid s) (hs_psk s) (hs_prologue s).
Definition set_symmetric (y : symmetricstate) (s : handshakestate) : handshakestate :=
  HandState (hs_requirements s) (hs_action s) (hs_tokens s) (hs_role s) y (hs_local s) (hs_remote s)
            (hs_fixed_ephemeral s) (hs_fixed_hybrid s) (hs_psk s) (hs_prologue s).
Definition set_local (w : key_slot) (d : option dhstate) (s : handshakestate) : handshakestate :=
  HandState (hs_requirements s) (hs_action s) (hs_tokens s) (hs_role s) (hs_symmetric s) (put_slot (hs_local s) w d) (hs_remote s)
            (hs_fixed_ephemeral s) (hs_fixed_hybrid s) (hs_psk s) (hs_prologue s).
Definition set_remote (w : key_slot) (d : option dhstate) (s : handshakestate) : handshakestate :=
  HandState (hs_requirements s) (hs_action s) (hs_tokens s) (hs_role s) (hs_symmetric s) (hs_local s) (put_slot (hs_remote s) w d)
            (hs_fixed_ephemeral s) (hs_fixed_hybrid s) (hs_psk s) (hs_prologue s).
Definition set_fixed_ephemeral (d : option dhstate) (s : handshakestate) : handshakestate :=
  HandState (hs_requirements s) (hs_action s) (hs_tokens s) (hs_role s) (hs_symmetric s) (hs_local s) (hs_remote s)
            d (hs_fixed_hybrid s) (hs_psk s) (hs_prologue s).
Definition set_fixed_hybrid (d : option dhstate) (s : handshakestate) : handshakestate :=
  HandState (hs_requirements s) (hs_action s) (hs_tokens s) (hs_role s) (hs_symmetric s) (hs_local s) (hs_remote s)
            (hs_fixed_ephemeral s) d (hs_psk s) (hs_prologue s).
Definition set_psk (k : list Z) (s : handshakestate) : handshakestate :=
  HandState (hs_requirements s) (hs_action s) (hs_tokens s) (hs_role s) (hs_symmetric s) (hs_local s) (hs_remote s)
            (hs_fixed_ephemeral s) (hs_fixed_hybrid s) k (hs_prologue s).
Definition set_prologue_copy (p : list Z) (s : handshakestate) : handshakestate :=
  HandState (hs_requirements s) (hs_action s) (hs_tokens s) (hs_role s) (hs_symmetric s) (hs_local s) (hs_remote s)
            (hs_fixed_ephemeral s) (hs_fixed_hybrid s) (hs_psk s) p.
Definition prefix_of (s : handshakestate) : Z := pi_prefix (ss_id (hs_symmetric s)).

(** The algorithms compiled into the library: the results of looking up a
    cipher, hash or DH identifier (None: UNKNOWN_ID).  A hash comes with the
    memory of a fresh context. *)
Record library : Type := Library {
  lib_cipher : Z -> option cipher_alg;
  lib_hash : Z -> option (hash_alg * hctx);
  lib_dh : Z -> option dh_alg
}.

(** What a call takes from outside: the random bytes delivered when the token
    asks for that many, and the contents of fresh stack memory. *)
Record environment : Type := Environment {
  env_rand : Z -> Z -> list Z;
  env_stack : Z -> list Z
}.

(** handshakestate.c:60-84 (role is not used) *)
Definition requirements_for (flags prefix_id : Z) (is_fallback : bool) : Z :=
  let r := 0 in
  let r := if has_bit flags FLAG_LOCAL_STATIC then Z.lor r REQ_LOCAL_REQUIRED else r in
  let r := if has_bit flags FLAG_LOCAL_REQUIRED then Z.lor (Z.lor r REQ_LOCAL_REQUIRED) REQ_LOCAL_PREMSG else r in
  let r := if has_bit flags FLAG_REMOTE_REQUIRED then Z.lor (Z.lor r REQ_REMOTE_REQUIRED) REQ_REMOTE_PREMSG else r in
  let r := if has_bit flags (Z.lor FLAG_REMOTE_EPHEM_REQ FLAG_LOCAL_EPHEM_REQ)
           then (if is_fallback then Z.lor r REQ_FALLBACK_PREMSG else r) else r in
  let r := if prefix_id =? PREFIX_PSK then Z.lor r REQ_PSK else r in
  r.

(** What the caller's NoiseHandshakeState pointer designates afterwards. *)
Inductive handle : Type := Null | Live (s : handshakestate) | Dangling.

(** noise_dhstate_new_by_id with the object stored, if no error has occurred yet *)
Definition make_dh (lib : library) (wanted : bool) (id : Z) (e : err) : err * option dhstate :=
  if wanted && is_none e then
    match lib_dh lib id with
    | None => (E_UNKNOWN_ID, None)
    | Some alg => (E_NONE, Some (dhstate_new alg))
    end
  else (e, None).
(** The hybrid variant, lines 171-178 and 185-192: the else branch belongs to
    the outer if and overrides any earlier error *)
Definition make_hybrid (lib : library) (wanted : bool) (hybrid_id : Z) (e : err) : err * option dhstate :=
  if wanted && is_none e then
    if negb (hybrid_id =? DH_NONE) then make_dh lib true hybrid_id E_NONE else (E_NOT_APPLICABLE, None)
  else if negb (hybrid_id =? DH_NONE) then (E_NOT_APPLICABLE, None)
  else (e, None).
Definition ephemeral_only (d : option dhstate) : bool :=
  match d with Some d => da_ephemeral_only (ds_alg d) | None => false end.
Definition is_null_ptr {A} (p : option A) : bool := match p with None => true | Some _ => false end.

(** The two flag bytes in front of a pattern *)
Definition pattern_flags (pattern : list Z) : Z := Z.lor (byte_at pattern 0) (Z.shiftl (byte_at pattern 1) 8).

(** handshakestate.c:102-231; allocation succeeds *)
Definition handshakestate_new (lib : library) (symmetric : symmetricstate) (role : Z) : err * handle :=
  match noise_pattern_lookup (pi_pattern (ss_id symmetric)) with
  | None => (E_UNKNOWN_ID, Null)
  | Some pattern =>
    let flags := pattern_flags pattern in
    let extra_reqs := if has_bit flags FLAG_REMOTE_REQUIRED then REQ_FALLBACK_POSSIBLE else 0 in
    let flags := if role =? ROLE_RESPONDER then reverse_flags flags else flags in
    let '(local_dh_role, remote_dh_role) :=
      if has_bit flags FLAG_REMOTE_EPHEM_REQ then
        if role =? ROLE_INITIATOR then (ROLE_RESPONDER, ROLE_INITIATOR) else (ROLE_INITIATOR, ROLE_RESPONDER)
      else
        if role =? ROLE_INITIATOR then (ROLE_INITIATOR, ROLE_RESPONDER) else (ROLE_RESPONDER, ROLE_INITIATOR) in
    let requirements := Z.lor extra_reqs (requirements_for flags (pi_prefix (ss_id symmetric)) false) in
    let dh_id := pi_dh (ss_id symmetric) in
    let hybrid_id := pi_hybrid (ss_id symmetric) in
    let e := E_NONE in
    let '(e, ls) := make_dh lib (has_bit flags FLAG_LOCAL_STATIC) dh_id e in
    let '(e, le) := make_dh lib (has_bit flags FLAG_LOCAL_EPHEMERAL) dh_id e in
    let '(e, lh) := make_hybrid lib (has_bit flags FLAG_LOCAL_HYBRID) hybrid_id e in
    let '(e, rs) := make_dh lib (has_bit flags FLAG_REMOTE_STATIC) dh_id e in
    let '(e, re) := make_dh lib (has_bit flags FLAG_REMOTE_EPHEMERAL) dh_id e in
    let '(e, rh) := make_hybrid lib (has_bit flags FLAG_REMOTE_HYBRID) hybrid_id e in
    let le := snd (dhstate_set_role le local_dh_role) in
    let ls := snd (dhstate_set_role ls local_dh_role) in
    let re := snd (dhstate_set_role re remote_dh_role) in
    let rs := snd (dhstate_set_role rs remote_dh_role) in
    let e :=
      if is_none e then
        let e := if ephemeral_only ls then E_NOT_APPLICABLE else e in
        let e := if ephemeral_only rs then E_NOT_APPLICABLE else e in
        if ephemeral_only le then (if is_null_ptr re then E_NOT_APPLICABLE else e)
        else if ephemeral_only re then E_NOT_APPLICABLE else e
      else e in
    if negb (is_none e) then (e, Dangling)
    else (E_NONE, Live (HandState requirements ACTION_NONE (drop 2 pattern) role symmetric
                                  (KeyObjects ls le lh) (KeyObjects rs re rh) None None [] []))
  end.

(** handshakestate.c:256-278 (state not NULL) *)
Definition handshakestate_new_by_id (lib : library) (id : option (protocol_id * list Z)) (role : Z) : outcome (err * handle) :=
  match id with
  | None => Ok (E_INVALID_PARAM, Null)
  | Some (p, _) =>
    if negb (role =? ROLE_INITIATOR) && negb (role =? ROLE_RESPONDER) then Ok (E_INVALID_PARAM, Null)
    else
      let! r := symmetricstate_new_by_id (lib_cipher lib (pi_cipher p)) (lib_hash lib (pi_hash p)) id in
      match r with
      | (E_NONE, Some symmetric) => Ok (handshakestate_new lib symmetric role)
      | (e, _) => Ok (e, Null)
      end
  end.
(** handshakestate.c:302-324 (state not NULL); [name] holds a NUL-terminated string *)
Definition handshakestate_new_by_name (lib : library) (name : cptr) (role : Z) : outcome (err * handle) :=
  match name with
  | None => Ok (E_INVALID_PARAM, Null)
  | Some _ =>
    if negb (role =? ROLE_INITIATOR) && negb (role =? ROLE_RESPONDER) then Ok (E_INVALID_PARAM, Null)
    else
      let! r := symmetricstate_new_by_name (lib_cipher lib) (lib_hash lib) name in
      match r with
      | (E_NONE, Some symmetric) => Ok (handshakestate_new lib symmetric role)
      | (e, _) => Ok (e, Null)
      end
  end.

(** handshakestate.c:417-421, 438-442: the caller may apply any DHState function
    to the static key objects; see SHandshake.v.
    handshakestate.c:458-476 (non-NULL state): the object, after creating it *)
Definition get_fixed_ephemeral_dh (lib : library) (s : handshakestate) : option dhstate * handshakestate :=
  match ko_ephemeral (hs_local s) with
  | None => (None, s)
  | Some le =>
    match hs_fixed_ephemeral s with
    | Some d => (Some d, s)
    | None =>
      match lib_dh lib (pi_dh (ss_id (hs_symmetric s))) with
      | None => (None, s)
      | Some alg =>
        let d := snd (dhstate_set_role (Some (dhstate_new alg)) (dhstate_get_role (Some le))) in
        (d, set_fixed_ephemeral d s)
      end
    end
  end.
(** handshakestate.c:494-518 (non-NULL state) *)
Definition get_fixed_hybrid_dh (lib : library) (s : handshakestate) : option dhstate * handshakestate :=
  match ko_hybrid (hs_local s) with
  | None => (None, s)
  | Some _ =>
    match hs_fixed_hybrid s with
    | Some d => (Some d, s)
    | None =>
      match lib_dh lib (pi_hybrid (ss_id (hs_symmetric s))) with
      | None => (None, s)
      | Some alg =>
        let d := snd (dhstate_set_role (Some (dhstate_new alg)) (dhstate_get_role (ko_ephemeral (hs_local s)))) in
        (d, set_fixed_hybrid d s)
      end
    end
  end.

(** handshakestate.c:531-537, 550-556, 663-670, 685-690, 711-718, 735-740 (non-NULL state) *)
Definition needs_pre_shared_key (s : handshakestate) : bool :=
  if negb (zlen (hs_psk s) =? 0) then false else has_bit (hs_requirements s) REQ_PSK.
Definition has_pre_shared_key (s : handshakestate) : bool := negb (zlen (hs_psk s) =? 0).
Definition needs_local_keypair (s : handshakestate) : bool :=
  if negb (has_bit (hs_requirements s) REQ_LOCAL_REQUIRED) then false
  else negb (dhstate_has_keypair (ko_static (hs_local s))).
Definition has_local_keypair (s : handshakestate) : bool :=
  if is_null_ptr (ko_static (hs_local s)) then false else dhstate_has_keypair (ko_static (hs_local s)).
Definition needs_remote_public_key (s : handshakestate) : bool :=
  if negb (has_bit (hs_requirements s) REQ_REMOTE_REQUIRED) then false
  else negb (dhstate_has_public_key (ko_static (hs_remote s))).
Definition has_remote_public_key (s : handshakestate) : bool :=
  if is_null_ptr (ko_static (hs_remote s)) then false else dhstate_has_public_key (ko_static (hs_remote s)).

(** handshakestate.c:578-595 (non-NULL state) *)
Definition set_pre_shared_key (s : handshakestate) (key : cptr) (key_len : Z) : outcome (err * handshakestate) :=
  match key with
  | None => Ok (E_INVALID_PARAM, s)
  | Some _ =>
    if negb (key_len =? PSK_LEN) then Ok (E_INVALID_LENGTH, s)
    else if negb (prefix_of s =? PREFIX_PSK) then Ok (E_NOT_APPLICABLE, s)
    else if negb (hs_action s =? ACTION_NONE) then Ok (E_INVALID_STATE, s)
    else
      let! k := read_ptr key key_len in
      Ok (E_NONE, set_psk k s)
  end.

(** handshakestate.c:618-645 (non-NULL state; malloc succeeds) *)
Definition set_prologue (s : handshakestate) (prologue : cptr) (prologue_len : Z) : outcome (err * handshakestate) :=
  match prologue with
  | None => Ok (E_INVALID_PARAM, s)
  | Some _ =>
    if negb (hs_action s =? ACTION_NONE) then Ok (E_INVALID_STATE, s)
    else
      let! p := read_ptr prologue prologue_len in
      Ok (E_NONE, set_prologue_copy p s)
  end.

(** handshakestate.c:748-755 and 763-770 *)
Definition mix_public_key (y : symmetricstate) (dh : option dhstate) : outcome symmetricstate :=
  match dh with
  | Some d =>
    if dhstate_has_public_key dh then
      let! r := symmetricstate_mix_hash y (Some (dd_public (ds_data d))) (public_len d) in Ok (snd r)
    else Ok y
  | None => Ok y
  end.
Definition mix_chaining_key (y : symmetricstate) (dh : option dhstate) : outcome symmetricstate :=
  match dh with
  | Some d =>
    if dhstate_has_public_key dh then
      let! r := symmetricstate_mix_key y (Some (dd_public (ds_data d))) (public_len d) in Ok (snd r)
    else Ok y
  | None => Ok y
  end.
Definition when (c : bool) (f : symmetricstate -> outcome symmetricstate) (y : symmetricstate) : outcome symmetricstate :=
  if c then f y else Ok y.

(** handshakestate.c:823-838: prologue and pre-shared key *)
Definition start_prologue (s : handshakestate) : outcome symmetricstate :=
  let! r := (if negb (zlen (hs_prologue s) =? 0)
             then symmetricstate_mix_hash (hs_symmetric s) (Some (hs_prologue s)) (zlen (hs_prologue s))
             else symmetricstate_mix_hash (hs_symmetric s) (Some (zeros PSK_LEN)) 0) in
  Ok (snd r).
(** handshakestate.c:840-850 *)
Definition start_psk (s : handshakestate) (y : symmetricstate) : outcome symmetricstate :=
  if negb (zlen (hs_psk s) =? 0) then
    let hash_len := ha_hash_len (ss_hash y) in
    let! r := hashstate_hkdf (ss_hash y) (ss_hctx y) (Some (ss_ck y)) hash_len
                (Some (hs_psk s)) (zlen (hs_psk s)) hash_len hash_len in
    match r with
    | (_, c', Some (ck, temp)) =>
      let y := SymState (ss_id y) (ss_cipher y) (ss_hash y) c' ck (ss_h y) in
      let! r := symmetricstate_mix_hash y (Some temp) hash_len in
      Ok (snd r)
    | _ => UB (* temp left uninitialised *)
    end
  else Ok y.
(** handshakestate.c:852-881 *)
Definition start_keys (s : handshakestate) (y : symmetricstate) : outcome symmetricstate :=
  let req m := has_bit (hs_requirements s) m in
  if hs_role s =? ROLE_INITIATOR then
    let! y := when (req REQ_LOCAL_PREMSG) (fun y => mix_public_key y (ko_static (hs_local s))) y in
    let! y := when (req REQ_FALLBACK_PREMSG) (fun y =>
      let! y := mix_public_key y (ko_ephemeral (hs_remote s)) in
      let! y := when (negb (is_null_ptr (ko_hybrid (hs_remote s)))) (fun y => mix_public_key y (ko_hybrid (hs_remote s))) y in
      when (req REQ_PSK) (fun y => mix_chaining_key y (ko_ephemeral (hs_remote s))) y) y in
    when (req REQ_REMOTE_PREMSG) (fun y => mix_public_key y (ko_static (hs_remote s))) y
  else
    let! y := when (req REQ_REMOTE_PREMSG) (fun y => mix_public_key y (ko_static (hs_remote s))) y in
    let! y := when (req REQ_FALLBACK_PREMSG) (fun y =>
      let! y := mix_public_key y (ko_ephemeral (hs_local s)) in
      let! y := when (negb (is_null_ptr (ko_hybrid (hs_local s)))) (fun y => mix_public_key y (ko_hybrid (hs_local s))) y in
      when (req REQ_PSK) (fun y => mix_chaining_key y (ko_ephemeral (hs_local s))) y) y in
    when (req REQ_LOCAL_PREMSG) (fun y => mix_public_key y (ko_static (hs_local s))) y.

(** handshakestate.c:800-885 (non-NULL state) *)
Definition handshakestate_start (s : handshakestate) : outcome (err * handshakestate) :=
  let req m := has_bit (hs_requirements s) m in
  if negb (hs_action s =? ACTION_NONE) then Ok (E_INVALID_STATE, s)
  else if (pi_pattern (ss_id (hs_symmetric s)) =? PATTERN_XX_FALLBACK) && negb (req REQ_FALLBACK_PREMSG)
  then Ok (E_NOT_APPLICABLE, s)
  else if req REQ_LOCAL_REQUIRED && negb (dhstate_has_keypair (ko_static (hs_local s)))
  then Ok (E_LOCAL_KEY_REQUIRED, s)
  else if req REQ_REMOTE_REQUIRED && negb (dhstate_has_public_key (ko_static (hs_remote s)))
  then Ok (E_REMOTE_KEY_REQUIRED, s)
  else if req REQ_PSK && (zlen (hs_psk s) =? 0) then Ok (E_PSK_REQUIRED, s)
  else
    let! y := start_prologue s in
    let! y := start_psk s y in
    let! y := start_keys s y in
    Ok (E_NONE, set_action (if hs_role s =? ROLE_INITIATOR then ACTION_WRITE_MESSAGE else ACTION_READ_MESSAGE)
                           (set_symmetric y s)).

(** handshakestate.c:973-1079 (non-NULL state).  The local name buffer has
    arbitrary contents, here zeros; the reserved id fields of an existing object
    are zero, as noise_protocol_id_to_name has checked. *)
Definition handshakestate_fallback_to (s : handshakestate) (pattern_id : Z) : outcome (err * handshakestate) :=
  let id := ss_id (hs_symmetric s) in
  if (pi_pattern id <? PATTERN_NN) || negb (has_bit (hs_requirements s) REQ_FALLBACK_POSSIBLE)
  then Ok (E_NOT_APPLICABLE, s)
  else
    match noise_pattern_lookup pattern_id with
    | None => Ok (E_NOT_APPLICABLE, s)
    | Some pattern =>
      let flags := pattern_flags pattern in
      if negb (has_bit flags FLAG_REMOTE_EPHEM_REQ) then Ok (E_NOT_APPLICABLE, s)
      else
        let initiator := hs_role s =? ROLE_INITIATOR in
        let keys := if initiator then hs_local s else hs_remote s in
        if (if initiator
            then negb (hs_action s =? ACTION_FAILED) && negb (hs_action s =? ACTION_READ_MESSAGE)
            else negb (hs_action s =? ACTION_FAILED) && negb (hs_action s =? ACTION_WRITE_MESSAGE))
        then Ok (E_INVALID_STATE, s)
        else if negb (dhstate_has_public_key (ko_ephemeral keys)) then Ok (E_INVALID_STATE, s)
        else if negb (is_null_ptr (ko_hybrid keys)) && negb (dhstate_has_public_key (ko_hybrid keys))
        then Ok (E_INVALID_STATE, s)
        else
          let id' := ProtocolId (pi_prefix id) pattern_id (pi_dh id) (pi_cipher id) (pi_hash id) (pi_hybrid id) in
          let! r := noise_protocol_id_to_name (Some (zeros MAX_PROTOCOL_NAME)) MAX_PROTOCOL_NAME (Some (id', zeros 4)) in
          match r with
          | (E_NONE, Some mem) =>
            let name := take (c_strlen mem) mem in
            let clear d := snd (dhstate_clear_key d) in
            let '(local', remote', role') :=
              if initiator
              then (hs_local s,
                    KeyObjects (clear (ko_static (hs_remote s))) (clear (ko_ephemeral (hs_remote s))) (clear (ko_hybrid (hs_remote s))),
                    ROLE_RESPONDER)
              else (KeyObjects (ko_static (hs_local s)) (clear (ko_ephemeral (hs_local s))) (clear (ko_hybrid (hs_local s))),
                    KeyObjects (if negb (has_bit flags FLAG_REMOTE_REQUIRED) then clear (ko_static (hs_remote s)) else ko_static (hs_remote s))
                               (ko_ephemeral (hs_remote s)) (ko_hybrid (hs_remote s)),
                    ROLE_INITIATOR) in
            let flags := if role' =? ROLE_RESPONDER then reverse_flags flags else flags in
            let y := hs_symmetric s in
            let hash_len := ha_hash_len (ss_hash y) in
            let! ch := (if zlen name <=? hash_len then Ok (ss_hctx y, name ++ zeros (hash_len - zlen name))
                        else
                          let! r := hashstate_hash_one (ss_hash y) (ss_hctx y) (Some name) (zlen name) hash_len in
                          match r with
                          | (_, c', Some h) => Ok (c', h)
                          | (_, c', None) => Ok (c', ss_h y)
                          end) in
            let '(c', h) := ch in
            match ss_cipher y with
            | None => UB (* NULL dereference *)
            | Some cs =>
              let y' := SymState id' (Some (CipherState (cs_alg cs) false (cs_key cs) 0)) (ss_hash y) c' h h in
              Ok (E_NONE, HandState (requirements_for flags (pi_prefix id) true) ACTION_NONE (drop 2 pattern) role' y'
                                    local' remote' (hs_fixed_ephemeral s) (hs_fixed_hybrid s) (hs_psk s) (hs_prologue s))
            end
          | (e, _) => Ok (e, s)
          end
    end.
(** handshakestate.c:921-924 *)
Definition handshakestate_fallback (s : handshakestate) : outcome (err * handshakestate) :=
  handshakestate_fallback_to s PATTERN_XX_FALLBACK.

(** handshakestate.c:1128-1138.  [priv] is the slot of the local key, [pub] of
    the remote key.  When noise_dhstate_calculate does not write it, the shared
    key is fresh stack memory. *)
Definition mix_dh (env : environment) (s : handshakestate) (priv pub : key_slot) : outcome (err * handshakestate) :=
  match get_slot (hs_local s) priv with
  | None => UB (* NULL dereference *)
  | Some p =>
    let len := shared_len p in
    let '(e, out, p') := dhstate_calculate p (get_slot (hs_remote s) pub) len in
    let shared := match out with Some k => k | None => env_stack env len end in
    let! r := symmetricstate_mix_key (hs_symmetric s) (Some shared) len in
    Ok (e, set_symmetric (snd r) (set_local priv (Some p') s))
  end.

(** The DH tokens EE, ES, SE, SS and FF, the same in lines 1234-1263, 1301-1305
    and in lines 1506-1535, 1574-1578 *)
Definition dh_token (env : environment) (s : handshakestate) (token : Z) : outcome (err * handshakestate) :=
  let initiator := hs_role s =? ROLE_INITIATOR in
  if token =? TOKEN_EE then mix_dh env s Ephemeral Ephemeral
  else if token =? TOKEN_ES then (if initiator then mix_dh env s Ephemeral Static else mix_dh env s Static Ephemeral)
  else if token =? TOKEN_SE then (if initiator then mix_dh env s Static Ephemeral else mix_dh env s Ephemeral Static)
  else if token =? TOKEN_SS then mix_dh env s Static Static
  else if token =? TOKEN_FF then mix_dh env s Hybrid Hybrid
  else Ok (E_INVALID_STATE, s).

(** ** Writing.  The message buffer is [mem] (message->data), [size] and [max]. *)

(** Lines 1185-1219: E.  The result is the error, the state, the memory and rest.size. *)
Definition write_e (env : environment) (s : handshakestate) (mem : list Z) (size max : Z)
  : outcome (err * handshakestate * list Z * Z) :=
  match ko_ephemeral (hs_local s) with
  | None => Ok (E_INVALID_STATE, s, mem, 0)
  | Some le =>
    let re := ko_ephemeral (hs_remote s) in
    let '(e, le') :=
      match hs_fixed_ephemeral s with
      | None => dhstate_generate_dependent_keypair (env_rand env TOKEN_E) le re
      | Some fixed =>
        let '(e, d) := da_copy (ds_alg le) (set_type (dh_key_type fixed) (ds_data le)) (ds_data fixed) (option_map ds_data re) in
        (e, with_data le d)
      end in
    let s := set_local Ephemeral (Some le') s in
    if negb (is_none e) then Ok (e, s, mem, 0)
    else
      let len := public_len le' in
      if size_sub max size <? len then Ok (E_INVALID_LENGTH, s, mem, 0)
      else
        let! q := load (dd_public (ds_data le')) 0 len in
        let! mem := store mem size q in
        let! r := symmetricstate_mix_hash (hs_symmetric s) (Some (drop size mem)) len in
        let s := set_symmetric (snd r) s in
        if prefix_of s =? PREFIX_PSK then
          let! r := symmetricstate_mix_key (hs_symmetric s) (Some (dd_public (ds_data le'))) len in
          Ok (fst r, set_symmetric (snd r) s, mem, len)
        else Ok (E_NONE, s, mem, len)
  end.
(** Lines 1220-1233 and 1290-1300: the public key of [d], encrypted *)
Definition write_key (s : handshakestate) (d : dhstate) (mem : list Z) (size max : Z)
  : outcome (err * handshakestate * list Z * Z) :=
  let len := public_len d in
  let mac_len := symmetricstate_get_mac_length (hs_symmetric s) in
  if size_sub max size <? len + mac_len then Ok (E_INVALID_LENGTH, s, mem, 0)
  else
    let! q := load (dd_public (ds_data d)) 0 len in
    let! mem := store mem size q in
    let! r := symmetricstate_encrypt_and_hash (hs_symmetric s) (NBuf (Some (drop size mem)) len (size_sub max size)) in
    let '(e, y, rest) := r in
    let mem := take size mem ++ match b_data rest with Some m => m | None => [] end in
    Ok (e, set_symmetric y s, mem, b_size rest).
(** Lines 1264-1300: F *)
Definition write_f (env : environment) (s : handshakestate) (mem : list Z) (size max : Z)
  : outcome (err * handshakestate * list Z * Z) :=
  match ko_hybrid (hs_local s), ko_hybrid (hs_remote s) with
  | Some lh, Some rh =>
    let role := if key_type_eqb (dh_key_type rh) NO_KEY then ROLE_INITIATOR else ROLE_RESPONDER in
    let lh := match snd (dhstate_set_role (Some lh) role) with Some d => d | None => lh end in
    let '(e, lh') :=
      match hs_fixed_hybrid s with
      | None => dhstate_generate_dependent_keypair (env_rand env TOKEN_F) lh (Some rh)
      | Some fixed =>
        let '(e, d) := da_copy (ds_alg lh) (set_type (dh_key_type fixed) (ds_data lh)) (ds_data fixed) (Some (ds_data rh)) in
        (e, with_data lh d)
      end in
    let s := set_local Hybrid (Some lh') s in
    if negb (is_none e) then Ok (e, s, mem, 0) else write_key s lh' mem size max
  | _, _ => Ok (E_INVALID_STATE, s, mem, 0)
  end.
(** Lines 1183-1311 *)
Definition write_token (env : environment) (s : handshakestate) (token : Z) (mem : list Z) (size max : Z)
  : outcome (err * handshakestate * list Z * Z) :=
  if token =? TOKEN_E then write_e env s mem size max
  else if token =? TOKEN_S then
    match ko_static (hs_local s) with
    | None => Ok (E_INVALID_STATE, s, mem, 0)
    | Some ls => write_key s ls mem size max
    end
  else if token =? TOKEN_F then write_f env s mem size max
  else let! r := dh_token env s token in Ok (fst r, snd r, mem, 0).

(** Lines 1160-1316: the loop; [tokens] is what the tokens pointer designates *)
Fixpoint write_tokens (env : environment) (s : handshakestate) (tokens : list Z) (mem : list Z) (size max : Z)
  : outcome (err * handshakestate * list Z * Z) :=
  match tokens with
  | [] => UB (* read beyond the pattern *)
  | token :: rest =>
    if token =? TOKEN_END then Ok (E_NONE, set_tokens tokens (set_action ACTION_SPLIT s), mem, size)
    else if token =? TOKEN_FLIP_DIR then Ok (E_NONE, set_tokens rest (set_action ACTION_READ_MESSAGE s), mem, size)
    else
      let! r := write_token env s token mem size max in
      let '(e, s, mem, n) := r in
      if negb (is_none e) then Ok (e, set_tokens tokens s, mem, size)
      else write_tokens env s rest mem (size + n) max
  end.

(** Lines 1151-1341; the error, the state, the message memory and message->size *)
Definition handshakestate_write (env : environment) (s : handshakestate) (mem : list Z) (max : Z) (payload : option nbuf)
  : outcome (err * handshakestate * list Z * Z) :=
  let! r := write_tokens env s (hs_tokens s) mem 0 max in
  let '(e, s, mem, size) := r in
  if negb (is_none e) then Ok (e, s, mem, size)
  else
    let mac_len := symmetricstate_get_mac_length (hs_symmetric s) in
    if size_sub max size <? mac_len then Ok (E_INVALID_LENGTH, s, mem, size)
    else
      let finish (mem : list Z) (psize : Z) :=
        let! r := symmetricstate_encrypt_and_hash (hs_symmetric s) (NBuf (Some (drop size mem)) psize (size_sub max size)) in
        let '(e, y, rest) := r in
        let mem := take size mem ++ match b_data rest with Some m => m | None => [] end in
        let s := set_symmetric y s in
        if negb (is_none e) then Ok (e, s, mem, size) else Ok (E_NONE, s, mem, size + b_size rest) in
      match payload with
      | Some p =>
        if size_sub (size_sub max size) mac_len <? b_size p then Ok (E_INVALID_LENGTH, s, mem, size)
        else
          let! pd := read_ptr (b_data p) (b_size p) in
          let! mem := store mem size pd in
          finish mem (b_size p)
      | None => finish mem 0
      end.

(** handshakestate.c:1379-1403 (non-NULL state and message; None: NULL payload) *)
Definition write_message (env : environment) (s : handshakestate) (message : nbuf) (payload : option nbuf)
  : outcome (err * handshakestate * nbuf) :=
  let empty m := NBuf m 0 (b_max message) in
  match b_data message with
  | None => Ok (E_INVALID_PARAM, s, empty None)
  | Some mem =>
    if match payload with Some p => is_null_ptr (b_data p) | None => false end
    then Ok (E_INVALID_PARAM, s, empty (Some mem))
    else if negb (hs_action s =? ACTION_WRITE_MESSAGE) then Ok (E_INVALID_STATE, s, empty (Some mem))
    else
      let! r := handshakestate_write env s mem (b_max message) payload in
      let '(e, s, mem, size) := r in
      if negb (is_none e) then Ok (e, set_action ACTION_FAILED s, empty (Some mem))
      else Ok (e, s, NBuf (Some mem) size (b_max message))
  end.

(** ** Reading.  [mem] is message->data; the local copy msg is given by [pos]
    (msg.data - message->data), [size] and [max]. *)

(** Lines 1449-1482: E *)
Definition read_e (s : handshakestate) (mem : list Z) (pos size max : Z)
  : outcome (err * handshakestate * list Z * Z * Z * Z) :=
  match ko_ephemeral (hs_remote s) with
  | None => Ok (E_INVALID_STATE, s, mem, pos, size, max)
  | Some re =>
    let len := public_len re in
    if size <? len then Ok (E_INVALID_LENGTH, s, mem, pos, size, max)
    else
      let! r := symmetricstate_mix_hash (hs_symmetric s) (Some (drop pos mem)) len in
      let s := set_symmetric (snd r) s in
      if negb (is_none (fst r)) then Ok (fst r, s, mem, pos, size, max)
      else
        let! r := dhstate_set_public_key re (Some (drop pos mem)) len in
        let re := snd r in
        let s := set_remote Ephemeral (Some re) s in
        if negb (is_none (fst r)) then Ok (fst r, s, mem, pos, size, max)
        else if dhstate_is_null_public_key (Some re) then Ok (E_INVALID_PUBLIC_KEY, s, mem, pos, size, max)
        else
          let '(pos, size, max) := (pos + len, size - len, max - len) in
          if prefix_of s =? PREFIX_PSK then
            let! r := symmetricstate_mix_key (hs_symmetric s) (Some (dd_public (ds_data re))) len in
            Ok (fst r, set_symmetric (snd r) s, mem, pos, size, max)
          else Ok (E_NONE, s, mem, pos, size, max)
  end.
(** Lines 1483-1505 and 1546-1563: an encrypted public key for the slot [w] of
    the remote keys, which holds [d] *)
Definition read_key (s : handshakestate) (w : key_slot) (d : dhstate) (mem : list Z) (pos size max : Z)
  : outcome (err * handshakestate * list Z * Z * Z * Z) :=
  let mac_len := symmetricstate_get_mac_length (hs_symmetric s) in
  let len := public_len d + mac_len in
  if size <? len then Ok (E_INVALID_LENGTH, s, mem, pos, size, max)
  else
    let! r := symmetricstate_decrypt_and_hash (hs_symmetric s) (NBuf (Some (drop pos mem)) len len) in
    let '(e, y, msg2) := r in
    let mem := take pos mem ++ match b_data msg2 with Some m => m | None => [] end in
    let s := set_symmetric y s in
    if negb (is_none e) then Ok (e, s, mem, pos, size, max)
    else
      let! r := dhstate_set_public_key d (Some (drop pos mem)) (b_size msg2) in
      let s := set_remote w (Some (snd r)) s in
      if negb (is_none (fst r)) then Ok (fst r, s, mem, pos, size, max)
      else Ok (E_NONE, s, mem, pos + len, size - len, max - len).
(** Lines 1536-1573: F *)
Definition read_f (s : handshakestate) (mem : list Z) (pos size max : Z)
  : outcome (err * handshakestate * list Z * Z * Z * Z) :=
  match ko_hybrid (hs_local s), ko_hybrid (hs_remote s) with
  | Some lh, Some rh =>
    let role := if key_type_eqb (dh_key_type lh) NO_KEY then ROLE_INITIATOR else ROLE_RESPONDER in
    let rh := match snd (dhstate_set_role (Some rh) role) with Some d => d | None => rh end in
    let s := set_remote Hybrid (Some rh) s in
    let! r := read_key s Hybrid rh mem pos size max in
    let '(e, s, mem, pos, size, max) := r in
    if negb (is_none e) then Ok r
    else if dhstate_is_null_public_key (ko_hybrid (hs_remote s)) then Ok (E_INVALID_PUBLIC_KEY, s, mem, pos, size, max)
    else Ok r
  | _, _ => Ok (E_INVALID_STATE, s, mem, pos, size, max)
  end.
(** Lines 1447-1584 *)
Definition read_token (env : environment) (s : handshakestate) (token : Z) (mem : list Z) (pos size max : Z)
  : outcome (err * handshakestate * list Z * Z * Z * Z) :=
  if token =? TOKEN_E then read_e s mem pos size max
  else if token =? TOKEN_S then
    match ko_static (hs_remote s) with
    | None => Ok (E_INVALID_STATE, s, mem, pos, size, max)
    | Some rs => read_key s Static rs mem pos size max
    end
  else if token =? TOKEN_F then read_f s mem pos size max
  else let! r := dh_token env s token in Ok (fst r, snd r, mem, pos, size, max).

(** Lines 1433-1588: the loop *)
Fixpoint read_tokens (env : environment) (s : handshakestate) (tokens : list Z) (mem : list Z) (pos size max : Z)
  : outcome (err * handshakestate * list Z * Z * Z * Z) :=
  match tokens with
  | [] => UB (* read beyond the pattern *)
  | token :: rest =>
    if token =? TOKEN_END then Ok (E_NONE, set_tokens tokens (set_action ACTION_SPLIT s), mem, pos, size, max)
    else if token =? TOKEN_FLIP_DIR then Ok (E_NONE, set_tokens rest (set_action ACTION_WRITE_MESSAGE s), mem, pos, size, max)
    else
      let! r := read_token env s token mem pos size max in
      let '(e, s, mem, pos, size, max) := r in
      if negb (is_none e) then Ok (e, set_tokens tokens s, mem, pos, size, max)
      else read_tokens env s rest mem pos size max
  end.

(** Lines 1419-1602; the error, the state, the message memory and the payload buffer *)
Definition handshakestate_read (env : environment) (s : handshakestate) (mem : list Z) (size max : Z) (payload : option nbuf)
  : outcome (err * handshakestate * list Z * option nbuf) :=
  let! r := read_tokens env s (hs_tokens s) mem 0 size max in
  let '(e, s, mem, pos, size, max) := r in
  if negb (is_none e) then Ok (e, s, mem, payload)
  else
    let! r := symmetricstate_decrypt_and_hash (hs_symmetric s) (NBuf (Some (drop pos mem)) size max) in
    let '(e, y, msg) := r in
    let m := match b_data msg with Some m => m | None => [] end in
    let mem := take pos mem ++ m in
    let s := set_symmetric y s in
    if negb (is_none e) then Ok (e, s, mem, payload)
    else
      match payload with
      | Some p =>
        if b_max p <? b_size msg then Ok (E_INVALID_LENGTH, s, mem, payload)
        else
          let! d := load m 0 (b_size msg) in
          match b_data p with
          | None => UB
          | Some pm =>
            let! pm := store pm 0 d in
            Ok (E_NONE, s, mem, Some (NBuf (Some pm) (b_size msg) (b_max p)))
          end
      | None => Ok (E_NONE, s, mem, None)
      end.

(** handshakestate.c:1639-1663 (non-NULL state and message; None: NULL payload).
    The message is wiped (noise_clean) after the attempt. *)
Definition read_message (env : environment) (s : handshakestate) (message : nbuf) (payload : option nbuf)
  : outcome (err * handshakestate * nbuf * option nbuf) :=
  if match payload with Some p => is_null_ptr (b_data p) | None => false end
  then Ok (E_INVALID_PARAM, s, message, payload)
  else
    let payload := match payload with Some p => Some (NBuf (b_data p) 0 (b_max p)) | None => None end in
    match b_data message with
    | None => Ok (E_INVALID_PARAM, s, message, payload)
    | Some mem =>
      if b_max message <? b_size message then Ok (E_INVALID_LENGTH, s, message, payload)
      else if negb (hs_action s =? ACTION_READ_MESSAGE) then Ok (E_INVALID_STATE, s, message, payload)
      else
        let! r := handshakestate_read env s mem (b_size message) (b_max message) payload in
        let '(e, s, mem, payload) := r in
        let! mem := store mem 0 (zeros (b_size message)) in
        let message := NBuf (Some mem) (b_size message) (b_max message) in
        Ok (e, if negb (is_none e) then set_action ACTION_FAILED s else s, message, payload)
    end.

(** handshakestate.c:1701-1728 (non-NULL state).  [want_send], [want_receive]:
    the pointers are non-NULL; [create_ok]: a second CipherState can be allocated.
    The results are what is stored in *send and *receive. *)
Definition handshakestate_split (s : handshakestate) (want_send want_receive create_ok : bool)
  : outcome (err * handshakestate * option cipherstate * option cipherstate) :=
  if negb want_send && negb want_receive then Ok (E_INVALID_PARAM, s, None, None)
  else if negb (hs_action s =? ACTION_SPLIT) then Ok (E_INVALID_STATE, s, None, None)
  else
    match ss_cipher (hs_symmetric s) with
    | None => Ok (E_INVALID_STATE, s, None, None)
    | Some _ =>
      let! r := (if hs_role s =? ROLE_RESPONDER
                 then let! r := symmetricstate_split (hs_symmetric s) want_receive want_send create_ok in
                      let '(e, y, c1, c2) := r in Ok (e, y, c2, c1)
                 else symmetricstate_split (hs_symmetric s) want_send want_receive create_ok) in
      let '(e, y, send, receive) := r in
      let s := set_symmetric y s in
      Ok (e, if is_none e then set_action ACTION_COMPLETE s else s, send, receive)
    end.

(** handshakestate.c:1759-1780 (non-NULL state); the buffer afterwards *)
Definition get_handshake_hash (s : handshakestate) (hash : cptr) (max_len : Z) : outcome (err * cptr) :=
  match hash with
  | None => Ok (E_INVALID_PARAM, hash)
  | Some mem =>
    if negb (hs_action s =? ACTION_SPLIT) && negb (hs_action s =? ACTION_COMPLETE) then Ok (E_INVALID_STATE, hash)
    else
      let h := ss_h (hs_symmetric s) in
      let hash_len := ha_hash_len (ss_hash (hs_symmetric s)) in
      if hash_len <=? max_len then
        let! d := load h 0 hash_len in
        let! mem := store mem 0 d in
        let! mem := store mem hash_len (zeros (max_len - hash_len)) in
        Ok (E_NONE, Some mem)
      else
        let! d := load h 0 max_len in
        let! mem := store mem 0 d in
        Ok (E_NONE, Some mem)
  end.
