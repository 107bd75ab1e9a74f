(** Model of src/protocol/cipherstate.c *)
From Verif Require Import Base.

(** The table of functions behind a CipherState:
    struct NoiseCipherState_s, src/protocol/internal.h:58-146 (fields key_len,
    mac_len, encrypt, decrypt).

    [ca_encrypt key n ad pt] is the call of the [encrypt] function pointer for
    a state keyed with [key] whose counter is [n]; the result is the error code
    and the new contents of the [len + mac_len] bytes at [data].
    [ca_decrypt key n ad ct] is the call of the [decrypt] pointer where [ct]
    are the [len + mac_len] bytes at [data]; the result is the error code and
    the new contents of those bytes.  Simplification: the backend's private
    state is represented by the last key given to [init_key] (the backends
    reinitialise everything else from the key and nonce on each call, see
    MChaChaPoly.v and MAesGcm.v). *)
Record cipher_alg : Type := CipherAlg {
  ca_id : Z;
  ca_key_len : Z;
  ca_mac_len : Z;
  ca_encrypt : list Z -> Z -> list Z -> list Z -> err * list Z;
  ca_decrypt : list Z -> Z -> list Z -> list Z -> err * list Z
}.

(** struct NoiseCipherState_s, src/protocol/internal.h:58-146 *)
Record cipherstate : Type := CipherState {
  cs_alg : cipher_alg;
  cs_has_key : bool;
  cs_key : list Z;
  cs_n : Z
}.

(** src/protocol/cipherstate.c:77-104 and src/protocol/util.c:135-142: a new
    object is zeroed, then its backend fields are set.  (Allocation is assumed
    to succeed.) *)
Definition cipherstate_new (alg : cipher_alg) : cipherstate :=
  CipherState alg false [] 0.

(** src/protocol/cipherstate.c:174-177, 188-191, 202-205, 247-250 (non-NULL state) *)
Definition cipherstate_get_cipher_id (s : cipherstate) : Z := ca_id (cs_alg s).
Definition cipherstate_get_key_length (s : cipherstate) : Z := ca_key_len (cs_alg s).
Definition cipherstate_get_mac_length (s : cipherstate) : Z := ca_mac_len (cs_alg s).
Definition cipherstate_has_key (s : cipherstate) : bool := cs_has_key s.

(** src/protocol/cipherstate.c:221-235 (non-NULL state) *)
Definition cipherstate_init_key (s : cipherstate) (key : cptr) (key_len : Z)
  : outcome (err * cipherstate) :=
  match key with
  | None => Ok (E_INVALID_PARAM, s)
  | Some _ =>
    if negb (key_len =? ca_key_len (cs_alg s)) then Ok (E_INVALID_LENGTH, s)
    else
      let! k := read_ptr key key_len in
      Ok (E_NONE, CipherState (cs_alg s) true k 0)
  end.

(** src/protocol/cipherstate.c:293-333 (non-NULL state and buffer) *)
Definition cipherstate_encrypt_with_ad (s : cipherstate) (ad : cptr) (ad_len : Z)
    (b : nbuf) : outcome (err * cipherstate * nbuf) :=
  match ad, b_data b with
  | _, None => Ok (E_INVALID_PARAM, s, b)
  | adp, Some mem =>
    if match adp with None => negb (ad_len =? 0) | Some _ => false end
    then Ok (E_INVALID_PARAM, s, b)
    else if b_max b <? b_size b then Ok (E_INVALID_LENGTH, s, b)
    else if negb (cs_has_key s) then
      if MAX_PAYLOAD_LEN <? b_size b then Ok (E_INVALID_LENGTH, s, b)
      else Ok (E_NONE, s, b)
    else if MAX_PAYLOAD_LEN - ca_mac_len (cs_alg s) <? b_size b
    then Ok (E_INVALID_LENGTH, s, b)
    else if b_max b - b_size b <? ca_mac_len (cs_alg s)
    then Ok (E_INVALID_LENGTH, s, b)
    else if cs_n s =? 2^64 - 1 then Ok (E_INVALID_NONCE, s, b)
    else
      let! adb := read_ptr adp ad_len in
      let! pt := load mem 0 (b_size b) in
      let '(e, out) := ca_encrypt (cs_alg s) (cs_key s) (cs_n s) adb pt in
      let! mem' := store mem 0 out in
      let s' := CipherState (cs_alg s) (cs_has_key s) (cs_key s)
                            ((cs_n s + 1) mod 2^64) in
      if negb (is_none e) then Ok (e, s', NBuf (Some mem') (b_size b) (b_max b))
      else Ok (E_NONE, s',
               NBuf (Some mem') (b_size b + ca_mac_len (cs_alg s)) (b_max b))
  end.

(** src/protocol/cipherstate.c:373-410 (non-NULL state and buffer) *)
Definition cipherstate_decrypt_with_ad (s : cipherstate) (ad : cptr) (ad_len : Z)
    (b : nbuf) : outcome (err * cipherstate * nbuf) :=
  match ad, b_data b with
  | _, None => Ok (E_INVALID_PARAM, s, b)
  | adp, Some mem =>
    if match adp with None => negb (ad_len =? 0) | Some _ => false end
    then Ok (E_INVALID_PARAM, s, b)
    else if (b_max b <? b_size b) || (MAX_PAYLOAD_LEN <? b_size b)
    then Ok (E_INVALID_LENGTH, s, b)
    else if negb (cs_has_key s) then Ok (E_NONE, s, b)
    else if b_size b <? ca_mac_len (cs_alg s) then Ok (E_INVALID_LENGTH, s, b)
    else if cs_n s =? 2^64 - 1 then Ok (E_INVALID_NONCE, s, b)
    else
      let! adb := read_ptr adp ad_len in
      let! ct := load mem 0 (b_size b) in
      let '(e, out) := ca_decrypt (cs_alg s) (cs_key s) (cs_n s) adb ct in
      let! mem' := store mem 0 out in
      if negb (is_none e) then Ok (e, s, NBuf (Some mem') (b_size b) (b_max b))
      else
        let s' := CipherState (cs_alg s) (cs_has_key s) (cs_key s)
                              ((cs_n s + 1) mod 2^64) in
        Ok (E_NONE, s',
            NBuf (Some mem') (b_size b - ca_mac_len (cs_alg s)) (b_max b))
  end.

(** src/protocol/cipherstate.c:452-455, 494-497 *)
Definition cipherstate_encrypt (s : cipherstate) (b : nbuf) :=
  cipherstate_encrypt_with_ad s None 0 b.
Definition cipherstate_decrypt (s : cipherstate) (b : nbuf) :=
  cipherstate_decrypt_with_ad s None 0 b.

(** src/protocol/cipherstate.c:518-535 (non-NULL state) *)
Definition cipherstate_set_nonce (s : cipherstate) (nonce : Z) : err * cipherstate :=
  if negb (cs_has_key s) then (E_INVALID_STATE, s)
  else if nonce <? cs_n s then (E_INVALID_NONCE, s)
  else (E_NONE, CipherState (cs_alg s) (cs_has_key s) (cs_key s) nonce).
