(** Model of src/protocol/symmetricstate.c *)
From Verif Require Import Base MCipher MHash.

(** NoiseProtocolId, include/noise/protocol/names.h:33-43 (the reserved fields,
    which the code never reads, are left out) *)
Record protocol_id : Type := ProtocolId {
  pi_prefix : Z;
  pi_pattern : Z;
  pi_dh : Z;
  pi_cipher : Z;
  pi_hash : Z;
  pi_hybrid : Z
}.

(** NOISE_MAX_HASHLEN, src/protocol/internal.h:46 *)
Definition MAX_HASHLEN : Z := 64.

(** struct NoiseSymmetricState_s, src/protocol/internal.h:500-526.  [ss_cipher]
    is None once the object has been split.  [ss_ck] and [ss_h] are the first
    hash_len bytes of the 64 byte arrays; the code uses no others. *)
Record symmetricstate : Type := SymState {
  ss_id : protocol_id;
  ss_cipher : option cipherstate;
  ss_hash : hash_alg;
  ss_hctx : hctx;
  ss_ck : list Z;
  ss_h : list Z
}.

(** src/protocol/symmetricstate.c:58-113.  [cipher] and [hash] are the results
    of looking up id->cipher_id and id->hash_id (None: UNKNOWN_ID); allocation
    is assumed to succeed. *)
Definition symmetricstate_new (cipher : option cipher_alg) (hash : option (hash_alg * hctx))
    (name : list Z) (id : protocol_id) : outcome (err * option symmetricstate) :=
  match cipher with
  | None => Ok (E_UNKNOWN_ID, None)
  | Some ca =>
    match hash with
    | None => Ok (E_UNKNOWN_ID, None)
    | Some (ha, c) =>
      let hash_len := ha_hash_len ha in
      if MAX_HASHLEN <? hash_len then Ok (E_NOT_APPLICABLE, None)
      else if hash_len <? ca_key_len ca then Ok (E_NOT_APPLICABLE, None)
      else
        let name_len := zlen name in
        if name_len <=? hash_len then
          let h := name ++ zeros (hash_len - name_len) in
          Ok (E_NONE, Some (SymState id (Some (cipherstate_new ca)) ha c h h))
        else
          let! r := hashstate_hash_one ha c (Some name) name_len hash_len in
          match r with
          | (_, c', Some h) => Ok (E_NONE, Some (SymState id (Some (cipherstate_new ca)) ha c' h h))
          | _ => UB (* h left uninitialised *)
          end
    end
  end.

(** src/protocol/symmetricstate.c:262-288 (non-NULL state).  The chaining key is
    both the HKDF key and the first output; noise_hashstate_hkdf has finished
    reading its key when it writes output1 (src/protocol/hashstate.c:496-513). *)
Definition symmetricstate_mix_key (s : symmetricstate) (input : cptr) (size : Z)
  : outcome (err * symmetricstate) :=
  match input with
  | None => Ok (E_INVALID_PARAM, s)
  | Some _ =>
    match ss_cipher s with
    | None => Ok (E_INVALID_STATE, s)
    | Some cs =>
      let hash_len := ha_hash_len (ss_hash s) in
      let key_len := ca_key_len (cs_alg cs) in
      let! r := hashstate_hkdf (ss_hash s) (ss_hctx s) (Some (ss_ck s)) hash_len input size hash_len key_len in
      match r with
      | (_, c', Some (ck, temp_k)) =>
        let! r' := cipherstate_init_key cs (Some temp_k) key_len in
        Ok (E_NONE, SymState (ss_id s) (Some (snd r')) (ss_hash s) c' ck (ss_h s))
      | _ => UB (* temp_k left uninitialised *)
      end
    end
  end.

(** src/protocol/symmetricstate.c:303-321 (non-NULL state) *)
Definition symmetricstate_mix_hash (s : symmetricstate) (input : cptr) (size : Z)
  : outcome (err * symmetricstate) :=
  match input with
  | None => Ok (E_INVALID_PARAM, s)
  | Some _ =>
    match ss_cipher s with
    | None => Ok (E_INVALID_STATE, s)
    | Some cs =>
      let hash_len := ha_hash_len (ss_hash s) in
      let! r := hashstate_hash_two (ss_hash s) (ss_hctx s) (Some (ss_h s)) hash_len input size hash_len in
      let '(_, c', h') := r in
      Ok (E_NONE, SymState (ss_id s) (ss_cipher s) (ss_hash s) c' (ss_ck s)
                           (match h' with Some h => h | None => ss_h s end))
    end
  end.

(** src/protocol/symmetricstate.c:352-376 (non-NULL state and buffer) *)
Definition symmetricstate_encrypt_and_hash (s : symmetricstate) (b : nbuf)
  : outcome (err * symmetricstate * nbuf) :=
  match b_data b with
  | None => Ok (E_INVALID_PARAM, s, b)
  | Some _ =>
    match ss_cipher s with
    | None => Ok (E_INVALID_STATE, s, b)
    | Some cs =>
      let hash_len := ha_hash_len (ss_hash s) in
      let! r := cipherstate_encrypt_with_ad cs (Some (ss_h s)) hash_len b in
      let '(e, cs', b') := r in
      let s' := SymState (ss_id s) (Some cs') (ss_hash s) (ss_hctx s) (ss_ck s) (ss_h s) in
      if negb (is_none e) then Ok (e, s', b')
      else
        let! r' := symmetricstate_mix_hash s' (b_data b') (b_size b') in
        Ok (E_NONE, snd r', b')
    end
  end.

(** src/protocol/symmetricstate.c:402-445 (non-NULL state and buffer) *)
Definition symmetricstate_decrypt_and_hash (s : symmetricstate) (b : nbuf)
  : outcome (err * symmetricstate * nbuf) :=
  match b_data b with
  | None => Ok (E_INVALID_PARAM, s, b)
  | Some _ =>
    match ss_cipher s with
    | None => Ok (E_INVALID_STATE, s, b)
    | Some cs =>
      if MAX_PAYLOAD_LEN <? b_size b then Ok (E_INVALID_LENGTH, s, b)
      else if cipherstate_has_key cs && (b_size b <? cipherstate_get_mac_length cs)
      then Ok (E_INVALID_LENGTH, s, b)
      else
        let hash_len := ha_hash_len (ss_hash s) in
        let! r := hashstate_hash_two (ss_hash s) (ss_hctx s) (Some (ss_h s)) hash_len
                    (b_data b) (b_size b) hash_len in
        let '(_, c', temp) := r in
        let! r' := cipherstate_decrypt_with_ad cs (Some (ss_h s)) hash_len b in
        let '(e, cs', b') := r' in
        if negb (is_none e)
        then Ok (e, SymState (ss_id s) (Some cs') (ss_hash s) c' (ss_ck s) (ss_h s), b')
        else
          match temp with
          | Some h => Ok (E_NONE, SymState (ss_id s) (Some cs') (ss_hash s) c' (ss_ck s) h, b')
          | None => UB (* temp uninitialised *)
          end
    end
  end.

(** src/protocol/symmetricstate.c:464-478 (non-NULL state) *)
Definition symmetricstate_get_mac_length (s : symmetricstate) : Z :=
  match ss_cipher s with
  | None => 0
  | Some cs => if cipherstate_has_key cs then cipherstate_get_mac_length cs else 0
  end.

(** src/protocol/symmetricstate.c:514-573 (non-NULL state).  [want1], [want2]:
    the pointers c1, c2 are non-NULL.  [create_ok]: allocating a second
    CipherState succeeds.  The results are what is stored in *c1 and *c2. *)
Definition symmetricstate_split (s : symmetricstate) (want1 want2 create_ok : bool)
  : outcome (err * symmetricstate * option cipherstate * option cipherstate) :=
  if negb want1 && negb want2 then Ok (E_INVALID_PARAM, s, None, None)
  else
    match ss_cipher s with
    | None => Ok (E_INVALID_STATE, s, None, None)
    | Some cs =>
      let hash_len := ha_hash_len (ss_hash s) in
      let key_len := ca_key_len (cs_alg cs) in
      let! r := hashstate_hkdf (ss_hash s) (ss_hctx s) (Some (ss_ck s)) hash_len
                  (Some (ss_ck s)) 0 key_len key_len in
      match r with
      | (_, c', Some (temp_k1, temp_k2)) =>
        let s' := SymState (ss_id s) None (ss_hash s) c' (ss_ck s) (ss_h s) in
        if negb want1 && want2 then
          let! r2 := cipherstate_init_key cs (Some temp_k2) key_len in
          Ok (E_NONE, s', None, Some (snd r2))
        else if want2 then
          if negb create_ok
          then Ok (E_NO_MEMORY, SymState (ss_id s) (Some cs) (ss_hash s) c' (ss_ck s) (ss_h s), None, None)
          else
            let! r2 := cipherstate_init_key (cipherstate_new (cs_alg cs)) (Some temp_k2) key_len in
            let! r1 := cipherstate_init_key cs (Some temp_k1) key_len in
            Ok (E_NONE, s', Some (snd r1), Some (snd r2))
        else
          let! r1 := cipherstate_init_key cs (Some temp_k1) key_len in
          Ok (E_NONE, s', Some (snd r1), None)
      | _ => UB (* keys left uninitialised *)
      end
    end.
