(** Model of src/keys/loader.c *)
From Verif Require Import Base MCipher MHash MNames MProto MCert.

(** loader.c:49, 54, 59 *)
Definition KEY_VERSION : Z := 1.
Definition KEY_SALT_LEN : Z := 16.
Definition KEY_ITERATIONS : Z := 20000.
(** loader.c:65 *)
Definition ENC_KEY_OVERHEAD : Z := 128.

(** The characters of a NUL-terminated string in memory *)
Definition string_at (mem : list Z) : outcome (list Z) :=
  if c_strlen mem <? zlen mem then Ok (take (c_strlen mem) mem) else UB.
(** strchr(s, '_') in a string: offset *)
Definition strchr_underscore (s : list Z) : option Z :=
  let n := scan is_underscore s in if n <? zlen s then Some n else None.
(** PBKDF2 *)
Definition kdf_name : list Z := [80; 66; 75; 68; 70; 50].

(** loader.c:401-424: error code, *cipher_id, *hash_id *)
Definition parse_protect_name (name : list Z) : outcome (err * Z * Z) :=
  let! s := string_at name in
  match strchr_underscore s with
  | None => Ok (E_UNKNOWN_NAME, 0, 0)
  | Some n =>
    let! cipher_id := noise_name_to_id CIPHER_CATEGORY (Some s) n in
    if cipher_id =? 0 then Ok (E_UNKNOWN_NAME, cipher_id, 0)
    else
      let s := drop (n + 1) s in
      match strchr_underscore s with
      | None => Ok (E_UNKNOWN_NAME, cipher_id, 0)
      | Some n =>
        let! hash_id := noise_name_to_id HASH_CATEGORY (Some s) n in
        if hash_id =? 0 then Ok (E_UNKNOWN_NAME, cipher_id, hash_id)
        else if list_eq_dec Z.eq_dec (drop (n + 1) s) kdf_name then Ok (E_NONE, cipher_id, hash_id)
        else Ok (E_UNKNOWN_NAME, cipher_id, hash_id)
      end
  end.

(** The nonce expression in loader.c:516-524 and 894-902: eight bytes, most
    significant first.  An array element that does not exist: not reached. *)
Definition nonce_of (key_data : list Z) : Z :=
  fold_left (fun v i => Z.lor v (Z.shiftl (byte_at key_data (32 + i)) (56 - 8 * i))) [0; 1; 2; 3; 4; 5; 6; 7] 0.

(** The algorithms behind noise_cipherstate_new_by_id and noise_hashstate_new_by_id
    (cipherstate.c:77-104, hashstate.c:73-108): None for an unknown identifier.  A
    hash comes with the state of a new object.  Memory for these objects is
    assumed to be available. *)
Section Loader.
Variable cipher_of : Z -> option cipher_alg.
Variable hash_of : Z -> option (hash_alg * hctx).

(** loader.c:505-524 and 885-902: PBKDF2, key, nonce.  [iterations] is a uint32_t;
    the error code of PBKDF2 is ignored, so if it fails the key is undefined. *)
Definition set_up_cipher (ha : hash_alg) (hc : hctx) (cs : cipherstate) (passphrase : cptr) (passphrase_len : Z)
    (salt : cptr) (salt_len iterations : Z) : outcome (hctx * cipherstate) :=
  let! r := hashstate_pbkdf2 ha hc passphrase passphrase_len salt salt_len iterations 40 in
  let '(_, hc, out) := r in
  match out with
  | None => UB
  | Some key_data =>
    let! r := cipherstate_init_key cs (Some (take 32 key_data)) 32 in
    let '(_, cs) := r in
    let '(_, cs) := cipherstate_set_nonce cs (nonce_of key_data) in
    Ok (hc, cs)
  end.

(** noise_clean on the part of the protobuf's storage between two positions,
    loader.c:859 and 926.  A negative length is a huge size_t. *)
Definition clean_between (b : pbuf) (from to : Z) : outcome pbuf :=
  if to <? from then UB
  else
  match pb_data b with
  | None => if to =? from then Ok b else UB
  | Some mem => let! mem := store mem from (zeros (to - from)) in Ok (PBuf (Some mem) (pb_size b) (pb_posn b) (pb_error b))
  end.

(** loader.c:880-916, the loop that encrypts in place: the salt used, whether the
    error code is zero, and the storage.  [salts i] is what the i-th call of
    noise_randstate_generate_simple stores; [fuel] bounds the rounds: None if they
    are used up. *)
Fixpoint encrypt_loop (fuel : nat) (salts : nat -> list Z) (i : nat) (ha : hash_alg) (hc : hctx) (cs : cipherstate)
    (passphrase : cptr) (passphrase_len : Z) (mem : list Z) (from size max : Z) : outcome (option (list Z * list Z)) :=
  match fuel with
  | O => Ok None
  | S fuel =>
    let! r := set_up_cipher ha hc cs passphrase passphrase_len (Some (salts i)) KEY_SALT_LEN KEY_ITERATIONS in
    let '(hc, cs) := r in
    let! region := load mem from max in
    let! r := cipherstate_encrypt_with_ad cs None 0 (NBuf (Some region) size max) in
    let '(e, cs, buf) := r in
    let! mem := (match b_data buf with Some d => store mem from d | None => UB end) in
    if is_none e then Ok (Some (salts i, mem))
    else encrypt_loop fuel salts (S i) ha hc cs passphrase passphrase_len mem from size max
  end.

(** loader.c:807-940.  Memory for the EncryptedPrivateKey object is assumed to be
    available.  Error code and protobuf; None: still in the loop. *)
Definition save_private_key_to_buffer (fuel : nat) (salts : nat -> list Z) (key : option obj) (p : option pbuf)
    (passphrase : cptr) (passphrase_len : Z) (protect_name : cptr) : outcome (option (err * option pbuf)) :=
  match key, p, passphrase, protect_name with
  | Some o, Some b, Some _, Some name =>
    let! r := parse_protect_name name in
    let '(e, cipher_id, hash_id) := r in
    if negb (is_none e) then Ok (Some (e, p))
    else
      match cipher_of cipher_id with
      | None => Ok (Some (E_UNKNOWN_ID, p))
      | Some ca =>
        let cs := cipherstate_new ca in
        if negb (cipherstate_get_key_length cs =? 32) then Ok (Some (E_UNKNOWN_NAME, p))
        else
          match hash_of hash_id with
          | None => Ok (Some (E_UNKNOWN_ID, p))
          | Some (ha, hc) =>
            let mac_len := cipherstate_get_mac_length cs in
            let! r :=
              (if pb_posn b <? mac_len then Ok (E_INVALID_LENGTH, p)
               else cert_write PrivateKey (Some (with_posn (pb_posn b - mac_len) b)) 0 key) in
            let '(e, pcopy) := r in
            match pcopy with
            | None => UB
            | Some pcopy =>
              (* the storage is shared *)
              let b := PBuf (pb_data pcopy) (pb_size b) (pb_posn b) (pb_error b) in
              if negb (is_none e) then
                let! b := clean_between b (pb_posn pcopy) (pb_posn b) in Ok (Some (e, Some b))
              else
                let! name := string_at name in
                match pb_data b with
                | None => UB (* measuring: there is no storage to encrypt *)
                | Some mem =>
                  let! r := encrypt_loop fuel salts 0 ha hc cs passphrase passphrase_len mem (pb_posn pcopy)
                              (pb_posn b - pb_posn pcopy - mac_len) (pb_posn b - pb_posn pcopy) in
                  match r with
                  | None => Ok None
                  | Some (salt, mem) =>
                    let! data := load mem (pb_posn pcopy) (pb_posn b - pb_posn pcopy) in
                    let enc_key := [VInt KEY_VERSION; VBlock (Some name); VBlock (Some salt); VInt KEY_ITERATIONS; VBlock (Some data)] in
                    let! b := clean_between (PBuf (Some mem) (pb_size b) (pb_posn b) (pb_error b)) (pb_posn pcopy) (pb_posn b) in
                    let! r := cert_write EncryptedPrivateKey (Some b) 0 (Some enc_key) in
                    Ok (Some r)
                  end
                end
            end
          end
      end
  | _, _, _, _ => Ok (Some (E_INVALID_PARAM, p))
  end.

(** loader.c:450-548 (key not NULL): error code and *key.  [fuel] and [alloc] are
    for the two readers (see MCert.v). *)
Definition load_private_key_from_buffer (fuel : nat) (alloc : oracle) (p : option pbuf) (passphrase : cptr) (passphrase_len : Z)
  : outcome (option (err * option obj)) :=
  match p, passphrase with
  | Some _, Some _ =>
    let! r := cert_read fuel alloc EncryptedPrivateKey p 0 0 in
    match r with
    | None => Ok None
    | Some (e, enc_key, _, n) =>
      if negb (is_none e) then Ok (Some (e, None))
      else
        match enc_key with
        | Some [VInt version; VBlock (Some algorithm); VBlock (Some salt); VInt iterations; VBlock (Some data)] =>
          if negb (version =? KEY_VERSION) || (iterations =? 0) then Ok (Some (E_INVALID_FORMAT, None))
          else
            let! r := parse_protect_name (algorithm ++ [0]) in
            let '(e, cipher_id, hash_id) := r in
            if negb (is_none e) then Ok (Some (e, None))
            else
              match cipher_of cipher_id with
              | None => Ok (Some (E_UNKNOWN_ID, None))
              | Some ca =>
                let cs := cipherstate_new ca in
                if negb (cipherstate_get_key_length cs =? 32) then Ok (Some (E_UNKNOWN_NAME, None))
                else
                  match hash_of hash_id with
                  | None => Ok (Some (E_UNKNOWN_ID, None))
                  | Some (ha, hc) =>
                    let! r := set_up_cipher ha hc cs passphrase passphrase_len (Some salt) (zlen salt) iterations in
                    let '(_, cs) := r in
                    let! r := cipherstate_decrypt_with_ad cs None 0 (NBuf (Some data) (zlen data) (zlen data)) in
                    let '(e, _, buf) := r in
                    if negb (is_none e) then Ok (Some (e, None))
                    else
                      match b_data buf with
                      | None => UB
                      | Some d =>
                        let! r := cert_read fuel alloc PrivateKey (Some (prepare_input d (b_size buf))) 0 n in
                        match r with
                        | None => Ok None
                        | Some (e, key, _, _) => Ok (Some (e, key))
                        end
                      end
                  end
              end
        | Some [VInt _; VBlock _; VBlock _; VInt _; VBlock _] => Ok (Some (E_INVALID_FORMAT, None))
        | _ => UB
        end
    end
  | _, _ => Ok (Some (E_INVALID_PARAM, None))
  end.
End Loader.

(** ** Certificates *)
(** loader.c:654-658, 696-700 *)
Definition save_certificate_to_buffer (cert : option obj) (p : option pbuf) := cert_write Certificate p 0 cert.
Definition save_certificate_chain_to_buffer (chain : option obj) (p : option pbuf) := cert_write CertificateChain p 0 chain.

(** loader.c:233-241: *cert and the protobuf *)
Fixpoint first_certificate (rounds fuel : nat) (alloc : oracle) (end_posn : Z) (cert : option obj) (p : option pbuf) (n : nat)
  : outcome (option (option obj * option pbuf)) :=
  if read_at_end_element p end_posn then Ok (Some (cert, p))
  else
    match rounds with
    | O => Ok None
    | S rounds =>
      let! r := cert_read fuel alloc Certificate p 8 n in
      match r with
      | None => Ok None
      | Some (e, cert2, p, n) =>
        if negb (is_none e) then Ok (Some (cert, p))
        else first_certificate rounds fuel alloc end_posn (match cert with None => cert2 | Some _ => cert end) p n
      end
    end.
(** loader.c:213-252 (cert not NULL): error code and *cert *)
Definition load_certificate_from_buffer (fuel : nat) (alloc : oracle) (p : option pbuf) : outcome (option (err * option obj)) :=
  match p with
  | None => Ok (Some (E_INVALID_PARAM, None))
  | Some b =>
    if negb (is_none (pb_error b)) then Ok (Some (pb_error b, None))
    else
      let! tag := peek_tag p in
      if tag =? 8 then
        let! r := read_start_element p 0 in
        let '(_, end_posn, p) := r in
        let! r := first_certificate fuel fuel alloc end_posn None p 0 in
        match r with
        | None => Ok None
        | Some (cert, p) =>
          let '(e, _) := read_end_element p end_posn in
          Ok (Some (e, if is_none e then cert else None))
        end
      else
        let! r := cert_read fuel alloc Certificate p 0 0 in
        match r with None => Ok None | Some (e, cert, _, _) => Ok (Some (e, cert)) end
  end.
(** loader.c:314-347 (chain not NULL): error code and *chain *)
Definition load_certificate_chain_from_buffer (fuel : nat) (alloc : oracle) (p : option pbuf) : outcome (option (err * option obj)) :=
  match p with
  | None => Ok (Some (E_INVALID_PARAM, None))
  | Some b =>
    if negb (is_none (pb_error b)) then Ok (Some (pb_error b, None))
    else
      let! tag := peek_tag p in
      if negb (tag =? 8) then
        if negb (alloc 0%nat) then Ok (Some (E_NO_MEMORY, None))
        else
          let! r := cert_read fuel alloc Certificate p 0 1 in
          match r with
          | None => Ok None
          | Some (e, cert, _, n) =>
            if negb (is_none e) then Ok (Some (e, None))
            else if negb (alloc n) then Ok (Some (E_NO_MEMORY, None))
            else Ok (Some (E_NONE, Some [VArray [cert]]))
          end
      else
        let! r := cert_read fuel alloc CertificateChain p 0 0 in
        match r with None => Ok None | Some (e, chain, _, _) => Ok (Some (e, chain)) end
  end.

(** ** Files *)
(** loader.c:87-141 for a file with these contents: opening, seeking and reading
    succeed, there is memory for it. *)
Definition load_file (contents : list Z) : err * pbuf :=
  if (zlen contents <=? 0) || (MAX_PAYLOAD_LEN <? zlen contents) then (E_INVALID_FORMAT, PBuf None 0 0 E_NONE)
  else (E_NONE, PBuf (Some contents) (zlen contents) 0 E_NONE).
(** loader.c:568-618 with func = the _write function of type m: error code and
    contents of the file, if it is written.  [fresh] is what malloc returns; opening
    and writing the file succeeds. *)
Definition save_to_file (m : mtype) (o : obj) (new_memory : Z -> list Z) : outcome (err * option (list Z)) :=
  let! r := cert_write m (Some (prepare_measure MAX_PAYLOAD_LEN)) 0 (Some o) in
  let '(e, p) := r in
  if negb (is_none e) then Ok (e, None)
  else
    let '(e, size) := finish_measure p in
    if negb (is_none e) then Ok (e, None)
    else
      let! r := cert_write m (Some (PBuf (Some (new_memory size)) size size E_NONE)) 0 (Some o) in
      let '(e, p) := r in
      if negb (is_none e) then Ok (e, None)
      else
        let '(e, data, size) := finish_output p in
        if negb (is_none e) then Ok (e, None)
        else
          match data, p with
          | Some off, Some b => match pb_data b with Some mem => let! d := load mem off size in Ok (E_NONE, Some d) | None => UB end
          | _, _ => UB
          end.
(** loader.c:726-784: error code and contents of the file; None: does not return *)
Definition save_private_key_to_file (cipher_of : Z -> option cipher_alg) (hash_of : Z -> option (hash_alg * hctx))
    (fuel : nat) (salts : nat -> list Z) (o : obj) (passphrase : cptr) (passphrase_len : Z) (protect_name : list Z)
    (new_memory : Z -> list Z) : outcome (option (err * option (list Z))) :=
  match passphrase with
  | None => Ok (Some (E_INVALID_PARAM, None))
  | Some _ =>
    let! r := parse_protect_name protect_name in
    let '(e, _, _) := r in
    if negb (is_none e) then Ok (Some (e, None))
    else
      let! r := cert_write PrivateKey (Some (prepare_measure MAX_PAYLOAD_LEN)) 0 (Some o) in
      let '(e, p) := r in
      if negb (is_none e) then Ok (Some (e, None))
      else
        let '(e, size) := finish_measure p in
        if negb (is_none e) then Ok (Some (e, None))
        else
          let size := usize (size + c_strlen protect_name + ENC_KEY_OVERHEAD) in
          let! r := save_private_key_to_buffer cipher_of hash_of fuel salts (Some o)
                      (Some (PBuf (Some (new_memory size)) size size E_NONE)) passphrase passphrase_len (Some protect_name) in
          match r with
          | None => Ok None
          | Some (e, p) =>
            if negb (is_none e) then Ok (Some (e, None))
            else
              match p with
              | Some b =>
                if MAX_PAYLOAD_LEN <? pb_size b - pb_posn b then Ok (Some (E_INVALID_LENGTH, None))
                else match pb_data b with Some mem => let! d := load mem (pb_posn b) (pb_size b - pb_posn b) in Ok (Some (E_NONE, Some d)) | None => UB end
              | None => UB
              end
          end
  end.
