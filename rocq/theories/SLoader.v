(** Specification for saved keys and certificates (noise/keys/loader.h). *)
From Coq Require Import String.
From Verif Require Import Base Str MCipher SCipher MHash SHash SHashLib SNames MProto SProto MCert SCert.

(** Protection algorithms: cipher_hash_PBKDF2, e.g. ChaChaPoly_BLAKE2b_PBKDF2 *)
Definition protect_text (cipher hash : Z) (text : list Z) : Prop :=
  exists c h, registered (67 * 256) cipher c /\ registered (72 * 256) hash h /\
    text = c ++ str "_" ++ h ++ str "_PBKDF2".

Definition big_endian (l : list Z) : Z := fold_left (fun v b => v * 256 + b) l 0.

(** 40 bytes from the pass phrase in 20000 iterations: 32 bytes are the key, the
    others the nonce *)
Definition derived (H : list Z -> list Z) (B : Z) (passphrase salt : list Z) (iterations : Z) : list Z * Z :=
  let material := PBKDF2 H B passphrase salt iterations 40 in
  (take 32 material, big_endian (drop 32 material)).
(** The private key under the cipher *)
Definition protected_key (ca : cipher_alg) (H : list Z -> list Z) (B : Z) (passphrase salt : list Z) (iterations : Z) (o : obj) : list Z :=
  let '(key, nonce) := derived H B passphrase salt iterations in
  snd (ca_encrypt ca key nonce [] (message 0 PrivateKey o)).
(** The saved file: an EncryptedPrivateKey of doc/noise-certificate.proto *)
Definition saved_key (ca : cipher_alg) (H : list Z -> list Z) (B : Z) (name passphrase salt : list Z) (o : obj) : list Z :=
  message 0 EncryptedPrivateKey
    [VInt 1; VBlock (Some name); VBlock (Some salt); VInt 20000; VBlock (Some (protected_key ca H B passphrase salt 20000 o))].

(** Salts are drawn until the nonce is not the reserved one. *)
Definition salt_used (H : list Z -> list Z) (B : Z) (passphrase : list Z) (salts : nat -> list Z) (i : nat) : Prop :=
  snd (derived H B passphrase (salts i) 20000) <> 2^64 - 1 /\
  forall j, (j < i)%nat -> snd (derived H B passphrase (salts j) 20000) = 2^64 - 1.

(** A protection algorithm the library supports: its name, a correct cipher with
    32-byte keys, one of the library's hash functions *)
Definition protection (cipher_of : Z -> option cipher_alg) (hash_of : Z -> option (hash_alg * hctx))
    (name : list Z) (ca : cipher_alg) (H : list Z -> list Z) (B limit : Z) : Prop :=
  exists cipher_id hash_id ha hc L,
    protect_text cipher_id hash_id name /\
    cipher_of cipher_id = Some ca /\ cipher_correct ca /\ ca_key_len ca = 32 /\
    hash_of hash_id = Some (ha, hc) /\ library_hash ha H B L limit /\ hctx_ok ha hc.
Definition salts_ok (salts : nat -> list Z) : Prop := forall j, bytes (salts j) /\ zlen (salts j) = 16.

(** What malloc returns: a block with at least the requested number of bytes *)
Definition memory_ok (new_memory : Z -> list Z) : Prop := forall n, 0 <= n -> bytes (new_memory n) /\ n <= zlen (new_memory n).
