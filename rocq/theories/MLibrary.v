(** Model of the tables of algorithms in cipherstate.c, hashstate.c and dhstate.c,
    compiled with the reference backend (src/backend/ref). *)
From Verif Require Import Base MCipher MHash MSha2 MBlake2 MUtil MChaCha MChaChaPoly MGhash MAesGcm MDh MHandshake.

(** What depends on the machine: word sizes, byte order, vector instructions *)
Record machine : Type := Machine {
  m_chacha : cc_build;
  m_ghash : gh_build;
  m_blake2s : build
}.

(** noise_cipherstate_new_by_id: cipherstate.c:75-102 *)
Definition cipher_by_id (m : machine) (id : Z) : option cipher_alg :=
  if id =? NOISE_ID 67 1 then Some (chachapoly (m_chacha m))
  else if id =? NOISE_ID 67 2 then Some (aesgcm (m_ghash m))
  else None.
(** noise_hashstate_new_by_id: hashstate.c:73-108 *)
Definition hash_by_id (m : machine) (id : Z) : option (hash_alg * hctx) :=
  if id =? NOISE_ID 72 1 then Some (blake2s_alg (m_blake2s m), blake2s_new)
  else if id =? NOISE_ID 72 2 then Some (blake2b_alg, blake2b_new)
  else if id =? NOISE_ID 72 3 then Some (sha256_alg, sha256_new)
  else if id =? NOISE_ID 72 4 then Some (sha512_alg, sha512_new)
  else None.
(** noise_dhstate_new_by_id: dhstate.c:67-98 *)
Definition dh_by_id (c25519 c448 newhope : dh_alg) (id : Z) : option dh_alg :=
  if id =? DH_CURVE25519 then Some c25519
  else if id =? DH_CURVE448 then Some c448
  else if id =? DH_NEWHOPE then Some newhope
  else None.
Definition reference (m : machine) (c25519 c448 newhope : dh_alg) : library :=
  Library (cipher_by_id m) (hash_by_id m) (dh_by_id c25519 c448 newhope).
