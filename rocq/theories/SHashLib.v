(** The hash algorithms of the library and the standards that define them:
    [library_hash alg H B L lim] says that [alg] is a backend of the library and
    [H] the standard's function with block length [B] and digest length [L],
    which the standard (and the code's 64-bit counters) define for messages of
    fewer than [lim] bytes. *)
From Verif Require Import Base MHash MSha2 MBlake2 SHash SSha2 SBlake2.

Inductive library_hash : hash_alg -> (list Z -> list Z) -> Z -> Z -> Z -> Prop :=
| lib_sha256 : library_hash sha256_alg SHA256 64 32 (2^61)
| lib_sha512 : library_hash sha512_alg SHA512 128 64 (2^61)
| lib_blake2s : forall b, library_hash (blake2s_alg b) BLAKE2s 64 32 (2^64)
| lib_blake2b : library_hash blake2b_alg BLAKE2b 128 64 (2^64).

(** A digest computed through the streaming interface: reset, any number of
    updates, finalize.  A context only has to have the right buffer length. *)
Fixpoint updates (alg : hash_alg) (c : hctx) (chunks : list (list Z)) : outcome (err * hctx) :=
  match chunks with
  | [] => Ok (E_NONE, c)
  | d :: r =>
    let! (e, c) := hashstate_update alg c (Some d) (zlen d) in
    if is_none e then updates alg c r else Ok (e, c)
  end.
Definition stream_digest (alg : hash_alg) (c : hctx) (chunks : list (list Z)) : outcome (err * option (list Z)) :=
  let '(_, c) := hashstate_reset alg c in
  let! (e, c) := updates alg c chunks in
  if is_none e then
    let '(e, _, d) := hashstate_finalize alg c (ha_hash_len alg) in Ok (e, d)
  else Ok (e, None).
Definition one_digest (alg : hash_alg) (c : hctx) (d : list Z) : outcome (err * option (list Z)) :=
  let! (e, _, r) := hashstate_hash_one alg c (Some d) (zlen d) (ha_hash_len alg) in Ok (e, r).
