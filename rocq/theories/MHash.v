(** Model of src/protocol/hashstate.c *)
From Verif Require Import Base.

(** The private context of the four reference hash backends has the same
    fields in each: src/crypto/sha2/sha256.h:32-39, sha512.h, blake2s.h:45-56,
    blake2b.h (h[8], m[block], length, posn). *)
Record hctx : Type := HCtx {
  hc_h : list Z;
  hc_m : list Z;
  hc_length : Z;
  hc_posn : Z
}.

(** struct NoiseHashState_s, src/protocol/internal.h:151-203.  [ha_final]
    returns the context afterwards and the [hash_len] bytes written. *)
Record hash_alg : Type := HashAlg {
  ha_id : Z;
  ha_hash_len : Z;
  ha_block_len : Z;
  ha_reset : hctx -> hctx;
  ha_update : hctx -> list Z -> hctx;
  ha_final : hctx -> hctx * list Z
}.

Section HashState.
Variable alg : hash_alg.

(** src/protocol/hashstate.c:221-230, 244-254, 271-283: the streaming interface
    (non-NULL state; NULL data gives INVALID_PARAM). *)
Definition hashstate_reset (c : hctx) : err * hctx := (E_NONE, ha_reset alg c).

Definition hashstate_update (c : hctx) (data : cptr) (data_len : Z) : outcome (err * hctx) :=
  match data with
  | None => Ok (E_INVALID_PARAM, c)
  | Some _ => let! d := read_ptr data data_len in Ok (E_NONE, ha_update alg c d)
  end.

(* The last component is what is written to [hash], if anything. *)
Definition hashstate_finalize (c : hctx) (hash_len : Z) : err * hctx * option (list Z) :=
  if negb (hash_len =? ha_hash_len alg) then (E_INVALID_LENGTH, c, None)
  else let '(c', out) := ha_final alg c in (E_NONE, c', Some out).

(** src/protocol/hashstate.c:308-323 (non-NULL state and hash) *)
Definition hashstate_hash_one (c : hctx) (data : cptr) (data_len hash_len : Z)
  : outcome (err * hctx * option (list Z)) :=
  match data with
  | None => Ok (E_INVALID_PARAM, c, None)
  | Some _ =>
    if negb (hash_len =? ha_hash_len alg) then Ok (E_INVALID_LENGTH, c, None)
    else
      let! d := read_ptr data data_len in
      let c1 := ha_reset alg c in
      let c2 := ha_update alg c1 d in
      let '(c3, out) := ha_final alg c2 in
      Ok (E_NONE, c3, Some out)
  end.

(** src/protocol/hashstate.c:351-367 (non-NULL state and hash).  The output is
    only written by finalize, after both inputs were read, so [hash] may alias
    the inputs. *)
Definition hashstate_hash_two (c : hctx) (data1 : cptr) (data1_len : Z)
    (data2 : cptr) (data2_len hash_len : Z) : outcome (err * hctx * option (list Z)) :=
  match data1, data2 with
  | None, _ | _, None => Ok (E_INVALID_PARAM, c, None)
  | Some _, Some _ =>
    if negb (hash_len =? ha_hash_len alg) then Ok (E_INVALID_LENGTH, c, None)
    else
      let! d1 := read_ptr data1 data1_len in
      let! d2 := read_ptr data2 data2_len in
      let c1 := ha_reset alg c in
      let c2 := ha_update alg c1 d1 in
      let c3 := ha_update alg c2 d2 in
      let '(c4, out) := ha_final alg c3 in
      Ok (E_NONE, c4, Some out)
  end.

(** The same function with all three buffers in one memory [mem], so that they
    may overlap: the inputs are read by the two updates, and only then finalize
    writes [hash_len] bytes at [out]. *)
Definition hashstate_hash_two_mem (c : hctx) (mem : list Z) (p1 len1 p2 len2 out hash_len : Z)
  : outcome (err * hctx * list Z) :=
  if negb (hash_len =? ha_hash_len alg) then Ok (E_INVALID_LENGTH, c, mem)
  else
    let c1 := ha_reset alg c in
    let! d1 := load mem p1 len1 in
    let c2 := ha_update alg c1 d1 in
    let! d2 := load mem p2 len2 in
    let c3 := ha_update alg c2 d2 in
    let '(c4, hash) := ha_final alg c3 in
    let! mem := store mem out hash in
    Ok (E_NONE, c4, mem).

(** src/protocol/hashstate.c:370-371 *)
Definition HMAC_IPAD : Z := 54.  (* 0x36 *)
Definition HMAC_OPAD : Z := 92.  (* 0x5C *)

(** src/protocol/hashstate.c:381-387 *)
Definition xor_key (key : list Z) (value : Z) : list Z := map (fun b => Z.lxor b value) key.

(** src/protocol/hashstate.c:406-449.  [data2 = None] is the NULL pointer.
    The stack block is [block_len] bytes long. *)
Definition hashstate_hmac (c : hctx) (key data1 : list Z) (data2 : cptr) : hctx * list Z :=
  let block_len := ha_block_len alg in
  let '(c0, key_block) :=
    if zlen key <=? block_len then (c, key ++ zeros (block_len - zlen key))
    else
      let c1 := ha_reset alg c in
      let c2 := ha_update alg c1 key in
      let '(c3, kh) := ha_final alg c2 in
      (c3, kh ++ zeros (block_len - ha_hash_len alg)) in
  let key_block := xor_key key_block HMAC_IPAD in
  let c1 := ha_reset alg c0 in
  let c2 := ha_update alg c1 key_block in
  let c3 := ha_update alg c2 data1 in
  let c4 := match data2 with None => c3 | Some d2 => ha_update alg c3 d2 end in
  let '(c5, hash) := ha_final alg c4 in
  let key_block := xor_key key_block (Z.lxor HMAC_IPAD HMAC_OPAD) in
  let c6 := ha_reset alg c5 in
  let c7 := ha_update alg c6 key_block in
  let c8 := ha_update alg c7 hash in
  ha_final alg c8.

(** src/protocol/hashstate.c:476-516 (non-NULL state and outputs).  The two lists
    in the result are what is copied to output1 and output2. *)
Definition hashstate_hkdf (c : hctx) (key : cptr) (key_len : Z) (data : cptr) (data_len : Z)
    (output1_len output2_len : Z) : outcome (err * hctx * option (list Z * list Z)) :=
  match key, data with
  | None, _ | _, None => Ok (E_INVALID_PARAM, c, None)
  | Some _, Some _ =>
    let hash_len := ha_hash_len alg in
    if (hash_len <? output1_len) || (hash_len <? output2_len)
    then Ok (E_INVALID_LENGTH, c, None)
    else
      let! k := read_ptr key key_len in
      let! d := read_ptr data data_len in
      let '(c1, temp_key) := hashstate_hmac c k d None in
      let '(c2, temp_hash) := hashstate_hmac c1 temp_key [1] None in
      let output1 := take output1_len temp_hash in
      let '(c3, temp_hash2) := hashstate_hmac c2 temp_key (temp_hash ++ [2]) None in
      let output2 := take output2_len temp_hash2 in
      Ok (E_NONE, c3, Some (output1, output2))
  end.

(** src/protocol/hashstate.c:574-579: the inner loop, iterations-1 times *)
Definition xor_bytes (a b : list Z) : list Z := map (fun p => Z.lxor (fst p) (snd p)) (combine a b).
Definition pbkdf2_inner (pw : list Z) (st : hctx * list Z * list Z) : hctx * list Z * list Z :=
  let '(c, T, U) := st in
  let '(c', U') := hashstate_hmac c pw U None in
  (c', xor_bytes T U', U').

(** src/protocol/hashstate.c:561-590: the loop over output blocks.  [fuel]
    bounds the number of rounds; every round makes progress because
    hash_len > 0 (output_len > max_size = 0 is refused otherwise). *)
Fixpoint pbkdf2_blocks (fuel : nat) (c : hctx) (pw salt : list Z) (iterations i output_len : Z)
    (out : list Z) : outcome (hctx * list Z) :=
  match fuel with
  | O => UB
  | S fuel' =>
    if output_len <=? 0 then Ok (c, out)
    else
      let ibuf := [Z.shiftr i 24 mod 256; Z.shiftr i 16 mod 256; Z.shiftr i 8 mod 256; i mod 256] in
      let '(c1, T) := hashstate_hmac c pw salt (Some ibuf) in
      let '(c2, T, _) := Z.iter (iterations - 1) (pbkdf2_inner pw) (c1, T, T) in
      if ha_hash_len alg <=? output_len
      then pbkdf2_blocks fuel' c2 pw salt iterations (i + 1) (output_len - ha_hash_len alg) (out ++ T)
      else pbkdf2_blocks fuel' c2 pw salt iterations (i + 1) 0 (out ++ take output_len T)
  end.

(** src/protocol/hashstate.c:541-596 (non-NULL state and output).  T and U are
    arrays of NOISE_MAX_HASHLEN = 64 bytes (src/protocol/internal.h). *)
Definition hashstate_pbkdf2 (c : hctx) (passphrase : cptr) (passphrase_len : Z)
    (salt : cptr) (salt_len iterations output_len : Z)
  : outcome (err * hctx * option (list Z)) :=
  match passphrase, salt with
  | None, _ | _, None => Ok (E_INVALID_PARAM, c, None)
  | Some _, Some _ =>
    let hash_len := ha_hash_len alg in
    let max_size := (4294967295 * hash_len) mod 2^64 in
    if max_size <? output_len then Ok (E_INVALID_LENGTH, c, None)
    else if 64 <? hash_len then UB
    else
      let! pw := read_ptr passphrase passphrase_len in
      let! sl := read_ptr salt salt_len in
      let! r := pbkdf2_blocks (S (S (Z.to_nat output_len))) c pw sl iterations 1 output_len [] in
      let '(c', out) := r in
      Ok (E_NONE, c', Some out)
  end.

End HashState.
