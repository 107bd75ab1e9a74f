(** Model of src/protocol/randstate.c, the build without libsodium *)
From Verif Require Import Base MHash MSha2 MBlake2 MChaCha.

(** randstate.c:67-83, without [size].  [rs_reads] belongs to the environment:
    the number of calls of noise_rand_bytes so far. *)
Record randstate : Type := RandState {
  rs_left : Z;
  rs_chacha : list Z;
  rs_reads : nat
}.

(** randstate.c:85-88 *)
Definition RAND_RESEED_COUNT : Z := 1600000.
Definition RAND_REKEY_COUNT : Z := 16.
(** randstate.c:93-98 *)
Definition starting_key : list Z :=
  [0x6A; 0x09; 0xE6; 0x67; 0xBB; 0x67; 0xAE; 0x85;
   0x3C; 0x6E; 0xF3; 0x72; 0xA5; 0x4F; 0xF5; 0x3A;
   0x51; 0x0E; 0x52; 0x7F; 0x9B; 0x05; 0x68; 0x8C;
   0x1F; 0x83; 0xD9; 0xAB; 0x5B; 0xE0; 0xCD; 0x19].
(** include/noise/protocol/constants.h:123-124 *)
Definition PADDING_ZERO : Z := NOISE_ID 71 1.
Definition PADDING_RANDOM : Z := NOISE_ID 71 2.

Section Rand.
(** The build of ChaCha; the contents of the uninitialised array of
    chacha_encrypt_bytes (any: only its size matters); and what the [i]th call
    of noise_rand_bytes(data, 40) stores *)
Variable b : cc_build.
Variable temp : list Z.
Variable entropy : nat -> list Z.

(** randstate.c:194-196, 209-211, 237-239: the 40 bytes are encrypted in place
    and become the new key and IV *)
Definition new_key (x data : list Z) : list Z :=
  let '(x, data) := chacha_encrypt_bytes b temp x data 40 in
  let x := chacha_keysetup b data 256 in
  chacha_ivsetup x (drop 32 data) None.

(** randstate.c:225-243 *)
Definition randstate_rekey (s : randstate) : randstate :=
  RandState (rs_left s) (new_key (rs_chacha s) (zeros 40)) (rs_reads s).

(** randstate.c:177-218 for a state that is not NULL *)
Definition randstate_reseed (s : randstate) : randstate :=
  let x := new_key (rs_chacha s) (entropy (rs_reads s)) in
  let x := new_key x (zeros 40) in
  RandState RAND_RESEED_COUNT x (S (rs_reads s)).

(** randstate.c:116-138 when memory is available; the new object is zeroed *)
Definition randstate_new (reads : nat) : randstate :=
  randstate_reseed (RandState 0 (chacha_keysetup b starting_key 256) reads).

(** randstate.c:286-309: the loop.  [data] is the memory at the buffer pointer;
    one turn writes at most 64 bytes, which bounds [fuel]. *)
Fixpoint generate_loop (fuel : nat) (s : randstate) (blocks : Z) (data : list Z) (len : Z) : randstate * list Z :=
  match fuel with
  | O => (s, data)
  | S fuel' =>
    if len >? 0 then
      let temp_len := if len >? 64 then 64 else len in
      let '(s, blocks) :=
        if rs_left s >=? 64 then (RandState (rs_left s - 64) (rs_chacha s) (rs_reads s), blocks)
        else (randstate_reseed s, 0) in
      let '(s, blocks) :=
        if blocks >=? RAND_REKEY_COUNT then (randstate_rekey s, 0) else (s, blocks + 1) in
      let '(x, data) := chacha_encrypt_bytes b temp (rs_chacha s) data temp_len in
      let s := RandState (rs_left s) x (rs_reads s) in
      let '(s, rest) := generate_loop fuel' s blocks (drop temp_len data) (len - temp_len) in
      (s, take temp_len data ++ rest)
    else (s, data)
  end.

(** randstate.c:263-316.  [buffer] is the memory the pointer points to, of which
    the first [len] bytes are to be filled. *)
Definition randstate_generate (state : option randstate) (buffer : cptr) (len : Z)
    : outcome (err * option randstate * cptr) :=
  match buffer with
  | None => Ok (E_INVALID_PARAM, state, buffer)
  | Some mem =>
    let! mem := store mem 0 (zeros len) in
    match state with
    | None => Ok (E_INVALID_PARAM, state, Some mem)
    | Some s =>
      let s := if rs_left s <? len then randstate_reseed s else s in
      let '(s, mem) := generate_loop (S (Z.to_nat ((len + 63) / 64))) s 0 mem len in
      let s := randstate_rekey s in
      Ok (E_NONE, Some s, Some mem)
    end
  end.

(** randstate.c:348-375 *)
Definition randstate_pad (state : option randstate) (payload : cptr) (orig_len padded_len padding_mode : Z)
    : outcome (err * option randstate * cptr) :=
  match payload with
  | None => Ok (E_INVALID_PARAM, state, payload)
  | Some mem =>
    match state with
    | None =>
      let! mem := if padded_len >? orig_len then store mem orig_len (zeros (padded_len - orig_len)) else Ok mem in
      Ok (E_INVALID_PARAM, state, Some mem)
    | Some _ =>
      if padded_len <=? orig_len then Ok (E_NONE, state, payload)
      else if padding_mode =? PADDING_ZERO then
        let! mem := store mem orig_len (zeros (padded_len - orig_len)) in
        Ok (E_NONE, state, Some mem)
      else
        let! r := randstate_generate state (Some (drop orig_len mem)) (padded_len - orig_len) in
        let '(e, state, rest) := r in
        Ok (e, state, match rest with Some m => Some (take orig_len mem ++ m) | None => None end)
    end
  end.

(** randstate.c:391-415; the state is cleaned and forgotten, what remains is the
    count of entropy reads *)
Definition randstate_generate_simple (reads : nat) (buffer : cptr) (len : Z) : outcome (err * nat * cptr) :=
  match buffer with
  | None => Ok (E_INVALID_PARAM, reads, buffer)
  | Some _ =>
    let s := randstate_new reads in
    let! r := randstate_generate (Some s) buffer len in
    let '(_, s, buffer) := r in
    Ok (E_NONE, match s with Some s => rs_reads s | None => reads end, buffer)
  end.
End Rand.
