(** Model of src/backend/ref/cipher-aesgcm.c *)
From Verif Require Import Base MCipher MHash MUtil MAes MGhash.

(** rijndael-alg-fst.h:33 *)
Definition MAXNR : Z := 14.

(** NoiseAESGCMState, cipher-aesgcm.c:28-36, without the common part *)
Record ag_state : Type := AGState {
  ag_aes : list Z;
  ag_ghash : ghash_state;
  ag_counter : list Z;
  ag_hash : list Z
}.
Definition ag_zeroed (b : gh_build) : ag_state :=
  AGState (zeros (4 * (MAXNR + 1))) (GhashState (zeros (if gh_word64 b then 2 else 4)) (zeros 16) 0) (zeros 16) (zeros 16).

(** cipher-aesgcm.c:52-63 *)
Definition put_uint64_be (value : Z) : list Z :=
  map (fun k => Z.shiftr value (8 * (7 - Z.of_nat k)) mod 256) (seq 0 8).

Section Build.
Variable b : gh_build.

(** cipher-aesgcm.c:38-50; the caller's array holds at least 32 bytes *)
Definition aesgcm_init_key (st : ag_state) (key : list Z) : outcome ag_state :=
  let! key := load key 0 32 in
  let! r := rijndael_key_setup_enc (ag_aes st) key 256 in
  let '(aes, _) := r in
  let counter := zeros 16 in
  let! hash := rijndael_encrypt aes MAXNR counter in
  Ok (AGState aes (ghash_reset b (ag_ghash st) (Some hash)) counter hash).

(** cipher-aesgcm.c:70-90; every byte of the counter is stored *)
Definition aesgcm_setup_iv (st : ag_state) (n : Z) : outcome ag_state :=
  let counter := zeros 4 ++ put_uint64_be n ++ [0; 0; 0; 1] in
  let! hash := rijndael_encrypt (ag_aes st) MAXNR counter in
  Ok (AGState (ag_aes st) (ghash_reset b (ag_ghash st) None) counter hash).

(** cipher-aesgcm.c:110-113; the counter is 16 bits wide *)
Definition bump_counter (ctr : list Z) : list Z :=
  let counter := (Z.lor (byte_at ctr 15) (Z.shiftl (byte_at ctr 14) 8) + 1) mod 2^16 in
  let ctr := splice 15 [counter mod 256] ctr in
  splice 14 [Z.shiftr counter 8 mod 256] ctr.
(** cipher-aesgcm.c:104-123: the counter and the [len] bytes at data afterwards;
    one turn of the loop takes at least one byte, which bounds [fuel] *)
Fixpoint aesgcm_loop (fuel : nat) (aes ctr data : list Z) (len : Z) : outcome (list Z * list Z) :=
  match fuel with
  | O => Ok (ctr, data)
  | S fuel' =>
    if len >? 0 then
      let ctr := bump_counter ctr in
      let! keystream := rijndael_encrypt aes MAXNR ctr in
      let temp := if 16 >? len then len else 16 in
      let out := map (fun p => Z.lxor (fst p) (snd p)) (combine (take temp data) keystream) in
      let! r := aesgcm_loop fuel' aes ctr (drop temp data) (len - temp) in
      Ok (fst r, out ++ snd r)
    else Ok (ctr, data)
  end.
(** cipher-aesgcm.c:99-125 *)
Definition aesgcm_encrypt_or_decrypt (st : ag_state) (data : list Z) (len : Z) : outcome (ag_state * list Z) :=
  let! r := aesgcm_loop (S (length data)) (ag_aes st) (ag_counter st) data len in
  Ok (AGState (ag_aes st) (ag_ghash st) (fst r) (ag_hash st), snd r).

(** cipher-aesgcm.c:135-154; the bytes of the hash and the state *)
Definition aesgcm_finalize_hash (st : ag_state) (ad_len data_len : Z) : ag_state * list Z :=
  let g := ghash_pad b (ag_ghash st) in
  let block := put_uint64_be (ad_len * 8 mod 2^64) ++ put_uint64_be (data_len * 8 mod 2^64) in
  let g := ghash_update b g block in
  (AGState (ag_aes st) g (ag_counter st) (ag_hash st),
   map (fun i => Z.lxor (byte_at (ag_hash st) (Z.of_nat i)) (byte_at (gh_Y g) (Z.of_nat i))) (seq 0 16)).

(** cipher-aesgcm.c:162-165 and 178-181 *)
Definition aesgcm_ad (st : ag_state) (ad : list Z) : ag_state :=
  if zlen ad =? 0 then st
  else AGState (ag_aes st) (ghash_pad b (ghash_update b (ag_ghash st) ad)) (ag_counter st) (ag_hash st).

(** cipher-aesgcm.c:156-170.  [mem] is the memory at the data pointer, [n] the
    nonce in the common part of the object. *)
Definition aesgcm_encrypt (st : ag_state) (n : Z) (ad mem : list Z) (len : Z) : outcome (err * ag_state * list Z) :=
  let! st := aesgcm_setup_iv st n in
  let st := aesgcm_ad st ad in
  let! r := aesgcm_encrypt_or_decrypt st mem len in
  let '(st, mem) := r in
  let st := AGState (ag_aes st) (ghash_update b (ag_ghash st) (take len mem)) (ag_counter st) (ag_hash st) in
  let '(st, mac) := aesgcm_finalize_hash st (zlen ad) len in
  Ok (E_NONE, st, splice len mac mem).

(** cipher-aesgcm.c:172-188; [len] does not count the MAC *)
Definition aesgcm_decrypt (st : ag_state) (n : Z) (ad mem : list Z) (len : Z) : outcome (err * ag_state * list Z) :=
  let! st := aesgcm_setup_iv st n in
  let st := aesgcm_ad st ad in
  let st := AGState (ag_aes st) (ghash_update b (ag_ghash st) (take len mem)) (ag_counter st) (ag_hash st) in
  let '(st, mac) := aesgcm_finalize_hash st (zlen ad) len in
  let st := AGState (ag_aes st) (ag_ghash st) (ag_counter st) mac in
  if noise_is_equal (sub len 16 mem) (ag_hash st) =? 0 then Ok (E_MAC_FAILURE, st, mem)
  else
    let! r := aesgcm_encrypt_or_decrypt st mem len in
    Ok (E_NONE, fst r, snd r).

(** The backend as CipherState sees it (cipher-aesgcm.c:190-203): a new object,
    keyed, used once.  That earlier calls make no difference is a theorem
    (TAesGcm). *)
Definition ag_result (r : outcome (err * ag_state * list Z)) (mem : list Z) : err * list Z :=
  match r with
  | Ok (e, _, mem') => (e, mem')
  | UB => (E_SYSTEM, mem)
  end.
Definition aesgcm : cipher_alg := CipherAlg (NOISE_ID 67 2) 32 16
  (fun k n ad pt =>
     ag_result (let! st := aesgcm_init_key (ag_zeroed b) k in aesgcm_encrypt st n ad (pt ++ zeros 16) (zlen pt))
               (pt ++ zeros 16))
  (fun k n ad ct =>
     ag_result (let! st := aesgcm_init_key (ag_zeroed b) k in aesgcm_decrypt st n ad ct (zlen ct - 16)) ct).
End Build.
