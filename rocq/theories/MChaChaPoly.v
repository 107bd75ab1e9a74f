(** Model of src/backend/ref/cipher-chachapoly.c *)
From Verif Require Import Base MCipher MHash MUtil MChaCha MPoly1305.

(** NoiseChaChaPolyState, cipher-chachapoly.c:28-35, without the common part *)
Record cp_state : Type := CPState {
  cp_chacha : list Z;
  cp_poly : poly1305;
  cp_block : list Z
}.
(** noise_new zeroes the object (src/protocol/util.c:135-142) *)
Definition cp_zeroed : cp_state :=
  CPState (zeros 16) (Poly1305 (0, 0, 0) (0, 0, 0) (0, 0) 0 (zeros 16) false) (zeros 64).

Section Build.
Variable b : cc_build.

(** cipher-chachapoly.c:37-42 *)
Definition chachapoly_init_key (st : cp_state) (key : list Z) : cp_state :=
  CPState (chacha_keysetup b key 256) (cp_poly st) (cp_block st).

(** cipher-chachapoly.c:44-54 *)
Definition put_uint64 (value : Z) : list Z :=
  map (fun k => Z.shiftr value (8 * Z.of_nat k) mod 256) (seq 0 8).

(** cipher-chachapoly.c:62-73; [temp] is the uninitialised array of
    chacha_encrypt_bytes *)
Definition chachapoly_setup (temp : list Z) (st : cp_state) (n : Z) : cp_state :=
  let block := splice 0 (put_uint64 n) (cp_block st) in
  let x := chacha_ivsetup (cp_chacha st) block None in
  let block := zeros 64 in
  let '(x, block) := chacha_encrypt_bytes b temp x block 64 in
  CPState x (poly1305_init (p_buffer (cp_poly st)) block) (zeros 64).

(** cipher-chachapoly.c:81-90 *)
Definition pad_auth (p : poly1305) (len : Z) : outcome poly1305 :=
  let len := len mod 16 in
  if len =? 0 then Ok p else poly1305_update wrap p (zeros (16 - len)).

(** cipher-chachapoly.c:99-105; the new block and the new hash state *)
Definition auth_lengths (block : list Z) (p : poly1305) (ad_len data_len : Z) : outcome (list Z * poly1305) :=
  let block := splice 0 (put_uint64 ad_len) block in
  let block := splice 8 (put_uint64 data_len) block in
  let! p := poly1305_update wrap p (take 16 block) in
  Ok (block, p).

(** cipher-chachapoly.c:113-116 and 131-134 *)
Definition auth_ad (p : poly1305) (ad : list Z) : outcome poly1305 :=
  if zlen ad =? 0 then Ok p
  else
    let! p := poly1305_update wrap p ad in
    pad_auth p (zlen ad).

(** cipher-chachapoly.c:107-123.  [mem] is the memory at the data pointer, [n]
    the nonce in the common part of the object. *)
Definition chachapoly_encrypt (temp temp' : list Z) (st : cp_state) (n : Z) (ad mem : list Z) (len : Z)
    : outcome (err * cp_state * list Z) :=
  let st := chachapoly_setup temp st n in
  let! p := auth_ad (cp_poly st) ad in
  let '(x, mem) := chacha_encrypt_bytes b temp' (cp_chacha st) mem len in
  let! p := poly1305_update wrap p (take len mem) in
  let! p := pad_auth p len in
  let! r := auth_lengths (cp_block st) p (zlen ad) len in
  let '(block, p) := r in
  let! r := poly1305_finish wrap p in
  let '(p, mac) := r in
  Ok (E_NONE, CPState x p block, splice len mac mem).

(** cipher-chachapoly.c:125-143; [len] does not count the MAC *)
Definition chachapoly_decrypt (temp temp' : list Z) (st : cp_state) (n : Z) (ad mem : list Z) (len : Z)
    : outcome (err * cp_state * list Z) :=
  let st := chachapoly_setup temp st n in
  let! p := auth_ad (cp_poly st) ad in
  let! p := poly1305_update wrap p (take len mem) in
  let! p := pad_auth p len in
  let! r := auth_lengths (cp_block st) p (zlen ad) len in
  let '(block, p) := r in
  let! r := poly1305_finish wrap p in
  let '(p, mac) := r in
  let block := splice 0 mac block in
  if noise_is_equal (take 16 block) (sub len 16 mem) =? 0 then
    Ok (E_MAC_FAILURE, CPState (cp_chacha st) p block, mem)
  else
    let '(x, mem) := chacha_encrypt_bytes b temp' (cp_chacha st) mem len in
    Ok (E_NONE, CPState x p block, mem).

(** The backend as CipherState sees it (cipher-chachapoly.c:145-158): a new
    object, keyed, used once.  That earlier calls make no difference is a
    theorem (TChaChaPoly). *)
Definition cp_result (r : outcome (err * cp_state * list Z)) (mem : list Z) : err * list Z :=
  match r with
  | Ok (e, _, mem') => (e, mem')
  | UB => (E_SYSTEM, mem)
  end.
Definition chachapoly : cipher_alg := CipherAlg (NOISE_ID 67 1) 32 16
  (fun k n ad pt =>
     cp_result (chachapoly_encrypt (zeros 64) (zeros 64) (chachapoly_init_key cp_zeroed k) n ad (pt ++ zeros 16) (zlen pt))
               (pt ++ zeros 16))
  (fun k n ad ct =>
     cp_result (chachapoly_decrypt (zeros 64) (zeros 64) (chachapoly_init_key cp_zeroed k) n ad ct (zlen ct - 16)) ct).
End Build.
