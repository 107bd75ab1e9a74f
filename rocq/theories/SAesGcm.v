(** Specification of AES-256-GCM: NIST SP 800-38D, sections 6.2, 6.5 and 7, for
    initialization vectors of 96 bits and tags of 128 bits, on byte strings. *)
From Verif Require Import Base SSha2 SAes SGhash.

(** Section 6.2: inc_32, the last 32 bits of a block as a number *)
Definition inc32 (x : list Z) : list Z := take 12 x ++ be_bytes 4 ((be_val (drop 12 x) + 1) mod 2 ^ 32).

(** Section 6.5: X xor the first bytes of the keystream CIPH(ICB) || CIPH(inc(ICB)) || ... *)
Definition GCTR (key icb x : list Z) : list Z :=
  let n := Z.to_nat ((zlen x + 15) / 16) in
  xor_bytes x (concat (map (fun i => AES 8 key (Nat.iter i inc32 icb)) (seq 0 n))).

(** Section 7.1: J_0 *)
Definition J0 (iv : list Z) : list Z := iv ++ [0; 0; 0; 1].
Definition gcm_pad (x : list Z) : list Z := zeros (- zlen x mod 16).
Definition gcm_tag (key iv aad ciphertext : list Z) : list Z :=
  let h := be_val (AES 8 key (zeros 16)) in
  let s := GHASH h (blocks_of (aad ++ gcm_pad aad ++ ciphertext ++ gcm_pad ciphertext
             ++ be_bytes 8 (8 * zlen aad) ++ be_bytes 8 (8 * zlen ciphertext))) in
  GCTR key (J0 iv) (be_bytes 16 s).
Definition gcm_encrypt (key iv aad plaintext : list Z) : list Z * list Z :=
  let ciphertext := GCTR key (inc32 (J0 iv)) plaintext in
  (ciphertext, gcm_tag key iv aad ciphertext).
(** Section 7.2: the plaintext, or None for FAIL *)
Definition gcm_decrypt (key iv aad ciphertext tag : list Z) : option (list Z) :=
  if list_eq_dec Z.eq_dec tag (gcm_tag key iv aad ciphertext)
  then Some (GCTR key (inc32 (J0 iv)) ciphertext) else None.

(** Noise, section 12.4: 32 bits of zeros and the nonce in big-endian order *)
Definition gcm_nonce (n : Z) : list Z := zeros 4 ++ be_bytes 8 n.
