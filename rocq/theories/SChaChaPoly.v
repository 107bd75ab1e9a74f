(** Specification of AEAD_CHACHA20_POLY1305: RFC 7539, section 2.8. *)
From Verif Require Import Base SSha2 SBlake2 SChaCha SPoly1305.

(** Section 2.6: the one-time key *)
Definition poly1305_key_gen (key nonce : list Z) : list Z := take 32 (chacha20_block key 0 nonce).
Definition pad16 (x : list Z) : list Z := zeros (- zlen x mod 16).
Definition aead_tag (key nonce aad ciphertext : list Z) : list Z :=
  poly1305_mac (poly1305_key_gen key nonce)
    (aad ++ pad16 aad ++ ciphertext ++ pad16 ciphertext
     ++ le_bytes 8 (zlen aad) ++ le_bytes 8 (zlen ciphertext)).
Definition aead_encrypt (key nonce aad plaintext : list Z) : list Z * list Z :=
  let ciphertext := chacha20_encrypt key 1 nonce plaintext in
  (ciphertext, aead_tag key nonce aad ciphertext).
(** The plaintext, or None if the tag is not the one of the ciphertext *)
Definition aead_decrypt (key nonce aad ciphertext tag : list Z) : option (list Z) :=
  if list_eq_dec Z.eq_dec tag (aead_tag key nonce aad ciphertext)
  then Some (chacha20_encrypt key 1 nonce ciphertext) else None.
