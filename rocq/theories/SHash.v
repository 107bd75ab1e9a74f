(** Specifications: RFC 2104 HMAC, the Noise two-output HKDF, RFC 8018 PBKDF2,
    over an abstract hash function [H] with block length [B] and output length
    [L] (all in bytes). *)
From Verif Require Import Base MHash.

(** Bytewise exclusive or of equally long strings. *)
Fixpoint xorb_list (a b : list Z) : list Z :=
  match a, b with
  | x :: a', y :: b' => Z.lxor x y :: xorb_list a' b'
  | _, _ => []
  end.

Section Spec.
Variable H : list Z -> list Z.
Variable B : Z.

(** RFC 2104: a key longer than B bytes is hashed first; the key is padded with zeros to B bytes. *)
Definition hmac_key (K : list Z) : list Z :=
  let K' := if B <? zlen K then H K else K in
  K' ++ repeat 0 (Z.to_nat (B - zlen K')).
(** HMAC(K, text) = H(K xor opad, H(K xor ipad, text)) *)
Definition HMAC (K text : list Z) : list Z :=
  let ipad := repeat 54 (Z.to_nat B) in
  let opad := repeat 92 (Z.to_nat B) in
  H (xorb_list (hmac_key K) opad ++ H (xorb_list (hmac_key K) ipad ++ text)).

(** Noise specification, section 4.3: HKDF(chaining_key, input_key_material). *)
Definition HKDF (ck ikm : list Z) : list Z * list Z :=
  let temp_key := HMAC ck ikm in
  let output1 := HMAC temp_key [1] in
  let output2 := HMAC temp_key (output1 ++ [2]) in
  (output1, output2).

(** RFC 8018, section 5.2: F(P,S,c,i) = U_1 xor ... xor U_c, where
    U_1 = PRF(P, S || INT(i)) and U_(j+1) = PRF(P, U_j). *)
Fixpoint pbkdf2_U (P S_ : list Z) (i : Z) (j : nat) : list Z :=
  match j with
  | O => HMAC P (S_ ++ [i / 2^24 mod 256; i / 2^16 mod 256; i / 2^8 mod 256; i mod 256])
  | S j' => HMAC P (pbkdf2_U P S_ i j')
  end.
Fixpoint pbkdf2_F (P S_ : list Z) (i : Z) (c : nat) : list Z :=
  match c with
  | O => pbkdf2_U P S_ i 0
  | S c' => xorb_list (pbkdf2_F P S_ i c') (pbkdf2_U P S_ i c)
  end.
(** The first dkLen bytes of T_1 || T_2 || ... || T_n for any n large enough
    that T_1 .. T_n have at least dkLen bytes; here n = dkLen.  [c] is the iteration count (at least 1). *)
Definition PBKDF2 (P S_ : list Z) (c : Z) (dkLen : Z) : list Z :=
  take dkLen
    (concat (map (fun i => pbkdf2_F P S_ (Z.of_nat i) (Z.to_nat (c - 1)))
                 (seq 1 (Z.to_nat dkLen)))).
End Spec.

(** What a streaming hash backend has to satisfy to be the hash function [H]:
    the digest depends only on the concatenation of the updates.  A context is
    well formed if its block buffer is as long as the C array. *)
Definition hctx_ok (alg : hash_alg) (c : hctx) : Prop := zlen (hc_m c) = ha_block_len alg.

Record hash_law (alg : hash_alg) (H : list Z -> list Z) : Prop := {
  law_reset_ok : forall c, hctx_ok alg c -> hctx_ok alg (ha_reset alg c);
  law_final_ok : forall c chunks, hctx_ok alg c ->
    hctx_ok alg (fst (ha_final alg (fold_left (ha_update alg) chunks (ha_reset alg c))));
  law_stream : forall c chunks, hctx_ok alg c ->
    snd (ha_final alg (fold_left (ha_update alg) chunks (ha_reset alg c))) = H (concat chunks);
  law_len : forall m, zlen (H m) = ha_hash_len alg;
  law_bytes : forall m, bytes (H m);
  law_lens : 0 < ha_hash_len alg <= 64 /\ ha_hash_len alg <= ha_block_len alg
}.
