(** Specification of ChaCha20: RFC 7539, sections 2.1 to 2.4. *)
From Verif Require Import Base SSha2 SBlake2.

(** Section 2.1: the quarter round *)
Definition rotl (x n : Z) : Z := (x * 2 ^ n) mod 2 ^ 32 + x / 2 ^ (32 - n).
Definition Qround (a b c d : Z) : Z * Z * Z * Z :=
  let a := (a + b) mod 2 ^ 32 in let d := rotl (Z.lxor d a) 16 in
  let c := (c + d) mod 2 ^ 32 in let b := rotl (Z.lxor b c) 12 in
  let a := (a + b) mod 2 ^ 32 in let d := rotl (Z.lxor d a) 8 in
  let c := (c + d) mod 2 ^ 32 in let b := rotl (Z.lxor b c) 7 in
  (a, b, c, d).
(** Section 2.2: on the words with the given indices *)
Definition put (s : list Z) (i : nat) (x : Z) : list Z := firstn i s ++ x :: skipn (S i) s.
Definition QUARTERROUND (s : list Z) (x y z w : nat) : list Z :=
  let '(a, b, c, d) := Qround (nth x s 0) (nth y s 0) (nth z s 0) (nth w s 0) in
  put (put (put (put s x a) y b) z c) w d.
(** Section 2.3: the block function *)
Definition inner_block (s : list Z) : list Z :=
  let s := QUARTERROUND s 0 4 8 12 in
  let s := QUARTERROUND s 1 5 9 13 in
  let s := QUARTERROUND s 2 6 10 14 in
  let s := QUARTERROUND s 3 7 11 15 in
  let s := QUARTERROUND s 0 5 10 15 in
  let s := QUARTERROUND s 1 6 11 12 in
  let s := QUARTERROUND s 2 7 8 13 in
  QUARTERROUND s 3 4 9 14.
Definition chacha20_state (key : list Z) (counter : Z) (nonce : list Z) : list Z :=
  [0x61707865; 0x3320646e; 0x79622d32; 0x6b206574]
  ++ map le_val (pieces 4 8 key) ++ [counter] ++ map le_val (pieces 4 3 nonce).
Definition chacha20_block (key : list Z) (counter : Z) (nonce : list Z) : list Z :=
  let s := chacha20_state key counter nonce in
  let w := Nat.iter 10 inner_block s in
  concat (map (fun i => le_bytes 4 ((nth i s 0 + nth i w 0) mod 2 ^ 32)) (seq 0 16)).
(** Section 2.4: byte [i] of the text is combined with byte [i] of the key
    stream, made of the blocks for [counter], [counter] + 1, .. one after the
    other *)
Definition chacha20_keystream (key : list Z) (counter : Z) (nonce : list Z) (i : Z) : Z :=
  byte_at (chacha20_block key (counter + i / 64) nonce) (i mod 64).
Definition chacha20_encrypt (key : list Z) (counter : Z) (nonce : list Z) (text : list Z) : list Z :=
  map (fun i => Z.lxor (byte_at text i) (chacha20_keystream key counter nonce i)) (range 0 (zlen text)).

(** The nonce of the Noise specification (section on cipher functions): 32 bits
    of zeros followed by the little endian encoding of n *)
Definition noise_nonce (n : Z) : list Z := zeros 4 ++ le_bytes 8 n.
