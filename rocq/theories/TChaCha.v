(** C58: the ChaCha20 code computes RFC 7539 ChaCha20. *)
From Verif Require Import Base MHash MSha2 MBlake2 SSha2 SBlake2 MChaCha SChaCha PChaCha.

(** A context set up with [key] and the eight bytes of the nonce [n] *)
Definition chacha_ready (b : cc_build) (key : list Z) (n : Z) : list Z :=
  chacha_ivsetup (chacha_keysetup b key 256) (le_bytes 8 n) None.

Lemma chacha_ready_state : forall b key n, b <> CC_ScalarBE -> bytes key -> zlen key = 32 ->
  chacha_ready b key n = chacha20_state key 0 (noise_nonce n).
Proof.
  intros b key n Hb Hk Lk. unfold chacha_ready. rewrite keysetup_spec by auto.
  rewrite ivsetup_spec by (try apply bytes_le_bytes; rewrite zlen_le_bytes; lia).
  unfold noise_nonce. rewrite take_all; [reflexivity|]. rewrite zlen_le_bytes. lia.
Qed.
Lemma bytes_nonce : forall n, bytes (noise_nonce n).
Proof. intros n. unfold noise_nonce. apply bytes_app. split; [apply bytes_zeros|apply bytes_le_bytes]. Qed.
Lemma encrypt_bytes_spec : forall b temp key nonce c data len, bytes key -> bytes nonce -> bytes temp -> zlen temp = 64 ->
  bytes data -> 0 <= len <= zlen data -> len < 2 ^ 32 -> 0 <= c < 2 ^ 31 ->
  chacha_encrypt_bytes b temp (chacha20_state key c nonce) data len =
  (chacha20_state key (c + blocks_in len) nonce, chacha20_encrypt key c nonce (take len data) ++ drop len data).
Proof.
  intros b temp key nonce c data len Hk Hn Ht Lt Hd Hl Hl32 Hc. unfold chacha_encrypt_bytes.
  rewrite Z.mod_small by lia. apply loop_spec; auto; try lia.
  assert (blocks_in len <= 2 ^ 26 + 1) by (unfold blocks_in; apply Z.div_le_upper_bound; lia). lia.
Qed.

(** Encrypting the first [len] bytes of a memory area in place: they are
    combined with the RFC 7539 key stream for the Noise nonce, starting at block
    0, and nothing beyond them changes.  [temp] is what the local array of the
    function happened to contain. *)
Theorem C58_is_rfc7539 : forall b temp key n data len,
  b <> CC_ScalarBE ->
  bytes key -> zlen key = 32 -> bytes data -> 0 <= len <= zlen data -> len < 2 ^ 32 ->
  bytes temp -> zlen temp = 64 ->
  snd (chacha_encrypt_bytes b temp (chacha_ready b key n) data len)
  = chacha20_encrypt key 0 (noise_nonce n) (take len data) ++ drop len data.
Proof.
  intros. rewrite chacha_ready_state by auto. rewrite encrypt_bytes_spec; auto; [apply bytes_nonce|lia].
Qed.
Print Assumptions C58_is_rfc7539.

(** A second call goes on with the next block of the same key stream: after
    [k] whole blocks, at block [k]. *)
Theorem C58_continues : forall b temp temp' key n k first data len,
  b <> CC_ScalarBE ->
  bytes key -> zlen key = 32 -> 0 <= k < 2 ^ 26 -> bytes first -> zlen first = 64 * k ->
  bytes data -> 0 <= len <= zlen data -> len < 2 ^ 32 ->
  bytes temp -> zlen temp = 64 -> bytes temp' -> zlen temp' = 64 ->
  let '(x, c1) := chacha_encrypt_bytes b temp (chacha_ready b key n) first (64 * k) in
  let '(_, c2) := chacha_encrypt_bytes b temp' x data len in
  c1 = chacha20_encrypt key 0 (noise_nonce n) first /\
  c2 = chacha20_encrypt key k (noise_nonce n) (take len data) ++ drop len data.
Proof.
  intros b temp temp' key n k first data len Hb Hk Lk Hkk Hf Lf Hd Hl Hl32 Ht Lt Ht' Lt'.
  rewrite chacha_ready_state by auto. rewrite encrypt_bytes_spec; auto; [|apply bytes_nonce|lia..].
  assert (blocks_in (64 * k) = k) as ->.
  { unfold blocks_in. rewrite Z.mul_comm, Z.add_comm, Z.div_add by lia. change (63 / 64) with 0. lia. }
  rewrite Z.add_0_l. rewrite encrypt_bytes_spec; auto; [|apply bytes_nonce|lia..].
  rewrite take_all, drop_all by lia. rewrite app_nil_r. auto.
Qed.
Print Assumptions C58_continues.

(** Encrypting twice from the same context gives the data back. *)
Theorem C58_own_inverse : forall b temp temp' key n data len,
  b <> CC_ScalarBE ->
  bytes key -> zlen key = 32 -> bytes data -> 0 <= len <= zlen data -> len < 2 ^ 32 ->
  bytes temp -> zlen temp = 64 -> bytes temp' -> zlen temp' = 64 ->
  snd (chacha_encrypt_bytes b temp' (chacha_ready b key n)
         (snd (chacha_encrypt_bytes b temp (chacha_ready b key n) data len)) len) = data.
Proof.
  intros b temp temp' key n data len Hb Hk Lk Hd Hl Hl32 Ht Lt Ht' Lt'.
  rewrite (C58_is_rfc7539 b temp key n data len) by auto. rewrite C58_is_rfc7539; auto.
  - assert (zlen (chacha20_encrypt key 0 (noise_nonce n) (take len data)) = len) as L
      by (rewrite zlen_encrypt, zlen_take; lia).
    rewrite <- L at 1. rewrite take_app_exact. rewrite <- L at 2. rewrite drop_app_exact.
    rewrite encrypt_twice. apply take_drop.
  - apply bytes_app. split; [apply bytes_encrypt; now apply bytes_take|now apply bytes_drop].
  - rewrite zlen_app, zlen_encrypt, zlen_take, zlen_drop. lia.
Qed.
Print Assumptions C58_own_inverse.

(** On a big endian machine the scalar code does not compute ChaCha20: the four
    constant words are copied in the byte order of the machine (chacha.c:79). *)
Theorem C58_big_endian_refuted : exists key n data,
  bytes key /\ zlen key = 32 /\ bytes data /\
  snd (chacha_encrypt_bytes CC_ScalarBE (zeros 64) (chacha_ready CC_ScalarBE key n) data (zlen data))
  <> chacha20_encrypt key 0 (noise_nonce n) data.
Proof.
  exists (zeros 32), 0, [0]. split; [apply bytes_zeros|]. split; [reflexivity|].
  split; [repeat constructor; unfold is_byte; lia|]. vm_compute. discriminate.
Qed.
Print Assumptions C58_big_endian_refuted.

(** The test vector of RFC 7539, section 2.4.2, has a nonce whose first word is
    zero: the first bytes of the text, the nonce 00 00 00 4a 00 00 00 00 after it, and a
    counter starting at 1. *)
Example chacha_rfc_vector :
  let key := map Z.of_nat (seq 0 32) in
  let text := [76; 97; 100; 105; 101; 115; 32; 97; 110; 100] in
  let '(x, _) := chacha_encrypt_bytes CC_Vector (zeros 64) (chacha_ready CC_Vector key 0x4a000000) (zeros 64) 64 in
  snd (chacha_encrypt_bytes CC_Vector (zeros 64) x text 10)
  = [0x6e; 0x2e; 0x35; 0x9a; 0x25; 0x68; 0xf9; 0x80; 0x41; 0xba].
Proof. vm_compute. reflexivity. Qed.
Example chacha_spec_vector :
  chacha20_encrypt (map Z.of_nat (seq 0 32)) 1 (noise_nonce 0x4a000000) [76; 97] = [0x6e; 0x2e].
Proof. vm_compute. reflexivity. Qed.
