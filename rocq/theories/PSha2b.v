From Coq Require Import ZifyBool ZifyNat.
From Verif Require Import Base MHash SHash PHash MSha2 SSha2 PSha2.

Lemma fold_len : forall (f : list Z -> list Z -> list Z) bs,
  (forall h m, length (f h m) = 8%nat) ->
  forall h, length h = 8%nat -> length (fold_left f bs h) = 8%nat.
Proof. intros f bs Hf; induction bs; intros; cbn; auto. Qed.

Lemma fold_pieces_ext : forall (f g : list Z -> list Z -> list Z) B, 0 <= B ->
  (forall h m, length (f h m) = 8%nat) ->
  (forall h m, length h = 8%nat -> bytes m -> zlen m = B -> f h m = g h m) ->
  forall n p h, bytes p -> B * Z.of_nat n <= zlen p -> length h = 8%nat ->
    fold_left f (pieces (Z.to_nat B) n p) h = fold_left g (pieces (Z.to_nat B) n p) h.
Proof.
  intros f g B HB Hlen Hfg n; induction n; intros q h Hq Hn Hh; auto.
  cbn [pieces fold_left]. change (firstn (Z.to_nat B) q) with (take B q).
  change (skipn (Z.to_nat B) q) with (drop B q).
  assert (Ht : f h (take B q) = g h (take B q)).
  { apply Hfg; auto; [now apply bytes_take|rewrite zlen_take; lia]. }
  rewrite <- Ht. apply IHn.
  - now apply bytes_drop.
  - rewrite zlen_drop; lia.
  - apply Hlen.
Qed.

(** The digest functions the code computes, and their agreement with FIPS 180-4. *)

Lemma mod_pow2_bits : forall x k n, 0 <= k -> 0 <= n ->
  Z.testbit (x mod 2 ^ k) n = (n <? k) && Z.testbit x n.
Proof.
  intros x k n Hk Hn. destruct (Z.ltb_spec n k).
  - now rewrite Z.mod_pow2_bits_low by lia.
  - now rewrite Z.mod_pow2_bits_high by lia.
Qed.
Lemma shr_byte_in_word : forall L a b c, 0 <= a -> 0 <= c -> c + 8 <= b ->
  Z.shiftr (Z.shiftr L a mod 2 ^ b) c mod 256 = L / 2 ^ (a + c) mod 256.
Proof.
  intros L a b c Ha Hc Hb. rewrite <- Z.shiftr_div_pow2 by lia. change 256 with (2 ^ 8).
  apply Z.bits_inj'. intros n Hn. rewrite !mod_pow2_bits by lia.
  destruct (Z.ltb_spec n 8); cbn [andb]; auto.
  rewrite !Z.shiftr_spec by lia. rewrite mod_pow2_bits by lia. rewrite Z.shiftr_spec by lia.
  destruct (Z.ltb_spec (n + c) b); [|lia]. cbn [andb]. f_equal. lia.
Qed.

Lemma write_be32_spec : forall v, write_be32 v = be_bytes 4 v.
Proof.
  intros v. unfold write_be32, be_bytes. cbn [map seq].
  rewrite !Z.shiftr_div_pow2 by lia.
  change (256 ^ Z.of_nat (4 - 1 - 0)) with (2 ^ 24). change (256 ^ Z.of_nat (4 - 1 - 1)) with (2 ^ 16).
  change (256 ^ Z.of_nat (4 - 1 - 2)) with (2 ^ 8). change (256 ^ Z.of_nat (4 - 1 - 3)) with 1.
  now rewrite Z.div_1_r.
Qed.
Lemma write_be64_spec : forall v, write_be64 v = be_bytes 8 v.
Proof.
  intros v. unfold write_be64, be_bytes. cbn [map seq].
  rewrite !Z.shiftr_div_pow2 by lia.
  change (256 ^ Z.of_nat (8 - 1 - 0)) with (2 ^ 56). change (256 ^ Z.of_nat (8 - 1 - 1)) with (2 ^ 48).
  change (256 ^ Z.of_nat (8 - 1 - 2)) with (2 ^ 40). change (256 ^ Z.of_nat (8 - 1 - 3)) with (2 ^ 32).
  change (256 ^ Z.of_nat (8 - 1 - 4)) with (2 ^ 24). change (256 ^ Z.of_nat (8 - 1 - 5)) with (2 ^ 16).
  change (256 ^ Z.of_nat (8 - 1 - 6)) with (2 ^ 8). change (256 ^ Z.of_nat (8 - 1 - 7)) with 1.
  now rewrite Z.div_1_r.
Qed.
Lemma zlen_be_bytes : forall n v, zlen (be_bytes n v) = Z.of_nat n.
Proof. intros; unfold be_bytes, zlen; now rewrite map_length, seq_length. Qed.
Lemma bytes_be_bytes : forall n v, bytes (be_bytes n v).
Proof.
  intros; unfold be_bytes, bytes. apply Forall_forall. intros x Hx. apply in_map_iff in Hx.
  destruct Hx as (i & <- & _). unfold is_byte. apply Z.mod_pos_bound. lia.
Qed.
Lemma length_field256 : forall L,
  write_be32 (Z.shiftr L 32 mod 2^32) ++ write_be32 (L mod 2^32) = be_bytes 8 L.
Proof.
  intros L. rewrite <- write_be64_spec. unfold write_be32, write_be64. cbn [app].
  rewrite !shr_byte_in_word by lia.
  rewrite <- (Z.shiftr_0_r (Z.shiftr L 32 mod 2 ^ 32)), shr_byte_in_word by lia.
  replace (L mod 2 ^ 32) with (Z.shiftr L 0 mod 2 ^ 32) by now rewrite Z.shiftr_0_r.
  rewrite !shr_byte_in_word by lia.
  rewrite <- (Z.shiftr_0_r (Z.shiftr L 0 mod 2 ^ 32)), shr_byte_in_word by lia.
  rewrite !Z.shiftr_div_pow2 by lia. rewrite Z.div_1_r. reflexivity.
Qed.
Lemma length_field512 : forall L, 0 <= L < 2 ^ 64 ->
  write_be64 0 ++ write_be64 L = be_bytes 16 L.
Proof.
  intros L HL. rewrite !write_be64_spec. unfold be_bytes.
  change (seq 0 16) with (seq 0 8 ++ map (fun i => 8 + i)%nat (seq 0 8)). rewrite map_app, map_map. f_equal.
  apply map_ext_in. intros i Hi. apply in_seq in Hi.
  rewrite Z.div_0_l by (apply Z.pow_nonzero; lia).
  rewrite Z.div_small; [reflexivity|]. split; [lia|]. apply Z.lt_le_trans with (2 ^ 64); [lia|].
  change (2 ^ 64) with (256 ^ 8). apply Z.pow_le_mono_r; lia.
Qed.

(** ** SHA-256 *)
Definition sha256_code (data : list Z) : list Z :=
  let p := padded 64 8 data (be_bytes 8 ((8 * zlen data) mod 2^64)) in
  concat (map write_be32 (fold_left sha256_transform (pieces (Z.to_nat 64) (Z.to_nat (zlen p / 64)) p) sha256_h0)).

Lemma length_fold_sha256 : forall bs h, length h = 8%nat -> length (fold_left sha256_transform bs h) = 8%nat.
Proof. intros bs h Hh. apply (fold_len sha256_transform bs length_sha256_transform h Hh). Qed.

Lemma map_word_at : forall (f : Z -> list Z) h, length h = 8%nat -> map (fun i => f (word_at h i)) (seq 0 8) = map f h.
Proof.
  intros f h Hh. do 8 (destruct h as [|? h]; [discriminate Hh|]). destruct h; [|discriminate Hh]. reflexivity.
Qed.

Lemma sha256_finish_spec : forall c data, absorbed 64 sha256_transform sha256_h0 c data ->
  snd (sha256_finish c) = sha256_code data /\ zlen (hc_m (fst (sha256_finish c))) = 64.
Proof.
  intros c data Ha.
  pose (lf := be_bytes 8 ((8 * zlen data) mod 2 ^ 64)).
  destruct (zlen_padded_blocks 64 sha256_transform eq_refl 8 sha256_h0 c data lf Ha) as [H1 H2];
    [lia|lia|apply zlen_be_bytes|].
  destruct Ha as (bs & Hbs & Hdata & Hh & Hp & Hm & Hl).
  assert (Hlf : write_be32 (Z.shiftr (hc_length c) 32 mod 2^32) ++ write_be32 (hc_length c mod 2^32) = lf).
  { subst lf. rewrite Hl. apply length_field256.  }
  assert (Hsp : forall m, zlen m = 64 ->
    splice (64 - 4) (write_be32 (hc_length c mod 2^32)) (splice (64 - 8) (write_be32 (Z.shiftr (hc_length c) 32 mod 2^32)) m)
    = splice (64 - 8) lf m).
  { intros m Hzm. rewrite <- Hlf.
    change (64 - 4) with (64 - 8 + 4).
    replace (64 - 8 + 4) with (64 - 8 + zlen (write_be32 (Z.shiftr (hc_length c) 32 mod 2^32))) by reflexivity.
    rewrite splice_app; auto; change (zlen (write_be32 (Z.shiftr (hc_length c) 32 mod 2^32))) with 4; change (zlen (write_be32 (hc_length c mod 2^32))) with 4; lia. }
  assert (Hzp : zlen (splice (hc_posn c) [128] (hc_m c)) = 64)
    by (rewrite splice_length; change (zlen [128]) with 1; lia).
  unfold sha256_finish, sha256_code. fold lf. cbv zeta.
  destruct (Z.leb_spec (hc_posn c) (64 - 9)) as [Hc|Hc].
  - destruct H1 as [E1 E2]; [lia|]. cbn [fst snd hc_m].
    rewrite Hsp by (rewrite splice_length; rewrite ?zlen_zeros; lia).
    split; [|exact E2].
    rewrite E1. rewrite map_word_at by apply length_sha256_transform. reflexivity.
  - destruct H2 as [E1 E2]; [lia|]. cbn [fst snd hc_m].
    assert (Hz2 : zlen (splice (hc_posn c + 1) (zeros (64 - (hc_posn c + 1))) (splice (hc_posn c) [128] (hc_m c))) = 64)
      by (rewrite splice_length; rewrite ?zlen_zeros; lia).
    rewrite Hsp by (rewrite splice_length; rewrite ?zlen_zeros, ?Hz2; lia).
    split; [|exact E2].
    rewrite E1. rewrite map_word_at by apply length_sha256_transform. reflexivity.
Qed.

Lemma sha256_reset_absorbed : forall c, hctx_ok sha256_alg c ->
  absorbed 64 sha256_transform sha256_h0 (sha256_reset c) [].
Proof.
  intros c Hc. exists []. unfold hctx_ok in Hc. cbn in *. rewrite take_le0 by lia.
  repeat split; auto; lia.
Qed.

Lemma sha256_is_law : hash_law sha256_alg sha256_code.
Proof.
  constructor.
  - intros c Hc. exact Hc.
  - intros c chunks Hc. unfold hctx_ok. cbn [ha_final ha_reset ha_update ha_block_len sha256_alg].
    eapply sha256_finish_spec. apply (updates_absorb 64 sha256_transform eq_refl). now apply sha256_reset_absorbed.
  - intros c chunks Hc. cbn [ha_final ha_reset ha_update ha_block_len sha256_alg].
    eapply sha256_finish_spec. apply (updates_absorb 64 sha256_transform eq_refl sha256_h0 chunks _ []).
    now apply sha256_reset_absorbed.
  - intros m. unfold sha256_code. cbn [ha_hash_len sha256_alg].
    rewrite (zlen_concat 4).
    + rewrite zlen_map. unfold zlen. rewrite length_fold_sha256; reflexivity.
    + apply Forall_forall. intros x Hx. apply in_map_iff in Hx. destruct Hx as (v & <- & _). reflexivity.
  - intros m. unfold sha256_code. unfold bytes. apply Forall_concat. apply Forall_forall. intros x Hx.
    apply in_map_iff in Hx. destruct Hx as (v & <- & _). rewrite write_be32_spec. apply bytes_be_bytes.
  - cbn; lia.
Qed.

(** For messages of fewer than 2^61 bytes the code's function is SHA-256. *)
Lemma sha256_code_is_fips : forall m, bytes m -> 8 * zlen m < 2 ^ 64 -> sha256_code m = SHA256 m.
Proof.
  intros m Hb Hm. unfold sha256_code, SHA256, SHA2. cbv zeta.
  change (bbytes sha256_params) with 64. change (Z.to_nat (wbytes sha256_params)) with 4%nat.
  rewrite Z.mod_small by (pose proof (zlen_nonneg Z m); lia).
  assert (Hpad : padded 64 8 m (be_bytes 8 (8 * zlen m)) = pad sha256_params m) by reflexivity.
  rewrite Hpad. rewrite sha256_IV.
  assert (Hpb : bytes (pad sha256_params m)).
  { unfold pad. rewrite !bytes_app. repeat split; auto.
    - repeat constructor; unfold is_byte; lia.
    - apply bytes_repeat. unfold is_byte; lia.
    - apply bytes_be_bytes. }
  assert (Hpl : exists k, 0 <= k /\ zlen (pad sha256_params m) = 64 * k).
  { rewrite <- Hpad. unfold padded. rewrite !zlen_app, zlen_be_bytes. change (zlen [128]) with 1.
    pose proof (Z.mod_pos_bound (- (zlen m + 1 + 8)) 64 eq_refl).
    rewrite zlen_zeros by lia. pose proof (zlen_nonneg Z m).
    pose proof (Z.div_mod (- (zlen m + 1 + 8)) 64 ltac:(lia)).
    exists (- (- (zlen m + 1 + 8) / 64)). lia. }
  revert Hpb Hpl. generalize (pad sha256_params m). clear. intros p Hb (k & Hk & Hz).
  rewrite Hz, Z.mul_comm, Z.div_mul by lia.
  rewrite (fold_pieces_ext sha256_transform (compress sha256_params) 64);
    [|lia|apply length_sha256_transform|apply sha256_transform_spec|auto|lia|reflexivity].
  f_equal. apply map_ext. intros v. apply write_be32_spec.
Qed.

(** ** SHA-512 *)
Definition sha512_code (data : list Z) : list Z :=
  let p := padded 128 16 data (be_bytes 16 ((8 * zlen data) mod 2^64)) in
  concat (map write_be64 (fold_left sha512_transform (pieces (Z.to_nat 128) (Z.to_nat (zlen p / 128)) p) sha512_h0)).

Lemma length_fold_sha512 : forall bs h, length h = 8%nat -> length (fold_left sha512_transform bs h) = 8%nat.
Proof. intros bs h Hh. apply (fold_len sha512_transform bs length_sha512_transform h Hh). Qed.

Lemma sha512_finish_spec : forall c data, absorbed 128 sha512_transform sha512_h0 c data ->
  snd (sha512_finish c) = sha512_code data /\ zlen (hc_m (fst (sha512_finish c))) = 128.
Proof.
  intros c data Ha.
  pose (lf := be_bytes 16 ((8 * zlen data) mod 2 ^ 64)).
  destruct (zlen_padded_blocks 128 sha512_transform eq_refl 16 sha512_h0 c data lf Ha) as [H1 H2];
    [lia|lia|apply zlen_be_bytes|].
  destruct Ha as (bs & Hbs & Hdata & Hh & Hp & Hm & Hl).
  assert (Hlf : write_be64 0 ++ write_be64 (hc_length c) = lf).
  { subst lf. rewrite Hl. apply length_field512. apply Z.mod_pos_bound; lia. }
  assert (Hsp : forall m, zlen m = 128 ->
    splice (128 - 8) (write_be64 (hc_length c)) (splice (128 - 16) (write_be64 0) m)
    = splice (128 - 16) lf m).
  { intros m Hzm. rewrite <- Hlf.
    change (128 - 8) with (128 - 16 + 8).
    replace (128 - 16 + 8) with (128 - 16 + zlen (write_be64 0)) by reflexivity.
    rewrite splice_app; auto; change (zlen (write_be64 0)) with 8; change (zlen (write_be64 (hc_length c))) with 8; lia. }
  assert (Hzp : zlen (splice (hc_posn c) [128] (hc_m c)) = 128)
    by (rewrite splice_length; change (zlen [128]) with 1; lia).
  unfold sha512_finish, sha512_code. fold lf. cbv zeta.
  destruct (Z.leb_spec (hc_posn c) (128 - 17)) as [Hc|Hc].
  - destruct H1 as [E1 E2]; [lia|]. cbn [fst snd hc_m].
    rewrite Hsp by (rewrite splice_length; rewrite ?zlen_zeros; lia).
    split; [|exact E2].
    rewrite E1. rewrite map_word_at by apply length_sha512_transform. reflexivity.
  - destruct H2 as [E1 E2]; [lia|]. cbn [fst snd hc_m].
    assert (Hz2 : zlen (splice (hc_posn c + 1) (zeros (128 - (hc_posn c + 1))) (splice (hc_posn c) [128] (hc_m c))) = 128)
      by (rewrite splice_length; rewrite ?zlen_zeros; lia).
    rewrite Hsp by (rewrite splice_length; rewrite ?zlen_zeros, ?Hz2; lia).
    split; [|exact E2].
    rewrite E1. rewrite map_word_at by apply length_sha512_transform. reflexivity.
Qed.

Lemma sha512_reset_absorbed : forall c, hctx_ok sha512_alg c ->
  absorbed 128 sha512_transform sha512_h0 (sha512_reset c) [].
Proof.
  intros c Hc. exists []. unfold hctx_ok in Hc. cbn in *. rewrite take_le0 by lia.
  repeat split; auto; lia.
Qed.

Lemma sha512_is_law : hash_law sha512_alg sha512_code.
Proof.
  constructor.
  - intros c Hc. exact Hc.
  - intros c chunks Hc. unfold hctx_ok. cbn [ha_final ha_reset ha_update ha_block_len sha512_alg].
    eapply sha512_finish_spec. apply (updates_absorb 128 sha512_transform eq_refl). now apply sha512_reset_absorbed.
  - intros c chunks Hc. cbn [ha_final ha_reset ha_update ha_block_len sha512_alg].
    eapply sha512_finish_spec. apply (updates_absorb 128 sha512_transform eq_refl sha512_h0 chunks _ []).
    now apply sha512_reset_absorbed.
  - intros m. unfold sha512_code. cbn [ha_hash_len sha512_alg].
    rewrite (zlen_concat 8).
    + rewrite zlen_map. unfold zlen. rewrite length_fold_sha512; reflexivity.
    + apply Forall_forall. intros x Hx. apply in_map_iff in Hx. destruct Hx as (v & <- & _). reflexivity.
  - intros m. unfold sha512_code. unfold bytes. apply Forall_concat. apply Forall_forall. intros x Hx.
    apply in_map_iff in Hx. destruct Hx as (v & <- & _). rewrite write_be64_spec. apply bytes_be_bytes.
  - cbn; lia.
Qed.

(** For messages of fewer than 2^61 bytes the code's function is SHA-512. *)
Lemma sha512_code_is_fips : forall m, bytes m -> 8 * zlen m < 2 ^ 64 -> sha512_code m = SHA512 m.
Proof.
  intros m Hb Hm. unfold sha512_code, SHA512, SHA2. cbv zeta.
  change (bbytes sha512_params) with 128. change (Z.to_nat (wbytes sha512_params)) with 8%nat.
  rewrite Z.mod_small by (pose proof (zlen_nonneg Z m); lia).
  assert (Hpad : padded 128 16 m (be_bytes 16 (8 * zlen m)) = pad sha512_params m) by reflexivity.
  rewrite Hpad. rewrite sha512_IV.
  assert (Hpb : bytes (pad sha512_params m)).
  { unfold pad. rewrite !bytes_app. repeat split; auto.
    - repeat constructor; unfold is_byte; lia.
    - apply bytes_repeat. unfold is_byte; lia.
    - apply bytes_be_bytes. }
  assert (Hpl : exists k, 0 <= k /\ zlen (pad sha512_params m) = 128 * k).
  { rewrite <- Hpad. unfold padded. rewrite !zlen_app, zlen_be_bytes. change (zlen [128]) with 1.
    pose proof (Z.mod_pos_bound (- (zlen m + 1 + 16)) 128 eq_refl).
    rewrite zlen_zeros by lia. pose proof (zlen_nonneg Z m).
    pose proof (Z.div_mod (- (zlen m + 1 + 16)) 128 ltac:(lia)).
    exists (- (- (zlen m + 1 + 16) / 128)). lia. }
  revert Hpb Hpl. generalize (pad sha512_params m). clear. intros p Hb (k & Hk & Hz).
  rewrite Hz, Z.mul_comm, Z.div_mul by lia.
  rewrite (fold_pieces_ext sha512_transform (compress sha512_params) 128);
    [|lia|apply length_sha512_transform|apply sha512_transform_spec|auto|lia|reflexivity].
  f_equal. apply map_ext. intros v. apply write_be64_spec.
Qed.
