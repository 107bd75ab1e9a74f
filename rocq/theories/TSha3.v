(** C85: the hash functions inside NewHope are SHA3-256 and SHAKE128. *)
From Verif Require Import Base MSha3 SSha3 PSha3 PSha3b.

(** The unrolled permutation is Keccak-f[1600] of FIPS 202, bit by bit, on all states
    of 25 words of 64 bits.  Bit z of word 5 y + x is A[x, y, z]. *)
Theorem C85_permutation : forall s, zlen s = 25 -> Forall (fun w => 0 <= w < 2^64) s ->
  let A := fun x y z => Z.testbit (nth (5 * y + x) s 0) (Z.of_nat z) in
  let s' := KeccakF1600_StatePermute s in
  zlen s' = 25 /\ forall x y z, (x < 5)%nat -> (y < 5)%nat -> (z < 64)%nat ->
    Z.testbit (nth (5 * y + x) s' 0) (Z.of_nat z) = keccak_f A x y z.
Proof.
  intros s L F A s'. assert (holds s A) as H.
  { split; [unfold zlen in L; lia|]. intros x y Hx Hy. unfold of_list. split; [|reflexivity].
    apply word_range. rewrite Forall_forall in F. apply F, nth_In. unfold zlen in L. lia. }
  destruct (permute_holds s A H) as [L' S]. split; [unfold zlen, s'; now rewrite L'|].
  intros x y z Hx Hy Hz. exact (proj2 (S x y Hx Hy) z Hz).
Qed.
Print Assumptions C85_permutation.

(** sha3256 is SHA3-256 for messages of every length. *)
Theorem C85_sha3_256 : forall m, bytes m -> sha3256 m = sha3_256 m /\ zlen (sha3256 m) = 32.
Proof.
  intros m B. assert (sha3256 m = sha3_256 m) as E.
  { unfold sha3256, sha3_256, SHA3_256_RATE.
    rewrite (squeeze_ok 136 1 _ _ (or_introl eq_refl) (keccak_absorb_ok 136 0x06 (or_introl eq_refl) (or_introl eq_refl) m B)).
    cbn [squeezed]. rewrite app_nil_r. apply (first_bytes_take 32). apply Nat.leb_le. reflexivity. }
  split; [exact E|]. rewrite E. unfold sha3_256, first_bytes, zlen. now rewrite map_length, seq_length.
Qed.
Print Assumptions C85_sha3_256.

(** Absorbing a seed and squeezing any number of blocks, in one call or in two, gives
    the output of SHAKE128. *)
Theorem C85_shake128 : forall m n k, bytes m ->
  let '(h, s) := shake128_squeezeblocks n (shake128_absorb m) in
  h ++ fst (shake128_squeezeblocks k s) = shake128_blocks (n + k) m /\ h = shake128_blocks n m.
Proof.
  intros m n k B. unfold shake128_squeezeblocks, shake128_absorb, shake128_blocks, SHAKE128_RATE.
  pose proof (keccak_absorb_ok 168 0x1f (or_intror eq_refl) (or_intror eq_refl) m B) as H.
  generalize dependent (absorbed 168 0x1f m). generalize (keccak_absorb 168 m 0x1f). induction n as [|n IH]; intros s A H.
  - cbn [keccak_squeezeblocks]. split; [|reflexivity]. apply (squeeze_ok 168 k _ _ (or_intror eq_refl) H).
  - pose proof (squeeze_ok 168 (S n) _ _ (or_intror eq_refl) H) as Q.
    change (Z.to_nat 168) with 168%nat in Q. cbn [keccak_squeezeblocks] in *. specialize (IH _ _ (permute_holds _ _ H)).
    destruct (keccak_squeezeblocks n (KeccakF1600_StatePermute s) 168) as [h s']. destruct IH as [I1 I2]. cbn [fst] in Q.
    split; [|exact Q]. cbn [squeezed Nat.add]. cbn [squeezed] in Q. rewrite <- I1.
    rewrite <- !app_assoc. rewrite I2 in Q. apply app_inv_tail in Q. now rewrite <- Q.
Qed.
Print Assumptions C85_shake128.

(** Published values: SHA3-256 of the empty message and of the three letters abc; a
    message that fills the block up to one byte *)
Example sha3_empty : sha3256 [] =
  [0xa7; 0xff; 0xc6; 0xf8; 0xbf; 0x1e; 0xd7; 0x66; 0x51; 0xc1; 0x47; 0x56; 0xa0; 0x61; 0xd6; 0x62;
   0xf5; 0x80; 0xff; 0x4d; 0xe4; 0x3b; 0x49; 0xfa; 0x82; 0xd8; 0x0a; 0x4b; 0x80; 0xf8; 0x43; 0x4a].
Proof. vm_compute. reflexivity. Qed.
Example sha3_abc : sha3256 [97; 98; 99] =
  [0x3a; 0x98; 0x5d; 0xa7; 0x4f; 0xe2; 0x25; 0xb2; 0x04; 0x5c; 0x17; 0x2d; 0x6b; 0xd3; 0x90; 0xbd;
   0x85; 0x5f; 0x08; 0x6e; 0x3e; 0x9d; 0x52; 0x5b; 0x46; 0xbf; 0xe2; 0x45; 0x11; 0x43; 0x15; 0x32].
Proof. vm_compute. reflexivity. Qed.
Example padding_edge : padded 136 0x06 (zeros 135) = zeros 135 ++ [0x86] /\ zlen (padded 136 0x06 (zeros 136)) = 272.
Proof. vm_compute. split; reflexivity. Qed.
