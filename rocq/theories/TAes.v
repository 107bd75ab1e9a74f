(** C74: the AES code is FIPS 197, with keys of 128, 192 and 256 bits. *)
From Verif Require Import Base MAesTables MAes SAes PAes.

(** For every key, and whatever the array of round keys contained before: the key
    setup stays inside an array of 4 (Nr + 1) words and returns the number of
    rounds, and with these round keys every block is encrypted to what FIPS 197 says. *)
Theorem C74_is_fips197 : forall nk key rk, (nk = 4 \/ nk = 6 \/ nk = 8)%nat -> bytes key -> zlen key = 4 * Z.of_nat nk ->
  zlen rk = 4 * (Z.of_nat nk + 6 + 1) ->
  exists rk', rijndael_key_setup_enc rk key (32 * Z.of_nat nk) = Ok (rk', Z.of_nat nk + 6) /\ zlen rk' = zlen rk /\
    forall block, bytes block -> zlen block = 16 ->
      rijndael_encrypt rk' (Z.of_nat nk + 6) block = Ok (AES nk key block).
Proof.
  intros nk key rk Hnk Hk Lk Lrk. destruct (key_setup_ok nk key rk Hnk Hk Lk ltac:(lia)) as (rk' & E & L & W).
  exists rk'. split; [exact E|]. split; [exact L|]. intros block Hb Lb. exact (encrypt_ok key nk Hnk Hk Lk rk' W block Hb Lb).
Qed.
Print Assumptions C74_is_fips197.

(** FIPS 197, appendix C *)
Definition c_key : list Z := map Z.of_nat (seq 0 32).
Definition c_block : list Z := map (fun i => 17 * Z.of_nat i) (seq 0 16).
Example C74_appendix_C :
  AES 4 (take 16 c_key) c_block = [0x69; 0xc4; 0xe0; 0xd8; 0x6a; 0x7b; 0x04; 0x30; 0xd8; 0xcd; 0xb7; 0x80; 0x70; 0xb4; 0xc5; 0x5a] /\
  AES 6 (take 24 c_key) c_block = [0xdd; 0xa9; 0x7c; 0xa4; 0x86; 0x4c; 0xdf; 0xe0; 0x6e; 0xaf; 0x70; 0xa0; 0xec; 0x0d; 0x71; 0x91] /\
  AES 8 c_key c_block = [0x8e; 0xa2; 0xb7; 0xca; 0x51; 0x67; 0x45; 0xbf; 0xea; 0xfc; 0x49; 0x90; 0x4b; 0x49; 0x60; 0x89].
Proof. split; [|split]; vm_compute; reflexivity. Qed.
Example C74_run :
  (let! r := rijndael_key_setup_enc (zeros 60) c_key 256 in rijndael_encrypt (fst r) (snd r) c_block)
  = Ok [0x8e; 0xa2; 0xb7; 0xca; 0x51; 0x67; 0x45; 0xbf; 0xea; 0xfc; 0x49; 0x90; 0x4b; 0x49; 0x60; 0x89] /\
  (let! r := rijndael_key_setup_enc (zeros 59) c_key 256 in rijndael_encrypt (fst r) (snd r) c_block) = UB /\
  bytes c_key /\ zlen c_key = 4 * Z.of_nat 8 /\ zlen (zeros 60) = 4 * (Z.of_nat 8 + 6 + 1).
Proof.
  split; [vm_compute; reflexivity|]. split; [vm_compute; reflexivity|]. split; [|split; reflexivity].
  apply Forall_map. apply Forall_forall. intros k Hk. apply in_seq in Hk. unfold is_byte. lia.
Qed.
