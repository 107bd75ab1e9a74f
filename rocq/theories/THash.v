(** Properties C09 - C15: hashes, HMAC, HKDF, PBKDF2. *)
From Coq Require Import ZifyBool ZifyNat.
From Verif Require Import Base MHash SHash PHash PHash2 MSha2 SSha2 PSha2 PSha2b MBlake2 SBlake2 PBlake2 PBlake2b SHashLib.

(** ** The four backends obey the streaming law *)
Lemma library_law : forall alg H B L lim, library_hash alg H B L lim ->
  ha_block_len alg = B /\ ha_hash_len alg = L /\ 2 * B + 16 < lim /\
  exists H', hash_law alg H' /\ agree lim H' H.
Proof.
  intros alg H B L lim Hl. destruct Hl; (split; [reflexivity|split; [reflexivity|split; [lia|]]]).
  - exists sha256_code. split; [apply sha256_is_law|]. intros m Hb Hm. apply sha256_code_is_fips; auto; lia.
  - exists sha512_code. split; [apply sha512_is_law|]. intros m Hb Hm. apply sha512_code_is_fips; auto; lia.
  - exists (blake2s_code b). split; [apply blake2s_is_law|]. intros m Hb Hm. apply blake2s_code_is_rfc; auto; lia.
  - exists blake2b_code. split; [apply blake2b_is_law|]. intros m Hb Hm. apply blake2b_code_is_rfc; auto; lia.
Qed.

(** ** C09 *)
(** noise_hashstate_hkdf computes the two-output HKDF of the Noise
    specification over RFC 2104 HMAC over the standard hash function. *)
Theorem C09_hkdf_is_noise_hkdf : forall alg H B L lim c key data n1 n2,
  library_hash alg H B L lim -> hctx_ok alg c ->
  bytes key -> bytes data -> zlen key < lim -> zlen data + B < lim ->
  0 <= n1 <= L -> 0 <= n2 <= L ->
  exists c', hctx_ok alg c' /\
    hashstate_hkdf alg c (Some key) (zlen key) (Some data) (zlen data) n1 n2
    = Ok (E_NONE, c', Some (take n1 (fst (HKDF H B key data)), take n2 (snd (HKDF H B key data)))).
Proof.
  intros alg H B L lim c key data n1 n2 Hlib Hc Hk Hd Hzk Hzd Hn1 Hn2.
  destruct (library_law _ _ _ _ _ Hlib) as (HB & HL & Hlim & H' & Hlaw & Hag).
  destruct (hkdf_correct alg H' Hlaw c key data n1 n2 Hc) as (c' & E & Hc'); [lia|lia|].
  exists c'. split; auto. rewrite E, HB.
  rewrite <- (HKDF_ext H' H lim B L); auto.
  - intros; rewrite <- HL; apply (law_len _ _ Hlaw).
  - apply (law_bytes _ _ Hlaw).
  - pose proof (law_lens _ _ Hlaw). lia.
  - pose proof (law_lens _ _ Hlaw). lia.
Qed.
Print Assumptions C09_hkdf_is_noise_hkdf.

(** Too long outputs are refused, and nothing changes or is written. *)
Theorem C09_hkdf_refuses_long_outputs : forall alg H B L lim c key klen data dlen n1 n2,
  library_hash alg H B L lim -> L < n1 \/ L < n2 ->
  hashstate_hkdf alg c (Some key) klen (Some data) dlen n1 n2 = Ok (E_INVALID_LENGTH, c, None).
Proof.
  intros alg H B L lim c key klen data dlen n1 n2 Hlib Hn.
  destruct (library_law _ _ _ _ _ Hlib) as (_ & HL & _). unfold hashstate_hkdf. rewrite HL.
  replace ((L <? n1) || (L <? n2)) with true by lia. reflexivity.
Qed.
Print Assumptions C09_hkdf_refuses_long_outputs.

(** An 80 byte key (longer than the SHA-256 block), outputs of 32 and 20 bytes. *)
Definition ex_key : list Z := zeros 77 ++ [1; 2; 255].
Definition ex_data : list Z := [104; 101; 108; 108; 111].
Lemma ex_key_bytes : bytes ex_key.
Proof. apply Forall_app. split; [apply bytes_zeros|repeat constructor; unfold is_byte; lia]. Qed.
Example C09_example : exists c',
  hashstate_hkdf sha256_alg sha256_new (Some ex_key) (zlen ex_key) (Some ex_data) (zlen ex_data) 32 20
  = Ok (E_NONE, c', Some (take 32 (fst (HKDF SHA256 64 ex_key ex_data)), take 20 (snd (HKDF SHA256 64 ex_key ex_data)))).
Proof.
  destruct (C09_hkdf_is_noise_hkdf sha256_alg SHA256 64 32 (2^61) sha256_new ex_key ex_data 32 20) as (c' & _ & E);
    [constructor|reflexivity|apply ex_key_bytes|repeat constructor; unfold is_byte; lia|reflexivity|reflexivity|lia|lia|].
  now exists c'.
Qed.

(** ** C10 *)
(** noise_hashstate_pbkdf2 computes PBKDF2 (RFC 8018) with HMAC over the
    standard hash function. *)
Theorem C10_pbkdf2_is_rfc8018 : forall alg H B L lim c passphrase salt iterations len,
  library_hash alg H B L lim -> hctx_ok alg c ->
  bytes passphrase -> bytes salt -> zlen passphrase < lim -> zlen salt + 4 + B < lim ->
  1 <= iterations -> 0 <= len <= (2^32 - 1) * L ->
  exists c', hctx_ok alg c' /\
    hashstate_pbkdf2 alg c (Some passphrase) (zlen passphrase) (Some salt) (zlen salt) iterations len
    = Ok (E_NONE, c', Some (PBKDF2 H B passphrase salt iterations len)).
Proof.
  intros alg H B L lim c pw salt iter len Hlib Hc Hp Hs Hzp Hzs Hi Hn.
  destruct (library_law _ _ _ _ _ Hlib) as (HB & HL & Hlim & H' & Hlaw & Hag).
  destruct (pbkdf2_correct alg H' Hlaw c pw salt iter len Hc) as (c' & E & Hc'); [lia|].
  exists c'. split; auto. rewrite E, HB.
  rewrite <- (PBKDF2_ext H' H lim B L); auto.
  - intros; rewrite <- HL; apply (law_len _ _ Hlaw).
  - apply (law_bytes _ _ Hlaw).
  - pose proof (law_lens _ _ Hlaw). lia.
  - pose proof (law_lens _ _ Hlaw). lia.
Qed.
Print Assumptions C10_pbkdf2_is_rfc8018.

(** RFC 8018 step 1: an output longer than (2^32 - 1) * hLen is refused. *)
Theorem C10_pbkdf2_refuses_long_output : forall alg H B L lim c pw pwl salt sl iterations len,
  library_hash alg H B L lim -> (2^32 - 1) * L < len ->
  hashstate_pbkdf2 alg c (Some pw) pwl (Some salt) sl iterations len = Ok (E_INVALID_LENGTH, c, None).
Proof.
  intros alg H B L lim c pw pwl salt sl iter len Hlib Hn.
  destruct (library_law _ _ _ _ _ Hlib) as (_ & HL & _ & H' & Hlaw & _). unfold hashstate_pbkdf2. rewrite HL.
  pose proof (law_lens _ _ Hlaw).
  rewrite Z.mod_small by lia. replace (4294967295 * L <? len) with true by lia. reflexivity.
Qed.
Print Assumptions C10_pbkdf2_refuses_long_output.

(** RFC 7914, section 11: PBKDF2-HMAC-SHA-256 (P=passwd, S=salt, c=1, dkLen=64), first bytes. *)
Example C10_example :
  match hashstate_pbkdf2 sha256_alg sha256_new (Some [112; 97; 115; 115; 119; 100]) 6 (Some [115; 97; 108; 116]) 4 1 8 with
  | Ok (E_NONE, _, Some out) => out = [0x55; 0xac; 0x04; 0x6e; 0x56; 0xe3; 0x08; 0x9f]
  | _ => False
  end.
Proof. vm_compute. reflexivity. Qed.

(** ** C11 *)
Lemma updates_run : forall alg chunks c, updates alg c chunks = Ok (E_NONE, fold_left (ha_update alg) chunks c).
Proof.
  intros alg chunks; induction chunks as [|d r IH]; intros c; cbn [updates fold_left]; auto.
  unfold hashstate_update. rewrite read_ptr_some. cbn [obind is_none err_eqb]. apply IH.
Qed.

(** Every way of cutting a message into updates gives the digest of the whole;
    no bound on the message or the number of chunks, empty chunks included. *)
Theorem C11_any_chunking : forall alg H B L lim c c' chunks,
  library_hash alg H B L lim -> hctx_ok alg c -> hctx_ok alg c' ->
  exists digest, zlen digest = L /\
    stream_digest alg c chunks = Ok (E_NONE, Some digest) /\
    one_digest alg c' (concat chunks) = Ok (E_NONE, Some digest).
Proof.
  intros alg H B L lim c c' chunks Hlib Hc Hc'.
  destruct (library_law _ _ _ _ _ Hlib) as (_ & HL & _ & H' & Hlaw & _).
  exists (H' (concat chunks)). split; [rewrite <- HL; apply (law_len _ _ Hlaw)|].
  pose proof (law_stream _ _ Hlaw c chunks Hc) as E1.
  pose proof (law_stream _ _ Hlaw c' [concat chunks] Hc') as E2. cbn [fold_left concat] in E2. rewrite app_nil_r in E2.
  split.
  - unfold stream_digest, hashstate_reset. rewrite updates_run. cbn [obind is_none err_eqb].
    unfold hashstate_finalize. rewrite Z.eqb_refl. cbn [negb].
    destruct (ha_final alg _) as [c1 d]. cbn [snd] in E1. now rewrite E1.
  - unfold one_digest, hashstate_hash_one. rewrite Z.eqb_refl, read_ptr_some. cbn [negb obind].
    destruct (ha_final alg (ha_update alg (ha_reset alg c') (concat chunks))) as [c1 d]. cbn [snd] in E2. cbn [obind]. now rewrite E2.
Qed.
Print Assumptions C11_any_chunking.

(** hash_two is hash_one of the concatenation. *)
Theorem C11_hash_two : forall alg H B L lim c c' d1 d2,
  library_hash alg H B L lim -> hctx_ok alg c -> hctx_ok alg c' ->
  exists digest c1, one_digest alg c' (d1 ++ d2) = Ok (E_NONE, Some digest) /\
    hashstate_hash_two alg c (Some d1) (zlen d1) (Some d2) (zlen d2) L = Ok (E_NONE, c1, Some digest) /\
    hctx_ok alg c1.
Proof.
  intros alg H B L lim c c' d1 d2 Hlib Hc Hc'.
  destruct (library_law _ _ _ _ _ Hlib) as (_ & HL & _ & H' & Hlaw & _).
  destruct (C11_any_chunking _ _ _ _ _ c c' [d1; d2] Hlib Hc Hc') as (dg & _ & E1 & E2).
  cbn [concat] in E2. rewrite app_nil_r in E2.
  pose proof (law_final_ok _ _ Hlaw c [d1; d2] Hc) as Hok. cbn [fold_left] in Hok.
  exists dg. unfold hashstate_hash_two. rewrite HL, Z.eqb_refl, !read_ptr_some. cbn [negb obind].
  unfold stream_digest, hashstate_reset in E1. rewrite updates_run in E1. cbn [obind is_none err_eqb fold_left] in E1.
  unfold hashstate_finalize in E1. rewrite Z.eqb_refl in E1. cbn [negb] in E1.
  destruct (ha_final alg _) as [c1 d]. exists c1. cbn [fst] in Hok. inversion E1; subst. auto.
Qed.
Print Assumptions C11_hash_two.

(** The output may overlap the inputs: only the L output bytes change. *)
Theorem C11_hash_two_overlap : forall alg H B L lim c c' mem p1 len1 p2 len2 out,
  library_hash alg H B L lim -> hctx_ok alg c -> hctx_ok alg c' ->
  0 <= p1 -> 0 <= len1 -> p1 + len1 <= zlen mem ->
  0 <= p2 -> 0 <= len2 -> p2 + len2 <= zlen mem ->
  0 <= out -> out + L <= zlen mem ->
  exists digest c1,
    one_digest alg c' (sub p1 len1 mem ++ sub p2 len2 mem) = Ok (E_NONE, Some digest) /\
    hashstate_hash_two_mem alg c mem p1 len1 p2 len2 out L
    = Ok (E_NONE, c1, take out mem ++ digest ++ drop (out + L) mem).
Proof.
  intros alg H B L lim c c' mem p1 len1 p2 len2 out Hlib Hc Hc' H1 H2 H3 H4 H5 H6 H7 H8.
  destruct (library_law _ _ _ _ _ Hlib) as (_ & HL & _ & H' & Hlaw & _).
  destruct (C11_any_chunking _ _ _ _ _ c c' [sub p1 len1 mem; sub p2 len2 mem] Hlib Hc Hc') as (dg & Hz & E1 & E2).
  cbn [concat] in E2. rewrite app_nil_r in E2.
  exists dg. unfold hashstate_hash_two_mem. rewrite HL, Z.eqb_refl, !load_ok by lia. cbn [negb obind].
  unfold stream_digest, hashstate_reset in E1. rewrite updates_run in E1. cbn [obind is_none err_eqb fold_left] in E1.
  unfold hashstate_finalize in E1. rewrite Z.eqb_refl in E1. cbn [negb] in E1.
  destruct (ha_final alg _) as [c1 d]. exists c1. inversion E1; subst d.
  rewrite store_ok by lia. cbn [obind]. split; auto. unfold splice. now rewrite Hz.
Qed.
Print Assumptions C11_hash_two_overlap.

Example C11_example : exists d,
  stream_digest (blake2s_alg VectorLE) (HCtx [] (zeros 64) 77 5) [ex_key; []; ex_data] = Ok (E_NONE, Some d) /\
  one_digest (blake2s_alg VectorLE) blake2s_new (ex_key ++ ex_data) = Ok (E_NONE, Some d).
Proof.
  destruct (C11_any_chunking _ _ _ _ _ (HCtx [] (zeros 64) 77 5) blake2s_new [ex_key; []; ex_data] (lib_blake2s VectorLE))
    as (d & _ & E1 & E2); [reflexivity|reflexivity|].
  cbn [concat app] in E2. rewrite app_nil_r in E2. eauto.
Qed.

(** ** C12 - C15: the four backends compute the standard functions *)
Lemma one_digest_std : forall alg H B L lim c m,
  library_hash alg H B L lim -> hctx_ok alg c -> bytes m -> zlen m < lim ->
  one_digest alg c m = Ok (E_NONE, Some (H m)).
Proof.
  intros alg H B L lim c m Hlib Hc Hb Hm.
  destruct (library_law _ _ _ _ _ Hlib) as (_ & HL & _ & H' & Hlaw & Hag).
  pose proof (law_stream _ _ Hlaw c [m] Hc) as E. cbn [fold_left concat] in E. rewrite app_nil_r in E.
  unfold one_digest, hashstate_hash_one. rewrite Z.eqb_refl, read_ptr_some. cbn [negb obind].
  destruct (ha_final alg _) as [c1 d]. cbn [snd] in E. cbn [obind]. rewrite E, (Hag m) by auto. reflexivity.
Qed.

Theorem C12_sha256_is_fips180 : forall c m, zlen (hc_m c) = 64 -> bytes m -> zlen m < 2^61 ->
  one_digest sha256_alg c m = Ok (E_NONE, Some (SHA256 m)).
Proof. intros c m Hc Hb Hm. exact (one_digest_std _ _ _ _ _ c m lib_sha256 Hc Hb Hm). Qed.
Print Assumptions C12_sha256_is_fips180.
Example C12_example :
  match one_digest sha256_alg sha256_new [97; 98; 99] with Ok (E_NONE, Some d) => take 4 d = [0xba; 0x78; 0x16; 0xbf] | _ => False end.
Proof. vm_compute. reflexivity. Qed.

Theorem C13_sha512_is_fips180 : forall c m, zlen (hc_m c) = 128 -> bytes m -> zlen m < 2^61 ->
  one_digest sha512_alg c m = Ok (E_NONE, Some (SHA512 m)).
Proof. intros c m Hc Hb Hm. exact (one_digest_std _ _ _ _ _ c m lib_sha512 Hc Hb Hm). Qed.
Print Assumptions C13_sha512_is_fips180.
Example C13_example :
  match one_digest sha512_alg sha512_new [97; 98; 99] with Ok (E_NONE, Some d) => take 4 d = [0xdd; 0xaf; 0x35; 0xa1] | _ => False end.
Proof. vm_compute. reflexivity. Qed.

(** For all three builds (vector, scalar little endian, scalar big endian). *)
Theorem C14_blake2s_is_rfc7693 : forall b c m, zlen (hc_m c) = 64 -> bytes m -> zlen m < 2^64 ->
  one_digest (blake2s_alg b) c m = Ok (E_NONE, Some (BLAKE2s m)).
Proof. intros b c m Hc Hb Hm. exact (one_digest_std _ _ _ _ _ c m (lib_blake2s b) Hc Hb Hm). Qed.
Print Assumptions C14_blake2s_is_rfc7693.
Example C14_example :
  match one_digest (blake2s_alg VectorLE) blake2s_new [97; 98; 99] with Ok (E_NONE, Some d) => take 4 d = [0x50; 0x8c; 0x5e; 0x8c] | _ => False end.
Proof. vm_compute. reflexivity. Qed.

(** On a little endian machine. *)
Theorem C15_blake2b_is_rfc7693 : forall c m, zlen (hc_m c) = 128 -> bytes m -> zlen m < 2^64 ->
  one_digest blake2b_alg c m = Ok (E_NONE, Some (BLAKE2b m)).
Proof. intros c m Hc Hb Hm. exact (one_digest_std _ _ _ _ _ c m lib_blake2b Hc Hb Hm). Qed.
Print Assumptions C15_blake2b_is_rfc7693.
Example C15_example :
  match one_digest blake2b_alg blake2b_new [97; 98; 99] with Ok (E_NONE, Some d) => take 4 d = [0xba; 0x80; 0xa5; 0x3f] | _ => False end.
Proof. vm_compute. reflexivity. Qed.

(** On a big endian machine the code computes something else: both the input
    loop and the output loop advance by four bytes per eight byte word. *)
Theorem C15_blake2b_big_endian_refuted : exists m old, bytes m /\ zlen old = 64 /\
  snd (blake2b_finish_be old (blake2b_update_be (blake2b_reset blake2b_new) m)) <> BLAKE2b m.
Proof.
  exists [97; 98; 99], (zeros 64). split; [repeat constructor; unfold is_byte; lia|]. split; [reflexivity|].
  vm_compute. discriminate.
Qed.
Print Assumptions C15_blake2b_big_endian_refuted.
