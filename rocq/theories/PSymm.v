(** Proofs about the SymmetricState model. *)
From Coq Require Import ZifyBool ZifyNat.
From Verif Require Import Base MCipher SCipher PCipher MHash SHash PHash MSymm SSymm.



(** ** CipherState calls with a non-NULL associated data string and buffer, as equations *)
Definition cs_over (cs : cipherstate) : Z := if cs_has_key cs then ca_mac_len (cs_alg cs) else 0.

Lemma cs_enc_eq : forall cs h mem size max, cipher_correct (cs_alg cs) -> cs_wf cs -> bytes h ->
  0 <= size -> max <= zlen mem -> bytes mem ->
  cipherstate_encrypt_with_ad cs (Some h) (zlen h) (NBuf (Some mem) size max) =
  if (max <? size + cs_over cs) || (MAX_PAYLOAD_LEN <? size + cs_over cs)
  then Ok (E_INVALID_LENGTH, cs, NBuf (Some mem) size max)
  else if cs_has_key cs then
    if cs_n cs =? 2^64 - 1 then Ok (E_INVALID_NONCE, cs, NBuf (Some mem) size max)
    else
      let ct := aead_encrypt (cs_alg cs) (cs_key cs) (cs_n cs) h (take size mem) in
      Ok (E_NONE, set_n cs (cs_n cs + 1), NBuf (Some (splice 0 ct mem)) (size + ca_mac_len (cs_alg cs)) max)
  else Ok (E_NONE, cs, NBuf (Some mem) size max).
Proof.
  intros cs h mem size max Hc Hwf Hh Hs Hm Hb. pose proof (shape_mac _ (correct_shape _ Hc)) as Hmac.
  unfold cipherstate_encrypt_with_ad, cs_over. cbn [b_data b_size b_max].
  destruct (cs_has_key cs) eqn:Hk.
  - destruct (Z.ltb_spec max size); [replace ((max <? size + ca_mac_len (cs_alg cs)) || _) with true by lia; reflexivity|].
    cbn [negb]. destruct (Z.ltb_spec (MAX_PAYLOAD_LEN - ca_mac_len (cs_alg cs)) size);
      [replace (_ || (MAX_PAYLOAD_LEN <? size + ca_mac_len (cs_alg cs))) with true by lia; reflexivity|].
    destruct (Z.ltb_spec (max - size) (ca_mac_len (cs_alg cs)));
      [replace ((max <? size + ca_mac_len (cs_alg cs)) || _) with true by lia; reflexivity|].
    replace ((max <? size + ca_mac_len (cs_alg cs)) || (MAX_PAYLOAD_LEN <? size + ca_mac_len (cs_alg cs))) with false by lia.
    destruct (Z.eqb_spec (cs_n cs) (2^64 - 1)); auto.
    rewrite read_ptr_some, load_ok by lia. cbn [obind].
    assert (Et : sub 0 size mem = take size mem) by (unfold sub; now rewrite (drop_le0 _ 0) by lia). rewrite Et.
    destruct Hwf as [Hn Hkey]. destruct (Hkey Hk) as [Hkb Hkl].
    assert (Hz : zlen (take size mem) = size) by (rewrite zlen_take; lia).
    pose proof (correct_enc _ Hc (cs_key cs) (cs_n cs) h (take size mem) Hkl Hkb Hh (bytes_take _ _ Hb)) as Hok.
    rewrite Hz in Hok. specialize (Hok ltac:(lia) ltac:(lia)).
    pose proof (shape_enc _ (correct_shape _ Hc) (cs_key cs) (cs_n cs) h (take size mem)) as Hlen. rewrite Hz in Hlen.
    unfold aead_encrypt. destruct (ca_encrypt _ _ _ _ _) as [e out]. cbn [fst snd] in *. subst e.
    rewrite store_ok by lia. cbn [obind is_none err_eqb negb].
    rewrite Z.mod_small by lia. unfold set_n. rewrite Hk. reflexivity.
  - rewrite !Z.add_0_r. cbn [negb]. destruct (max <? size); cbn [orb]; auto.
Qed.

Lemma cs_dec_eq : forall cs h mem size max, cipher_shape (cs_alg cs) -> cs_wf cs -> bytes h ->
  0 <= size -> max <= zlen mem -> bytes mem ->
  cipherstate_decrypt_with_ad cs (Some h) (zlen h) (NBuf (Some mem) size max) =
  if (max <? size) || (MAX_PAYLOAD_LEN <? size) || (size <? cs_over cs)
  then Ok (E_INVALID_LENGTH, cs, NBuf (Some mem) size max)
  else if cs_has_key cs then
    if cs_n cs =? 2^64 - 1 then Ok (E_INVALID_NONCE, cs, NBuf (Some mem) size max)
    else
      let '(e, out) := ca_decrypt (cs_alg cs) (cs_key cs) (cs_n cs) h (take size mem) in
      if is_none e
      then Ok (E_NONE, set_n cs (cs_n cs + 1), NBuf (Some (splice 0 out mem)) (size - ca_mac_len (cs_alg cs)) max)
      else Ok (e, cs, NBuf (Some (splice 0 out mem)) size max)
  else Ok (E_NONE, cs, NBuf (Some mem) size max).
Proof.
  intros cs h mem size max Hc Hwf Hh Hs Hm Hb. pose proof (shape_mac _ Hc) as Hmac.
  unfold cipherstate_decrypt_with_ad, cs_over. cbn [b_data b_size b_max].
  destruct ((max <? size) || (MAX_PAYLOAD_LEN <? size)) eqn:Hbig; [reflexivity|]. cbn [orb].
  destruct (cs_has_key cs) eqn:Hk; cbn [negb].
  - destruct (Z.ltb_spec size (ca_mac_len (cs_alg cs))); auto.
    destruct (Z.eqb_spec (cs_n cs) (2^64 - 1)); auto.
    rewrite read_ptr_some, load_ok by lia. cbn [obind].
    assert (Et : sub 0 size mem = take size mem) by (unfold sub; now rewrite (drop_le0 _ 0) by lia). rewrite Et.
    assert (Hz : zlen (take size mem) = size) by (rewrite zlen_take; lia).
    pose proof (shape_dec _ Hc (cs_key cs) (cs_n cs) h (take size mem) ltac:(lia)) as Hlen. rewrite Hz in Hlen.
    destruct (ca_decrypt _ _ _ _ _) as [e out]. cbn [fst snd] in *.
    rewrite store_ok by lia. cbn [obind]. destruct Hwf as [Hn Hkey].
    destruct (is_none e); cbn [negb]; auto. rewrite Z.mod_small by lia. unfold set_n. rewrite Hk. reflexivity.
  - destruct (Z.ltb_spec size 0); [lia|reflexivity].
Qed.

Lemma cs_wf_set_n : forall cs, cs_wf cs -> cs_n cs <> 2^64 - 1 -> cs_wf (set_n cs (cs_n cs + 1)).
Proof. intros cs [Hn Hk] Hne. constructor; cbn; auto. lia. Qed.

Lemma init_key_eq : forall cs k n, zlen k = ca_key_len (cs_alg cs) -> n = ca_key_len (cs_alg cs) ->
  cipherstate_init_key cs (Some k) n = Ok (E_NONE, CipherState (cs_alg cs) true k 0).
Proof.
  intros cs k n Hk ->. unfold cipherstate_init_key. rewrite Z.eqb_refl, <- Hk, read_ptr_some. reflexivity.
Qed.

Lemma read_ptr_take : forall m n, 0 <= n <= zlen m -> read_ptr (Some m) n = Ok (take n m).
Proof. intros; cbn. now destruct (Z.leb_spec n (zlen m)); [|lia]. Qed.

(** ** Well-formed SymmetricStates *)
Section P.
Variable ca : cipher_alg.
Variable alg : hash_alg.
Variable H : list Z -> list Z.
Hypothesis Cok : cipher_correct ca.
Hypothesis Law : hash_law alg H.
Hypothesis Klen : ca_key_len ca <= ha_hash_len alg.
Local Notation L := (ha_hash_len alg).
Local Notation B := (ha_block_len alg).
Local Notation K := (ca_key_len ca).

Record sym_wf (s : symmetricstate) : Prop := {
  sw_hash : ss_hash s = alg;
  sw_ctx : hctx_ok alg (ss_hctx s);
  sw_ck : zlen (ss_ck s) = L /\ bytes (ss_ck s);
  sw_h : zlen (ss_h s) = L /\ bytes (ss_h s);
  sw_cipher : forall cs, ss_cipher s = Some cs -> cs_alg cs = ca /\ cs_wf cs
}.

Lemma hash_two_eq : forall c d1 m n, hctx_ok alg c -> 0 <= n <= zlen m ->
  exists c', hashstate_hash_two alg c (Some d1) (zlen d1) (Some m) n L = Ok (E_NONE, c', Some (H (d1 ++ take n m)))
    /\ hctx_ok alg c'.
Proof.
  intros c d1 m n Hc Hn. unfold hashstate_hash_two. rewrite Z.eqb_refl, read_ptr_some, read_ptr_take by auto.
  cbn [negb obind]. destruct (hash_run2 alg H Law c d1 (take n m) Hc) as (c' & E & Hc'). rewrite E. eauto.
Qed.

Lemma hkdf_take : forall c k m n n1 n2, 0 <= n <= zlen m ->
  hashstate_hkdf alg c k (zlen (match k with Some x => x | None => [] end)) (Some m) n n1 n2
  = hashstate_hkdf alg c k (zlen (match k with Some x => x | None => [] end)) (Some (take n m)) (zlen (take n m)) n1 n2.
Proof.
  intros. unfold hashstate_hkdf. destruct k as [k|]; auto. destruct (_ || _); auto.
  rewrite read_ptr_some. cbn [obind]. rewrite read_ptr_take, read_ptr_some by auto. reflexivity.
Qed.

Lemma mix_key_eq : forall s cs m n, sym_wf s -> ss_cipher s = Some cs -> 0 <= n <= zlen m ->
  exists s', symmetricstate_mix_key s (Some m) n = Ok (E_NONE, s') /\ sym_wf s' /\ ss_id s' = ss_id s /\
    exists v, sym_view s = Some v /\ sym_view s' = Some (MixKey H B K v (take n m)).
Proof.
  intros s cs m n Hw Ecs Hn. destruct (sw_cipher _ Hw cs Ecs) as [Ea Hcw].
  unfold symmetricstate_mix_key. rewrite Ecs, (sw_hash _ Hw), Ea.
  destruct (sw_ck _ Hw) as [Hck Hckb]. cbv zeta.
  pose proof (hkdf_take (ss_hctx s) (Some (ss_ck s)) m n L K Hn) as Et. cbv beta iota in Et. rewrite Hck in Et. rewrite Et. clear Et.
  pose proof (shape_key _ (correct_shape _ Cok)). pose proof (law_lens _ _ Law).
  destruct (hkdf_correct alg H Law (ss_hctx s) (ss_ck s) (take n m) L K (sw_ctx _ Hw)) as (c' & E & Hc'); [lia|lia|].
  rewrite Hck in E. rewrite E. cbn [obind].
  assert (Ho1 : zlen (fst (HKDF H B (ss_ck s) (take n m))) = L) by apply (zlen_hmac alg H Law).
  assert (Ho2 : zlen (snd (HKDF H B (ss_ck s) (take n m))) = L) by apply (zlen_hmac alg H Law).
  assert (Hb1 : bytes (fst (HKDF H B (ss_ck s) (take n m)))) by apply (bytes_hmac alg H Law).
  assert (Hb2 : bytes (snd (HKDF H B (ss_ck s) (take n m)))) by apply (bytes_hmac alg H Law).
  clear E. destruct (HKDF H B (ss_ck s) (take n m)) as [o1 o2] eqn:Eh. cbn [fst snd] in *.
  rewrite init_key_eq by (rewrite ?zlen_take, ?Ea; lia). cbn [obind snd].
  rewrite (take_all _ L o1) by lia.
  eexists. split; [reflexivity|]. split; [|split; [reflexivity|]].
  - constructor; cbn; auto; try apply Hw.
    intros cs0 [= <-]. split; auto. constructor; cbn [cs_n cs_key cs_alg]; [lia|]. intros _. split; [apply bytes_take; auto|].
    rewrite zlen_take, Ea. lia.
  - unfold sym_view. rewrite Ecs. eexists. split; [reflexivity|]. cbn [ss_cipher cs_has_key cs_key cs_n ss_ck ss_h]. unfold MixKey. cbn [ns_ck ns_h].
    rewrite Eh. reflexivity.
Qed.

Lemma mix_hash_eq : forall s cs m n, sym_wf s -> ss_cipher s = Some cs -> 0 <= n <= zlen m ->
  exists s', symmetricstate_mix_hash s (Some m) n = Ok (E_NONE, s') /\ sym_wf s' /\ ss_id s' = ss_id s /\
    exists v, sym_view s = Some v /\ sym_view s' = Some (MixHash H v (take n m)).
Proof.
  intros s cs m n Hw Ecs Hn. destruct (sw_cipher _ Hw cs Ecs) as [Ea Hcw].
  unfold symmetricstate_mix_hash. rewrite Ecs, (sw_hash _ Hw).
  destruct (sw_h _ Hw) as [Hh Hhb]. cbv zeta.
  destruct (hash_two_eq (ss_hctx s) (ss_h s) m n (sw_ctx _ Hw) Hn) as (c' & E & Hc'). rewrite Hh in E. rewrite E. cbn [obind].
  eexists. split; [reflexivity|]. split; [|split; [reflexivity|]].
  - constructor; cbn; auto; try apply Hw; try (intros cs0 [= <-]; auto).
    split; [apply (law_len _ _ Law)|apply (law_bytes _ _ Law)].
  - unfold sym_view; cbn. rewrite Ecs. eexists. split; reflexivity.
Qed.

(** The state with its hash context replaced (contexts are scratch space). *)
Definition set_ctx (s : symmetricstate) (c : hctx) : symmetricstate :=
  SymState (ss_id s) (ss_cipher s) (ss_hash s) c (ss_ck s) (ss_h s).

Definition sym_over (s : symmetricstate) : Z := match ss_cipher s with Some cs => cs_over cs | None => 0 end.

Lemma sym_over_mac : forall s, sym_wf s -> symmetricstate_get_mac_length s = sym_over s.
Proof. intros s Hw. unfold symmetricstate_get_mac_length, sym_over, cs_over. destruct (ss_cipher s); reflexivity. Qed.

Lemma sym_over_view : forall s v, sym_wf s -> sym_view s = Some v -> sym_over s = overhead ca v.
Proof.
  intros s v Hw. unfold sym_view, sym_over, overhead, cs_over. destruct (ss_cipher s) as [cs|] eqn:Ecs; [|discriminate].
  intros [= <-]. cbn. destruct (sw_cipher _ Hw cs Ecs) as [-> _]. destruct (cs_has_key cs); reflexivity.
Qed.

Lemma enc_hash_eq : forall s v mem size max, sym_wf s -> sym_view s = Some v ->
  0 <= size -> max <= zlen mem -> bytes mem ->
  (max < size + overhead ca v \/ MAX_PAYLOAD_LEN < size + overhead ca v) /\
    symmetricstate_encrypt_and_hash s (NBuf (Some mem) size max) = Ok (E_INVALID_LENGTH, s, NBuf (Some mem) size max)
  \/
  size + overhead ca v <= max /\ size + overhead ca v <= MAX_PAYLOAD_LEN /\ ns_k v <> None /\ ns_n v = max_nonce /\
    symmetricstate_encrypt_and_hash s (NBuf (Some mem) size max) = Ok (E_INVALID_NONCE, s, NBuf (Some mem) size max)
  \/
  size + overhead ca v <= max /\ size + overhead ca v <= MAX_PAYLOAD_LEN /\
  exists ct v' s', EncryptAndHash H (aead_encrypt ca) v (take size mem) = Some (ct, v') /\
    symmetricstate_encrypt_and_hash s (NBuf (Some mem) size max)
      = Ok (E_NONE, s', NBuf (Some (splice 0 ct mem)) (size + overhead ca v) max) /\
    zlen ct = size + overhead ca v /\ bytes ct /\ sym_wf s' /\ sym_view s' = Some v' /\ ss_id s' = ss_id s.
Proof.
  intros s v mem size max Hw Hv Hs Hm Hb. rewrite <- (sym_over_view s v Hw Hv).
  unfold symmetricstate_encrypt_and_hash. cbn [b_data]. unfold sym_view in Hv.
  destruct (ss_cipher s) as [cs|] eqn:Ecs; [|discriminate].
  destruct (sw_cipher _ Hw cs Ecs) as [Ea Hcw]. destruct (sw_h _ Hw) as [Hh Hhb].
  unfold sym_over. rewrite Ecs. rewrite (sw_hash _ Hw). cbv zeta.
  assert (Ece := fun Hc => cs_enc_eq cs (ss_h s) mem size max Hc Hcw Hhb Hs Hm Hb). rewrite Ea in Ece. specialize (Ece Cok).
  rewrite Hh in Ece. rewrite Ece. clear Ece.
  assert (Es : forall s0, s0 = s -> SymState (ss_id s0) (Some cs) alg (ss_hctx s0) (ss_ck s0) (ss_h s0) = s).
  { intros s0 ->. rewrite <- Ecs, <- (sw_hash _ Hw). destruct s; reflexivity. }
  destruct (Z.ltb_spec max (size + cs_over cs)); [left; split; [auto|]; cbn; now rewrite (Es s eq_refl)|].
  destruct (Z.ltb_spec MAX_PAYLOAD_LEN (size + cs_over cs)); [left; split; [auto|]; cbn; now rewrite (Es s eq_refl)|].
  cbn [orb]. right. inversion Hv as [Ev]. destruct (cs_has_key cs) eqn:Hk.
  - destruct (Z.eqb_spec (cs_n cs) (2^64-1)).
    + left. cbn. rewrite (Es s eq_refl). repeat split; auto; congruence.
    + right. split; [auto|split; [auto|]].
      unfold EncryptAndHash, max_nonce. cbn [ns_k ns_n ns_h ns_ck].
      destruct (Z.eqb_spec (cs_n cs) (2^64-1)); [lia|].
      cbn [obind is_none err_eqb negb b_data b_size].
      set (ct := aead_encrypt ca (cs_key cs) (cs_n cs) (ss_h s) (take size mem)).
      assert (Hzt : zlen (take size mem) = size) by (unfold cs_over in *; rewrite Hk in *;
        pose proof (shape_mac _ (correct_shape _ Cok)); rewrite ?Ea in *; rewrite zlen_take; lia).
      assert (Hct : zlen ct = size + ca_mac_len ca) by (unfold ct, aead_encrypt; rewrite (shape_enc _ (correct_shape _ Cok)), Hzt; auto).
      assert (Hctb : bytes ct) by (apply (shape_enc_bytes _ (correct_shape _ Cok)); auto; [apply Hcw; auto|apply bytes_take; auto]).
      unfold cs_over in *. rewrite Hk, ?Ea in *.
      set (s1 := SymState (ss_id s) (Some (set_n cs (cs_n cs + 1))) alg (ss_hctx s) (ss_ck s) (ss_h s)).
      assert (Hw1 : sym_wf s1).
      { constructor; cbn; auto; try apply Hw. intros cs0 [= <-]. split; auto. apply cs_wf_set_n; auto. }
      destruct (mix_hash_eq s1 (set_n cs (cs_n cs + 1)) (splice 0 ct mem) (size + ca_mac_len ca) Hw1 eq_refl)
        as (s2 & E2 & Hw2 & Hid2 & v1 & Hv1 & Hv2).
      { pose proof (shape_mac _ (correct_shape _ Cok)). rewrite splice_length; lia. }
      rewrite E2. cbn [obind snd]. eexists ct, _, s2. split; [reflexivity|].
      assert (Hta : take (size + ca_mac_len ca) (splice 0 ct mem) = ct) by (rewrite <- Hct; apply take_splice_0).
      rewrite Hta in Hv2. unfold s1, sym_view in Hv1. cbn [ss_cipher set_n cs_has_key cs_key cs_n ss_ck ss_h] in Hv1.
      rewrite Hk in Hv1. inversion Hv1. subst v1.
      repeat (split; [now auto|]). rewrite Hid2. reflexivity.
  - right. split; [auto|split; [auto|]].
    unfold EncryptAndHash. cbn [ns_k]. cbn [obind is_none err_eqb negb b_data b_size]. unfold cs_over in *. rewrite Hk in *.
    set (s1 := SymState (ss_id s) (Some cs) alg (ss_hctx s) (ss_ck s) (ss_h s)).
    assert (s1 = s) as -> by (apply Es; reflexivity).
    destruct (mix_hash_eq s cs mem size Hw Ecs ltac:(lia)) as (s2 & E2 & Hw2 & Hid2 & v1 & Hv1 & Hv2).
    rewrite E2. cbn [obind snd]. exists (take size mem). eexists _, s2. split; [reflexivity|].
    assert (Hsp : splice 0 (take size mem) mem = mem).
    { rewrite splice_0. rewrite zlen_take. replace (Z.max 0 (Z.min size (zlen mem))) with size by lia. apply take_drop. }
    rewrite Hsp. split; [now rewrite Z.add_0_r|]. split; [rewrite zlen_take; lia|]. split; [apply bytes_take; auto|].
    split; auto. split; auto. unfold sym_view in Hv1. rewrite Ecs, Hk in Hv1. inversion Hv1. subst v1. exact Hv2.
Qed.

Lemma dec_hash_eq : forall s v mem size max, sym_wf s -> sym_view s = Some v ->
  0 <= size <= zlen mem -> max <= zlen mem -> bytes mem ->
  exists c', hctx_ok alg c' /\ (
  (max < size \/ MAX_PAYLOAD_LEN < size \/ size < overhead ca v) /\
    symmetricstate_decrypt_and_hash s (NBuf (Some mem) size max) = Ok (E_INVALID_LENGTH, set_ctx s c', NBuf (Some mem) size max)
  \/
  size <= max /\ size <= MAX_PAYLOAD_LEN /\ overhead ca v <= size /\ ns_k v <> None /\ ns_n v = max_nonce /\
    symmetricstate_decrypt_and_hash s (NBuf (Some mem) size max) = Ok (E_INVALID_NONCE, set_ctx s c', NBuf (Some mem) size max)
  \/
  size <= max /\ size <= MAX_PAYLOAD_LEN /\ overhead ca v <= size /\
  (exists k e out, ns_k v = Some k /\ ns_n v <> max_nonce /\
     ca_decrypt ca k (ns_n v) (ns_h v) (take size mem) = (e, out) /\ e <> E_NONE /\
     zlen out = size /\
     symmetricstate_decrypt_and_hash s (NBuf (Some mem) size max)
       = Ok (e, set_ctx s c', NBuf (Some (splice 0 out mem)) size max))
  \/
  size <= max /\ size <= MAX_PAYLOAD_LEN /\ overhead ca v <= size /\
  exists pt mem' v' s', DecryptAndHash H (aead_decrypt ca) v (take size mem) = Some (pt, v') /\
    symmetricstate_decrypt_and_hash s (NBuf (Some mem) size max)
      = Ok (E_NONE, s', NBuf (Some mem') (size - overhead ca v) max) /\
    take (size - overhead ca v) mem' = pt /\ zlen mem' = zlen mem /\ drop size mem' = drop size mem /\ bytes mem' /\
    sym_wf s' /\ sym_view s' = Some v' /\ ss_id s' = ss_id s).
Proof.
  intros s v mem size max Hw Hv Hs Hm Hb. rewrite <- (sym_over_view s v Hw Hv).
  pose proof (shape_mac _ (correct_shape _ Cok)) as Hmac.
  unfold symmetricstate_decrypt_and_hash. cbn [b_data b_size]. unfold sym_view in Hv.
  destruct (ss_cipher s) as [cs|] eqn:Ecs; [|discriminate].
  destruct (sw_cipher _ Hw cs Ecs) as [Ea Hcw]. destruct (sw_h _ Hw) as [Hh Hhb].
  unfold sym_over. rewrite Ecs. unfold cipherstate_has_key, cipherstate_get_mac_length.
  assert (Es : set_ctx s (ss_hctx s) = s) by (destruct s; reflexivity).
  destruct (Z.ltb_spec MAX_PAYLOAD_LEN size); [exists (ss_hctx s); split; [apply Hw|]; left; split; [auto|]; now rewrite Es|].
  assert (Eo : cs_has_key cs && (size <? ca_mac_len (cs_alg cs)) = (size <? cs_over cs)).
  { unfold cs_over. destruct (cs_has_key cs); cbn; lia. }
  rewrite Eo. destruct (Z.ltb_spec size (cs_over cs)); [exists (ss_hctx s); split; [apply Hw|]; left; split; [auto|]; now rewrite Es|].
  rewrite (sw_hash _ Hw).
  destruct (hash_two_eq (ss_hctx s) (ss_h s) mem size (sw_ctx _ Hw) ltac:(lia)) as (c' & E & Hc').
  rewrite Hh in E. cbv zeta. rewrite E. cbn [obind].
  assert (Ece := fun Hc => cs_dec_eq cs (ss_h s) mem size max Hc Hcw Hhb (proj1 Hs) Hm Hb). rewrite Ea in Ece.
  specialize (Ece (correct_shape _ Cok)). rewrite Hh in Ece. rewrite Ece. clear Ece.
  exists c'. split; auto.
  assert (Es' : SymState (ss_id s) (Some cs) alg c' (ss_ck s) (ss_h s) = set_ctx s c').
  { unfold set_ctx. now rewrite Ecs, (sw_hash _ Hw). }
  destruct (Z.ltb_spec max size); [left; split; [auto|]; cbn; now rewrite Es'|].
  destruct (Z.ltb_spec MAX_PAYLOAD_LEN size); [lia|].
  destruct (Z.ltb_spec size (cs_over cs)); [lia|]. cbn [orb]. right. inversion Hv as [Ev].
  destruct (cs_has_key cs) eqn:Hk.
  - destruct (Z.eqb_spec (cs_n cs) (2^64-1)).
    + left. cbn. rewrite Es'. repeat split; auto; congruence.
    + right. cbn [ns_k ns_n ns_h ns_ck].
      assert (Hzt : zlen (take size mem) = size) by (rewrite zlen_take; lia).
      unfold cs_over in *. rewrite Hk, ?Ea in *.
      pose proof (shape_dec _ (correct_shape _ Cok) (cs_key cs) (cs_n cs) (ss_h s) (take size mem) ltac:(lia)) as Hlen.
      pose proof (shape_dec_bytes _ (correct_shape _ Cok) (cs_key cs) (cs_n cs) (ss_h s) (take size mem)) as Hbd.
      specialize (Hbd ltac:(apply Hcw; auto) Hhb (bytes_take _ _ Hb)).
      unfold DecryptAndHash, aead_decrypt. cbn [ns_k ns_n ns_h ns_ck].
      destruct (ca_decrypt ca _ _ _ _) as [e out] eqn:Ed. cbn [fst snd] in *. rewrite Hzt in *.
      destruct (is_none e) eqn:He.
      * right. repeat (split; [auto; lia|]). cbn [obind is_none err_eqb negb].
        change (max_nonce) with (2^64-1). destruct (Z.eqb_spec (cs_n cs) (2^64-1)); [lia|].
        destruct (Z.ltb_spec size (ca_mac_len ca)); [lia|].
        eexists _, (splice 0 out mem), _, _. split; [reflexivity|]. split; [reflexivity|].
        split. { rewrite splice_0. rewrite take_app_le by lia. reflexivity. }
        split; [apply splice_length; lia|]. split; [apply splice_drop_after; lia|].
        split; [apply bytes_splice; auto|].
        split; [|split; [|reflexivity]].
        -- constructor; cbn; auto; try apply Hw.
           ++ split; [apply (law_len _ _ Law)|apply (law_bytes _ _ Law)].
           ++ intros cs0 [= <-]. split; auto. apply cs_wf_set_n; auto.
        -- unfold sym_view. cbn. rewrite Hk. reflexivity.
      * left. repeat (split; [auto; lia|]). exists (cs_key cs), e, out.
        split; [reflexivity|]. split; [auto|]. split; [assumption|]. split; [now apply is_none_false|]. split; [assumption|].
        cbn [obind]. rewrite He. cbn [negb]. now rewrite Es'.
  - right. right. repeat (split; [auto; lia|]). cbn [obind is_none err_eqb negb].
    unfold DecryptAndHash. cbn [ns_k ns_h ns_ck ns_n]. unfold cs_over in *. rewrite Hk in *.
    exists (take size mem), mem. eexists _, _. split; [reflexivity|]. rewrite Z.sub_0_r. split; [reflexivity|].
    repeat (split; [reflexivity|]). split; [auto|]. split; [|split; [|reflexivity]].
    + constructor; cbn; auto; try apply Hw. split; [apply (law_len _ _ Law)|apply (law_bytes _ _ Law)].
      intros cs0 [= <-]. auto.
    + unfold sym_view. cbn. rewrite Hk. reflexivity.
Qed.

Lemma set_ctx_wf : forall s c, sym_wf s -> hctx_ok alg c -> sym_wf (set_ctx s c).
Proof. intros s c Hw Hc. constructor; cbn; auto; apply Hw. Qed.
Lemma set_ctx_view : forall s c, sym_view (set_ctx s c) = sym_view s.
Proof. reflexivity. Qed.

Lemma split_eq : forall s v w1 w2, sym_wf s -> sym_view s = Some v -> w1 || w2 = true ->
  exists s' c1 c2 k1 k2, symmetricstate_split s w1 w2 true = Ok (E_NONE, s', c1, c2) /\
    Split H B K v = (k1, k2) /\ keyed_if ca w1 k1 c1 /\ keyed_if ca w2 k2 c2 /\
    sym_wf s' /\ sym_view s' = None /\ ss_id s' = ss_id s /\ ss_h s' = ss_h s /\ ss_cipher s' = None.
Proof.
  intros s v w1 w2 Hw Hv Hww. unfold symmetricstate_split.
  replace (negb w1 && negb w2) with false by (destruct w1, w2; auto; discriminate Hww).
  unfold sym_view in Hv. destruct (ss_cipher s) as [cs|] eqn:Ecs; [|discriminate]. inversion Hv as [Ev].
  destruct (sw_cipher _ Hw cs Ecs) as [Ea Hcw]. destruct (sw_ck _ Hw) as [Hck Hckb].
  rewrite (sw_hash _ Hw), Ea. pose proof (shape_key _ (correct_shape _ Cok)). pose proof (law_lens _ _ Law).
  cbv zeta. pose proof (hkdf_take (ss_hctx s) (Some (ss_ck s)) (ss_ck s) 0 K K ltac:(lia)) as Et.
  cbv beta iota in Et. rewrite Hck in Et. rewrite Et. clear Et. rewrite (take_le0 _ 0) by lia.
  destruct (hkdf_correct alg H Law (ss_hctx s) (ss_ck s) [] K K (sw_ctx _ Hw)) as (c' & E & Hc'); [lia|lia|].
  rewrite Hck in E. rewrite E. cbn [obind]. unfold Split. cbn [ns_ck].
  assert (Ho1 : zlen (fst (HKDF H B (ss_ck s) [])) = L) by apply (zlen_hmac alg H Law).
  assert (Ho2 : zlen (snd (HKDF H B (ss_ck s) [])) = L) by apply (zlen_hmac alg H Law).
  destruct (HKDF H B (ss_ck s) []) as [o1 o2]. cbn [fst snd] in *.
  assert (Hws : sym_wf (SymState (ss_id s) None alg c' (ss_ck s) (ss_h s))).
  { constructor; cbn; auto; try apply Hw. intros; discriminate. }
  rewrite !init_key_eq by (rewrite ?zlen_take; cbn [cipherstate_new cs_alg]; rewrite ?Ea; lia).
  destruct w1, w2; try discriminate Hww; cbn [negb andb obind snd];
    do 5 eexists; (split; [reflexivity|]); (split; [reflexivity|]);
    (split; [first [reflexivity | eexists; split; [reflexivity|]; repeat split; exact Ea]|]);
    (split; [first [reflexivity | eexists; split; [reflexivity|]; repeat split; exact Ea]|]);
    (split; [exact Hws|]); repeat split.
Qed.

Lemma sym_new_eq : forall id name c, hctx_ok alg c -> bytes name ->
  exists s, symmetricstate_new (Some ca) (Some (alg, c)) name id = Ok (E_NONE, Some s) /\
    sym_wf s /\ sym_view s = Some (InitializeSymmetric H L name) /\ ss_id s = id.
Proof.
  intros id name c Hc Hn. unfold symmetricstate_new. pose proof (law_lens _ _ Law). unfold MAX_HASHLEN.
  destruct (Z.ltb_spec 64 L); [lia|]. destruct (Z.ltb_spec L K); [lia|].
  unfold InitializeSymmetric. pose proof (zlen_nonneg _ name).
  assert (Hcs : cs_wf (cipherstate_new ca)) by (constructor; cbn; [lia|discriminate]).
  destruct (Z.leb_spec (zlen name) L).
  - eexists. split; [reflexivity|]. split; [|split; reflexivity].
    assert (Hz : zlen (name ++ zeros (L - zlen name)) = L) by (rewrite zlen_app, zlen_zeros; lia).
    assert (Hb : bytes (name ++ zeros (L - zlen name))) by (apply bytes_app; split; [auto|apply bytes_zeros]).
    constructor; cbn; auto. intros cs [= <-]. auto.
  - unfold hashstate_hash_one. rewrite Z.eqb_refl, read_ptr_some. cbn [negb obind].
    destruct (hash_run1 alg H Law c name Hc) as (c' & E & Hc'). rewrite E. cbn [obind].
    eexists. split; [reflexivity|]. split; [|split; reflexivity].
    constructor; cbn; auto; try (split; [apply (law_len _ _ Law)|apply (law_bytes _ _ Law)]).
    intros cs [= <-]. auto.
Qed.

(** ** One call, and any sequence of calls *)
Lemma sym_step_ok : forall s op, sym_wf s -> sym_op_ok op ->
  exists r s', sym_step s op = Ok (r, s') /\ sym_wf s' /\ ss_id s' = ss_id s /\
    (forall h st, noise_history ca H B (sym_view s') h st -> noise_history ca H B (sym_view s) ((op, r) :: h) st) /\
    (sr_err r <> E_NONE -> sym_view s' = sym_view s /\ ss_ck s' = ss_ck s /\ ss_h s' = ss_h s).
Proof.
  intros s op Hw Hop.
  assert (Hnone : ss_cipher s = None -> sym_view s = None) by (intros E; unfold sym_view; now rewrite E).
  assert (Hsome : forall cs, ss_cipher s = Some cs -> exists v, sym_view s = Some v) by (intros cs E; unfold sym_view; rewrite E; eauto).
  destruct op as [p n|p n|b|b|w1 w2]; cbn [sym_step sym_op_ok] in *.
  - destruct p as [m|].
    2:{ unfold symmetricstate_mix_key. cbn [obind]. do 2 eexists. split; [reflexivity|]. split; auto. split; auto. split.
        - intros. apply nh_refused; auto. constructor.
        - auto. }
    destruct (ss_cipher s) as [cs|] eqn:Ecs.
    + destruct Hop as [H0 [H1 H2]]. destruct (mix_key_eq s cs m n Hw Ecs ltac:(lia)) as (s' & E & Hw' & Hid & v & Hv & Hv').
      rewrite E. cbn [obind]. do 2 eexists. split; [reflexivity|]. split; auto. split; auto. split.
      * intros h st Hh. rewrite Hv. rewrite Hv' in Hh. now apply nh_mixkey.
      * cbn. congruence.
    + unfold symmetricstate_mix_key. rewrite Ecs. cbn [obind]. do 2 eexists. split; [reflexivity|]. split; auto. split; auto. split.
      * intros. apply nh_refused; auto. rewrite (Hnone eq_refl). constructor.
      * auto.
  - destruct p as [m|].
    2:{ unfold symmetricstate_mix_hash. cbn [obind]. do 2 eexists. split; [reflexivity|]. split; auto. split; auto. split.
        - intros. apply nh_refused; auto. constructor.
        - auto. }
    destruct (ss_cipher s) as [cs|] eqn:Ecs.
    + destruct Hop as [H0 [H1 H2]]. destruct (mix_hash_eq s cs m n Hw Ecs ltac:(lia)) as (s' & E & Hw' & Hid & v & Hv & Hv').
      rewrite E. cbn [obind]. do 2 eexists. split; [reflexivity|]. split; auto. split; auto. split.
      * intros h st Hh. rewrite Hv. rewrite Hv' in Hh. now apply nh_mixhash.
      * cbn. congruence.
    + unfold symmetricstate_mix_hash. rewrite Ecs. cbn [obind]. do 2 eexists. split; [reflexivity|]. split; auto. split; auto. split.
      * intros. apply nh_refused; auto. rewrite (Hnone eq_refl). constructor.
      * auto.
  - destruct b as [[mem|] size max].
    2:{ unfold symmetricstate_encrypt_and_hash. cbn. do 2 eexists. split; [reflexivity|]. split; auto. split; auto. split.
        - intros. apply nh_refused; auto. now constructor.
        - auto. }
    destruct Hop as (H0 & H1 & H2 & H3). cbn [b_size b_max b_data] in *.
    destruct (ss_cipher s) as [cs|] eqn:Ecs.
    2:{ unfold symmetricstate_encrypt_and_hash. rewrite Ecs. cbn. do 2 eexists. split; [reflexivity|]. split; auto. split; auto. split.
        - intros. apply nh_refused; auto. rewrite (Hnone eq_refl). constructor.
        - auto. }
    destruct (Hsome cs eq_refl) as [v Hv].
    destruct (enc_hash_eq s v mem size max Hw Hv H0 H2 H3) as [[Hc E]|[(A1 & A2 & A3 & A4 & E)|(A1 & A2 & ct & v' & s' & E1 & E & Hct & Hb & Hw' & Hv' & Hid)]].
    + rewrite E. cbn [obind]. do 2 eexists. split; [reflexivity|]. split; auto. split; auto. split; auto.
      intros. apply nh_refused; auto. rewrite Hv. now constructor.
    + rewrite E. cbn [obind]. do 2 eexists. split; [reflexivity|]. split; auto. split; auto. split; auto.
      intros. apply nh_refused; auto. rewrite Hv. now constructor.
    + rewrite E. cbn [obind]. do 2 eexists. split; [reflexivity|]. split; auto. split; auto. split; [|cbn; congruence].
      intros h st Hh. rewrite Hv. rewrite Hv' in Hh. eapply nh_encrypt; [exact E1| | | |exact Hh].
      * unfold contents. cbn [b_data b_size]. rewrite <- Hct. apply take_splice_0.
      * cbn. lia.
      * reflexivity.
  - destruct b as [[mem|] size max].
    2:{ unfold symmetricstate_decrypt_and_hash. cbn. do 2 eexists. split; [reflexivity|]. split; auto. split; auto. split.
        - intros. apply nh_refused; auto. now constructor.
        - auto. }
    destruct Hop as [(H0 & H1 & H2 & H3) Hsz]. cbn [b_size b_max b_data] in *.
    destruct (ss_cipher s) as [cs|] eqn:Ecs.
    2:{ unfold symmetricstate_decrypt_and_hash. rewrite Ecs. cbn. do 2 eexists. split; [reflexivity|]. split; auto. split; auto. split.
        - intros. apply nh_refused; auto. rewrite (Hnone eq_refl). constructor.
        - auto. }
    destruct (Hsome cs eq_refl) as [v Hv].
    destruct (dec_hash_eq s v mem size max Hw Hv ltac:(lia) H2 H3) as (c' & Hc' & [[Hc E]|[(A1 & A2 & A3 & A4 & A5 & E)|[(A1 & A2 & A3 & k & e & out & Hk & Hn & Ed & He & Ho & E)|(A1 & A2 & A3 & pt & mem' & v' & s' & E1 & E & Hpt & Hz & Hdr & Hb & Hw' & Hv' & Hid)]]]).
    + rewrite E. cbn [obind]. do 2 eexists. split; [reflexivity|]. split; [apply set_ctx_wf; auto|]. split; auto. split; auto.
      intros. apply nh_refused; auto. rewrite Hv. now constructor.
    + rewrite E. cbn [obind]. do 2 eexists. split; [reflexivity|]. split; [apply set_ctx_wf; auto|]. split; auto. split; auto.
      intros. apply nh_refused; auto. rewrite Hv. now constructor.
    + rewrite E. cbn [obind]. do 2 eexists. split; [reflexivity|]. split; [apply set_ctx_wf; auto|]. split; auto. split; auto.
      intros. apply nh_refused; auto. rewrite Hv. apply ref_dec_forged with (k := k); auto.
      * unfold contents. cbn. now rewrite Ed.
      * unfold aead_decrypt, contents. cbn. destruct (_ <? _); auto. rewrite Ed. cbn. now rewrite (proj2 (is_none_false e) He).
    + rewrite E. cbn [obind]. do 2 eexists. split; [reflexivity|]. split; auto. split; auto. split; [|cbn; congruence].
      intros h st Hh. rewrite Hv. rewrite Hv' in Hh. eapply nh_decrypt; [exact E1| | | |exact Hh].
      * exact Hpt.
      * cbn. rewrite <- Hpt, zlen_take. pose proof (shape_mac _ (correct_shape _ Cok)).
        assert (0 <= overhead ca v) by (unfold overhead; destruct (ns_k v); lia). lia.
      * reflexivity.
  - destruct (w1 || w2) eqn:Hww.
    2:{ destruct w1, w2; try discriminate Hww. cbn. do 2 eexists. split; [reflexivity|]. split; auto. split; auto. split; auto.
        intros. apply nh_refused; auto. constructor. }
    destruct (ss_cipher s) as [cs|] eqn:Ecs.
    2:{ unfold symmetricstate_split. rewrite Ecs. replace (negb w1 && negb w2) with false by (destruct w1, w2; auto; discriminate Hww).
        cbn. do 2 eexists. split; [reflexivity|]. split; auto. split; auto. split; auto.
        intros. apply nh_refused; auto. rewrite (Hnone eq_refl). constructor. }
    destruct (Hsome cs eq_refl) as [v Hv].
    destruct (split_eq s v w1 w2 Hw Hv Hww) as (s' & c1 & c2 & k1 & k2 & E & Esp & K1 & K2 & Hw' & Hv' & Hid & Hh & _).
    rewrite E. cbn [obind]. do 2 eexists. split; [reflexivity|]. split; auto. split; auto. split; [|cbn; congruence].
    intros h st Hn. rewrite Hv. rewrite Hv' in Hn. eapply nh_split; eauto.
Qed.

Lemma sym_run_ok : forall ops s, sym_wf s -> Forall sym_op_ok ops ->
  exists hist s', sym_run s ops = Ok (hist, s') /\ map fst hist = ops /\ sym_wf s' /\ ss_id s' = ss_id s /\
    noise_history ca H B (sym_view s) hist (sym_view s').
Proof.
  induction ops as [|op ops IH]; intros s Hw Hops; cbn [sym_run].
  - exists [], s. split; auto. split; auto. split; auto. split; auto. constructor.
  - inversion Hops as [|? ? Ho Hr]; subst.
    destruct (sym_step_ok s op Hw Ho) as (r & s1 & E1 & Hw1 & Hid1 & Hh1 & _). rewrite E1. cbn [obind fst snd].
    destruct (IH s1 Hw1 Hr) as (hist & s2 & E2 & Hm & Hw2 & Hid2 & Hh2). rewrite E2. cbn [obind fst snd].
    exists ((op, r) :: hist), s2. split; auto. split; [cbn; now rewrite Hm|]. split; auto. split; [congruence|]. auto.
Qed.
End P.
