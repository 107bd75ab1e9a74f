(** Proofs about the HashState model. *)
From Verif Require Import Base MHash SHash.
From Coq Require Import ZifyBool.

Lemma xor_bytes_list : forall a b, xor_bytes a b = xorb_list a b.
Proof. induction a as [|x a IH]; intros [|y b]; cbn; auto. unfold xor_bytes in *. cbn. now rewrite IH. Qed.

Lemma xor_key_list : forall k v n, zlen k = Z.of_nat n -> xor_key k v = xorb_list k (repeat v n).
Proof.
  induction k as [|x k IH]; intros v n Hn.
  - reflexivity.
  - rewrite zlen_cons in Hn. pose proof (zlen_nonneg _ k). destruct n as [|n]; [lia|].
    cbn. f_equal. apply IH. lia.
Qed.

Lemma xor_key_twice : forall k v w, xor_key (xor_key k v) (Z.lxor v w) = xor_key k w.
Proof.
  induction k as [|x k IH]; intros; cbn; auto. f_equal; [|apply IH].
  rewrite Z.lxor_assoc. f_equal. rewrite <- Z.lxor_assoc, Z.lxor_nilpotent. apply Z.lxor_0_l.
Qed.

Lemma read_ptr_some : forall l, read_ptr (Some l) (zlen l) = Ok l.
Proof. intros; cbn. destruct (Z.leb_spec (zlen l) (zlen l)); [|lia]. now rewrite take_all by lia. Qed.

Section P.
Variable alg : hash_alg.
Variable H : list Z -> list Z.
Hypothesis L : hash_law alg H.
Local Notation B := (ha_block_len alg).

Lemma hash_run : forall c chunks, hctx_ok alg c ->
  exists c', ha_final alg (fold_left (ha_update alg) chunks (ha_reset alg c)) = (c', H (concat chunks))
    /\ hctx_ok alg c'.
Proof.
  intros c chunks Hc. pose proof (law_stream _ _ L c chunks Hc) as Hs.
  pose proof (law_final_ok _ _ L c chunks Hc) as Ho.
  destruct (ha_final alg _) as [c' d]. cbn in *. subst d. eauto.
Qed.

Lemma hash_run1 : forall c a, hctx_ok alg c ->
  exists c', ha_final alg (ha_update alg (ha_reset alg c) a) = (c', H a) /\ hctx_ok alg c'.
Proof. intros c a Hc. destruct (hash_run c [a] Hc) as (c' & E & O). cbn in E. rewrite app_nil_r in E. eauto. Qed.
Lemma hash_run2 : forall c a b, hctx_ok alg c ->
  exists c', ha_final alg (ha_update alg (ha_update alg (ha_reset alg c) a) b) = (c', H (a ++ b)) /\ hctx_ok alg c'.
Proof. intros c a b Hc. destruct (hash_run c [a; b] Hc) as (c' & E & O). cbn in E. rewrite app_nil_r in E. eauto. Qed.
Lemma hash_run3 : forall c a b d, hctx_ok alg c ->
  exists c', ha_final alg (ha_update alg (ha_update alg (ha_update alg (ha_reset alg c) a) b) d)
    = (c', H (a ++ b ++ d)) /\ hctx_ok alg c'.
Proof. intros c a b d Hc. destruct (hash_run c [a; b; d] Hc) as (c' & E & O). cbn in E. rewrite app_nil_r in E. eauto. Qed.

Lemma hmac_correct : forall c key d1 d2, hctx_ok alg c ->
  exists c', hashstate_hmac alg c key d1 d2 =
     (c', HMAC H B key (d1 ++ match d2 with None => [] | Some d => d end)) /\ hctx_ok alg c'.
Proof.
  intros c key d1 d2 Hc. unfold hashstate_hmac. cbv zeta.
  destruct (law_lens _ _ L) as [Hl1 Hl2].
  set (kb := hmac_key H B key).
  assert (Hkb : exists c0, (if zlen key <=? B then (c, key ++ zeros (B - zlen key))
    else
      let '(c3, kh) := ha_final alg (ha_update alg (ha_reset alg c) key) in
      (c3, kh ++ zeros (B - ha_hash_len alg))) = (c0, kb) /\ hctx_ok alg c0 /\ zlen kb = B).
  { unfold kb, hmac_key. destruct (Z.leb_spec (zlen key) B) as [Hle|Hgt].
    - exists c. replace (B <? zlen key) with false by lia. repeat split; auto.
      rewrite zlen_app, zlen_repeat. lia.
    - replace (B <? zlen key) with true by lia.
      destruct (hash_run1 c key Hc) as (c' & -> & Ho). exists c'.
      rewrite (law_len _ _ L). repeat split; auto.
      rewrite zlen_app, zlen_repeat, (law_len _ _ L). lia. }
  destruct Hkb as (c0 & -> & Hc0 & Hlk). cbn beta zeta.
  assert (Hin : exists c5, ha_final alg (match d2 with
       | None => ha_update alg (ha_update alg (ha_reset alg c0) (xor_key kb HMAC_IPAD)) d1
       | Some d => ha_update alg (ha_update alg (ha_update alg (ha_reset alg c0) (xor_key kb HMAC_IPAD)) d1) d
       end) = (c5, H (xor_key kb HMAC_IPAD ++ d1 ++ match d2 with None => [] | Some d => d end))
       /\ hctx_ok alg c5).
  { destruct d2 as [d|].
    - apply hash_run3; auto.
    - rewrite app_nil_r. apply hash_run2; auto. }
  destruct Hin as (c5 & Hin & Hc5). rewrite Hin.
  rewrite xor_key_twice.
  destruct (hash_run2 c5 (xor_key kb HMAC_OPAD)
     (H (xor_key kb HMAC_IPAD ++ d1 ++ match d2 with None => [] | Some d => d end)) Hc5) as (c9 & -> & Hc9).
  exists c9. split; auto. f_equal. unfold HMAC. fold kb. cbn zeta.
  assert (Hn : zlen kb = Z.of_nat (Z.to_nat B)) by lia.
  rewrite <- !(xor_key_list kb _ _ Hn). reflexivity.
Qed.

Lemma zlen_hmac : forall k t, zlen (HMAC H B k t) = ha_hash_len alg.
Proof. intros; unfold HMAC; apply (law_len _ _ L). Qed.
Lemma bytes_hmac : forall k t, bytes (HMAC H B k t).
Proof. intros; unfold HMAC; apply (law_bytes _ _ L). Qed.

Lemma hkdf_correct : forall c k d n1 n2, hctx_ok alg c ->
  0 <= n1 <= ha_hash_len alg -> 0 <= n2 <= ha_hash_len alg ->
  exists c', hashstate_hkdf alg c (Some k) (zlen k) (Some d) (zlen d) n1 n2 =
    Ok (E_NONE, c', Some (take n1 (fst (HKDF H B k d)), take n2 (snd (HKDF H B k d)))) /\ hctx_ok alg c'.
Proof.
  intros c k d n1 n2 Hc H1 H2. unfold hashstate_hkdf.
  replace ((ha_hash_len alg <? n1) || (ha_hash_len alg <? n2)) with false by lia.
  rewrite !read_ptr_some. cbn [obind].
  destruct (hmac_correct c k d None Hc) as (c1 & -> & Hc1). rewrite app_nil_r.
  destruct (hmac_correct c1 (HMAC H B k d) [1] None Hc1) as (c2 & -> & Hc2). cbn [app].
  match goal with |- context [hashstate_hmac alg c2 ?K ?T None] =>
    destruct (hmac_correct c2 K T None Hc2) as (c3 & -> & Hc3) end.
  rewrite app_nil_r. eauto.
Qed.

(** ** PBKDF2 *)
Lemma pbkdf2_inner_iter : forall pw salt i (n : nat) c, hctx_ok alg c ->
  exists c', Nat.iter n (pbkdf2_inner alg pw)
      (c, pbkdf2_U H B pw salt i 0, pbkdf2_U H B pw salt i 0)
   = (c', pbkdf2_F H B pw salt i n, pbkdf2_U H B pw salt i n) /\ hctx_ok alg c'.
Proof.
  intros pw salt i n c Hc. induction n as [|n IH].
  - exists c. split; auto.
  - destruct IH as (c1 & E & Hc1). cbn [Nat.iter nat_rect].
    change (nat_rect _ _ _ n) with (Nat.iter n (pbkdf2_inner alg pw)
      (c, pbkdf2_U H B pw salt i 0, pbkdf2_U H B pw salt i 0)).
    rewrite E. unfold pbkdf2_inner.
    destruct (hmac_correct c1 pw (pbkdf2_U H B pw salt i n) None Hc1) as (c2 & -> & Hc2).
    rewrite app_nil_r. exists c2. split; auto. rewrite xor_bytes_list. reflexivity.
Qed.

Lemma Z_iter_nat : forall A (f : A -> A) n x, Z.iter n f x = Nat.iter (Z.to_nat n) f x.
Proof.
  intros A f n x. destruct n as [|p|p]; cbn.
  - reflexivity.
  - rewrite Z2Nat.inj_pos. apply Pos2Nat.inj_iter.
  - reflexivity.
Qed.

Lemma zlen_xorb : forall a b, zlen (xorb_list a b) = Z.min (zlen a) (zlen b).
Proof.
  induction a as [|x a IH]; intros [|y b]; cbn [xorb_list]; rewrite ?zlen_nil, ?zlen_cons;
    rewrite ?IH; unfold zlen; lia.
Qed.

Lemma zlen_U : forall pw salt i j, zlen (pbkdf2_U H B pw salt i j) = ha_hash_len alg.
Proof. intros; destruct j; cbn [pbkdf2_U]; apply zlen_hmac. Qed.
Lemma zlen_F : forall pw salt i n, zlen (pbkdf2_F H B pw salt i n) = ha_hash_len alg.
Proof.
  induction n; cbn [pbkdf2_F]; [apply zlen_U|]. rewrite zlen_xorb, IHn, zlen_U. lia.
Qed.

Lemma be32_eq : forall i, [Z.shiftr i 24 mod 256; Z.shiftr i 16 mod 256; Z.shiftr i 8 mod 256; i mod 256]
  = [i / 2^24 mod 256; i / 2^16 mod 256; i / 2^8 mod 256; i mod 256].
Proof. intros; now rewrite !Z.shiftr_div_pow2 by lia. Qed.

Definition T_blocks pw salt iter (start count : nat) : list Z :=
  concat (map (fun i => pbkdf2_F H B pw salt (Z.of_nat i) (Z.to_nat (iter - 1))) (seq start count)).

Lemma zlen_T_blocks : forall pw salt iter count start,
  zlen (T_blocks pw salt iter start count) = Z.of_nat count * ha_hash_len alg.
Proof.
  unfold T_blocks. induction count; intros; cbn [seq map concat].
  - rewrite zlen_nil. lia.
  - rewrite zlen_app, zlen_F, IHcount. lia.
Qed.

Lemma pbkdf2_blocks_correct : forall fuel pw salt iter (i : nat) c len out,
  hctx_ok alg c -> 0 <= len -> (Z.to_nat len + 1 < fuel)%nat ->
  exists c', pbkdf2_blocks alg fuel c pw salt iter (Z.of_nat i) len out
    = Ok (c', out ++ take len (T_blocks pw salt iter i (Z.to_nat len))) /\ hctx_ok alg c'.
Proof.
  induction fuel as [|fuel IH]; intros pw salt iter i c len out Hc Hlen Hf; [lia|].
  destruct (law_lens _ _ L) as [Hl1 Hl2].
  cbn [pbkdf2_blocks]. destruct (Z.leb_spec len 0) as [H0|H0].
  { exists c. rewrite take_le0, app_nil_r by lia. auto. }
  cbn zeta. rewrite be32_eq.
  match goal with |- context [hashstate_hmac alg c pw salt ?d] =>
    destruct (hmac_correct c pw salt d Hc) as (c1 & -> & Hc1) end.
  cbv iota beta.
  rewrite Z_iter_nat.
  destruct (pbkdf2_inner_iter pw salt (Z.of_nat i) (Z.to_nat (iter - 1)) c1 Hc1) as (c2 & E2 & Hc2).
  cbn [pbkdf2_U] in E2. rewrite E2. clear E2.
  assert (Hcount : Z.to_nat len = S (Z.to_nat (len - 1))) by lia.
  assert (HT : T_blocks pw salt iter i (Z.to_nat len) =
     pbkdf2_F H B pw salt (Z.of_nat i) (Z.to_nat (iter - 1)) ++
     T_blocks pw salt iter (S i) (Z.to_nat (len - 1))).
  { rewrite Hcount. reflexivity. }
  replace (Z.of_nat i + 1) with (Z.of_nat (S i)) by lia.
  destruct (Z.leb_spec (ha_hash_len alg) len) as [Hle|Hgt].
  - destruct (IH pw salt iter (S i) c2 (len - ha_hash_len alg)
      (out ++ pbkdf2_F H B pw salt (Z.of_nat i) (Z.to_nat (iter - 1))) Hc2) as (c3 & -> & Hc3); [lia|lia|].
    exists c3. split; auto. rewrite <- app_assoc. do 3 f_equal. rewrite HT.
    rewrite take_app_ge by (rewrite zlen_F; lia). rewrite zlen_F. f_equal.
    (* both lists of blocks agree on the first bytes *)
    assert (Happ : forall a b s, T_blocks pw salt iter s (a + b) = T_blocks pw salt iter s a ++ T_blocks pw salt iter (s + a) b).
    { intros. unfold T_blocks. rewrite seq_app, map_app, concat_app. reflexivity. }
    set (a := Z.to_nat (len - ha_hash_len alg)).
    replace (Z.to_nat (len - 1)) with (a + Z.to_nat (ha_hash_len alg - 1))%nat by lia.
    rewrite Happ. rewrite take_app_le; [reflexivity|].
    rewrite zlen_T_blocks. subst a. nia.
  - destruct (IH pw salt iter (S i) c2 0
      (out ++ take len (pbkdf2_F H B pw salt (Z.of_nat i) (Z.to_nat (iter - 1)))) Hc2) as (c3 & -> & Hc3); [lia|lia|].
    exists c3. split; auto. rewrite (take_le0 _ 0), app_nil_r by lia. do 3 f_equal. rewrite HT.
    rewrite take_app_le by (rewrite zlen_F; lia). reflexivity.
Qed.

Lemma pbkdf2_correct : forall c pw salt iter len, hctx_ok alg c ->
  0 <= len <= (2^32 - 1) * ha_hash_len alg ->
  exists c', hashstate_pbkdf2 alg c (Some pw) (zlen pw) (Some salt) (zlen salt) iter len =
    Ok (E_NONE, c', Some (PBKDF2 H B pw salt iter len)) /\ hctx_ok alg c'.
Proof.
  intros c pw salt iter len Hc Hlen. unfold hashstate_pbkdf2.
  destruct (law_lens _ _ L) as [Hl1 Hl2].
  replace ((4294967295 * ha_hash_len alg) mod 2^64) with (4294967295 * ha_hash_len alg)
    by (symmetry; apply Z.mod_small; lia).
  replace (4294967295 * ha_hash_len alg <? len) with false by lia.
  replace (64 <? ha_hash_len alg) with false by lia.
  rewrite !read_ptr_some. cbn [obind].
  destruct (pbkdf2_blocks_correct (S (S (Z.to_nat len))) pw salt iter 1 c len [] Hc) as (c' & E & Hc'); [lia|lia|].
  change (Z.of_nat 1) with 1 in E. rewrite E. cbn [obind app]. exists c'. split; auto.
Qed.
End P.
