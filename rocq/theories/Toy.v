(** A small concrete cipher used only in Examples, to show that the hypotheses
    of the theorems are satisfiable.  (The real ciphers are in MChaChaPoly.v and
    MAesGcm.v; they satisfy the same laws but are slow to compute with.) *)
From Verif Require Import Base MCipher SCipher.

Definition toy_sum (l : list Z) : Z := fold_right (fun x a => (x + a) mod 256) 0 l.
Definition toy_tag (k : list Z) (n : Z) (ad ct : list Z) : Z :=
  (toy_sum k + n + 3 * toy_sum ad + 5 * toy_sum ct) mod 256.
Definition toy_mask (k : list Z) (n : Z) (x : Z) : Z :=
  (toy_sum k + n - x) mod 256.

Definition toy_cipher : cipher_alg := {|
  ca_id := NOISE_ID 67 99;
  ca_key_len := 4;
  ca_mac_len := 1;
  ca_encrypt := fun k n ad pt =>
    let ct := map (toy_mask k n) pt in (E_NONE, ct ++ [toy_tag k n ad ct]);
  ca_decrypt := fun k n ad d =>
    let ct := take (zlen d - 1) d in
    if toy_tag k n ad ct =? nth (Z.to_nat (zlen d - 1)) d 0
    then (E_NONE, map (toy_mask k n) ct ++ drop (zlen d - 1) d)
    else (E_MAC_FAILURE, d)
|}.

Lemma mod256_byte : forall x, is_byte (x mod 256).
Proof. intros; unfold is_byte; apply Z.mod_pos_bound; lia. Qed.

Lemma toy_mask_mask : forall k n x, is_byte x -> toy_mask k n (toy_mask k n x) = x.
Proof.
  intros k n x H; unfold toy_mask.
  rewrite Zminus_mod_idemp_r.
  replace (toy_sum k + n - (toy_sum k + n - x)) with x by lia.
  apply Z.mod_small; auto.
Qed.

Lemma toy_map_map : forall k n l, bytes l -> map (toy_mask k n) (map (toy_mask k n) l) = l.
Proof. induction 1; cbn; auto. rewrite toy_mask_mask; auto. now f_equal. Qed.

Lemma toy_map_bytes : forall k n l, bytes (map (toy_mask k n) l).
Proof. induction l; cbn; constructor; auto. apply mod256_byte. Qed.

Lemma toy_shape : cipher_shape toy_cipher.
Proof.
  constructor; cbn; try (unfold MAX_PAYLOAD_LEN; lia).
  - intros. rewrite zlen_app, zlen_map. reflexivity.
  - intros. apply bytes_app; split; [apply toy_map_bytes|constructor; [apply mod256_byte|constructor]].
  - intros. destruct (_ =? _); cbn; auto.
    rewrite zlen_app, zlen_map, zlen_take, zlen_drop. lia.
  - intros. destruct (_ =? _); cbn; auto.
    apply bytes_app; split; [apply toy_map_bytes|apply bytes_drop; auto].
Qed.

Lemma toy_correct : cipher_correct toy_cipher.
Proof.
  constructor; [apply toy_shape|reflexivity|].
  intros k n ad pt Hkl Hk Had Hpt Hn Hl. cbn [ca_decrypt ca_encrypt toy_cipher snd].
  set (ct := map (toy_mask k n) pt).
  assert (Hz : zlen (ct ++ [toy_tag k n ad ct]) - 1 = zlen ct)
    by (rewrite zlen_app, zlen_cons, zlen_nil; lia).
  rewrite Hz, take_app_exact.
  replace (nth (Z.to_nat (zlen ct)) (ct ++ [toy_tag k n ad ct]) 0) with (toy_tag k n ad ct).
  - rewrite Z.eqb_refl. subst ct. rewrite toy_map_map by auto. eauto.
  - rewrite app_nth2 by (unfold zlen; lia).
    replace (Z.to_nat (zlen ct) - length ct)%nat with O by (unfold zlen; lia). reflexivity.
Qed.

Lemma take_last : forall (d : list Z), 1 <= zlen d ->
  d = take (zlen d - 1) d ++ [nth (Z.to_nat (zlen d - 1)) d 0].
Proof.
  intros d H. destruct (exists_last (l := d)) as [l [x ->]]; [intros ->; rewrite zlen_nil in H; lia|].
  rewrite zlen_app, zlen_cons, zlen_nil. replace (zlen l + (1 + 0) - 1) with (zlen l) by lia.
  rewrite take_app_exact. f_equal. f_equal. rewrite app_nth2 by (unfold zlen; lia).
  replace (Z.to_nat (zlen l) - length l)%nat with O by (unfold zlen; lia). reflexivity.
Qed.

Lemma toy_genuine : cipher_genuine toy_cipher.
Proof.
  intros k n ad d Hkl Hk Had Hd Hn Hmin Hmax. cbn [ca_decrypt ca_encrypt toy_cipher ca_mac_len] in *.
  destruct (Z.eqb_spec (toy_tag k n ad (take (zlen d - 1) d)) (nth (Z.to_nat (zlen d - 1)) d 0)) as [He|He];
    cbn [fst snd]; [intros _|discriminate].
  rewrite take_app_le by (rewrite zlen_map, zlen_take; lia).
  rewrite (take_all _ (zlen d - 1) (map _ _)) by (rewrite zlen_map, zlen_take; lia).
  rewrite toy_map_map by (apply bytes_take; auto).
  rewrite He. apply take_last; auto.
Qed.
