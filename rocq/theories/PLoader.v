(** Proofs about the key loader. *)
From Coq Require Import String ZifyBool ZifyNat.
From Verif Require Import Base Str MCipher SCipher PCipher MHash SHash SHashLib PHash PHash2 THash MNames SNames PNames TNames
  MProto SProto PProtoNum PProto PProtoRead MCert SCert PCert TCert MLoader SLoader PSha2.

(** ** Names *)
Lemma string_at_ok : forall s rest, Forall (fun x => x <> 0) s -> string_at (s ++ 0 :: rest) = Ok s.
Proof.
  intros s rest H. unfold string_at, c_strlen. rewrite scan_app; [|eapply Forall_impl; [|exact H]; cbn; intros; lia|reflexivity].
  rewrite zlen_app, zlen_cons. pose proof (zlen_nonneg _ rest). replace (zlen s <? zlen s + (1 + zlen rest)) with true by lia.
  now rewrite take_app_exact.
Qed.
Lemma underscore_found : forall a r, Forall (fun c => c <> 95) a -> strchr_underscore (a ++ 95 :: r) = Some (zlen a).
Proof.
  intros a r H. unfold strchr_underscore. rewrite scan_app; [|eapply Forall_impl; [|exact H]; cbn; intros; unfold is_underscore; lia|reflexivity].
  rewrite zlen_app, zlen_cons. pose proof (zlen_nonneg _ r). replace (zlen a <? zlen a + (1 + zlen r)) with true by lia. reflexivity.
Qed.
Lemma underscore_inv : forall s n, strchr_underscore s = Some n -> exists a r, s = a ++ 95 :: r /\ n = zlen a /\ Forall (fun c => c <> 95) a.
Proof.
  intros s n H. unfold strchr_underscore in H. destruct (scan_spec is_underscore s) as (a & r & -> & Hs & Ha & Hr). rewrite Hs in H.
  destruct r as [|c r]; [rewrite app_nil_r, Z.ltb_irrefl in H; discriminate|].
  destruct (zlen a <? _); [|discriminate]. injection H as <-. unfold is_underscore in *. assert (c = 95) by lia. subst c.
  exists a, r. split; [reflexivity|]. split; [reflexivity|]. eapply Forall_impl; [|exact Ha]. cbn. intros; lia.
Qed.
Lemma drop_past : forall (a : list Z) c r, drop (zlen a + 1) (a ++ c :: r) = r.
Proof.
  intros a c r. change (c :: r) with ([c] ++ r). rewrite app_assoc. replace (zlen a + 1) with (zlen (a ++ [c])) by (rewrite zlen_app; reflexivity).
  apply drop_app_exact.
Qed.
Lemma lookup_prefix : forall cat a r, noise_name_to_id cat (Some (a ++ r)) (zlen a) = noise_name_to_id cat (Some a) (zlen a).
Proof.
  intros cat a r. unfold noise_name_to_id, read_ptr. rewrite zlen_app. pose proof (zlen_nonneg _ r). pose proof (zlen_nonneg _ a).
  replace (zlen a <=? zlen a + zlen r) with true by lia. rewrite Z.leb_refl. rewrite take_app_exact, take_all by lia. reflexivity.
Qed.
Lemma str_pbkdf2 : str "_PBKDF2" = 95 :: kdf_name.
Proof. reflexivity. Qed.

Lemma parse_ok : forall c h t rest, protect_text c h t -> parse_protect_name (t ++ 0 :: rest) = Ok (E_NONE, c, h).
Proof.
  intros c h t rest (cn & hn & Hc & Hh & ->). 
  destruct (reg_facts _ _ _ Hc) as (Hc1 & Hc2 & Hc3 & Hc4 & _). destruct (reg_facts _ _ _ Hh) as (Hh1 & Hh2 & Hh3 & Hh4 & _).
  rewrite str_pbkdf2. change (str "_") with [95]. cbn [app]. unfold parse_protect_name. rewrite string_at_ok. 
  2:{ apply Forall_app. split; [eapply Forall_impl; [|exact Hc3]; cbn; intros; lia|]. apply Forall_cons; [lia|].
      apply Forall_app. split; [eapply Forall_impl; [|exact Hh3]; cbn; intros; lia|]. repeat (apply Forall_cons; [lia|]). apply Forall_nil. }
  cbn [obind]. rewrite underscore_found by auto. rewrite lookup_prefix.
  destruct (C37_lookup_exact CIPHER_CATEGORY c cn) as (_ & L & _). rewrite (proj2 (L ltac:(lia)) Hc). cbn [obind].
  replace (c =? 0) with false by lia. rewrite drop_past, underscore_found by auto. rewrite lookup_prefix.
  destruct (C37_lookup_exact HASH_CATEGORY h hn) as (_ & L' & _). rewrite (proj2 (L' ltac:(lia)) Hh). cbn [obind].
  replace (h =? 0) with false by lia. rewrite drop_past. destruct (list_eq_dec Z.eq_dec kdf_name kdf_name); congruence.
Qed.
Lemma parse_defined : forall s rest, Forall (fun x => x <> 0) s -> exists e c h, parse_protect_name (s ++ 0 :: rest) = Ok (e, c, h) /\
  (e = E_NONE \/ e = E_UNKNOWN_NAME) /\ (e = E_NONE -> protect_text c h s).
Proof.
  intros s rest H. unfold parse_protect_name. rewrite string_at_ok by auto. cbn [obind].
  destruct (strchr_underscore s) as [n|] eqn:E1; [|exists E_UNKNOWN_NAME, 0, 0; split; [reflexivity|]; split; [auto|discriminate]].
  destruct (underscore_inv _ _ E1) as (a & r & -> & -> & Ha). rewrite lookup_prefix.
  assert (D : forall cat x, exists i, noise_name_to_id cat (Some x) (zlen x) = Ok i).
  { intros cat x. unfold noise_name_to_id, read_ptr. rewrite Z.leb_refl. cbn [obind]. eauto. }
  destruct (D CIPHER_CATEGORY a) as [c Ec]. rewrite Ec. cbn [obind].
  destruct (Z.eqb_spec c 0); [exists E_UNKNOWN_NAME, c, 0; split; [reflexivity|]; split; [auto|discriminate]|].
  rewrite drop_past.
  destruct (strchr_underscore r) as [n'|] eqn:E2; [|exists E_UNKNOWN_NAME, c, 0; split; [reflexivity|]; split; [auto|discriminate]].
  destruct (underscore_inv _ _ E2) as (a' & r' & -> & -> & Ha'). rewrite lookup_prefix.
  destruct (D HASH_CATEGORY a') as [h Eh]. rewrite Eh. cbn [obind].
  destruct (Z.eqb_spec h 0); [exists E_UNKNOWN_NAME, c, h; split; [reflexivity|]; split; [auto|discriminate]|].
  rewrite drop_past. destruct (list_eq_dec Z.eq_dec r' kdf_name) as [->|]; [|exists E_UNKNOWN_NAME, c, h; split; [reflexivity|]; split; [auto|discriminate]].
  exists E_NONE, c, h. split; [reflexivity|]. split; [auto|]. intros _. exists a, a'.
  split; [now apply (C37_lookup_exact CIPHER_CATEGORY c a)|]. split; [now apply (C37_lookup_exact HASH_CATEGORY h a')|]. reflexivity.
Qed.
(** Eight names *)
Definition protect_names : list (list Z) :=
  flat_map (fun c => map (fun h => str (snd c) ++ str "_" ++ str (snd h) ++ str "_PBKDF2") hash_names) cipher_names.
Lemma names_listed : forall c h t, protect_text c h t -> In t protect_names.
Proof.
  intros c h t (cn & hn & [Hc Kc] & [Hh Kh] & ->). 
  assert (C : In cn (map (fun e => str (snd e)) cipher_names)).
  { unfold registry in Hc. assert (X : forall l n letter, In (c, n) (in_category letter l) -> Forall (fun e => 0 <= fst e < 256) l -> letter = 67 \/ 67 * 256 <> c - c mod 256).
    { intros l n letter Hi Hf. unfold in_category in Hi. apply in_map_iff in Hi as (e & E & Hi). rewrite Forall_forall in Hf. specialize (Hf e Hi). injection E as <- _.
      assert ((letter * 256 + fst e) mod 256 = fst e) by (rewrite Z.add_comm, Z_mod_plus_full; apply Z.mod_small; lia). lia. }
    repeat (apply in_app_iff in Hc as [Hc|Hc]);
      try (destruct (X _ _ _ Hc); [repeat (apply Forall_cons; [cbn; lia|]); apply Forall_nil|discriminate|lia]).
    unfold in_category in Hc. apply in_map_iff in Hc as (e & E & Hi). apply in_map_iff. exists e. split; [congruence|exact Hi]. }
  assert (D : In hn (map (fun e => str (snd e)) hash_names)).
  { unfold registry in Hh. assert (X : forall l n letter, In (h, n) (in_category letter l) -> Forall (fun e => 0 <= fst e < 256) l -> letter = 72 \/ 72 * 256 <> h - h mod 256).
    { intros l n letter Hi Hf. unfold in_category in Hi. apply in_map_iff in Hi as (e & E & Hi). rewrite Forall_forall in Hf. specialize (Hf e Hi). injection E as <- _.
      assert ((letter * 256 + fst e) mod 256 = fst e) by (rewrite Z.add_comm, Z_mod_plus_full; apply Z.mod_small; lia). lia. }
    repeat (apply in_app_iff in Hh as [Hh|Hh]);
      try (destruct (X _ _ _ Hh); [repeat (apply Forall_cons; [cbn; lia|]); apply Forall_nil|discriminate|lia]).
    unfold in_category in Hh. apply in_map_iff in Hh as (e & E & Hi). apply in_map_iff. exists e. split; [congruence|exact Hi]. }
  apply in_map_iff in C as (ce & <- & C). apply in_map_iff in D as (he & <- & D).
  unfold protect_names. apply in_flat_map. exists ce. split; [exact C|]. apply in_map_iff. exists he. auto.
Qed.
Definition name_good (t : list Z) : bool :=
  forallb (fun x => (1 <=? x) && (x <? 256)) t && (zlen t <? 30) && match protobuf_is_utf8 t (zlen t) with Ok true => true | _ => false end.
Lemma name_facts : forall c h t, protect_text c h t -> bytes t /\ zlen t < 30 /\ accepted t /\ Forall (fun x => x <> 0) t.
Proof.
  intros c h t H. apply names_listed in H.
  assert (G : forallb name_good protect_names = true) by (vm_compute; reflexivity).
  rewrite forallb_forall in G. specialize (G t H). unfold name_good in G. apply andb_true_iff in G as [G G3]. apply andb_true_iff in G as [G1 G2].
  rewrite forallb_forall in G1. split; [apply Forall_forall; intros x Hx; specialize (G1 x Hx); unfold is_byte; lia|]. split; [lia|].
  split; [|apply Forall_forall; intros x Hx; specialize (G1 x Hx); lia].
  unfold accepted. destruct (protobuf_is_utf8 t (zlen t)) as [[|]|]; congruence.
Qed.

(** ** Key material *)
Lemma nonce_be : forall l, bytes l -> zlen l = 40 -> nonce_of l = big_endian (drop 32 l) /\ 0 <= nonce_of l < 2^64.
Proof.
  intros l Hl Hz. assert (E : exists a0 a1 a2 a3 a4 a5 a6 a7, drop 32 l = [a0; a1; a2; a3; a4; a5; a6; a7]).
  { assert (Z8 : zlen (drop 32 l) = 8) by (rewrite zlen_drop; lia). unfold zlen in Z8.
    destruct (drop 32 l) as [|a0 [|a1 [|a2 [|a3 [|a4 [|a5 [|a6 [|a7 [|a8 r]]]]]]]]]; cbn in Z8; try lia. repeat eexists. }
  destruct E as (a0 & a1 & a2 & a3 & a4 & a5 & a6 & a7 & E).
  assert (Bd : bytes (drop 32 l)) by (apply bytes_drop; exact Hl). rewrite E in Bd.
  assert (A : forall i, 0 <= i < 8 -> byte_at l (32 + i) = byte_at [a0; a1; a2; a3; a4; a5; a6; a7] i).
  { intros i Hi. rewrite <- E. unfold byte_at, drop. rewrite <- (firstn_skipn (Z.to_nat 32) l) at 1. rewrite app_nth2.
    - rewrite firstn_length_le by (unfold zlen in Hz; lia). f_equal. lia.
    - rewrite firstn_length_le by (unfold zlen in Hz; lia). lia. }
  unfold nonce_of. cbn [fold_left]. rewrite !A by lia. rewrite E.
  change (byte_at [a0; a1; a2; a3; a4; a5; a6; a7] 0) with a0. change (byte_at [a0; a1; a2; a3; a4; a5; a6; a7] 1) with a1.
  change (byte_at [a0; a1; a2; a3; a4; a5; a6; a7] 2) with a2. change (byte_at [a0; a1; a2; a3; a4; a5; a6; a7] 3) with a3.
  change (byte_at [a0; a1; a2; a3; a4; a5; a6; a7] 4) with a4. change (byte_at [a0; a1; a2; a3; a4; a5; a6; a7] 5) with a5.
  change (byte_at [a0; a1; a2; a3; a4; a5; a6; a7] 6) with a6. change (byte_at [a0; a1; a2; a3; a4; a5; a6; a7] 7) with a7.
  unfold bytes in Bd. repeat (let H := fresh "K" in inversion Bd as [|? ? H Bd']; subst; clear Bd; rename Bd' into Bd; unfold is_byte in H).
  unfold big_endian. cbn [fold_left]. rewrite Z.lor_0_l.
  change (56 - 8 * 0) with 56. change (56 - 8 * 1) with 48. change (56 - 8 * 2) with 40. change (56 - 8 * 3) with 32.
  change (56 - 8 * 4) with 24. change (56 - 8 * 5) with 16. change (56 - 8 * 6) with 8. change (56 - 8 * 7) with 0.
  assert (S : forall v x k, 0 <= k -> 0 <= x < 256 -> v mod 2 ^ (k + 8) = 0 -> Z.lor v (Z.shiftl x k) = v + x * 2 ^ k).
  { intros v x k Hk Hx Hv. rewrite (Z.div_mod v (2 ^ (k + 8))) by (apply Z.pow_nonzero; lia). rewrite Hv, Z.add_0_r, (Z.mul_comm (2 ^ (k + 8))).
    rewrite (Z.shiftl_mul_pow2 x) by lia. rewrite <- (Z.shiftl_mul_pow2 (v / 2 ^ (k + 8))) by lia. rewrite lor_add; [|lia|].
    - rewrite Z.shiftl_mul_pow2 by lia. reflexivity.
    - rewrite Z.pow_add_r by lia. pose proof (Z.pow_pos_nonneg 2 k ltac:(lia) Hk). nia. }
  rewrite (Z.shiftl_mul_pow2 a0) by lia.
  rewrite (S _ a1 48); [|lia|lia|change (48 + 8) with 56; apply Z_mod_mult].
  rewrite (S _ a2 40); [|lia|lia|replace (a0 * 2 ^ 56 + a1 * 2 ^ 48) with ((a0 * 256 + a1) * 2 ^ (40 + 8)) by lia; apply Z_mod_mult].
  rewrite (S _ a3 32); [|lia|lia|replace (a0 * 2 ^ 56 + a1 * 2 ^ 48 + a2 * 2 ^ 40) with (((a0 * 256 + a1) * 256 + a2) * 2 ^ (32 + 8)) by lia; apply Z_mod_mult].
  rewrite (S _ a4 24); [|lia|lia|replace (a0 * 2 ^ 56 + a1 * 2 ^ 48 + a2 * 2 ^ 40 + a3 * 2 ^ 32) with ((((a0 * 256 + a1) * 256 + a2) * 256 + a3) * 2 ^ (24 + 8)) by lia; apply Z_mod_mult].
  rewrite (S _ a5 16); [|lia|lia|replace (a0 * 2 ^ 56 + a1 * 2 ^ 48 + a2 * 2 ^ 40 + a3 * 2 ^ 32 + a4 * 2 ^ 24) with (((((a0 * 256 + a1) * 256 + a2) * 256 + a3) * 256 + a4) * 2 ^ (16 + 8)) by lia; apply Z_mod_mult].
  rewrite (S _ a6 8); [|lia|lia|replace (a0 * 2 ^ 56 + a1 * 2 ^ 48 + a2 * 2 ^ 40 + a3 * 2 ^ 32 + a4 * 2 ^ 24 + a5 * 2 ^ 16) with ((((((a0 * 256 + a1) * 256 + a2) * 256 + a3) * 256 + a4) * 256 + a5) * 2 ^ (8 + 8)) by lia; apply Z_mod_mult].
  rewrite (S _ a7 0); [|lia|lia|replace (a0 * 2 ^ 56 + a1 * 2 ^ 48 + a2 * 2 ^ 40 + a3 * 2 ^ 32 + a4 * 2 ^ 24 + a5 * 2 ^ 16 + a6 * 2 ^ 8) with (((((((a0 * 256 + a1) * 256 + a2) * 256 + a3) * 256 + a4) * 256 + a5) * 256 + a6) * 2 ^ (0 + 8)) by lia; apply Z_mod_mult].
  split; [|split]; lia.
Qed.

Lemma bytes_xor : forall a b, bytes a -> bytes b -> bytes (xorb_list a b).
Proof.
  induction a as [|x a IH]; intros [|y b] Ha Hb; cbn; try apply Forall_nil. inversion Ha; inversion Hb; subst. apply Forall_cons; [|now apply IH].
  unfold is_byte in *. assert (0 <= Z.lxor x y) by (apply Z.lxor_nonneg; lia).
  split; [lia|]. destruct (Z.eq_dec (Z.lxor x y) 0); [lia|]. apply (Z.log2_lt_cancel _ 256). 
  eapply Z.le_lt_trans; [apply Z.log2_lxor; lia|]. change (Z.log2 256) with 8.
  assert (forall v, 0 <= v < 256 -> Z.log2 v < 8). { intros v Hv. destruct (Z.eq_dec v 0) as [->|]; [cbn; lia|]. apply Z.log2_lt_pow2; lia. }
  apply Z.max_lub_lt; auto.
Qed.
Lemma material_ok : forall ha H B L lim pw salt it, library_hash ha H B L lim -> bytes pw -> bytes salt -> zlen pw < lim -> zlen salt + 4 + B < lim -> 1 <= it ->
  bytes (PBKDF2 H B pw salt it 40) /\ zlen (PBKDF2 H B pw salt it 40) = 40.
Proof.
  intros ha H B L lim pw salt it Hlib Hp Hs Hzp Hzs Hi.
  destruct (library_law _ _ _ _ _ Hlib) as (HB & HL & Hlim & H' & Hlaw & Hag).
  assert (E : PBKDF2 H' B pw salt it 40 = PBKDF2 H B pw salt it 40).
  { apply (PBKDF2_ext H' H lim B L); auto.
    - intros; rewrite <- HL; apply (law_len _ _ Hlaw).
    - apply (law_bytes _ _ Hlaw).
    - pose proof (law_lens _ _ Hlaw). lia.
    - pose proof (law_lens _ _ Hlaw). lia. }
  rewrite <- E. assert (U : forall i j, bytes (pbkdf2_U H' B pw salt i j)) by (intros i j; destruct j; cbn [pbkdf2_U]; apply (law_bytes _ _ Hlaw)).
  assert (F : forall i c, bytes (pbkdf2_F H' B pw salt i c)) by (intros i c; induction c; cbn [pbkdf2_F]; [apply U | apply bytes_xor; [exact IHc|apply U]]).
  split.
  - unfold PBKDF2. apply bytes_take. apply Forall_concat. apply Forall_map. apply Forall_forall. intros; apply F.
  - rewrite <- HB. unfold PBKDF2. change (concat _) with (T_blocks ha H' pw salt it 1 (Z.to_nat 40)). rewrite zlen_take, (zlen_T_blocks ha H' Hlaw).
    pose proof (law_lens _ _ Hlaw). lia.
Qed.

Lemma derived_ok : forall ha H B L lim pw salt it, library_hash ha H B L lim -> bytes pw -> bytes salt -> zlen pw < lim -> zlen salt + 4 + B < lim -> 1 <= it ->
  bytes (fst (derived H B pw salt it)) /\ zlen (fst (derived H B pw salt it)) = 32 /\ 0 <= snd (derived H B pw salt it) < 2^64.
Proof.
  intros ha H B L lim pw salt it Hlib Hp Hs Hzp Hzs Hi. destruct (material_ok _ _ _ _ _ pw salt it Hlib) as [M1 M2]; auto.
  unfold derived. cbn [fst snd]. destruct (nonce_be _ M1 M2) as [<- N]. split; [now apply bytes_take|]. split; [rewrite zlen_take; lia|exact N].
Qed.
Lemma set_up_ok : forall ha H B L lim hc cs pw salt it, library_hash ha H B L lim -> hctx_ok ha hc -> ca_key_len (cs_alg cs) = 32 ->
  bytes pw -> bytes salt -> zlen pw < lim -> zlen salt + 4 + B < lim -> 1 <= it ->
  exists hc', hctx_ok ha hc' /\ set_up_cipher ha hc cs (Some pw) (zlen pw) (Some salt) (zlen salt) it =
    Ok (hc', keyed (cs_alg cs) (fst (derived H B pw salt it)) (snd (derived H B pw salt it))).
Proof.
  intros ha H B L lim hc cs pw salt it Hlib Hc Hk Hp Hs Hzp Hzs Hi.
  destruct (C10_pbkdf2_is_rfc8018 ha H B L lim hc pw salt it 40 Hlib Hc Hp Hs Hzp Hzs Hi) as (hc' & Hc' & E).
  { destruct (library_law _ _ _ _ _ Hlib) as (_ & HL & _ & H' & Hlaw & _). pose proof (law_lens _ _ Hlaw). lia. }
  exists hc'. split; [exact Hc'|]. unfold set_up_cipher. rewrite E. cbn [obind].
  destruct (material_ok _ _ _ _ _ pw salt it Hlib) as [M1 M2]; auto. 
  assert (Z32 : zlen (take 32 (PBKDF2 H B pw salt it 40)) = 32) by (rewrite zlen_take; lia).
  pose proof (init_key_keyed cs (take 32 (PBKDF2 H B pw salt it 40)) ltac:(lia)) as IK. rewrite Z32 in IK. rewrite IK. cbn [obind]. destruct (nonce_be _ M1 M2) as [EN N].
  unfold cipherstate_set_nonce. cbn [keyed cs_has_key negb cs_n cs_alg cs_key]. replace (nonce_of (PBKDF2 H B pw salt it 40) <? 0) with false by lia.
  rewrite EN. reflexivity.
Qed.

(** ** Encryption in place *)
Lemma enc_good : forall ca k n plain spare, cipher_correct ca -> zlen k = ca_key_len ca -> bytes k -> bytes plain -> 0 <= n < 2^64 - 1 ->
  zlen spare = ca_mac_len ca -> zlen plain + ca_mac_len ca <= MAX_PAYLOAD_LEN ->
  exists s, cipherstate_encrypt_with_ad (keyed ca k n) None 0 (NBuf (Some (plain ++ spare)) (zlen plain) (zlen plain + ca_mac_len ca)) =
    Ok (E_NONE, s, NBuf (Some (snd (ca_encrypt ca k n [] plain))) (zlen plain + ca_mac_len ca) (zlen plain + ca_mac_len ca)) /\ cs_alg s = ca.
Proof.
  intros ca k n plain spare Hc Hk Bk Bp Hn Hs Hl. pose proof (shape_mac _ (correct_shape _ Hc)) as Hm. pose proof (zlen_nonneg _ plain).
  unfold cipherstate_encrypt_with_ad. cbn [b_data b_size b_max keyed cs_has_key cs_alg cs_n cs_key negb]. change (negb (0 =? 0)) with false. cbv iota.
  replace (zlen plain + ca_mac_len ca <? zlen plain) with false by lia. replace (MAX_PAYLOAD_LEN - ca_mac_len ca <? zlen plain) with false by lia.
  replace (zlen plain + ca_mac_len ca - zlen plain <? ca_mac_len ca) with false by lia. replace (n =? 2 ^ 64 - 1) with false by lia.
  cbn [read_ptr]. change (0 =? 0) with true. cbn [obind]. rewrite load_ok by (rewrite ?zlen_app; lia). cbn [obind].
  assert (Es : sub 0 (zlen plain) (plain ++ spare) = plain) by (unfold sub; rewrite drop_le0 by lia; apply take_app_exact). rewrite Es.
  pose proof (correct_enc _ Hc k n [] plain Hk Bk (Forall_nil _) Bp Hn Hl) as Ce.
  pose proof (shape_enc _ (correct_shape _ Hc) k n [] plain) as Cl.
  destruct (ca_encrypt ca k n [] plain) as [e out] eqn:Ea. cbn [fst snd] in *. subst e.
  rewrite store_ok by (rewrite ?zlen_app; lia). cbn [obind is_none err_eqb negb]. rewrite splice_0.
  rewrite drop_all by (rewrite zlen_app; lia). rewrite app_nil_r. eexists. split; [reflexivity|reflexivity].
Qed.
Lemma enc_reserved : forall ca k plain spare, cipher_correct ca -> zlen spare = ca_mac_len ca -> zlen plain + ca_mac_len ca <= MAX_PAYLOAD_LEN ->
  cipherstate_encrypt_with_ad (keyed ca k (2^64 - 1)) None 0 (NBuf (Some (plain ++ spare)) (zlen plain) (zlen plain + ca_mac_len ca)) =
    Ok (E_INVALID_NONCE, keyed ca k (2^64 - 1), NBuf (Some (plain ++ spare)) (zlen plain) (zlen plain + ca_mac_len ca)).
Proof.
  intros ca k plain spare Hc Hs Hl. pose proof (shape_mac _ (correct_shape _ Hc)) as Hm.
  unfold cipherstate_encrypt_with_ad. cbn [b_data b_size b_max keyed cs_has_key cs_alg cs_n cs_key negb]. change (negb (0 =? 0)) with false. cbv iota.
  replace (zlen plain + ca_mac_len ca <? zlen plain) with false by lia. replace (MAX_PAYLOAD_LEN - ca_mac_len ca <? zlen plain) with false by lia.
  replace (zlen plain + ca_mac_len ca - zlen plain <? ca_mac_len ca) with false by lia. reflexivity.
Qed.
Lemma enc_long : forall ca k n plain spare, cipher_correct ca -> MAX_PAYLOAD_LEN < zlen plain + ca_mac_len ca ->
  cipherstate_encrypt_with_ad (keyed ca k n) None 0 (NBuf (Some (plain ++ spare)) (zlen plain) (zlen plain + ca_mac_len ca)) =
    Ok (E_INVALID_LENGTH, keyed ca k n, NBuf (Some (plain ++ spare)) (zlen plain) (zlen plain + ca_mac_len ca)).
Proof.
  intros ca k n plain spare Hc Hl. pose proof (shape_mac _ (correct_shape _ Hc)) as Hm.
  unfold cipherstate_encrypt_with_ad. cbn [b_data b_size b_max keyed cs_has_key cs_alg cs_n cs_key negb]. change (negb (0 =? 0)) with false. cbv iota.
  replace (zlen plain + ca_mac_len ca <? zlen plain) with false by lia. replace (MAX_PAYLOAD_LEN - ca_mac_len ca <? zlen plain) with true by lia. reflexivity.
Qed.
Lemma splice_own : forall A off n (l : list A), 0 <= off -> 0 <= n -> off + n <= zlen l -> splice off (sub off n l) l = l.
Proof.
  intros A off n l H1 H2 H3. unfold splice, sub. rewrite zlen_take, zlen_drop. replace (off + _) with (off + n) by lia.
  replace (off + n) with (n + off) by lia. rewrite <- drop_drop by lia. rewrite take_drop, take_drop. reflexivity.
Qed.
Lemma splice_cover : forall A o1 (d1 : list A) o2 d2 l, 0 <= o1 -> o1 <= o2 -> o2 + zlen d2 <= o1 + zlen d1 -> o1 + zlen d1 <= zlen l ->
  splice o1 d1 (splice o2 d2 l) = splice o1 d1 l.
Proof.
  intros A o1 d1 o2 d2 l H1 H2 H3 H4. pose proof (zlen_nonneg _ d1). pose proof (zlen_nonneg _ d2). unfold splice at 1 3.
  rewrite splice_take_before by lia. rewrite splice_drop_after by lia. reflexivity.
Qed.

(* A number of 20000 rounds should not be computed with. *)
Local Opaque derived.
Section Loop.
Variable ca : cipher_alg.
Variable ha : hash_alg.
Variable H : list Z -> list Z.
Variables B L lim : Z.
Variable pw : list Z.
Variable salts : nat -> list Z.
Variable mem : list Z.
Variable from : Z.
Variables plain spare : list Z.
Hypothesis Hca : cipher_correct ca.
Hypothesis Hkey : ca_key_len ca = 32.
Hypothesis Hlib : library_hash ha H B L lim.
Hypothesis Hpw : bytes pw.
Hypothesis Hpl : zlen pw < lim.
Hypothesis Hsalts : salts_ok salts.
Hypothesis Hfrom : 0 <= from.
Hypothesis Hroom : from + zlen plain + ca_mac_len ca <= zlen mem.
Hypothesis Hsub : sub from (zlen plain + ca_mac_len ca) mem = plain ++ spare.
Hypothesis Hplain : bytes plain.
Variable D : nat -> list Z * Z.
Hypothesis HD : forall j, D j = derived H B pw (salts j) 20000.

Lemma salt_room : zlen (salts O) + 4 + B < lim.
Proof. destruct (library_law _ _ _ _ _ Hlib) as (_ & _ & Hlim & _). destruct (Hsalts O) as [_ ->]. destruct Hlib; lia. Qed.
Lemma spare_len : zlen spare = ca_mac_len ca.
Proof.
  pose proof (shape_mac _ (correct_shape _ Hca)). pose proof (zlen_nonneg _ plain).
  assert (E : zlen (sub from (zlen plain + ca_mac_len ca) mem) = zlen plain + ca_mac_len ca) by (unfold sub; rewrite zlen_take, zlen_drop; lia).
  rewrite Hsub, zlen_app in E. lia.
Qed.
Lemma loop_round : forall i fuel hc cs, hctx_ok ha hc -> cs_alg cs = ca -> exists hc', hctx_ok ha hc' /\
  encrypt_loop (S fuel) salts i ha hc cs (Some pw) (zlen pw) mem from (zlen plain) (zlen plain + ca_mac_len ca) =
  (let! r := cipherstate_encrypt_with_ad (keyed ca (fst (D i)) (snd (D i))) None 0
               (NBuf (Some (plain ++ spare)) (zlen plain) (zlen plain + ca_mac_len ca)) in
   let '(e, cs, buf) := r in
   let! mem := (match b_data buf with Some d => store mem from d | None => UB end) in
   if is_none e then Ok (Some (salts i, mem))
   else encrypt_loop fuel salts (S i) ha hc' cs (Some pw) (zlen pw) mem from (zlen plain) (zlen plain + ca_mac_len ca)).
Proof.
  intros i fuel hc cs Hc Ea. cbn [encrypt_loop]. destruct (Hsalts i) as [Bs Zs]. unfold KEY_SALT_LEN, KEY_ITERATIONS. rewrite <- Zs.
  destruct (set_up_ok ha H B L lim hc cs pw (salts i) 20000 Hlib Hc ltac:(congruence) Hpw Bs Hpl) as (hc' & Hc' & ->); [|lia|].
  { pose proof salt_room. destruct (Hsalts O). lia. }
  exists hc'. split; [exact Hc'|]. cbn [obind]. rewrite Ea, HD. 
  pose proof (shape_mac _ (correct_shape _ Hca)). pose proof (zlen_nonneg _ plain).
  rewrite load_ok by lia. cbn [obind]. rewrite Hsub. reflexivity.
Qed.
Lemma stored_own : store mem from (plain ++ spare) = Ok mem.
Proof.
  pose proof (shape_mac _ (correct_shape _ Hca)). pose proof (zlen_nonneg _ plain). pose proof spare_len.
  rewrite <- Hsub. rewrite store_ok by (unfold sub; rewrite ?zlen_take, ?zlen_drop; lia). f_equal. apply splice_own; lia.
Qed.
Lemma loop_long : MAX_PAYLOAD_LEN < zlen plain + ca_mac_len ca -> forall fuel i hc cs, hctx_ok ha hc -> cs_alg cs = ca ->
  encrypt_loop fuel salts i ha hc cs (Some pw) (zlen pw) mem from (zlen plain) (zlen plain + ca_mac_len ca) = Ok None.
Proof.
  intros Hl. induction fuel as [|fuel IH]; intros i hc cs Hc Ea; [reflexivity|].
  destruct (loop_round i fuel hc cs Hc Ea) as (hc' & Hc' & ->). rewrite enc_long by auto. cbn [obind b_data]. rewrite stored_own. cbn [obind is_none err_eqb].
  apply IH; auto.
Qed.
Lemma loop_ok : zlen plain + ca_mac_len ca <= MAX_PAYLOAD_LEN -> forall d fuel i hc cs, hctx_ok ha hc -> cs_alg cs = ca ->
  (forall j, (i <= j < i + d)%nat -> snd (D j) = 2^64 - 1) ->
  snd (D (i + d)) <> 2^64 - 1 -> (d < fuel)%nat ->
  encrypt_loop fuel salts i ha hc cs (Some pw) (zlen pw) mem from (zlen plain) (zlen plain + ca_mac_len ca) =
    Ok (Some (salts (i + d)%nat, splice from (snd (ca_encrypt ca (fst (D (i + d))) (snd (D (i + d))) [] plain)) mem)).
Proof.
  intros Hl. induction d as [|d IH]; intros fuel i hc cs Hc Ea Hbad Hgood Hf; (destruct fuel as [|fuel]; [clear - Hf; lia|]);
    destruct (loop_round i fuel hc cs Hc Ea) as (hc' & Hc' & ->).
  - rewrite Nat.add_0_r in *. destruct (Hsalts i) as [Bs Zs].
    destruct (derived_ok ha H B L lim pw (salts i) 20000 Hlib Hpw Bs Hpl) as (D1 & D2 & D3); [pose proof salt_room; destruct (Hsalts O); lia|lia|]. rewrite <- HD in *.
    clear Hbad. destruct (D i) as [k n]. cbn [fst snd] in *.
    destruct (enc_good ca k n plain spare Hca ltac:(congruence) D1 Hplain ltac:(lia) spare_len Hl) as (s & -> & _).
    cbn [obind b_data]. rewrite store_ok; [reflexivity|lia|]. rewrite (shape_enc _ (correct_shape _ Hca)). lia.
  - rewrite (Hbad i) by lia. rewrite enc_reserved by (auto using spare_len). cbn [obind b_data]. rewrite stored_own. cbn [obind is_none err_eqb].
    replace (i + S d)%nat with (S i + d)%nat by lia. apply IH; auto; [intros j Hj; apply Hbad; lia| |lia]. now replace (S i + d)%nat with (i + S d)%nat by lia.
Qed.
End Loop.
