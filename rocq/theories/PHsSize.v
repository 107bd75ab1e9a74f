(** Proofs about HandshakeState: the sizes of handshake messages. *)
From Coq Require Import ZifyBool ZifyNat.
From Verif Require Import Base MUtil MCipher SCipher PCipher MHash SHash PHash MSymm SSymm PSymm MPatterns SPatterns MDh SDh PDh
  MHandshake SHandshake SHsApi PHandshake PHsTok PHsMsg SNoise SAgree.

Section P.
Variable N : suite.
Variable id : protocol_id.
Local Notation ca := (n_cipher N).
Local Notation alg := (n_hash N).
Local Notation H := (n_H N).
Local Notation D := (n_dh N).
Local Notation E := (n_hyb N).
Local Notation psk := (psk_mode id).
Hypothesis Cok : cipher_correct ca.
Hypothesis Sd : dh_suite (n_dh_alg N) D.
Hypothesis Sh : dh_suite (n_hyb_alg N) E.

Local Notation BL := (ha_block_len alg).
Local Notation KL := (ca_key_len ca).
Local Notation party := (party D E).
Local Notation EncryptAndHash := (EncryptAndHash H (aead_encrypt ca)).
Local Notation DecryptAndHash := (DecryptAndHash H (aead_decrypt ca)).
Local Notation DHToken := (DHToken H BL KL D E).
Local Notation WriteToken := (WriteToken H BL KL (aead_encrypt ca) D E psk).
Local Notation WriteTokens := (WriteTokens H BL KL (aead_encrypt ca) D E psk).
Local Notation ReadToken := (ReadToken H BL KL (ca_mac_len ca) (aead_decrypt ca) D E psk).
Local Notation ReadTokens := (ReadTokens H BL KL (ca_mac_len ca) (aead_decrypt ca) D E psk).

Definition rand_ok (rand : tok -> Z -> list Z) : Prop := forall t n, 0 <= n -> sized n (rand t n).

(** ** Generated keys have the right length *)
Lemma suite_lens : forall a F, dh_suite a F -> forall b, 0 <= RANDLEN F b /\ 0 < DHLEN F b <= 2048.
Proof. intros a F S b. destruct S; cbn; try (destruct b); lia. Qed.
Lemma basepoint448_sized : sized 56 basepoint448.
Proof. split; [reflexivity|]. unfold basepoint448. repeat constructor; try (vm_compute; discriminate); try reflexivity. Qed.
Lemma generate_sized : forall a F, dh_suite a F -> forall second r other k, sized (RANDLEN F second) r ->
  (second = true -> forall q, other = Some q -> sized (DHLEN F false) q) ->
  GENERATE F second r other = Some k -> sized (DHLEN F second) (PUB F k).
Proof.
  intros a F S second r other k Hr Ho Eg. destruct S as [base mult B1 B2|eval B1|keygen sharedb shareda B1 B2 B3]; cbn [DHLEN PUB GENERATE RANDLEN curve25519_functions curve448_functions newhope_functions] in *.
  - injection Eg as <-. cbn [snd]. apply B1, sized_clamp25519, Hr.
  - injection Eg as <-. cbn [snd]. apply B1; [apply sized_clamp448, Hr|exact basepoint448_sized].
  - destruct second.
    + destruct other as [q|]; [|discriminate]. specialize (Ho eq_refl q eq_refl). destruct (B2 _ _ Ho Hr) as [X Y]. destruct (sharedb q r). injection Eg as <-. exact Y.
    + destruct (B1 _ Hr) as [X Y]. destruct (keygen r). injection Eg as <-. exact X.
Qed.

(** ** Sizes of the keys a party holds *)
Record keys_sized (p : party) : Prop := {
  ks_s : forall k, p_s p = Some k -> sized (DHLEN D (p_second p)) (PUB D k);
  ks_re : forall q, p_re p = Some q -> sized (DHLEN D (negb (p_second p))) q;
  ks_rf : forall q, p_rf p = Some q -> sized (DHLEN E (negb (p_second p))) q
}.
Lemma keys_sized_sym : forall p v, keys_sized p -> keys_sized (with_sym p v).
Proof. intros p v []; constructor; assumption. Qed.

Lemma zlen_hkdf : forall ck ikm a b, hash_law alg H -> HKDF H BL ck ikm = (a, b) -> zlen a = ha_hash_len alg /\ zlen b = ha_hash_len alg /\ bytes a /\ bytes b.
Proof.
  intros ck ikm a b Law X. unfold HKDF in X. injection X as <- <-. unfold HMAC. repeat split; try apply (law_len _ _ Law); apply (law_bytes _ _ Law).
Qed.
Lemma keyed_mix : forall v z, known (ns_k (MixKey H BL KL v z)) = true.
Proof. intros v z. unfold MixKey. destruct (HKDF _ _ _ _). reflexivity. Qed.
Lemma keyed_eph : forall v q, known (ns_k (MixEphemeral H BL KL psk v q)) = known (ns_k v) || psk.
Proof. intros v q. unfold MixEphemeral. destruct psk. - rewrite keyed_mix, orb_true_r. reflexivity. - rewrite orb_false_r. reflexivity. Qed.
Lemma keyed_enc : forall v pt c v', EncryptAndHash v pt = Some (c, v') -> known (ns_k v') = known (ns_k v) /\ zlen c = zlen pt + tag N (known (ns_k v)).
Proof.
  intros v pt c v' X. pose proof (enc_len ca H Cok _ _ _ _ X) as L. unfold EncryptAndHash, overhead, tag in *. destruct (ns_k v) as [k|] eqn:Ek; cbn [known] in *.
  - destruct (_ =? _); [discriminate|]. injection X as _ <-. split; [reflexivity|exact L].
  - injection X as _ <-. cbn [MixHash ns_k]. rewrite Ek. split; [reflexivity|exact L].
Qed.
Lemma keyed_dec : forall v c pt v', DecryptAndHash v c = Some (pt, v') -> known (ns_k v') = known (ns_k v) /\ zlen c = zlen pt + tag N (known (ns_k v)).
Proof.
  intros v c pt v' X. unfold DecryptAndHash, tag in *. destruct (ns_k v) as [k|] eqn:Ek; cbn [known] in *.
  - destruct (_ =? _); [discriminate|]. destruct (aead_decrypt _ _ _ _ _) as [x|] eqn:Ea; [|discriminate]. injection X as <- <-. split; [reflexivity|].
    unfold aead_decrypt in Ea. destruct (Z.ltb_spec (zlen c) (ca_mac_len ca)); [discriminate|]. destruct (is_none _); [|discriminate]. injection Ea as <-.
    pose proof (shape_mac _ (correct_shape _ Cok)). rewrite zlen_take, (shape_dec _ (correct_shape _ Cok)) by lia. lia.
  - injection X as <- <-. cbn [MixHash ns_k]. rewrite Ek. split; [reflexivity|lia].
Qed.
Lemma keyed_dh : forall p t p', DHToken p t = Some p' -> known (ns_k (p_sym p')) = true /\ t <> E_ /\ t <> S_ /\ t <> F_.
Proof.
  intros p t p' X. assert (Y : forall F k q, MixDH H BL KL D E F p k q = Some p' -> known (ns_k (p_sym p')) = true).
  { intros F k q Y. unfold MixDH in Y. destruct k; [|discriminate]. destruct q; [|discriminate]. destruct (DH F k l); [|discriminate]. injection Y as <-. apply keyed_mix. }
  destruct t; try discriminate X; (split; [|split; [discriminate|split; discriminate]]); cbn [SHandshake.DHToken] in X; try (destruct (p_initiator p)); eapply Y; exact X.
Qed.
Definition tok_size (second keyed : bool) (t : tok) : Z :=
  match t with E_ => DHLEN D second | S_ => DHLEN D second + tag N keyed | F_ => DHLEN E second + tag N keyed | _ => 0 end.

Lemma write_token_size : forall rand p t a p', rand_ok rand -> keys_sized p -> WriteToken rand p t = Some (a, p') ->
  zlen a = tok_size (p_second p) (known (ns_k (p_sym p))) t /\ known (ns_k (p_sym p')) = keyed_by id (known (ns_k (p_sym p))) t /\ keys_sized p' /\ p_second p' = p_second p.
Proof.
  intros rand p t a p' Hr K X.
  assert (Y : option_map (pair ([] : list Z)) (DHToken p t) = Some (a, p') -> zlen a = tok_size (p_second p) (known (ns_k (p_sym p))) t /\ known (ns_k (p_sym p')) = keyed_by id (known (ns_k (p_sym p))) t /\ keys_sized p' /\ p_second p' = p_second p).
  { intros Y. destruct (DHToken p t) as [p1|] eqn:Ed; [|discriminate]. injection Y as <- <-. destruct (keyed_dh _ _ _ Ed) as (Kd & T1 & T2 & T3).
    pose proof (DHToken_fixed ca alg H D E _ _ _ Ed) as ((F1 & F2 & F3 & F4 & F5) & (G1 & G2 & G3 & G4 & G5)).
    split; [destruct t; try congruence; reflexivity|]. split; [rewrite Kd; destruct t; try congruence; reflexivity|]. split; [|exact F2].
    destruct K. constructor; rewrite ?F2, ?F3, ?G4, ?G5; assumption. }
  destruct t; try (apply Y; exact X); clear Y; cbn [SHandshake.WriteToken] in X.
  - destruct (p_s p) as [k|] eqn:Es; [|discriminate]. destruct (EncryptAndHash _ _) as [[c v]|] eqn:Ee; [|discriminate]. injection X as <- <-.
    destruct (keyed_enc _ _ _ _ Ee) as [K1 K2]. cbn [tok_size keyed_by with_sym p_sym p_second]. destruct (ks_s _ K _ Es) as [Zk _].
    split; [lia|]. split; [exact K1|]. split; [now apply keys_sized_sym|reflexivity].
  - destruct (GENERATE D _ _ _) as [k|] eqn:Eg; [|discriminate]. injection X as <- <-. cbn [tok_size keyed_by with_sym with_e p_sym p_second].
    destruct (suite_lens _ _ Sd (p_second p)) as [Hl _].
    destruct (generate_sized _ _ Sd _ _ _ _ (Hr E_ _ Hl) (fun Es q Eq => eq_rect _ (fun b => sized (DHLEN D b) q) (ks_re _ K q Eq) false (f_equal negb Es)) Eg) as [Zk _].
    split; [exact Zk|]. split; [apply keyed_eph|]. split; [|reflexivity]. destruct K; constructor; assumption.
  - destruct (GENERATE E _ _ _) as [k|] eqn:Eg; [|discriminate]. destruct (EncryptAndHash _ _) as [[c v]|] eqn:Ee; [|discriminate]. injection X as <- <-.
    cbn [tok_size keyed_by with_sym with_f p_sym p_second]. destruct (keyed_enc _ _ _ _ Ee) as [K1 K2]. destruct (suite_lens _ _ Sh (p_second p)) as [Hl _].
    destruct (generate_sized _ _ Sh _ _ _ _ (Hr F_ _ Hl) (fun Es q Eq => eq_rect _ (fun b => sized (DHLEN E b) q) (ks_rf _ K q Eq) false (f_equal negb Es)) Eg) as [Zk _].
    split; [lia|]. split; [exact K1|]. split; [|reflexivity]. destruct K; constructor; assumption.
Qed.
Lemma write_tokens_size : forall rand ts p a p', rand_ok rand -> keys_sized p -> WriteTokens rand p ts = Some (a, p') ->
  overhead_of N id (p_second p) (known (ns_k (p_sym p))) ts = zlen a + tag N (known (ns_k (p_sym p'))) /\
  known (ns_k (p_sym p')) = fold_left (keyed_by id) ts (known (ns_k (p_sym p))) /\ keys_sized p' /\ p_second p' = p_second p.
Proof.
  intros rand. induction ts as [|t ts IH]; intros p a p' Hr K X; cbn [SHandshake.WriteTokens] in X.
  - injection X as <- <-. cbn [overhead_of fold_left]. rewrite zlen_nil. auto.
  - destruct (WriteToken rand p t) as [[b p1]|] eqn:Et; [|discriminate]. destruct (WriteTokens rand p1 ts) as [[c p2]|] eqn:Ets; [|discriminate]. injection X as <- <-.
    destruct (write_token_size _ _ _ _ _ Hr K Et) as (A1 & A2 & A3 & A4). destruct (IH _ _ _ Hr A3 Ets) as (B1 & B2 & B3 & B4).
    cbn [overhead_of fold_left]. fold (tok_size (p_second p) (known (ns_k (p_sym p))) t). rewrite A2, A4 in B1. rewrite A2 in B2. rewrite B1, zlen_app.
    split; [lia|]. split; [exact B2|]. split; [exact B3|congruence].
Qed.
Lemma write_message_size : forall rand p pl m p', rand_ok rand -> keys_sized p -> nWriteMessage N id rand p pl = Some (m, p') ->
  exists ts ms, p_messages p = ts :: ms /\ p_messages p' = ms /\ p_second p' = p_second p /\ p_writing p' = negb (p_writing p) /\
  zlen m = overhead_of N id (p_second p) (known (ns_k (p_sym p))) ts + zlen pl /\
  known (ns_k (p_sym p')) = fold_left (keyed_by id) ts (known (ns_k (p_sym p))) /\ keys_sized p'.
Proof.
  intros rand p pl m p' Hr K X. unfold nWriteMessage, WriteMessage in X. destruct (p_messages p) as [|ts ms] eqn:Em; [discriminate|].
  destruct (WriteTokens rand p ts) as [[a p1]|] eqn:Et; [|discriminate]. destruct (EncryptAndHash _ _) as [[c v]|] eqn:Ee; [|discriminate]. injection X as <- <-.
  destruct (write_tokens_size _ _ _ _ _ Hr K Et) as (A1 & A2 & A3 & A4). destruct (keyed_enc _ _ _ _ Ee) as [K1 K2].
  destruct (WriteTokens_fixed ca alg H D E psk _ _ _ _ _ Et) as ((F1 & F2 & F3 & F4 & F5) & _).
  exists ts, ms. cbn [next_message with_sym p_messages p_second p_writing p_sym]. rewrite F5, Em, F4, F2. cbn [tl]. rewrite A1, zlen_app, K1, A2.
  split; [reflexivity|]. split; [reflexivity|]. split; [reflexivity|]. split; [reflexivity|]. split; [lia|]. split; [reflexivity|].
  destruct A3; constructor; assumption.
Qed.

(** ** Reading *)
Lemma read_token_size : forall p t m rest p', ReadToken p t m = Some (rest, p') ->
  zlen m = zlen rest + tok_size (negb (p_second p)) (known (ns_k (p_sym p))) t /\ known (ns_k (p_sym p')) = keyed_by id (known (ns_k (p_sym p))) t /\ p_second p' = p_second p.
Proof.
  intros p t m rest p' X. pose proof (zlen_nonneg _ m) as Zm.
  assert (Y : option_map (pair m) (DHToken p t) = Some (rest, p') -> zlen m = zlen rest + tok_size (negb (p_second p)) (known (ns_k (p_sym p))) t /\ known (ns_k (p_sym p')) = keyed_by id (known (ns_k (p_sym p))) t /\ p_second p' = p_second p).
  { intros Y. destruct (DHToken p t) as [p1|] eqn:Ed; [|discriminate]. injection Y as <- <-. destruct (keyed_dh _ _ _ Ed) as (Kd & T1 & T2 & T3).
    pose proof (DHToken_fixed ca alg H D E _ _ _ Ed) as ((F1 & F2 & F3 & F4 & F5) & _).
    repeat split; [destruct t; try congruence; cbn; lia|rewrite Kd; destruct t; try congruence; reflexivity|exact F2]. }
  assert (Ov : mac_overhead (ca_mac_len ca) (p_sym p) = tag N (known (ns_k (p_sym p)))) by (unfold mac_overhead, tag; destruct (ns_k (p_sym p)); reflexivity).
  assert (Tg : 0 <= tag N (known (ns_k (p_sym p)))) by (pose proof (shape_mac _ (correct_shape _ Cok)); unfold tag; destruct (known _); lia).
  pose proof (suite_lens _ _ Sd (negb (p_second p))) as Ls. pose proof (suite_lens _ _ Sh (negb (p_second p))) as Lh.
  destruct t; try (apply Y; exact X); clear Y; cbn [SHandshake.ReadToken] in X; cbv zeta in X; rewrite ?Ov in X; cbn [tok_size keyed_by].
  - destruct (Z.ltb_spec (zlen m) (DHLEN D (negb (p_second p)) + tag N (known (ns_k (p_sym p))))) as [Hl|Hl]; [discriminate|].
    destruct (DecryptAndHash _ _) as [[q v]|] eqn:Ee; [|discriminate]. injection X as <- <-. cbn [with_sym with_rs p_sym p_second].
    destruct (keyed_dec _ _ _ _ Ee) as [K1 K2]. rewrite zlen_drop. split; [lia|]. split; [exact K1|reflexivity].
  - destruct (Z.ltb_spec (zlen m) (DHLEN D (negb (p_second p)))) as [Hl|Hl]; [discriminate|]. destruct (_ && _); [discriminate|]. injection X as <- <-.
    cbn [with_sym with_re p_sym p_second]. rewrite zlen_drop. split; [lia|]. split; [apply keyed_eph|reflexivity].
  - destruct (Z.ltb_spec (zlen m) (DHLEN E (negb (p_second p)) + tag N (known (ns_k (p_sym p))))) as [Hl|Hl]; [discriminate|].
    destruct (DecryptAndHash _ _) as [[q v]|] eqn:Ee; [|discriminate]. destruct (_ && _); [discriminate|]. injection X as <- <-. cbn [with_sym with_rf p_sym p_second].
    destruct (keyed_dec _ _ _ _ Ee) as [K1 K2]. rewrite zlen_drop. split; [lia|]. split; [exact K1|reflexivity].
Qed.
Lemma read_tokens_size : forall ts p m rest p', ReadTokens p ts m = Some (rest, p') ->
  overhead_of N id (negb (p_second p)) (known (ns_k (p_sym p))) ts + zlen rest = zlen m + tag N (known (ns_k (p_sym p'))) /\
  known (ns_k (p_sym p')) = fold_left (keyed_by id) ts (known (ns_k (p_sym p))) /\ p_second p' = p_second p.
Proof.
  induction ts as [|t ts IH]; intros p m rest p' X; cbn [SHandshake.ReadTokens] in X.
  - injection X as <- <-. cbn [overhead_of fold_left]. repeat split. lia.
  - destruct (ReadToken p t m) as [[b p1]|] eqn:Et; [|discriminate].
    destruct (read_token_size _ _ _ _ _ Et) as (A1 & A2 & A4). destruct (IH _ _ _ _ X) as (B1 & B2 & B4).
    cbn [overhead_of fold_left]. fold (tok_size (negb (p_second p)) (known (ns_k (p_sym p))) t). rewrite A2, A4 in B1. rewrite A2 in B2.
    split; [lia|]. split; [exact B2|]. congruence.
Qed.
Lemma read_message_size : forall p m pl p', nReadMessage N id p m = Some (pl, p') ->
  exists ts ms, p_messages p = ts :: ms /\ p_messages p' = ms /\ p_second p' = p_second p /\ p_writing p' = negb (p_writing p) /\
  zlen m = overhead_of N id (negb (p_second p)) (known (ns_k (p_sym p))) ts + zlen pl /\
  known (ns_k (p_sym p')) = fold_left (keyed_by id) ts (known (ns_k (p_sym p))).
Proof.
  intros p m pl p' X. unfold nReadMessage, ReadMessage in X. destruct (p_messages p) as [|ts ms] eqn:Em; [discriminate|].
  destruct (ReadTokens p ts m) as [[rest p1]|] eqn:Et; [|discriminate]. destruct (DecryptAndHash _ _) as [[c v]|] eqn:Ee; [|discriminate]. injection X as <- <-.
  destruct (read_tokens_size _ _ _ _ _ Et) as (A1 & A2 & A4). destruct (keyed_dec _ _ _ _ Ee) as [K1 K2].
  destruct (ReadTokens_fixed ca alg H D E psk _ _ _ _ _ Et) as ((F1 & F2 & F3 & F4 & F5) & _).
  exists ts, ms. cbn [next_message with_sym p_messages p_second p_writing p_sym]. rewrite F5, Em, F4, F2. cbn [tl]. rewrite K1, A2.
  split; [reflexivity|]. split; [reflexivity|]. split; [reflexivity|]. split; [reflexivity|]. split; [lia|]. reflexivity.
Qed.
End P.
