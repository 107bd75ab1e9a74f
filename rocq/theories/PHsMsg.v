(** Proofs about HandshakeState: the loops over the tokens of a message. *)
From Coq Require Import ZifyBool ZifyNat.
From Verif Require Import Base MUtil MCipher SCipher PCipher MHash SHash PHash MSymm SSymm PSymm MPatterns SPatterns MDh SDh PDh MHandshake SHandshake PHandshake PHsTok.

Section P.
Variable ca : cipher_alg.
Variable alg : hash_alg.
Variable H : list Z -> list Z.
Hypothesis Cok : cipher_correct ca.
Hypothesis Law : hash_law alg H.
Hypothesis Klen : ca_key_len ca <= ha_hash_len alg.
Hypothesis Mac : ca_mac_len ca <= 16.
Variables dalg halg : dh_alg.
Variables D E : dh_functions.
Variable dview : dh_data -> KP D.
Variable dready : dh_data -> Prop.
Variable hview : dh_data -> KP E.
Variable hready : dh_data -> Prop.
Hypothesis Ld : dh_link dalg D dview dready.
Hypothesis Lh : dh_link halg E hview hready.
Variable psk : bool.

Local Notation HL := (ha_hash_len alg).
Local Notation BL := (ha_block_len alg).
Local Notation KL := (ca_key_len ca).
Local Notation party := (party D E).
Local Notation EncryptAndHash := (EncryptAndHash H (aead_encrypt ca)).
Local Notation DecryptAndHash := (DecryptAndHash H (aead_decrypt ca)).
Local Notation DHToken := (DHToken H BL KL D E).
Local Notation WriteToken := (WriteToken H BL KL (aead_encrypt ca) D E psk).
Local Notation WriteTokens := (WriteTokens H BL KL (aead_encrypt ca) D E psk).
Local Notation WriteMessage := (WriteMessage H BL KL (aead_encrypt ca) D E psk).
Local Notation ReadToken := (ReadToken H BL KL (ca_mac_len ca) (aead_decrypt ca) D E psk).
Local Notation ReadTokens := (ReadTokens H BL KL (ca_mac_len ca) (aead_decrypt ca) D E psk).
Local Notation ReadMessage := (ReadMessage H BL KL (ca_mac_len ca) (aead_decrypt ca) D E psk).
Local Notation rel := (rel ca alg dalg halg D E dview dready hview hready psk).
Local Notation weak := (weak ca alg dalg halg D E dview dready hview hready psk).
Local Notation know_of := (know_of D E).

(** What never changes while tokens are processed *)
Definition fixed (p p' : party) : Prop :=
  p_initiator p' = p_initiator p /\ p_second p' = p_second p /\ p_s p' = p_s p /\ p_writing p' = p_writing p /\ p_messages p' = p_messages p.
Lemma fixed_refl : forall p, fixed p p.
Proof. intros; repeat split. Qed.
Lemma fixed_trans : forall a b c, fixed a b -> fixed b c -> fixed a c.
Proof. unfold fixed. intros a b c (?&?&?&?&?) (?&?&?&?&?). repeat split; congruence. Qed.
Lemma DHToken_fixed : forall p t p', DHToken p t = Some p' -> fixed p p' /\
  (p_e p' = p_e p /\ p_f p' = p_f p /\ p_rs p' = p_rs p /\ p_re p' = p_re p /\ p_rf p' = p_rf p).
Proof.
  intros p t p' E1. unfold DHToken, MixDH in E1.
  assert (X : forall F (a : option (KP F)) b, MixDH H BL KL D E F p a b = Some p' -> fixed p p' /\
     (p_e p' = p_e p /\ p_f p' = p_f p /\ p_rs p' = p_rs p /\ p_re p' = p_re p /\ p_rf p' = p_rf p)).
  { intros F a b X. unfold MixDH in X. destruct a; [|discriminate]. destruct b; [|discriminate]. destruct (DH F k l); [|discriminate]. injection X as <-. repeat split. }
  destruct t; try discriminate; try (destruct (p_initiator p)); eapply X; exact E1.
Qed.
Lemma WriteToken_fixed : forall rand p t a p', WriteToken rand p t = Some (a, p') -> fixed p p' /\ (p_rs p' = p_rs p /\ p_re p' = p_re p /\ p_rf p' = p_rf p).
Proof.
  intros rand p t a p' E1. assert (X : option_map (pair ([] : list Z)) (DHToken p t) = Some (a, p') -> fixed p p' /\ (p_rs p' = p_rs p /\ p_re p' = p_re p /\ p_rf p' = p_rf p)).
  { intros X. destruct (DHToken p t) eqn:Ed; [|discriminate]. injection X as _ <-. apply DHToken_fixed in Ed. tauto. }
  destruct t; try (apply X; exact E1); clear X; cbn [SHandshake.WriteToken] in E1.
  - destruct (p_s p) eqn:Es; [|discriminate]. destruct (EncryptAndHash _ _) as [[c v]|]; [|discriminate]. injection E1 as _ <-. repeat split.
  - destruct (GENERATE _ _ _ _); [|discriminate]. injection E1 as _ <-. repeat split.
  - destruct (GENERATE _ _ _ _); [|discriminate]. destruct (EncryptAndHash _ _) as [[c v]|]; [|discriminate]. injection E1 as _ <-. repeat split.
Qed.
Lemma ReadToken_fixed : forall p t m a p', ReadToken p t m = Some (a, p') -> fixed p p' /\ (p_e p' = p_e p /\ p_f p' = p_f p) /\ (t <> E_ -> p_re p' = p_re p) /\
  zlen a <= zlen m.
Proof.
  intros p t m a p' E1. assert (X : option_map (pair m) (DHToken p t) = Some (a, p') -> fixed p p' /\ (p_e p' = p_e p /\ p_f p' = p_f p) /\ (t <> E_ -> p_re p' = p_re p) /\ zlen a <= zlen m).
  { intros X. destruct (DHToken p t) eqn:Ed; [|discriminate]. injection X as <- <-. apply DHToken_fixed in Ed. split; [apply Ed|]. split; [tauto|]. split; [intros; tauto|qlia]. }
  pose proof (zlen_nonneg _ m).
  assert (Zd : forall n, zlen (drop n m) <= zlen m) by (intros n; rewrite zlen_drop; qlia).
  destruct t; try (apply X; exact E1); clear X; cbn [SHandshake.ReadToken] in E1; cbv zeta in E1; destruct (_ <? _); try discriminate.
  - destruct (DecryptAndHash _ _) as [[c v]|]; [|discriminate]. injection E1 as <- <-. repeat split; auto.
  - destruct (_ && _); [discriminate|]. injection E1 as <- <-. repeat split; auto. congruence.
  - destruct (DecryptAndHash _ _) as [[c v]|]; [|discriminate]. destruct (_ && _); [discriminate|]. injection E1 as <- <-. repeat split; auto.
Qed.
Lemma WriteTokens_fixed : forall rand ts p a p', WriteTokens rand p ts = Some (a, p') -> fixed p p' /\ (p_rs p' = p_rs p /\ p_re p' = p_re p /\ p_rf p' = p_rf p).
Proof.
  intros rand. induction ts as [|t ts IH]; intros p a p' E1; cbn [SHandshake.WriteTokens] in E1.
  - injection E1 as _ <-. split; [apply fixed_refl|auto].
  - destruct (WriteToken rand p t) as [[b p1]|] eqn:Et; [|discriminate]. destruct (WriteTokens rand p1 ts) as [[c p2]|] eqn:Ets; [|discriminate]. injection E1 as _ <-.
    destruct (WriteToken_fixed _ _ _ _ _ Et) as (F1 & A1 & A2 & A3). destruct (IH _ _ _ Ets) as (F2 & B1 & B2 & B3). split; [eapply fixed_trans; eauto|]. repeat split; congruence.
Qed.
Lemma ReadTokens_fixed : forall ts p m a p', ReadTokens p ts m = Some (a, p') -> fixed p p' /\ (p_e p' = p_e p /\ p_f p' = p_f p) /\ (~ In E_ ts -> p_re p' = p_re p) /\ zlen a <= zlen m.
Proof.
  induction ts as [|t ts IH]; intros p m a p' E1; cbn [SHandshake.ReadTokens] in E1.
  - injection E1 as <- <-. split; [apply fixed_refl|]. repeat split; auto. qlia.
  - destruct (ReadToken p t m) as [[b p1]|] eqn:Et; [|discriminate].
    destruct (ReadToken_fixed _ _ _ _ _ Et) as (F1 & [A1 A2] & A3 & A4). destruct (IH _ _ _ _ E1) as (F2 & [B1 B2] & B3 & B4). split; [eapply fixed_trans; eauto|]. split; [split; congruence|].
    split; [|qlia]. intros N. rewrite B3 by (intros X; apply N; now right). apply A3. intros ->. apply N. now left.
Qed.

(** ** The write loop *)
Lemma token_nonzero : forall t, (tok_code t =? TOKEN_END) = false /\ (tok_code t =? TOKEN_FLIP_DIR) = false.
Proof. intros []; split; reflexivity. Qed.

(** The state after a failure while writing the tokens [ts] *)
Definition write_failed (rand : tok -> Z -> list Z) (p : party) (ts : list tok) (p1 : party) : Prop :=
  exists ts1 t ts2 a p0, ts = ts1 ++ t :: ts2 /\ WriteTokens rand p ts1 = Some (a, p0) /\
    (p1 = p0 \/ t = E_ /\ (exists k, p1 = with_e p0 k) \/ t = F_ /\ (exists k, p1 = with_f p0 k)).

Lemma splice_splice : forall size (a b mem : list Z), 0 <= size -> size + zlen a + zlen b <= zlen mem ->
  splice (size + zlen a) b (splice size a mem) = splice size (a ++ b) mem.
Proof.
  intros size a b mem H0 H1. pose proof (zlen_nonneg _ a). pose proof (zlen_nonneg _ b). unfold splice at 1.
  rewrite (splice_drop_after _ (size + zlen a + zlen b) size a mem) by qlia. unfold splice. rewrite zlen_app.
  rewrite take_app_ge by (rewrite zlen_take; qlia). rewrite zlen_take. replace (size + zlen a - Z.max 0 (Z.min size (zlen mem))) with (zlen a) by qlia.
  rewrite take_app_exact. rewrite <- !app_assoc. do 3 f_equal. f_equal. qlia.
Qed.
Lemma splice_nil : forall size (mem : list Z), splice size [] mem = mem.
Proof. intros. unfold splice. rewrite zlen_nil, Z.add_0_r. apply take_drop. Qed.

Lemma write_tokens_ok : forall env ts s p rest mem size max, rel s p -> env_ok env ->
  sane_tokens (shape_of s) (p_initiator p) (p_second p) true (know_of p) ts = true ->
  0 <= size <= max -> max <= zlen mem -> max < 2^64 -> bytes mem ->
  (exists a p' s', WriteTokens (rand_of env) p ts = Some (a, p') /\ size + zlen a <= max /\ bytes a /\ same_frame s s' /\ rel s' p' /\
     know_of p' = learn_tokens true (know_of p) ts /\
     write_tokens env s (map tok_code ts ++ rest) mem size max = write_tokens env s' rest (splice size a mem) (size + zlen a) max)
  \/
  (exists e s' mem' n toks p1, write_tokens env s (map tok_code ts ++ rest) mem size max = Ok (e, set_tokens toks s', mem', n) /\ e <> E_NONE /\
     same_frame s s' /\ framed size max mem mem' /\ weak s' p1 /\ write_failed (rand_of env) p ts p1 /\
     match WriteTokens (rand_of env) p ts with None => True | Some (a, _) => max < size + zlen a /\ e = E_INVALID_LENGTH end).
Proof.
  intros env. induction ts as [|t ts IH]; intros s p rest mem size max R He Sn Hs Hm H64 Hb.
  - left. exists [], p, s. cbn [SHandshake.WriteTokens map app]. split; [reflexivity|]. rewrite zlen_nil, Z.add_0_r, splice_nil.
    split; [qlia|]. split; [constructor|]. split; [apply same_frame_refl|]. split; [exact R|]. split; reflexivity.
  - cbn [sane_tokens] in Sn. apply andb_prop in Sn. destruct Sn as [Sn1 Sn2].
    destruct (write_token_ok ca alg H Cok Law Klen Mac dalg halg D E dview dready hview hready Ld Lh psk env s p t mem size max R He Sn1 Hs Hm H64 Hb)
      as (e & s1 & mem1 & n & E1 & F1 & X).
    cbn [map app write_tokens]. destruct (token_nonzero t) as [-> ->]. rewrite E1. cbn [obind SHandshake.WriteTokens].
    destruct X as [(-> & a & p' & X1 & X2 & X3 & X4 & X5 & X6 & X7)|(X1 & X2 & (p1 & X3 & X4) & X5)].
    + cbn [is_none negb]. rewrite X1. pose proof (zlen_nonneg _ a).
      destruct (WriteToken_fixed _ _ _ _ _ X1) as ((G1 & G2 & _) & _).
      assert (Zm : zlen mem1 = zlen mem) by (subst mem1; apply splice_length; qlia).
      destruct (IH s1 p' rest mem1 (size + n) max X6 He) as [(a2 & p2 & s2 & Y1 & Y2 & Y3 & Y4 & Y5 & Y6 & Y7)|(e & s2 & mem2 & n2 & toks & p2 & Y1 & Y2 & Y3 & Y4 & Y5 & Y6 & Y7)];
        try qlia; [rewrite (sf_shape _ _ F1), G1, G2, X7; exact Sn2|subst mem1; now apply bytes_splice| |].
      * left. rewrite Y1. exists (a ++ a2), p2, s2. split; [reflexivity|]. rewrite zlen_app. split; [qlia|]. split; [apply bytes_app; auto|].
        split; [eapply same_frame_trans; eauto|]. split; [exact Y5|]. split; [rewrite Y6, X7; reflexivity|].
        rewrite Y7. subst mem1 n. rewrite splice_splice by qlia. replace (size + (zlen a + zlen a2)) with (size + zlen a + zlen a2) by qlia. reflexivity.
      * right. exists e, s2, mem2, n2, toks, p2. split; [exact Y1|]. split; [exact Y2|]. split; [eapply same_frame_trans; eauto|].
        split; [eapply framed_trans; [|eapply framed_weaken; [|exact Y4]; qlia]; subst mem1; apply framed_splice; auto; qlia|].
        split; [exact Y5|]. split.
        { destruct Y6 as (ts1 & t1 & ts2 & a1 & p0 & Z1 & Z2 & Z3). exists (t :: ts1), t1, ts2, (a ++ a1), p0. split; [cbn; now rewrite Z1|].
          split; [|exact Z3]. cbn [SHandshake.WriteTokens]. now rewrite X1, Z2. }
        destruct (WriteTokens _ p' ts) as [[b p3]|]; [|exact I]. rewrite zlen_app. split; [qlia|tauto].
    + right. replace (is_none e) with false by (destruct e; try reflexivity; congruence). cbn [negb].
      do 6 eexists. split; [reflexivity|]. split; [exact X1|]. split; [exact F1|]. split; [exact X2|]. split; [exact X3|]. split.
      { exists [], t, ts, [], p. split; [reflexivity|]. split; [reflexivity|exact X4]. }
      destruct (WriteToken _ p t) as [[b p3]|]; [|exact I]. destruct (WriteTokens _ p3 ts) as [[c p4]|]; [|exact I]. rewrite zlen_app. pose proof (zlen_nonneg _ c). split; [qlia|tauto].
Qed.

(** ** The read loop *)
Definition read_failed (p : party) (ts : list tok) (m : list Z) (p1 : party) : Prop :=
  exists ts1 t ts2 r p0, ts = ts1 ++ t :: ts2 /\ ReadTokens p ts1 m = Some (r, p0) /\
    (p1 = p0 \/
     t = E_ /\ p1 = with_re p0 (take (DHLEN D (negb (p_second p0))) r) /\ DHLEN D (negb (p_second p0)) <= zlen r \/
     t = F_ /\ exists q, p1 = with_rf p0 q) /\ ReadToken p0 t r = None.

Lemma read_tokens_ok : forall env ts s p rest mem pos size max, rel s p ->
  sane_tokens (shape_of s) (p_initiator p) (p_second p) false (know_of p) ts = true ->
  0 <= pos -> 0 <= size <= max -> pos + max <= zlen mem -> bytes mem ->
  (exists r p' s' mem' pos' size' max', ReadTokens p ts (sub pos size mem) = Some (r, p') /\ same_frame s s' /\ rel s' p' /\
     know_of p' = learn_tokens false (know_of p) ts /\ bytes mem' /\ zlen mem' = zlen mem /\ drop (pos + size) mem' = drop (pos + size) mem /\
     size' = zlen r /\ sub pos' size' mem' = r /\ size' <= size /\ pos' = pos + (size - size') /\ max' = max - (size - size') /\
     read_tokens env s (map tok_code ts ++ rest) mem pos size max = read_tokens env s' rest mem' pos' size' max')
  \/
  (exists e s' mem' pos' size' max' toks p1, read_tokens env s (map tok_code ts ++ rest) mem pos size max = Ok (e, set_tokens toks s', mem', pos', size', max') /\ e <> E_NONE /\
     same_frame s s' /\ zlen mem' = zlen mem /\ drop (pos + size) mem' = drop (pos + size) mem /\ weak s' p1 /\ read_failed p ts (sub pos size mem) p1 /\
     ReadTokens p ts (sub pos size mem) = None).
Proof.
  intros env. induction ts as [|t ts IH]; intros s p rest mem pos size max R Sn Hp Hs Hm Hb.
  - left. exists (sub pos size mem), p, s, mem, pos, size, max. cbn [SHandshake.ReadTokens map app]. split; [reflexivity|]. split; [apply same_frame_refl|]. split; [exact R|]. split; [reflexivity|].
    split; [exact Hb|]. split; [reflexivity|]. split; [reflexivity|].
    assert (Zs : zlen (sub pos size mem) = size) by (unfold sub; rewrite zlen_take, zlen_drop; qlia). rewrite Zs.
    split; [reflexivity|]. split; [reflexivity|]. split; [qlia|]. split; [qlia|]. split; [qlia|reflexivity].
  - cbn [sane_tokens] in Sn. apply andb_prop in Sn. destruct Sn as [Sn1 Sn2].
    destruct (read_token_ok ca alg H Cok Law Klen Mac dalg halg D E dview dready hview hready Ld Lh psk env s p t mem pos size max R Sn1 Hp Hs Hm Hb)
      as (e & s1 & mem1 & pos1 & size1 & max1 & E1 & F1 & Z1 & Z2 & X).
    cbn [map app read_tokens]. destruct (token_nonzero t) as [-> ->]. rewrite E1. cbn [obind SHandshake.ReadTokens].
    destruct X as [(-> & a & p' & X1 & X2 & X3 & X4 & X5 & X6 & X7 & X8 & X9)|(X1 & X2 & (p1 & X3 & X4))].
    + cbn [is_none negb]. rewrite X1. pose proof (zlen_nonneg _ a).
      destruct (ReadToken_fixed _ _ _ _ _ X1) as ((G1 & G2 & _) & _).
      assert (Z3 : pos1 + size1 = pos + size) by qlia.
      destruct (IH s1 p' rest mem1 pos1 size1 max1 X8) as [(r & p2 & s2 & mem2 & pos2 & size2 & max2 & Y1 & Y2 & Y3 & Y4 & Y5 & Y6 & Y7 & Y8 & Y9 & Y10 & Y11 & Y12 & Y13)
         |(e & s2 & mem2 & pos2 & size2 & max2 & toks & p2 & Y1 & Y2 & Y3 & Y4 & Y5 & Y6 & Y7 & Y8)];
        try qlia; [rewrite (sf_shape _ _ F1), G1, G2, X9; exact Sn2|exact X7| |]; rewrite X3 in *.
      * left. exists r, p2, s2, mem2, pos2, size2, max2. rewrite Y1. split; [reflexivity|]. split; [eapply same_frame_trans; eauto|]. split; [exact Y3|]. split; [rewrite Y4, X9; reflexivity|].
        split; [exact Y5|]. split; [congruence|]. rewrite Z3 in Y7. split; [congruence|]. split; [exact Y8|]. split; [exact Y9|]. split; [qlia|]. split; [qlia|]. split; [qlia|exact Y13].
      * right. exists e, s2, mem2, pos2, size2, max2, toks, p2. split; [exact Y1|]. split; [exact Y2|]. split; [eapply same_frame_trans; eauto|]. rewrite Z3 in Y5. split; [congruence|]. split; [congruence|].
        split; [exact Y6|]. split; [|exact Y8].
        destruct Y7 as (ts1 & t1 & ts2 & a1 & p0 & W1 & W2 & W3). exists (t :: ts1), t1, ts2, a1, p0. split; [cbn; now rewrite W1|].
        split; [|exact W3]. cbn [SHandshake.ReadTokens]. now rewrite X1.
    + right. replace (is_none e) with false by (destruct e; try reflexivity; congruence). cbn [negb].
      do 8 eexists. split; [reflexivity|]. split; [exact X1|]. split; [exact F1|]. split; [exact Z1|]. split; [exact Z2|]. split; [exact X3|]. split.
      { exists [], t, ts, (sub pos size mem), p. split; [reflexivity|]. split; [reflexivity|].
        split; [|exact X2]. destruct X4 as [X4|[(X4 & X5 & X6)|X4]]; [now left|right; left; split; [exact X4|split; [exact X5|]]|right; right; exact X4].
        unfold sub. rewrite zlen_take, zlen_drop. qlia. }
      now rewrite X2.
Qed.

(** ** Messages *)
Record at_ (s : handshakestate) (p : party) : Prop := {
  a_rel : rel s p;
  a_tokens : hs_tokens s = encode_messages (p_messages p) ++ [0];
  a_action : hs_action s = match p_messages p with [] => ACTION_SPLIT | _ => if p_writing p then ACTION_WRITE_MESSAGE else ACTION_READ_MESSAGE end;
  a_sane : sane_messages (shape_of s) (p_initiator p) (p_second p) (p_writing p) (know_of p) (p_messages p) = true
}.
(** What a call leaves alone even when it fails *)
Definition kept (s s' : handshakestate) : Prop :=
  hs_requirements s' = hs_requirements s /\ hs_role s' = hs_role s /\ hs_psk s' = hs_psk s /\ hs_prologue s' = hs_prologue s /\
  ss_id (hs_symmetric s') = ss_id (hs_symmetric s) /\ shape_of s' = shape_of s.
Lemma frame_kept : forall s s1 toks a, same_frame s s1 -> kept s (set_action a (set_tokens toks s1)).
Proof. intros s s1 toks a []; repeat split; assumption. Qed.
Lemma kept_trans : forall a b c, kept a b -> kept b c -> kept a c.
Proof. unfold kept. intros a b c (?&?&?&?&?&?) (?&?&?&?&?&?). repeat split; congruence. Qed.
Lemma rel_tokens : forall s p toks a, rel s p -> rel (set_action a (set_tokens toks s)) p.
Proof. intros s p toks a [[K1 K2 K3 K4 K5 K6 K7 K8 K9] W V]. constructor; [constructor; assumption|exact W|exact V]. Qed.
Lemma weak_tokens : forall s p toks a, weak s p -> weak (set_action a (set_tokens toks s)) p.
Proof. intros s p toks a [[K1 K2 K3 K4 K5 K6 K7 K8 K9] W V]. constructor; [constructor; assumption|exact W|exact V]. Qed.
Lemma weak_action : forall s p a, weak s p -> weak (set_action a s) p.
Proof. intros s p a [[K1 K2 K3 K4 K5 K6 K7 K8 K9] W V]. constructor; [constructor; assumption|exact W|exact V]. Qed.

Lemma encode_cons : forall m ms, encode_messages (m :: ms) ++ [0] =
  map tok_code m ++ match ms with [] => [0] | _ => 255 :: encode_messages ms ++ [0] end.
Proof. intros m [|m' ms]; cbn [encode_messages]; [reflexivity|]. rewrite <- app_assoc. reflexivity. Qed.

Definition payload_bytes (payload : option nbuf) : list Z :=
  match payload with Some b => match b_data b with Some m => take (b_size b) m | None => [] end | None => [] end.
Definition payload_ok (payload : option nbuf) : Prop :=
  match payload with Some b => match b_data b with Some m => 0 <= b_size b <= zlen m /\ bytes m | None => False end | None => True end.

Lemma know_fixed : forall p p', fixed p p' -> p_initiator p' = p_initiator p /\ p_second p' = p_second p.
Proof. intros p p' (A & B & _). auto. Qed.

Lemma encrypt_payload : forall s1 p1 mem1 size max (pl : list Z) toks act, rel s1 p1 -> bytes mem1 -> bytes pl ->
  0 <= size -> size + overhead ca (p_sym p1) + zlen pl <= max -> max <= zlen mem1 ->
  exists e y n mem2, symmetricstate_encrypt_and_hash (hs_symmetric s1) (NBuf (Some (drop size (splice size pl mem1))) (zlen pl) (max - size)) = Ok (e, y, NBuf (Some mem2) n (max - size)) /\
   ((exists c v, e = E_NONE /\ EncryptAndHash (p_sym p1) pl = Some (c, v) /\ n = zlen c /\ bytes c /\ zlen c = zlen pl + overhead ca (p_sym p1) /\
        take size (splice size pl mem1) ++ mem2 = splice size c mem1 /\ rel (set_symmetric y (set_action act (set_tokens toks s1))) (with_sym p1 v) /\ ss_id y = ss_id (hs_symmetric s1))
    \/ (e <> E_NONE /\ mem2 = drop size (splice size pl mem1) /\ y = hs_symmetric s1 /\
       match EncryptAndHash (p_sym p1) pl with None => True | Some _ => MAX_PAYLOAD_LEN < zlen pl + overhead ca (p_sym p1) /\ e = E_INVALID_LENGTH end)).
Proof.
  intros s1 p1 mem1 size max pl toks act R Hb Hp H0 H1 H2. pose proof (zlen_nonneg _ pl).
  pose proof (shape_mac _ (correct_shape _ Cok)) as Hmac.
  assert (Ho : 0 <= overhead ca (p_sym p1) <= 16) by (unfold overhead; destruct (ns_k (p_sym p1)); qlia).
  assert (Lm : zlen (splice size pl mem1) = zlen mem1) by (apply splice_length; qlia).
  destruct (enc_hash_eq ca alg H Cok Law (hs_symmetric s1) (p_sym p1) (drop size (splice size pl mem1)) (zlen pl) (max - size) (r_wf _ _ _ _ _ _ _ _ _ _ _ _ _ R) (r_view _ _ _ _ _ _ _ _ _ _ _ _ _ R))
      as [(X & Ee)|[(X1 & X2 & X3 & X4 & Ee)|(X1 & X2 & ct & v' & y' & Es & Ee & Zc & Bc & W' & V' & I')]];
      try qlia; try (rewrite zlen_drop, Lm; qlia); try (apply bytes_drop, bytes_splice; assumption).
  - rewrite Ee. do 4 eexists. split; [reflexivity|]. right. split; [discriminate|]. split; [reflexivity|]. split; [reflexivity|].
    destruct (EncryptAndHash _ _); [|exact I]. split; [qlia|reflexivity].
  - rewrite Ee. do 4 eexists. split; [reflexivity|]. right. split; [discriminate|]. split; [reflexivity|]. split; [reflexivity|].
    unfold SSymm.EncryptAndHash. destruct (ns_k (p_sym p1)); [|congruence]. rewrite X4, Z.eqb_refl. exact I.
  - assert (Tk : take (zlen pl) (drop size (splice size pl mem1)) = pl) by (apply (splice_sub_same _ size pl mem1); qlia).
    rewrite Tk in Es. rewrite Ee. do 4 eexists. split; [reflexivity|]. left. exists ct, v'. split; [reflexivity|]. split; [exact Es|]. split; [qlia|]. split; [exact Bc|]. split; [qlia|].
    split; [apply splice_over; qlia|]. split; [|exact I'].
    destruct (set_sym_rel ca alg dalg halg D E dview dready hview hready psk (set_action act (set_tokens toks s1)) p1 y' v' (r_keys _ _ _ _ _ _ _ _ _ _ _ _ _ (rel_tokens _ _ toks act R)) W' V' I') as [Q _]. exact Q.
Qed.

(** WriteMessage *)
Lemma write_message_ok : forall env s p mem size0 max payload, at_ s p -> p_writing p = true -> p_messages p <> [] -> env_ok env ->
  payload_ok payload -> 0 <= max <= zlen mem -> max < 2^64 -> bytes mem ->
  exists e s' mem' n, write_message env s (NBuf (Some mem) size0 max) payload = Ok (e, s', NBuf (Some mem') n max) /\
    zlen mem' = zlen mem /\ bytes mem' /\ drop max mem' = drop max mem /\ kept s s' /\
    ((exists m p', e = E_NONE /\ WriteMessage (rand_of env) p (payload_bytes payload) = Some (m, p') /\ at_ s' p' /\ zlen m <= max /\ n = zlen m /\ take n mem' = m)
     \/
     (e <> E_NONE /\ n = 0 /\ hs_action s' = ACTION_FAILED /\
      (exists p1, weak s' p1 /\ (write_failed (rand_of env) p (hd [] (p_messages p)) p1 \/ exists a, WriteTokens (rand_of env) p (hd [] (p_messages p)) = Some (a, p1))) /\
      match WriteMessage (rand_of env) p (payload_bytes payload) with
      | None => True
      | Some (m, _) => (max < zlen m \/ MAX_PAYLOAD_LEN < zlen m /\ MAX_PAYLOAD_LEN < zlen (payload_bytes payload) + ca_mac_len ca) /\ e = E_INVALID_LENGTH
      end)).
Proof.
  intros env s p mem size0 max payload A Wr Nm He Hp Hm H64 Hb. destruct A as [R T Ac Sn]. unfold write_message. cbn [b_data b_max].
  destruct (p_messages p) as [|ts ms] eqn:Ms; [congruence|]. rewrite Wr in *. cbn [hd].
  replace (match payload with Some p0 => is_null_ptr (b_data p0) | None => false end) with false
    by (destruct payload as [[[pd|] ? ?]|]; cbn in *; tauto || reflexivity).
  rewrite Ac, Z.eqb_refl. cbn [negb]. unfold handshakestate_write. rewrite T, encode_cons.
  cbn [sane_messages] in Sn. apply andb_prop in Sn. destruct Sn as [Sn1 Sn2].
  unfold SHandshake.WriteMessage. rewrite Ms.
  pose proof (shape_mac _ (correct_shape _ Cok)) as Hmac.
  destruct (write_tokens_ok env ts s p (match ms with [] => [0] | _ => 255 :: encode_messages ms ++ [0] end) mem 0 max R He Sn1)
    as [(a & p1 & s1 & Y1 & Y2 & Y3 & Y4 & Y5 & Y6 & Y7)|(e & s1 & mem1 & n & toks & p1 & Y1 & Y2 & Y3 & Y4 & Y5 & Y6 & Y7)]; try qlia; try assumption.
  - rewrite Y7. clear Y7. rewrite Z.add_0_l. rewrite Z.add_0_l in Y2. pose proof (zlen_nonneg _ a).
    pose (act := match ms with [] => ACTION_SPLIT | _ => ACTION_READ_MESSAGE end).
    pose (toks := encode_messages ms ++ [0]).
    assert (El : write_tokens env s1 (match ms with [] => [0] | _ => 255 :: encode_messages ms ++ [0] end) (splice 0 a mem) (zlen a) max
                 = Ok (E_NONE, set_tokens toks (set_action act s1), splice 0 a mem, zlen a)) by (subst act toks; destruct ms; reflexivity).
    rewrite El. clear El. cbn [obind is_none negb]. rewrite Y1.
    set (s2 := set_tokens toks (set_action act s1)).
    assert (R2 : rel s2 p1) by (apply (rel_tokens s1 p1 toks act) in Y5; exact Y5).
    change (hs_symmetric s2) with (hs_symmetric s1).
    rewrite (sym_over_mac ca alg) by apply Y5. rewrite (sym_over_view ca alg _ _ (r_wf _ _ _ _ _ _ _ _ _ _ _ _ _ Y5) (r_view _ _ _ _ _ _ _ _ _ _ _ _ _ Y5)).
    assert (Ho : 0 <= overhead ca (p_sym p1) <= 16) by (unfold overhead; destruct (ns_k (p_sym p1)); qlia).
    rewrite size_sub_ok by qlia. destruct (WriteTokens_fixed _ _ _ _ _ Y1) as (Fx & _). pose proof Fx as (G1 & G2 & _ & G4 & G5).
    assert (Kp : forall act2, kept s (set_action act2 s2)).
    { intros act2. subst s2. destruct Y4; repeat split; assumption. }
    assert (Zm : zlen (splice 0 a mem) = zlen mem) by (apply splice_length; qlia).
    assert (Bm : bytes (splice 0 a mem)) by now apply bytes_splice.
    assert (Dm : drop max (splice 0 a mem) = drop max mem) by (apply splice_drop_after; qlia).
    assert (Fail : forall e y mem2, e <> E_NONE -> y = hs_symmetric s1 -> zlen mem2 = zlen mem -> bytes mem2 -> drop max mem2 = drop max mem ->
       (match EncryptAndHash (p_sym p1) (payload_bytes payload) with None => True | Some (c, _) => (max < zlen (a ++ c) \/ MAX_PAYLOAD_LEN < zlen (a ++ c) /\ MAX_PAYLOAD_LEN < zlen (payload_bytes payload) + ca_mac_len ca) /\ e = E_INVALID_LENGTH end) ->
       exists (e0 : err) (s' : handshakestate) (mem' : list Z) (n : Z),
       (if negb (is_none e) then Ok (e, set_action ACTION_FAILED (set_symmetric y s2), NBuf (Some mem2) 0 max) else Ok (e, set_symmetric y s2, NBuf (Some mem2) (zlen a) max))
         = Ok (e0, s', NBuf (Some mem') n max) /\ zlen mem' = zlen mem /\ bytes mem' /\ drop max mem' = drop max mem /\ kept s s' /\
        ((exists m p', e0 = E_NONE /\ match EncryptAndHash (p_sym p1) (payload_bytes payload) with None => None | Some (c, s0) => Some (a ++ c, next_message (with_sym p1 s0)) end = Some (m, p') /\ at_ s' p' /\ zlen m <= max /\ n = zlen m /\ take n mem' = m)
         \/ (e0 <> E_NONE /\ n = 0 /\ hs_action s' = ACTION_FAILED /\
           (exists p2, weak s' p2 /\ (write_failed (rand_of env) p ts p2 \/ exists b, Some (a, p1) = Some (b, p2))) /\
           match match EncryptAndHash (p_sym p1) (payload_bytes payload) with None => None | Some (c, s0) => Some (a ++ c, next_message (with_sym p1 s0)) end with
           | None => True | Some (m, _) => (max < zlen m \/ MAX_PAYLOAD_LEN < zlen m /\ MAX_PAYLOAD_LEN < zlen (payload_bytes payload) + ca_mac_len ca) /\ e0 = E_INVALID_LENGTH end))).
    { intros e y mem2 Ne -> Z2 B2 D2 X. replace (is_none e) with false by (destruct e; try reflexivity; congruence). cbn [negb].
      do 4 eexists. split; [reflexivity|]. split; [exact Z2|]. split; [exact B2|]. split; [exact D2|]. split; [exact (Kp ACTION_FAILED)|]. right.
      split; [exact Ne|]. split; [reflexivity|]. split; [reflexivity|]. split.
      - exists p1. split; [|right; now exists a]. exact (weak_tokens s1 p1 toks ACTION_FAILED (rel_weak _ _ _ _ _ _ _ _ _ _ _ _ _ Y5)).
      - destruct (EncryptAndHash _ _) as [[c v]|]; exact X. }
    assert (Hsym : forall st, set_symmetric (hs_symmetric st) st = st) by (intros []; reflexivity).
    specialize (Hsym s2). change (hs_symmetric s2) with (hs_symmetric s1) in Hsym.
    assert (Len : forall c v, EncryptAndHash (p_sym p1) (payload_bytes payload) = Some (c, v) -> zlen (a ++ c) = zlen a + zlen (payload_bytes payload) + overhead ca (p_sym p1)).
    { intros c v Hc. apply (enc_len ca H Cok) in Hc. rewrite zlen_app. qlia. }
    destruct (Z.ltb_spec (max - zlen a) (overhead ca (p_sym p1))) as [Lo|Lo].
    { cbn [obind is_none negb]. specialize (Fail E_INVALID_LENGTH (hs_symmetric s1) (splice 0 a mem) ltac:(discriminate) eq_refl Zm Bm Dm). rewrite Hsym in Fail. apply Fail.
      destruct (EncryptAndHash _ _) as [[c v]|] eqn:Ec; [|exact I]. pose proof (Len c v eq_refl) as Hl. split; [left; pose proof (zlen_nonneg _ (payload_bytes payload)); qlia|reflexivity]. }
    assert (Go : forall pl, pl = payload_bytes payload -> bytes pl -> zlen a + overhead ca (p_sym p1) + zlen pl <= max ->
      exists (e : err) (s' : handshakestate) (mem' : list Z) (n : Z),
      (let! r := (let! r := symmetricstate_encrypt_and_hash (hs_symmetric s1) (NBuf (Some (drop (zlen a) (splice (zlen a) pl (splice 0 a mem)))) (zlen pl) (max - zlen a)) in
         let '(e, y, rest) := r in
         let mem := take (zlen a) (splice (zlen a) pl (splice 0 a mem)) ++ match b_data rest with Some m => m | None => [] end in
         let s := set_symmetric y s2 in
         if negb (is_none e) then Ok (e, s, mem, zlen a) else Ok (E_NONE, s, mem, zlen a + b_size rest)) in
       let '(e, s, mem, size) := r in
       if negb (is_none e) then Ok (e, set_action ACTION_FAILED s, NBuf (Some mem) 0 max) else Ok (e, s, NBuf (Some mem) size max)) = Ok (e, s', NBuf (Some mem') n max) /\
       zlen mem' = zlen mem /\ bytes mem' /\ drop max mem' = drop max mem /\ kept s s' /\
        ((exists m p', e = E_NONE /\ match EncryptAndHash (p_sym p1) (payload_bytes payload) with None => None | Some (c, s0) => Some (a ++ c, next_message (with_sym p1 s0)) end = Some (m, p') /\ at_ s' p' /\ zlen m <= max /\ n = zlen m /\ take n mem' = m)
         \/ (e <> E_NONE /\ n = 0 /\ hs_action s' = ACTION_FAILED /\
           (exists p2, weak s' p2 /\ (write_failed (rand_of env) p ts p2 \/ exists b, Some (a, p1) = Some (b, p2))) /\
           match match EncryptAndHash (p_sym p1) (payload_bytes payload) with None => None | Some (c, s0) => Some (a ++ c, next_message (with_sym p1 s0)) end with
           | None => True | Some (m, _) => (max < zlen m \/ MAX_PAYLOAD_LEN < zlen m /\ MAX_PAYLOAD_LEN < zlen (payload_bytes payload) + ca_mac_len ca) /\ e = E_INVALID_LENGTH end))).
    { intros pl -> Bp Hfit. pose proof (zlen_nonneg _ (payload_bytes payload)).
      assert (Zs : zlen (splice (zlen a) (payload_bytes payload) (splice 0 a mem)) = zlen mem) by (rewrite splice_length; qlia).
      destruct (encrypt_payload s1 p1 (splice 0 a mem) (zlen a) max (payload_bytes payload) toks act Y5 Bm Bp ltac:(qlia) Hfit ltac:(qlia))
        as (e & y & n & mem2 & Ee & [(c & v & -> & X2 & X3 & X4 & X5 & X6 & X7 & X8)|(X1 & X2 & X3 & X4)]); rewrite Ee; cbn [obind b_data b_size].
      - cbn [is_none negb obind]. rewrite X2, X6.
        assert (Zf : zlen (splice (zlen a) c (splice 0 a mem)) = zlen mem) by (rewrite splice_length; qlia).
        do 4 eexists. split; [reflexivity|]. split; [exact Zf|]. split; [now apply bytes_splice|].
        split; [rewrite splice_drop_after by qlia; exact Dm|].
        split; [subst s2; destruct Y4; repeat split; try assumption; cbn; congruence|].
        left. do 2 eexists. split; [reflexivity|]. split; [reflexivity|]. split.
        + constructor.
          * destruct X7 as [[K1 K2 K3 K4 K5 K6 K7 K8 K9] W V]. constructor; [constructor; assumption|exact W|exact V].
          * cbn [next_message with_sym p_messages]. rewrite G5, Ms. reflexivity.
          * cbn [next_message with_sym p_messages p_writing]. rewrite G4, G5, Ms, Wr. subst act. cbn. destruct ms; reflexivity.
          * cbn [next_message with_sym p_messages p_writing p_initiator p_second]. rewrite G1, G2, G4, G5, Ms, Wr. cbn [tl].
            change (know_of (next_message (with_sym p1 v))) with (know_of p1). rewrite Y6.
            replace (shape_of (set_symmetric y s2)) with (shape_of s); [exact Sn2|]. symmetry. exact (sf_shape _ _ Y4).
        + split; [rewrite zlen_app; qlia|]. split; [rewrite zlen_app; qlia|].
          rewrite <- (Z.add_0_l (zlen a)) at 2. rewrite splice_splice by qlia. rewrite X3, <- zlen_app. rewrite splice_0. apply take_app_exact.
      - replace (is_none e) with false by (destruct e; try reflexivity; congruence). cbn [negb obind].
        specialize (Fail e y (take (zlen a) (splice (zlen a) (payload_bytes payload) (splice 0 a mem)) ++ mem2) X1 X3).
        apply Fail; try (rewrite X2, take_drop); [exact Zs|now apply bytes_splice|rewrite splice_drop_after by qlia; exact Dm|].
        destruct (EncryptAndHash _ _) as [[c v]|] eqn:Ec; [|exact I]. pose proof (Len c v eq_refl). split; [right; destruct X4 as [X4 _]; split; [qlia|]; unfold overhead in X4; destruct (ns_k (p_sym p1)); qlia|apply X4]. }
    destruct payload as [pb|].
    + cbn [payload_ok] in Hp. destruct (b_data pb) as [pd|] eqn:Pd; [|contradiction]. destruct Hp as [Hp1 Hp2].
      assert (Pl : payload_bytes (Some pb) = take (b_size pb) pd) by (cbn; now rewrite Pd). assert (Zp : zlen (payload_bytes (Some pb)) = b_size pb) by (rewrite Pl, zlen_take; qlia).
      rewrite size_sub_ok by qlia. destruct (Z.ltb_spec (max - zlen a - overhead ca (p_sym p1)) (b_size pb)) as [Lp|Lp].
      { cbn [obind is_none negb]. specialize (Fail E_INVALID_LENGTH (hs_symmetric s1) (splice 0 a mem) ltac:(discriminate) eq_refl Zm Bm Dm). rewrite Hsym in Fail. apply Fail.
        destruct (EncryptAndHash _ _) as [[c v]|] eqn:Ec; [|exact I]. pose proof (Len c v eq_refl) as Hl. split; [left; qlia|reflexivity]. }
      rewrite read_ptr_take by qlia. cbn [obind]. rewrite <- Pl. rewrite store_ok by qlia. cbn [obind]. specialize (Go _ eq_refl ltac:(rewrite Pl; now apply bytes_take) ltac:(qlia)). rewrite Zp in Go. rewrite Zp. exact Go.
    + specialize (Go [] eq_refl ltac:(constructor)). rewrite zlen_nil in Go. rewrite splice_nil in Go. apply Go. qlia.
  - rewrite Y1. cbn [obind]. replace (is_none e) with false by (destruct e; try reflexivity; congruence). cbn [negb obind].
    replace (is_none e) with false by (destruct e; try reflexivity; congruence). cbn [negb].
    destruct Y4 as (Z1 & Z2 & Z3 & Z4). do 4 eexists. split; [reflexivity|]. split; [exact Z1|]. split; [exact Z2|]. split; [exact Z4|]. split; [now apply frame_kept|].
    right. split; [exact Y2|]. split; [reflexivity|]. split; [reflexivity|]. split; [exists p1; split; [now apply weak_tokens|now left]|].
    destruct (WriteTokens _ p ts) as [[b p2]|]; [|exact I]. destruct (EncryptAndHash _ _) as [[c v]|]; [|exact I]. rewrite zlen_app. pose proof (zlen_nonneg _ c). split; [qlia|tauto].
Qed.

Lemma dec_short : forall v c, zlen c < overhead ca v -> DecryptAndHash v c = None.
Proof. intros v c. pose proof (zlen_nonneg _ c). unfold overhead, DecryptAndHash, aead_decrypt. destruct (ns_k v); [|qlia]. intros. destruct (_ =? _); [reflexivity|].
  destruct (Z.ltb_spec (zlen c) (ca_mac_len ca)); [reflexivity|qlia]. Qed.

Definition out_ok (payload : option nbuf) : Prop :=
  match payload with Some b => match b_data b with Some m => 0 <= b_max b <= zlen m | None => False end | None => True end.
(** The caller's payload buffer after a failure and after a success *)
Definition out_empty (payload : option nbuf) : option nbuf :=
  match payload with Some b => Some (NBuf (b_data b) 0 (b_max b)) | None => None end.
Definition out_filled (payload : option nbuf) (pl : list Z) : option nbuf :=
  match payload with
  | Some b => Some (NBuf (match b_data b with Some m => Some (splice 0 pl m) | None => None end) (zlen pl) (b_max b))
  | None => None
  end.
Definition out_room (payload : option nbuf) (n : Z) : Prop := match payload with Some b => n <= b_max b | None => True end.

(** ReadMessage *)
Lemma read_message_ok : forall env s p mem size max payload, at_ s p -> p_writing p = false -> p_messages p <> [] ->
  out_ok payload -> 0 <= size <= max -> max <= zlen mem -> bytes mem ->
  exists e s' payload', read_message env s (NBuf (Some mem) size max) payload = Ok (e, s', NBuf (Some (splice 0 (zeros size) mem)) size max, payload') /\
    kept s s' /\
    ((exists pl p', e = E_NONE /\ ReadMessage p (take size mem) = Some (pl, p') /\ at_ s' p' /\ out_room payload (zlen pl) /\ payload' = out_filled payload pl)
     \/
     (e <> E_NONE /\ payload' = out_empty payload /\ hs_action s' = ACTION_FAILED /\
      (exists p1, weak s' p1 /\ (read_failed p (hd [] (p_messages p)) (take size mem) p1 \/
          exists r p0, ReadTokens p (hd [] (p_messages p)) (take size mem) = Some (r, p0) /\ (p1 = p0 \/ exists pl v, DecryptAndHash (p_sym p0) r = Some (pl, v) /\ p1 = with_sym p0 v))) /\
      match ReadMessage p (take size mem) with
      | None => True
      | Some (pl, _) => MAX_PAYLOAD_LEN < size \/ ~ out_room payload (zlen pl)
      end)).
Proof.
  intros env s p mem size max payload A Wr Nm Ho Hs Hm Hb. destruct A as [R T Ac Sn]. unfold read_message. cbn [b_data b_max b_size].
  destruct (p_messages p) as [|ts ms] eqn:Ms; [congruence|]. rewrite Wr in *. cbn [hd].
  replace (match payload with Some p0 => is_null_ptr (b_data p0) | None => false end) with false
    by (destruct payload as [[[pd|] ? ?]|]; cbn in *; tauto || reflexivity).
  fold (out_empty payload). destruct (Z.ltb_spec max size); [qlia|].
  rewrite Ac, Z.eqb_refl. cbn [negb]. unfold handshakestate_read. rewrite T, encode_cons.
  cbn [sane_messages] in Sn. apply andb_prop in Sn. destruct Sn as [Sn1 Sn2].
  unfold SHandshake.ReadMessage. rewrite Ms.
  assert (Sub0 : sub 0 size mem = take size mem) by (unfold sub; now rewrite drop_le0 by qlia).
  assert (Zz : zlen (zeros size) = size) by (rewrite zlen_zeros; qlia).
  assert (Wipe : forall m, zlen m = zlen mem -> drop size m = drop size mem -> store m 0 (zeros size) = Ok (splice 0 (zeros size) mem)).
  { intros m Z1 D1. rewrite store_ok by qlia. rewrite !splice_0, Zz, D1. reflexivity. }
  destruct (read_tokens_ok env ts s p (match ms with [] => [0] | _ => 255 :: encode_messages ms ++ [0] end) mem 0 size max R Sn1)
    as [(r & p1 & s1 & mem1 & pos & sz & mx & Y1 & Y2 & Y3 & Y4 & Y5 & Y6 & Y7 & Y8 & Y9 & Y10 & Y11 & Y12 & Y13)
       |(e & s1 & mem1 & pos & sz & mx & toks & p1 & Y1 & Y2 & Y3 & Y4 & Y5 & Y6 & Y7 & Y8)]; try qlia; try assumption; rewrite Sub0 in *; rewrite Z.add_0_l in *.
  - rewrite Y13. clear Y13. rewrite Y1. pose proof (zlen_nonneg _ r).
    pose (act := match ms with [] => ACTION_SPLIT | _ => ACTION_WRITE_MESSAGE end).
    pose (toks := encode_messages ms ++ [0]).
    assert (El : read_tokens env s1 (match ms with [] => [0] | _ => 255 :: encode_messages ms ++ [0] end) mem1 pos sz mx
                 = Ok (E_NONE, set_tokens toks (set_action act s1), mem1, pos, sz, mx)) by (subst act toks; destruct ms; reflexivity).
    rewrite El. clear El. cbn [obind is_none negb].
    pose (s2 := set_tokens toks (set_action act s1)). fold s2.
    change (hs_symmetric s2) with (hs_symmetric s1).
    destruct (ReadTokens_fixed _ _ _ _ _ Y1) as (Fx & _). pose proof Fx as (G1 & G2 & _ & G4 & G5).
    assert (Kp : forall act2 y, ss_id y = ss_id (hs_symmetric s1) -> kept s (set_action act2 (set_symmetric y s2))).
    { intros act2 y Hy. subst s2. destruct Y2; repeat split; try assumption. cbn. congruence. }
    assert (Zt : zlen (take pos mem1) = pos) by (rewrite zlen_take; qlia).
    assert (Hr : take sz (drop pos mem1) = r) by exact Y9.
    assert (Fail : forall e y m0 p2, e <> E_NONE -> ss_id y = ss_id (hs_symmetric s1) -> zlen m0 = zlen mem1 -> drop size m0 = drop size mem1 ->
        weak (set_symmetric y s1) p2 -> (p2 = p1 \/ exists pl v, DecryptAndHash (p_sym p1) r = Some (pl, v) /\ p2 = with_sym p1 v) ->
        match DecryptAndHash (p_sym p1) r with None => True | Some (pl, _) => MAX_PAYLOAD_LEN < size \/ ~ out_room payload (zlen pl) end ->
        exists (e0 : err) (s' : handshakestate) (payload' : option nbuf),
        (let! m1 := store m0 0 (zeros size) in Ok (e, if negb (is_none e) then set_action ACTION_FAILED (set_symmetric y s2) else set_symmetric y s2, NBuf (Some m1) size max, out_empty payload))
          = Ok (e0, s', NBuf (Some (splice 0 (zeros size) mem)) size max, payload') /\ kept s s' /\
        ((exists pl p', e0 = E_NONE /\ match DecryptAndHash (p_sym p1) r with None => None | Some (pl, v) => Some (pl, next_message (with_sym p1 v)) end = Some (pl, p') /\ at_ s' p' /\ out_room payload (zlen pl) /\ payload' = out_filled payload pl)
         \/ (e0 <> E_NONE /\ payload' = out_empty payload /\ hs_action s' = ACTION_FAILED /\
             (exists p2, weak s' p2 /\ (read_failed p ts (take size mem) p2 \/ exists r0 p0, Some (r, p1) = Some (r0, p0) /\ (p2 = p0 \/ exists pl v, DecryptAndHash (p_sym p0) r0 = Some (pl, v) /\ p2 = with_sym p0 v))) /\
             match match DecryptAndHash (p_sym p1) r with None => None | Some (pl, v) => Some (pl, next_message (with_sym p1 v)) end with
             | None => True | Some (pl, _) => MAX_PAYLOAD_LEN < size \/ ~ out_room payload (zlen pl) end))).
    { intros e y m0 p2 Ne Hy Z0 D0 Wk Hp X. rewrite Wipe by congruence. cbn [obind]. replace (is_none e) with false by (destruct e; try reflexivity; congruence). cbn [negb].
      do 3 eexists. split; [reflexivity|]. split; [now apply Kp|]. right. split; [exact Ne|]. split; [reflexivity|]. split; [reflexivity|]. split.
      - exists p2. split; [exact (weak_tokens _ _ toks ACTION_FAILED Wk)|]. right. exists r, p1. split; [reflexivity|exact Hp].
      - destruct (DecryptAndHash _ _) as [[pl v]|]; exact X. }
    pose proof (rel_weak ca alg dalg halg D E dview dready hview hready psk _ _ Y3) as Wk.
    destruct (dec_hash_eq ca alg H Cok Law (hs_symmetric s1) (p_sym p1) (drop pos mem1) sz mx (r_wf _ _ _ _ _ _ _ _ _ _ _ _ _ Y3) (r_view _ _ _ _ _ _ _ _ _ _ _ _ _ Y3)) as (c' & Hc & X);
      try (rewrite zlen_drop; qlia); [now apply bytes_drop|].
    assert (Wc : weak (set_symmetric (set_ctx (hs_symmetric s1) c') s1) p1).
    { apply set_sym_weak; [apply Wk|apply set_ctx_wf; [apply Y3|exact Hc]|apply Wk|reflexivity]. }
    destruct X as [(X & Ed)|[(_ & _ & _ & X1 & X2 & Ed)|[(_ & _ & _ & k & e & out & X1 & X2 & X3 & X4 & X5 & Ed)|(_ & X0 & Xo & pt & mem' & v' & y' & X1 & Ed & X3 & X4 & X5 & X6 & X7 & X8 & X9)]]];
      rewrite Ed; cbn [obind b_data b_size]; rewrite ?take_drop.
    + cbn [is_none negb obind].
      apply (Fail E_INVALID_LENGTH (set_ctx (hs_symmetric s1) c') mem1 p1); [discriminate|reflexivity|reflexivity|reflexivity|exact Wc|now left|].
      destruct (DecryptAndHash _ r) as [[pl v]|] eqn:Ed2; [|exact I]. left. destruct X as [X|[X|X]]; [qlia|qlia|]. rewrite dec_short in Ed2 by qlia. discriminate.
    + cbn [is_none negb obind].
      apply (Fail E_INVALID_NONCE (set_ctx (hs_symmetric s1) c') mem1 p1); [discriminate|reflexivity|reflexivity|reflexivity|exact Wc|now left|].
      rewrite dec_nonce by assumption. exact I.
    + replace (is_none e) with false by (destruct e; try reflexivity; congruence). cbn [negb obind].
      assert (Zo : zlen (splice 0 out (drop pos mem1)) = zlen (drop pos mem1)) by (apply splice_length; rewrite ?zlen_drop; qlia).
      specialize (Fail e (set_ctx (hs_symmetric s1) c') (take pos mem1 ++ splice 0 out (drop pos mem1)) p1 X4 eq_refl).
      apply Fail; [rewrite zlen_app, Zo, zlen_drop; qlia| |exact Wc|now left|].
      * rewrite drop_app_ge by qlia. rewrite Zt, splice_0, X5, drop_app_ge by qlia. rewrite X5, !drop_drop by qlia. f_equal. qlia.
      * rewrite <- Hr. erewrite dec_none by eassumption. exact I.
    + cbn [is_none negb]. rewrite Hr in X1.
      assert (Zd : zlen (drop pos mem1) = zlen mem1 - pos) by (rewrite zlen_drop; qlia).
      assert (Mo : 0 <= overhead ca (p_sym p1)) by (pose proof (shape_mac _ (correct_shape _ Cok)); unfold overhead; destruct (ns_k (p_sym p1)); qlia).
      assert (Zp : zlen pt = sz - overhead ca (p_sym p1)) by (rewrite <- X3, zlen_take; qlia).
      assert (Z1 : zlen (take pos mem1 ++ mem') = zlen mem1) by (rewrite zlen_app; qlia).
      assert (D1 : drop size (take pos mem1 ++ mem') = drop size mem1).
      { rewrite drop_app_ge by qlia. rewrite Zt. replace (size - pos) with sz by qlia. rewrite X5, drop_drop by qlia. f_equal. qlia. }
      destruct (set_sym_rel ca alg dalg halg D E dview dready hview hready psk s1 p1 y' v' (r_keys _ _ _ _ _ _ _ _ _ _ _ _ _ Y3) X7 X8 X9) as [R3 _].
      assert (At : at_ (set_symmetric y' s2) (next_message (with_sym p1 v'))).
      { constructor.
        - apply (rel_tokens _ _ toks act) in R3. destruct R3 as [[K1 K2 K3 K4 K5 K6 K7 K8 K9] W V]. constructor; [constructor; assumption|exact W|exact V].
        - cbn [next_message with_sym p_messages]. rewrite G5, Ms. reflexivity.
        - cbn [next_message with_sym p_messages p_writing]. rewrite G4, G5, Ms, Wr. subst act. cbn. destruct ms; reflexivity.
        - cbn [next_message with_sym p_messages p_writing p_initiator p_second]. rewrite G1, G2, G4, G5, Ms, Wr. cbn [tl].
          change (know_of (next_message (with_sym p1 v'))) with (know_of p1). rewrite Y4.
          replace (shape_of (set_symmetric y' s2)) with (shape_of s); [exact Sn2|]. symmetry. exact (sf_shape _ _ Y2). }
      assert (Kp0 : kept s (set_symmetric y' s2)) by (subst s2; destruct Y2; repeat split; try assumption; cbn; congruence).
      destruct payload as [[[pm|] psz pmx]|]; cbn [out_empty b_data b_max b_size out_ok] in *; [|contradiction|].
      * destruct (Z.ltb_spec pmx (sz - overhead ca (p_sym p1))) as [Lp|Lp].
        -- cbn [obind]. apply (Fail E_INVALID_LENGTH y' (take pos mem1 ++ mem') (with_sym p1 v')); [discriminate|exact X9|exact Z1|exact D1|now apply rel_weak|right; now exists pt, v'|].
           rewrite X1. right. cbn. qlia.
        -- rewrite load_ok by qlia. cbn [obind]. unfold sub. rewrite drop_le0 by qlia. rewrite X3. rewrite store_ok by qlia. cbn [obind]. change (is_none E_NONE) with true. cbn [negb]. cbv iota. cbn [obind].
           rewrite Wipe by congruence. cbn [obind is_none negb].
           do 3 eexists. split; [reflexivity|]. split; [exact Kp0|]. left. exists pt, (next_message (with_sym p1 v')). rewrite X1. split; [reflexivity|]. split; [reflexivity|]. split; [exact At|].
           cbn [out_room out_filled b_data b_max]. split; [qlia|]. now rewrite Zp.
      * change (is_none E_NONE) with true. cbn [negb]. cbv iota. cbn [obind]. rewrite Wipe by congruence. cbn [obind is_none negb]. do 3 eexists. split; [reflexivity|]. split; [exact Kp0|]. left. exists pt, (next_message (with_sym p1 v')). rewrite X1.
        split; [reflexivity|]. split; [reflexivity|]. split; [exact At|]. split; [exact I|reflexivity].
  - rewrite Y1. cbn [obind]. replace (is_none e) with false by (destruct e; try reflexivity; congruence). cbn [negb obind].
    rewrite Wipe by congruence. cbn [obind]. replace (is_none e) with false by (destruct e; try reflexivity; congruence). cbn [negb].
    do 3 eexists. split; [reflexivity|]. split; [now apply frame_kept|]. right. split; [exact Y2|]. split; [reflexivity|]. split; [reflexivity|].
    split; [exists p1; split; [now apply weak_tokens|now left]|]. now rewrite Y8.
Qed.
End P.
