(** Facts about the ChaChaPoly backend *)
From Verif Require Import Base MCipher SCipher MHash MSha2 MBlake2 MUtil TUtil SSha2 SBlake2 PSha2 PSha2b PBlake2.
From Verif Require Import MChaCha SChaCha PChaCha TChaCha MPoly1305 SPoly1305 PPoly1305 PPoly1305b TPoly1305 MChaChaPoly SChaChaPoly.

Lemma put_uint64_spec : forall v, put_uint64 v = le_bytes 8 v.
Proof.
  intros v. unfold put_uint64, le_bytes. apply map_ext. intros k. rewrite Z.shiftr_div_pow2 by lia.
  replace (2 ^ (8 * Z.of_nat k)) with (256 ^ Z.of_nat k); [reflexivity|]. change 256 with (2 ^ 8). rewrite <- Z.pow_mul_r by lia. reflexivity.
Qed.

(** ** The authenticated text, piece by piece *)
Definition absorbed (key msg : list Z) (p : poly1305) : Prop :=
  exists k full rest, holding key k full rest p /\ full ++ rest = msg.

Lemma absorbed_init : forall buffer key, bytes key -> 32 <= zlen key -> bytes buffer -> zlen buffer = 16 ->
  absorbed key [] (poly1305_init buffer key).
Proof. intros. exists 0%nat, [], []. split; [now apply init_holding|reflexivity]. Qed.
Lemma absorbed_update : forall key msg p m, absorbed key msg p -> bytes m ->
  exists p', poly1305_update wrap p m = Ok p' /\ absorbed key (msg ++ m) p'.
Proof.
  intros key msg p m (k & f & r & H & <-) Hm.
  destruct (update_holding wrap wrap_exact key k f r p m H Hm) as (p' & k' & f' & r' & E & V & H').
  exists p'. split; [exact E|]. exists k', f', r'. split; [exact H'|]. rewrite V, app_assoc. reflexivity.
Qed.
Lemma pad16_mod : forall x, pad16 x = if zlen x mod 16 =? 0 then [] else zeros (16 - zlen x mod 16).
Proof.
  intros x. unfold pad16. destruct (Z.eqb_spec (zlen x mod 16) 0) as [E|E].
  - rewrite Z_mod_zero_opp_full by exact E. reflexivity.
  - rewrite Z_mod_nz_opp_full by exact E. reflexivity.
Qed.
Lemma absorbed_pad : forall key msg p x, absorbed key msg p ->
  exists p', pad_auth p (zlen x) = Ok p' /\ absorbed key (msg ++ pad16 x) p'.
Proof.
  intros key msg p x H. unfold pad_auth. cbv zeta. rewrite pad16_mod. destruct (zlen x mod 16 =? 0).
  - exists p. split; [reflexivity|]. now rewrite app_nil_r.
  - apply absorbed_update; [exact H|apply bytes_zeros].
Qed.
Lemma absorbed_ad : forall key msg p ad, absorbed key msg p -> bytes ad ->
  exists p', auth_ad p ad = Ok p' /\ absorbed key (msg ++ ad ++ pad16 ad) p'.
Proof.
  intros key msg p ad H Ha. unfold auth_ad. destruct (Z.eqb_spec (zlen ad) 0) as [E|E].
  - assert (ad = []) as -> by (apply zlen_0_nil; lia). exists p. split; [reflexivity|].
    change ([] ++ pad16 []) with (@nil Z). now rewrite app_nil_r.
  - destruct (absorbed_update key msg p ad H Ha) as (p1 & E1 & H1). rewrite E1. cbn [obind].
    destruct (absorbed_pad key _ p1 ad H1) as (p2 & E2 & H2). exists p2. split; [exact E2|]. now rewrite app_assoc.
Qed.
Lemma lengths_block : forall block a d, zlen block = 64 ->
  splice 8 (put_uint64 d) (splice 0 (put_uint64 a) block) = (le_bytes 8 a ++ le_bytes 8 d) ++ drop 16 block.
Proof.
  intros block a d L. rewrite !put_uint64_spec.
  rewrite splice_0. unfold splice. rewrite !zlen_le_bytes. change (Z.of_nat 8) with 8.
  assert (zlen (le_bytes 8 a) = 8) as La by now rewrite zlen_le_bytes.
  rewrite <- La at 1. rewrite take_app_exact.
  assert (drop (8 + 8) (le_bytes 8 a ++ drop 8 block) = drop 16 block) as ->; [|rewrite <- app_assoc; reflexivity].
  rewrite <- drop_drop by lia. assert (drop 8 (le_bytes 8 a ++ drop 8 block) = drop 8 block) as ->
    by (rewrite <- La at 1; apply drop_app_exact). rewrite drop_drop by lia. reflexivity.
Qed.
Lemma absorbed_lengths : forall key msg p block a d, absorbed key msg p -> zlen block = 64 -> bytes block ->
  exists block' p', auth_lengths block p a d = Ok (block', p') /\ zlen block' = 64 /\ bytes block' /\
    absorbed key (msg ++ le_bytes 8 a ++ le_bytes 8 d) p'.
Proof.
  intros key msg p block a d H L B. unfold auth_lengths. cbv zeta. rewrite lengths_block by exact L.
  assert (zlen (le_bytes 8 a ++ le_bytes 8 d) = 16) as L16 by (rewrite zlen_app, !zlen_le_bytes; reflexivity).
  assert (take 16 ((le_bytes 8 a ++ le_bytes 8 d) ++ drop 16 block) = le_bytes 8 a ++ le_bytes 8 d) as ->
    by (rewrite <- L16; apply take_app_exact).
  assert (bytes (le_bytes 8 a ++ le_bytes 8 d)) as B16 by (apply bytes_app; split; apply bytes_le_bytes).
  destruct (absorbed_update key msg p (le_bytes 8 a ++ le_bytes 8 d) H B16) as (p1 & E1 & H1).
  rewrite E1. cbn [obind]. eexists _, _. split; [reflexivity|].
  split; [rewrite zlen_app, zlen_drop; lia|]. split; [|exact H1].
  apply bytes_app. split; [exact B16|now apply bytes_drop].
Qed.

Lemma blocks_buffer : forall w st m n st', poly1305_blocks w st m n = Ok st' -> p_buffer st' = p_buffer st.
Proof.
  intros w st m n st'. unfold poly1305_blocks. cbv zeta. destruct (p_r st) as [[r0 r1] r2].
  destruct (w 64 (r1 * Z.shiftl 5 2)) as [s1|]; [|discriminate]. cbn [obind].
  destruct (w 64 (r2 * Z.shiftl 5 2)) as [s2|]; [|discriminate]. cbn [obind].
  destruct (poly1305_blocks_loop _ _ _ _ _ _ _) as [h|]; [|discriminate]. cbn [obind].
  intros [= <-]. reflexivity.
Qed.
Lemma last_buffer : forall w key k f r st st', holding key k f r st -> poly1305_last w st = Ok st' ->
  zlen (p_buffer st') = 16 /\ bytes (p_buffer st').
Proof.
  intros w key k f r st st' H. assert (H' := H).
  destruct H' as (_ & Lr & L & LB & BB & _). pose proof (zlen_nonneg Z r) as Nr. unfold poly1305_last.
  destruct (p_leftover st =? 0) eqn:E; [intros [= <-]; auto|].
  intros X. apply blocks_buffer in X. rewrite X. cbn [p_buffer]. rewrite L in *. split.
  - rewrite !splice_length; try rewrite splice_length; rewrite ?zlen_zeros; change (zlen [1]) with 1; lia.
  - apply bytes_splice; [apply bytes_zeros|]. apply bytes_splice; [|exact BB]. repeat constructor; unfold is_byte; lia.
Qed.
Lemma mac_long_key : forall key msg, poly1305_mac key msg = poly1305_mac (take 32 key) msg.
Proof.
  intros key msg. unfold poly1305_mac. rewrite take_take. change (Z.min 16 32) with 16.
  unfold sub. rewrite !take_drop_comm by lia. rewrite take_take. reflexivity.
Qed.
Lemma absorbed_finish : forall key msg p, bytes key -> 32 <= zlen key -> absorbed key msg p ->
  exists p', poly1305_finish wrap p = Ok (p', poly1305_mac (take 32 key) msg) /\
    zlen (p_buffer p') = 16 /\ bytes (p_buffer p').
Proof.
  intros key msg p Hk Lk (k & f & r & H & <-).
  destruct (finish_ok wrap wrap_exact key k f r p Hk Lk H) as (p' & E & _). rewrite <- mac_long_key.
  exists p'. split; [exact E|]. unfold poly1305_finish in E.
  destruct (poly1305_last wrap p) as [s|] eqn:El; [|discriminate E]. cbn [obind] in E.
  apply (last_buffer wrap key k f r) in El; [|exact H].
  destruct (poly1305_carry wrap (p_h s)) as [h|]; [|discriminate E]. cbn [obind] in E.
  destruct (poly1305_select wrap h) as [h'|]; [|discriminate E]. cbn [obind] in E.
  destruct (poly1305_output wrap (p_pad s) h') as [mac|]; [|discriminate E]. cbn [obind] in E.
  injection E as <- _. cbn [p_buffer]. exact El.
Qed.

(** ** The state between calls *)
Definition keyed (key : list Z) (st : cp_state) : Prop :=
  (exists c nonce, bytes nonce /\ cp_chacha st = chacha20_state key c nonce) /\
  zlen (p_buffer (cp_poly st)) = 16 /\ bytes (p_buffer (cp_poly st)) /\ zlen (cp_block st) = 64 /\ bytes (cp_block st).

Section Backend.
Variable b : cc_build.
Hypothesis order : b <> CC_ScalarBE.

Lemma keyed_init : forall key st, bytes key -> zlen key = 32 ->
  zlen (p_buffer (cp_poly st)) = 16 -> bytes (p_buffer (cp_poly st)) -> zlen (cp_block st) = 64 -> bytes (cp_block st) ->
  keyed key (chachapoly_init_key b st key).
Proof.
  intros key st Hk Lk L1 B1 L2 B2. unfold keyed, chachapoly_init_key. cbn [cp_chacha cp_poly cp_block].
  split; [|auto]. exists 0, (zeros 12). split; [apply bytes_zeros|]. apply keysetup_spec; auto.
Qed.
Lemma keyed_zeroed : forall key, bytes key -> zlen key = 32 -> keyed key (chachapoly_init_key b cp_zeroed key).
Proof.
  intros key Hk Lk. apply keyed_init; auto; cbn [cp_zeroed cp_poly p_buffer cp_block]; try apply bytes_zeros; reflexivity.
Qed.
Lemma setup_spec : forall temp key st n, bytes key -> bytes temp -> zlen temp = 64 -> keyed key st ->
  chachapoly_setup b temp st n =
  CPState (chacha20_state key 1 (noise_nonce n))
          (poly1305_init (p_buffer (cp_poly st)) (chacha20_block key 0 (noise_nonce n))) (zeros 64).
Proof.
  intros temp key st n Hk Ht Lt ((c & nonce & Hn & E) & _ & _ & L & B). unfold chachapoly_setup. cbv zeta.
  rewrite put_uint64_spec, E. rewrite ivsetup_spec;
    [|apply bytes_splice; [apply bytes_le_bytes|exact B]|rewrite splice_length; rewrite ?zlen_le_bytes; lia].
  rewrite splice_0. assert (take 8 (le_bytes 8 n ++ drop (zlen (le_bytes 8 n)) (cp_block st)) = le_bytes 8 n) as ->.
  { assert (zlen (le_bytes 8 n) = 8) as La by now rewrite zlen_le_bytes. rewrite <- La. apply take_app_exact. }
  change (zeros 4 ++ le_bytes 8 n) with (noise_nonce n).
  rewrite encrypt_bytes_spec by (first [assumption | lia | apply bytes_nonce | apply bytes_zeros | rewrite zlen_zeros; lia]).
  change (0 + blocks_in 64) with 1. rewrite take_all, drop_all by (rewrite zlen_zeros; lia). rewrite app_nil_r.
  replace (chacha20_encrypt key 0 (noise_nonce n) (zeros 64)) with (chacha20_block key 0 (noise_nonce n)); [reflexivity|].
  rewrite encrypt_short by (rewrite zlen_zeros; lia).
  pose proof (zlen_block key 0 (noise_nonce n)) as L64. generalize dependent (chacha20_block key 0 (noise_nonce n)).
  intros k Lk. unfold zlen in Lk. assert (length k = 64%nat) as Lk' by lia. clear - Lk'.
  change (zeros 64) with (repeat 0 64). rewrite <- Lk'. clear Lk'.
  induction k as [|x k IH]; [reflexivity|]. unfold xors in *. cbn [length repeat combine map fst snd]. rewrite <- IH.
  rewrite Z.lxor_0_l || rewrite Z.lxor_0_r. reflexivity.
Qed.

Lemma encrypt_spec : forall temp temp' key st n ad mem len, bytes key -> keyed key st ->
  bytes temp -> zlen temp = 64 -> bytes temp' -> zlen temp' = 64 ->
  bytes ad -> bytes mem -> 0 <= len -> len + 16 <= zlen mem -> len < 2 ^ 32 ->
  exists st', keyed key st' /\
    chachapoly_encrypt b temp temp' st n ad mem len =
    Ok (E_NONE, st', let '(c, tag) := aead_encrypt key (noise_nonce n) ad (take len mem) in
                     c ++ tag ++ drop (len + 16) mem).
Proof.
  intros temp temp' key st n ad mem len Hk Hs Ht Lt Ht' Lt' Ha Hm Hl Lm Hl32.
  unfold chachapoly_encrypt, aead_encrypt, aead_tag, poly1305_key_gen. rewrite (setup_spec temp key) by auto. cbn [cp_chacha cp_poly cp_block]. cbv zeta.
  destruct Hs as (_ & L1 & B1 & _ & _).
  set (K := chacha20_block key 0 (noise_nonce n)).
  assert (bytes K) as HK by apply bytes_block. assert (zlen K = 64) as LK by apply zlen_block.
  assert (A0 : absorbed K [] (poly1305_init (p_buffer (cp_poly st)) K)) by (apply absorbed_init; auto; lia).
  destruct (absorbed_ad K _ _ ad A0 Ha) as (p1 & -> & A1). cbn [obind].
  rewrite encrypt_bytes_spec by (first [assumption | lia | apply bytes_nonce]).
  set (c := chacha20_encrypt key 1 (noise_nonce n) (take len mem)).
  assert (zlen c = len) as Lc by (unfold c; rewrite zlen_encrypt, zlen_take; lia).
  assert (bytes c) as Hc by (unfold c; apply bytes_encrypt; now apply bytes_take).
  assert (take len (c ++ drop len mem) = c) as -> by (rewrite <- Lc at 1; apply take_app_exact).
  destruct (absorbed_update K _ p1 c A1 Hc) as (p2 & -> & A2). cbn [obind].
  rewrite <- Lc. destruct (absorbed_pad K _ p2 c A2) as (p3 & -> & A3). cbn [obind].
  destruct (absorbed_lengths K _ p3 (zeros 64) (zlen ad) (zlen c) A3) as (bl & p4 & -> & Lb & Bb & A4);
    [reflexivity|apply bytes_zeros|]. cbn [obind].
  destruct (absorbed_finish K _ p4 HK ltac:(lia) A4) as (p5 & E5 & L5 & B5).
  rewrite E5. cbn [obind]. rewrite Lc.
  eexists. split; [|f_equal; f_equal].
  - split; [|cbn [cp_poly cp_block]; auto]. exists (1 + blocks_in len), (noise_nonce n). split; [apply bytes_nonce|reflexivity].
  - assert (forall m, zlen m = 16 -> splice len m (c ++ drop len mem) = c ++ m ++ drop (len + 16) mem) as X.
    { intros m L16. unfold splice. rewrite L16. assert (take len (c ++ drop len mem) = c) as -> by (rewrite <- Lc at 1; apply take_app_exact).
      f_equal. f_equal. replace (len + 16) with (16 + len) by lia. rewrite <- drop_drop by lia.
      assert (drop len (c ++ drop len mem) = drop len mem) as -> by (rewrite <- Lc at 1; apply drop_app_exact).
      now rewrite drop_drop by lia. }
    rewrite X by (unfold poly1305_mac; apply zlen_le_bytes). rewrite <- !app_assoc. reflexivity.
Qed.

Lemma decrypt_spec : forall temp temp' key st n ad mem len, bytes key -> keyed key st ->
  bytes temp -> zlen temp = 64 -> bytes temp' -> zlen temp' = 64 ->
  bytes ad -> bytes mem -> 0 <= len -> len + 16 <= zlen mem -> len < 2 ^ 32 ->
  exists st', keyed key st' /\
    chachapoly_decrypt b temp temp' st n ad mem len =
    Ok (match aead_decrypt key (noise_nonce n) ad (take len mem) (sub len 16 mem) with
        | Some p => (E_NONE, st', p ++ drop len mem)
        | None => (E_MAC_FAILURE, st', mem)
        end).
Proof.
  intros temp temp' key st n ad mem len Hk Hs Ht Lt Ht' Lt' Ha Hm Hl Lm Hl32.
  unfold chachapoly_decrypt, aead_decrypt, aead_tag, poly1305_key_gen. rewrite (setup_spec temp key) by auto. cbn [cp_chacha cp_poly cp_block]. cbv zeta.
  destruct Hs as (_ & L1 & B1 & _ & _).
  set (K := chacha20_block key 0 (noise_nonce n)).
  assert (bytes K) as HK by apply bytes_block. assert (zlen K = 64) as LK by apply zlen_block.
  assert (A0 : absorbed K [] (poly1305_init (p_buffer (cp_poly st)) K)) by (apply absorbed_init; auto; lia).
  destruct (absorbed_ad K _ _ ad A0 Ha) as (p1 & -> & A1). cbn [obind].
  set (c := take len mem). assert (zlen c = len) as Lc by (unfold c; rewrite zlen_take; lia).
  assert (bytes c) as Hc by (now apply bytes_take).
  destruct (absorbed_update K _ p1 c A1 Hc) as (p2 & -> & A2). cbn [obind].
  destruct (absorbed_pad K _ p2 c A2) as (p3 & E3 & A3). rewrite Lc in E3. rewrite E3. cbn [obind].
  destruct (absorbed_lengths K _ p3 (zeros 64) (zlen ad) (zlen c) A3) as (bl & p4 & E4 & Lb & Bb & A4);
    [reflexivity|apply bytes_zeros|]. rewrite Lc in E4. rewrite E4. cbn [obind].
  destruct (absorbed_finish K _ p4 HK ltac:(lia) A4) as (p5 & E5 & L5 & B5).
  rewrite E5. cbn [obind].
  replace (((([] ++ ad ++ pad16 ad) ++ c) ++ pad16 c) ++ le_bytes 8 (zlen ad) ++ le_bytes 8 (zlen c))
    with (ad ++ pad16 ad ++ c ++ pad16 c ++ le_bytes 8 (zlen ad) ++ le_bytes 8 (zlen c)) by (rewrite <- !app_assoc; reflexivity).
  set (mac := poly1305_mac (take 32 K) _).
  assert (zlen mac = 16) as Lmac by (unfold mac, poly1305_mac; apply zlen_le_bytes).
  assert (bytes mac) as Hmac by (unfold mac, poly1305_mac; apply bytes_le_bytes).
  rewrite splice_0. assert (take 16 (mac ++ drop (zlen mac) bl) = mac) as -> by (rewrite <- Lmac at 1; apply take_app_exact).
  assert (bytes (sub len 16 mem)) as Hsub by (unfold sub; apply bytes_take, bytes_drop; exact Hm).
  assert (zlen (sub len 16 mem) = 16) as Lsub by (rewrite zlen_sub; lia).
  destruct (C40_is_equal_exact mac (sub len 16 mem) Hmac Hsub ltac:(congruence)) as [T F].
  assert (zlen (mac ++ drop (zlen mac) bl) = 64 /\ bytes (mac ++ drop (zlen mac) bl)) as [Lbl Bbl]
    by (split; [rewrite zlen_app, zlen_drop; lia|apply bytes_app; split; [exact Hmac|now apply bytes_drop]]).
  destruct (list_eq_dec Z.eq_dec (sub len 16 mem) mac) as [E|E].
  - assert (noise_is_equal mac (sub len 16 mem) = 1) as -> by (apply T; congruence). change (1 =? 0) with false. cbv iota.
    rewrite encrypt_bytes_spec by (first [assumption | lia | apply bytes_nonce]). fold c.
    eexists. split; [|reflexivity]. split; [|cbn [cp_poly cp_block]; auto].
    exists (1 + blocks_in len), (noise_nonce n). split; [apply bytes_nonce|reflexivity].
  - assert (noise_is_equal mac (sub len 16 mem) = 0) as -> by (apply F; congruence). change (0 =? 0) with true. cbv iota.
    eexists. split; [|reflexivity]. split; [|cbn [cp_poly cp_block]; auto].
    exists 1, (noise_nonce n). split; [apply bytes_nonce|reflexivity].
Qed.
End Backend.

(** ** Shapes, for any context *)
Lemma xor_stored_any : forall b out m, zlen (xor_stored b out m) = 64 /\ bytes (xor_stored b out m).
Proof.
  intros b out m. unfold xor_stored. generalize (key_words b m 0 16) as ws. intros ws.
  split; [reflexivity|]. unfold bytes. apply Forall_concat, Forall_forall. intros x Hx. apply in_map_iff in Hx.
  destruct Hx as (i & <- & _). rewrite to_little_spec. apply bytes_le_bytes.
Qed.
Lemma loop_any : forall b temp fuel x data n, n <= zlen data ->
  zlen (snd (chacha_loop fuel b temp x data n)) = zlen data.
Proof.
  intros b temp fuel. induction fuel as [|fuel IH]; intros x data n Hn; [reflexivity|]. cbn [chacha_loop]. cbv zeta.
  destruct (n >? 0) eqn:E0; [|reflexivity]. apply Z.gtb_lt in E0. destruct (n >=? 64) eqn:E; [apply Z.geb_le in E|].

  - specialize (IH (chacha_increment x) (drop 64 data) (n - 64)). destruct (chacha_loop fuel _ _ _ _ _) as [x' r].
    cbn [snd] in *. rewrite zlen_app, (proj1 (xor_stored_any _ _ _)), IH by (rewrite zlen_drop; lia). rewrite zlen_drop. lia.
  - assert (n < 64) by (rewrite Z.geb_leb in E; apply Z.leb_gt in E; exact E). cbn [snd]. apply splice_length; [lia|]. rewrite zlen_take, (proj1 (xor_stored_any _ _ _)). lia.
Qed.
Lemma loop_any_bytes : forall b temp fuel x data n, bytes data -> bytes (snd (chacha_loop fuel b temp x data n)).
Proof.
  intros b temp fuel. induction fuel as [|fuel IH]; intros x data n Hd; [exact Hd|]. cbn [chacha_loop]. cbv zeta.
  destruct (n >? 0) eqn:E0; [|exact Hd]. destruct (n >=? 64) eqn:E.
  - specialize (IH (chacha_increment x) (drop 64 data) (n - 64)). destruct (chacha_loop fuel _ _ _ _ _) as [x' r].
    cbn [snd] in *. apply bytes_app. split; [apply xor_stored_any|]. apply IH. now apply bytes_drop.
  - cbn [snd]. apply bytes_splice; [|exact Hd]. apply bytes_take, xor_stored_any.
Qed.
Lemma ok_inj : forall A (a b : A), Ok a = Ok b -> a = b.
Proof. intros A a b [= H]. exact H. Qed.
Lemma finish_shape : forall p p' mac, poly1305_finish wrap p = Ok (p', mac) -> zlen mac = 16 /\ bytes mac.
Proof.
  intros p p' mac E. unfold poly1305_finish in E.
  destruct (poly1305_last wrap p) as [s|] eqn:El; [|discriminate E]. cbn [obind] in E.
  destruct (poly1305_carry wrap (p_h s)) as [h|]; [|discriminate E]. cbn [obind] in E.
  destruct (poly1305_select wrap h) as [h'|]; [|discriminate E]. cbn [obind] in E.
  destruct (poly1305_output wrap (p_pad s) h') as [m|] eqn:Eo; [|discriminate E]. cbn [obind] in E.
  injection E as _ <-. unfold poly1305_output, wrap in Eo. destruct h' as [[h0 h1] h2]. destruct (p_pad s) as [t0 t1].
  cbn [obind] in Eo. apply ok_inj in Eo. rewrite <- Eo, !u64to8_spec.
  split; [rewrite zlen_app, !zlen_le_bytes; reflexivity|apply bytes_app; split; apply bytes_le_bytes].
Qed.
Lemma encrypt_any : forall b temp temp' st n ad mem len e st' mem', 0 <= len -> len + 16 <= zlen mem ->
  chachapoly_encrypt b temp temp' st n ad mem len = Ok (e, st', mem') ->
  zlen mem' = zlen mem /\ (bytes mem -> bytes mem').
Proof.
  intros b temp temp' st n ad mem len e st' mem' Hl Lm E. unfold chachapoly_encrypt in E. cbv zeta in E.
  destruct (auth_ad _ ad) as [p1|]; [|discriminate E]. cbn [obind] in E.
  pose proof (loop_any b temp' (S (Z.to_nat (len mod 2 ^ 32 / 64))) (cp_chacha (chachapoly_setup b temp st n)) mem (len mod 2 ^ 32)) as X.
  pose proof (loop_any_bytes b temp' (S (Z.to_nat (len mod 2 ^ 32 / 64))) (cp_chacha (chachapoly_setup b temp st n)) mem (len mod 2 ^ 32)) as Y.
  unfold chacha_encrypt_bytes in E. cbv zeta in E. destruct (chacha_loop _ _ _ _ _ _) as [x' m]. cbn [snd] in *.
  pose proof (Z.mod_le len (2 ^ 32) Hl ltac:(lia)).
  destruct (poly1305_update wrap p1 (take len m)) as [p2|]; [|discriminate E]. cbn [obind] in E.
  destruct (pad_auth p2 len) as [p3|]; [|discriminate E]. cbn [obind] in E.
  destruct (auth_lengths _ p3 _ _) as [[bl p4]|]; [|discriminate E]. cbn [obind] in E.
  destruct (poly1305_finish wrap p4) as [[p5 mac]|] eqn:Ef; [|discriminate E]. cbn [obind] in E.
  apply finish_shape in Ef. destruct Ef as [Lmac Bmac]. injection E as _ _ <-.
  split; [rewrite splice_length; lia|]. intros Hm. apply bytes_splice; auto.
Qed.
Lemma decrypt_any : forall b temp temp' st n ad mem len e st' mem',
  chachapoly_decrypt b temp temp' st n ad mem len = Ok (e, st', mem') ->
  (0 <= len -> len <= zlen mem -> zlen mem' = zlen mem) /\ (bytes mem -> bytes mem').
Proof.
  intros b temp temp' st n ad mem len e st' mem' E. unfold chachapoly_decrypt in E. cbv zeta in E.
  destruct (auth_ad _ ad) as [p1|]; [|discriminate E]. cbn [obind] in E.
  destruct (poly1305_update wrap p1 (take len mem)) as [p2|]; [|discriminate E]. cbn [obind] in E.
  destruct (pad_auth p2 len) as [p3|]; [|discriminate E]. cbn [obind] in E.
  destruct (auth_lengths _ p3 _ _) as [[bl p4]|]; [|discriminate E]. cbn [obind] in E.
  destruct (poly1305_finish wrap p4) as [[p5 mac]|] eqn:Ef; [|discriminate E]. cbn [obind] in E.
  destruct (noise_is_equal _ _ =? 0); [injection E as _ _ <-; auto|].
  pose proof (loop_any b temp' (S (Z.to_nat (len mod 2 ^ 32 / 64))) (cp_chacha (chachapoly_setup b temp st n)) mem (len mod 2 ^ 32)) as X.
  pose proof (loop_any_bytes b temp' (S (Z.to_nat (len mod 2 ^ 32 / 64))) (cp_chacha (chachapoly_setup b temp st n)) mem (len mod 2 ^ 32)) as Y.
  unfold chacha_encrypt_bytes in E. cbv zeta in E. destruct (chacha_loop _ _ _ _ _ _) as [x' m]. cbn [snd] in *.
  injection E as _ _ <-. split; [|exact Y]. intros Hl Lm. pose proof (Z.mod_le len (2 ^ 32) Hl ltac:(lia)). apply X. lia.
Qed.
Lemma chachapoly_shape : forall b, cipher_shape (chachapoly b).
Proof.
  intros b. constructor; cbn [chachapoly ca_mac_len ca_key_len ca_encrypt ca_decrypt]; unfold MAX_PAYLOAD_LEN; try lia;
    intros k n ad pt; unfold cp_result; pose proof (zlen_nonneg Z pt).
  - destruct (chachapoly_encrypt _ _ _ _ _ _ _ _) as [[[e st'] mem']|] eqn:E.
    + apply encrypt_any in E; [|lia|rewrite zlen_app, zlen_zeros; lia]. cbn [snd].
      rewrite (proj1 E), zlen_app, zlen_zeros; lia.
    + cbn [snd]. rewrite zlen_app, zlen_zeros; lia.
  - intros Hk Ha Hp. destruct (chachapoly_encrypt _ _ _ _ _ _ _ _) as [[[e st'] mem']|] eqn:E.
    + apply encrypt_any in E; [|lia|rewrite zlen_app, zlen_zeros; lia]. cbn [snd].
      apply (proj2 E). apply bytes_app. split; [exact Hp|apply bytes_zeros].
    + cbn [snd]. apply bytes_app. split; [exact Hp|apply bytes_zeros].
  - intros L. destruct (chachapoly_decrypt _ _ _ _ _ _ _ _) as [[[e st'] mem']|] eqn:E; [|reflexivity].
    apply decrypt_any in E. cbn [snd]. apply (proj1 E); lia.
  - intros Hk Ha Hp. destruct (chachapoly_decrypt _ _ _ _ _ _ _ _) as [[[e st'] mem']|] eqn:E; [|exact Hp].
    apply decrypt_any in E. cbn [snd]. apply (proj2 E). exact Hp.
Qed.
