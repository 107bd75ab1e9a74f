(** Facts about the AESGCM backend *)
From Verif Require Import Base MCipher SCipher MHash MSha2 MBlake2 MUtil TUtil SSha2 SBlake2 PSha2 PSha2b PBlake2 PChaCha PPoly1305 PRand.
From Verif Require Import MAes SAes PAes MGhash SGhash PGhash MAesGcm SAesGcm.

Lemma put_uint64_be_spec : forall v, put_uint64_be v = be_bytes 8 v.
Proof.
  intros v. unfold put_uint64_be, be_bytes. apply map_ext_in. intros k Hk. apply in_seq in Hk. rewrite Z.shiftr_div_pow2 by lia.
  replace (2 ^ (8 * (7 - Z.of_nat k))) with (256 ^ (7 - Z.of_nat k)); [f_equal; f_equal; f_equal; lia|].
  change 256 with (2 ^ 8). rewrite <- Z.pow_mul_r by lia. reflexivity.
Qed.
Lemma be_bytes_mod : forall n v, be_bytes n (v mod 256 ^ Z.of_nat n) = be_bytes n v.
Proof.
  intros n. induction n as [|n IH]; intros v; [reflexivity|]. rewrite !be_bytes_S. f_equal.
  - rewrite <- (IH (v / 256)). f_equal. replace (Z.of_nat (S n)) with (1 + Z.of_nat n) by lia.
    rewrite Z.pow_add_r by lia. change (256 ^ 1) with 256.
    rewrite Z.rem_mul_r by lia. rewrite Z.mul_comm, Z.div_add by lia. rewrite (Z.div_small (v mod 256)) by (apply Z.mod_pos_bound; lia). lia.
  - f_equal. replace (Z.of_nat (S n)) with (1 + Z.of_nat n) by lia. rewrite Z.pow_add_r by lia. change (256 ^ 1) with 256.
    rewrite Z.rem_mul_r by lia. rewrite Z.mul_comm, Z.mod_add by lia. apply Z.mod_mod. lia.
Qed.

(** ** Counters *)
Lemma counter_bytes : forall c, 0 <= c < 2 ^ 16 -> be_bytes 4 c = [0; 0; c / 256; c mod 256].
Proof.
  intros c Hc. rewrite !be_bytes_S. change (be_bytes 0 _) with (@nil Z). cbn [app].
  assert (c / 256 / 256 = 0) as -> by (rewrite Z.div_div by lia; apply Z.div_small; lia).
  change (0 / 256) with 0. change (0 mod 256) with 0.
  rewrite (Z.mod_small (c / 256)); [reflexivity|]. split; [apply Z.div_pos; lia|apply Z.div_lt_upper_bound; lia].
Qed.
Lemma list12 : forall (l : list Z), zlen l = 12 -> exists a b c d e f g h i j k m, l = [a; b; c; d; e; f; g; h; i; j; k; m].
Proof.
  intros l. do 12 (destruct l as [|? l]; [cbn; discriminate|]). destruct l; [intros _; repeat eexists|].
  intros H. unfold zlen in H. cbn [length] in H. lia.
Qed.
Lemma bump_spec : forall iv c, zlen iv = 12 -> 0 <= c -> c + 1 < 2 ^ 16 ->
  bump_counter (iv ++ be_bytes 4 c) = iv ++ be_bytes 4 (c + 1).
Proof.
  intros iv c L H0 H1. rewrite !counter_bytes by lia.
  destruct (list12 iv L) as (a0 & a1 & a2 & a3 & a4 & a5 & a6 & a7 & a8 & a9 & a10 & a11 & ->). cbn [app].
  unfold bump_counter, byte_at.
  change (Z.to_nat 15) with 15%nat. change (Z.to_nat 14) with 14%nat. cbn [nth].
  assert (Z.lor (c mod 256) (Z.shiftl (c / 256) 8) = c) as E.
  { rewrite Z.shiftl_mul_pow2 by lia. rewrite (lor_low (c mod 256) (c / 256) 8); [|lia|apply Z.mod_pos_bound; lia].
    change (2 ^ 8) with 256. rewrite (Z.div_mod c 256) at 3 by lia. lia. }
  rewrite E. rewrite (Z.mod_small (c + 1)) by lia. rewrite Z.shiftr_div_pow2 by lia. change (2 ^ 8) with 256.
  rewrite (Z.mod_small ((c + 1) / 256)) by (split; [apply Z.div_pos; lia|apply Z.div_lt_upper_bound; lia]).
  cbv zeta. generalize ((c + 1) mod 256) as x. generalize ((c + 1) / 256) as y. intros y x. reflexivity.
Qed.
Lemma inc32_spec : forall iv c, zlen iv = 12 -> 0 <= c -> c + 1 < 2 ^ 32 -> inc32 (iv ++ be_bytes 4 c) = iv ++ be_bytes 4 (c + 1).
Proof.
  intros iv c L H0 H1. unfold inc32. rewrite <- L. rewrite take_app_exact, drop_app_exact.
  rewrite be_val_bytes by (assert (256 ^ Z.of_nat 4 = 2 ^ 32) as -> by reflexivity; clear L; lia). rewrite Z.mod_small by lia. reflexivity.
Qed.
Lemma iter_inc32 : forall iv c i, zlen iv = 12 -> 0 <= c -> c + Z.of_nat i < 2 ^ 32 ->
  Nat.iter i inc32 (iv ++ be_bytes 4 c) = iv ++ be_bytes 4 (c + Z.of_nat i).
Proof.
  intros iv c i L H0. induction i as [|i IH]; intros H1; [change (Z.of_nat 0) with 0; rewrite Z.add_0_r; reflexivity|].
  change (Nat.iter (S i) inc32 (iv ++ be_bytes 4 c)) with (inc32 (Nat.iter i inc32 (iv ++ be_bytes 4 c))).
  rewrite IH by lia. rewrite inc32_spec by lia. f_equal. f_equal. lia.
Qed.

(** keystream blocks c, c+1, ... *)
Definition stream (E : list Z -> list Z) (iv : list Z) (c : Z) (n : nat) : list Z :=
  concat (map (fun i => E (iv ++ be_bytes 4 (c + Z.of_nat i))) (seq 0 n)).
Lemma GCTR_stream : forall key iv c x, zlen iv = 12 -> 0 <= c -> c + zlen x / 16 + 1 < 2 ^ 32 ->
  GCTR key (iv ++ be_bytes 4 c) x = xors x (stream (AES 8 key) iv c (Z.to_nat ((zlen x + 15) / 16))).
Proof.
  intros key iv c x L H0 H1. unfold GCTR, stream. rewrite xor_bytes_xors. apply (f_equal (xors x)), (f_equal (@concat Z)), map_ext_in.
  intros i Hi. apply in_seq in Hi. apply (f_equal (AES 8 key)), iter_inc32; [exact L|exact H0|].
  pose proof (zlen_nonneg Z x).
  assert ((zlen x + 15) / 16 < zlen x / 16 + 2); [|pose proof (Z.div_pos (zlen x) 16); lia].
  apply Z.div_lt_upper_bound; [lia|]. pose proof (Z.div_mod (zlen x) 16 ltac:(lia)). pose proof (Z.mod_pos_bound (zlen x) 16). lia.
Qed.
Lemma stream_S : forall E iv c n, stream E iv c (S n) = E (iv ++ be_bytes 4 c) ++ stream E iv (c + 1) n.
Proof.
  intros E iv c n. unfold stream. cbn [seq map concat]. rewrite Z.add_0_r. apply (f_equal (app _)). rewrite <- seq_shift, map_map. apply (f_equal (@concat Z)).
  apply map_ext. intros i. apply (f_equal E), (f_equal (app iv)), (f_equal (be_bytes 4)). lia.
Qed.

Lemma xors_comm_gen : forall a b, xors a b = xors b a.
Proof.
  intros a. induction a as [|x a IH]; intros [|y b]; try reflexivity. unfold xors in *. cbn [combine map fst snd].
  rewrite Z.lxor_comm. f_equal. apply IH.
Qed.

Lemma ctr_block : forall iv c, bytes iv -> zlen iv = 12 -> bytes (iv ++ be_bytes 4 c) /\ zlen (iv ++ be_bytes 4 c) = 16.
Proof.
  intros iv c Hi Li. split; [apply bytes_app; split; [exact Hi|apply bytes_be_bytes]|].
  rewrite zlen_app, zlen_be_bytes. lia.
Qed.

Section Stream.
Variable E : list Z -> list Z.
Hypothesis E_shape : forall s, bytes s -> zlen s = 16 -> bytes (E s) /\ zlen (E s) = 16.
Lemma stream_len : forall iv c n, bytes iv -> zlen iv = 12 -> zlen (stream E iv c n) = 16 * Z.of_nat n /\ bytes (stream E iv c n).
Proof.
  intros iv c n Hi Li. revert c. induction n as [|n IH]; intros c; [split; [reflexivity|constructor]|]. rewrite stream_S.
  destruct (ctr_block iv c Hi Li) as [Bc Lc]. destruct (E_shape _ Bc Lc) as [Bk Lks]. destruct (IH (c + 1)) as [L B].
  split; [rewrite zlen_app; lia|apply bytes_app; split; assumption].
Qed.
Variable aes : list Z.
Hypothesis encE : forall s, bytes s -> zlen s = 16 -> rijndael_encrypt aes MAXNR s = Ok (E s).
Lemma loop_stream : forall fuel iv c data len, bytes iv -> zlen iv = 12 -> 0 <= c ->
  (Z.to_nat len < fuel)%nat -> 0 <= len <= zlen data -> c + (len + 15) / 16 < 2 ^ 16 ->
  aesgcm_loop fuel aes (iv ++ be_bytes 4 c) data len =
  Ok (iv ++ be_bytes 4 (c + (len + 15) / 16),
      xors (take len data) (stream E iv (c + 1) (Z.to_nat ((len + 15) / 16))) ++ drop len data).
Proof.
  induction fuel as [|fuel IH]; intros iv c data len Hi Li Hc Hf Hl Hb; [lia|]. cbn [aesgcm_loop].
  destruct (Z.gtb_spec len 0) as [El|El].
  2:{ replace len with 0 by lia. change ((0 + 15) / 16) with 0. rewrite Z.add_0_r, take_le0, drop_le0 by lia. reflexivity. }
  assert (1 <= (len + 15) / 16) as B1 by (apply Z.div_le_lower_bound; lia).
  rewrite bump_spec by lia. destruct (ctr_block iv (c + 1) Hi Li) as [Bc Lc].
  rewrite encE by assumption. cbn [obind]. cbv zeta.
  destruct (E_shape _ Bc Lc) as [Bk Lks].
  set (temp := if 16 >? len then len else 16).
  assert (1 <= temp <= len /\ temp <= 16 /\ (temp = 16 \/ temp = len)) as (T1 & T2 & T3) by (unfold temp; destruct (Z.gtb_spec 16 len); lia).
  assert (1 + (len - temp + 15) / 16 = (len + 15) / 16) as N.
  { destruct T3 as [-> | ->].
    - replace (len + 15) with (len - 16 + 15 + 1 * 16) by lia. rewrite Z.div_add by lia. lia.
    - replace (len - len + 15) with 15 by lia. change (15 / 16) with 0.
      assert ((len + 15) / 16 < 2) by (apply Z.div_lt_upper_bound; lia). lia. }
  clearbody temp.
  rewrite IH; [|assumption|assumption|lia|lia|rewrite zlen_drop; lia|lia]. cbn [obind fst snd].
  f_equal. f_equal; [f_equal; f_equal; lia|].
  rewrite <- N. replace (Z.to_nat (1 + (len - temp + 15) / 16)) with (S (Z.to_nat ((len - temp + 15) / 16)))
    by (pose proof (Z.div_pos (len - temp + 15) 16 ltac:(lia) ltac:(lia)); lia).
  rewrite stream_S. rewrite app_assoc. f_equal.
  2:{ rewrite drop_drop by lia. f_equal. lia. }
  fold (xors (take temp data) (E (iv ++ be_bytes 4 (c + 1)))).
  replace (take len data) with (take temp data ++ take (len - temp) (drop temp data)).
  2:{ rewrite <- (take_drop _ temp (take len data)). rewrite take_take. f_equal; [f_equal; lia|]. rewrite take_drop_comm by lia. f_equal. f_equal. lia. }
  destruct T3 as [T3|T3].
  - rewrite xors_app; [reflexivity|]. assert (zlen (take temp data) = 16) as X by (rewrite zlen_take; lia). unfold zlen in *. lia.
  - replace (len - temp) with 0 by lia. change (take 0 (drop temp data)) with (@nil Z). rewrite app_nil_r. change (take 0 (drop temp data)) with (@nil Z). change (0 + 15) with 15. change (Z.to_nat (15 / 16)) with 0%nat.
    change (stream E iv (c + 1 + 1) 0) with (@nil Z). rewrite !app_nil_r. reflexivity.
Qed.
End Stream.

Section Keyed.
Variable key : list Z.
Hypothesis Hk : bytes key.
Hypothesis Lk : zlen key = 32.

Lemma aes8_shape : forall s, bytes s -> zlen s = 16 -> bytes (AES 8 key s) /\ zlen (AES 8 key s) = 16.
Proof. intros s Hs Ls. apply AES_shape; auto. Qed.
Lemma enc8 : forall aes s, words_in key 8 aes 60 -> bytes s -> zlen s = 16 -> rijndael_encrypt aes MAXNR s = Ok (AES 8 key s).
Proof.
  intros aes s W Hs Ls. exact (encrypt_ok key 8 ltac:(lia) Hk Lk aes W s Hs Ls).
Qed.
End Keyed.

Lemma ok_inj : forall A (a b : A), Ok a = Ok b -> a = b.
Proof. intros A a b [= H]. exact H. Qed.
(** whatever the key and the counter *)
Lemma loop_shape : forall fuel aes ctr data len r, aesgcm_loop fuel aes ctr data len = Ok r -> 0 <= len <= zlen data ->
  zlen (snd r) = zlen data /\ drop len (snd r) = drop len data /\ (bytes data -> bytes (snd r)).
Proof.
  induction fuel as [|fuel IH]; intros aes ctr data len r E Hl; cbn [aesgcm_loop] in E.
  { apply ok_inj in E. rewrite <- E. auto. }
  destruct (Z.gtb_spec len 0) as [X|X]; [|apply ok_inj in E; rewrite <- E; auto].
  cbv zeta in E. apply obind_ok in E. destruct E as (ks & K & E). apply encrypt_shape in K. destruct K as [Bk Lks].
  apply obind_ok in E. destruct E as (r' & R & E). apply ok_inj in E. rewrite <- E. clear E. cbn [snd].
  set (temp := if 16 >? len then len else 16) in *.
  assert (1 <= temp <= len /\ temp <= 16) as (T1 & T2) by (unfold temp; destruct (Z.gtb_spec 16 len); lia). clearbody temp.
  apply IH in R; [|rewrite zlen_drop; lia]. destruct R as (R1 & R2 & R3).
  fold (xors (take temp data) ks).
  assert (zlen (xors (take temp data) ks) = temp) as Lx by (rewrite xors_comm_gen, zlen_xors; rewrite zlen_take; lia).
  split; [rewrite zlen_app, R1, zlen_drop; lia|]. split.
  - replace len with ((len - temp) + temp) at 1 by lia. rewrite <- drop_drop by lia. rewrite <- Lx at 2. rewrite drop_app_exact.
    rewrite R2. rewrite drop_drop by lia. f_equal. lia.
  - intros Hd. apply bytes_app. split; [apply bytes_xors; [now apply bytes_take|exact Bk]|]. apply R3. now apply bytes_drop.
Qed.

(** ** The authenticated text *)
Definition absorbs (b : gh_build) (h : Z) (msg : list Z) (g : ghash_state) : Prop :=
  exists n full rest, running b h n full rest g /\ full ++ rest = msg.
Lemma absorbs_update : forall b h msg g d, absorbs b h msg g -> bytes d -> absorbs b h (msg ++ d) (ghash_update b g d).
Proof.
  intros b h msg g d (n & full & rest & R & <-) Hd.
  destruct (loop_running b h (S (length d)) n full rest g d ltac:(lia) R Hd) as (n' & full' & rest' & R' & E).
  exists n', full', rest'. split; [exact R'|]. rewrite E. apply app_assoc.
Qed.
Lemma absorbs_pad : forall b h msg g, absorbs b h msg g -> absorbs b h (msg ++ gcm_pad msg) (ghash_pad b g).
Proof.
  intros b h msg g (n & full & rest & R & <-). destruct (pad_running b h n full rest g R) as (n' & R').
  exists n', (filled (full ++ rest)), []. split; [exact R'|]. rewrite app_nil_r. reflexivity.
Qed.
Lemma pad_aligned : forall a c, zlen a mod 16 = 0 -> gcm_pad (a ++ c) = gcm_pad c.
Proof.
  intros a c H. unfold gcm_pad. f_equal. rewrite zlen_app. apply Z.mod_divide in H; [|lia]. destruct H as [k H]. rewrite H.
  replace (- (k * 16 + zlen c)) with (- zlen c + (- k) * 16) by lia. apply Z.mod_add. lia.
Qed.
Lemma padded_len : forall a, zlen (a ++ gcm_pad a) mod 16 = 0.
Proof.
  intros a. unfold gcm_pad. rewrite zlen_app, zlen_zeros by (apply Z.mod_pos_bound; lia).
  rewrite Z.add_mod_idemp_r by lia. replace (zlen a + - zlen a) with 0 by lia. reflexivity.
Qed.
Lemma absorbs_hash : forall b h msg g, absorbs b h msg g -> zlen msg mod 16 = 0 ->
  gh_Y g = be_bytes 16 (GHASH h (blocks_of msg)).
Proof.
  intros b h msg g (n & full & rest & R & <-) L.
  pose proof R as (_ & _ & _ & Lf & Lr & _). rewrite zlen_app, Lf in L.
  replace (16 * Z.of_nat n + zlen rest) with (zlen rest + Z.of_nat n * 16) in L by lia. rewrite Z.mod_add in L by lia.
  pose proof (zlen_nonneg Z rest). rewrite Z.mod_small in L by lia. assert (rest = []) as -> by (apply zlen_0_nil; lia).
  rewrite (running_hash b h n full g R). f_equal. f_equal. rewrite (blocks_of_filled n full [] Lf ltac:(cbn; lia) n).
  - f_equal. unfold filled. rewrite app_nil_r, Lf. replace (- (16 * Z.of_nat n)) with (- Z.of_nat n * 16) by lia.
    rewrite Z.mod_mul by lia. symmetry. apply app_nil_r.
  - unfold filled. rewrite app_nil_r, Lf. replace (- (16 * Z.of_nat n)) with (- Z.of_nat n * 16) by lia.
    rewrite Z.mod_mul by lia. rewrite app_nil_r. exact Lf.
Qed.
Lemma xor_index : forall n a c, zlen a = Z.of_nat n -> zlen c = Z.of_nat n ->
  map (fun i => Z.lxor (byte_at a (Z.of_nat i)) (byte_at c (Z.of_nat i))) (seq 0 n) = xors a c.
Proof.
  intros n. induction n as [|n IH]; intros a c La Lc.
  - change (Z.of_nat 0) with 0 in La. assert (a = []) as -> by (apply zlen_0_nil; lia). reflexivity.
  - destruct a as [|x a]; [change (zlen (@nil Z)) with 0 in La; lia|]. destruct c as [|y c]; [change (zlen (@nil Z)) with 0 in Lc; lia|]. rewrite !zlen_cons in *.
    cbn [seq map]. unfold xors. cbn [combine map fst snd]. f_equal. fold (xors a c). rewrite <- (IH a c) by lia.
    rewrite <- seq_shift, map_map. apply map_ext. intros i. unfold byte_at. rewrite !Nat2Z.id. reflexivity.
Qed.

(** ** The state between calls *)
Section Backend.
Variable b : gh_build.
Variable key : list Z.
Hypothesis Hk : bytes key.
Hypothesis Lk : zlen key = 32.
Definition H_of : Z := be_val (AES 8 key (zeros 16)).
Definition ag_keyed (st : ag_state) : Prop :=
  words_in key 8 (ag_aes st) 60 /\ zlen (ag_aes st) = 60 /\ exists msg, absorbs b H_of msg (ag_ghash st).

Lemma init_keyed : forall st, zlen (ag_aes st) = 60 -> exists st', aesgcm_init_key b st key = Ok st' /\ ag_keyed st'.
Proof.
  intros st L. unfold aesgcm_init_key, load. rewrite Lk. change ((0 <=? 0) && (0 <=? 32) && (0 + 32 <=? 32))%bool with true. cbv iota. cbn [obind].
  assert (sub 0 32 key = key) as -> by (unfold sub; rewrite drop_le0 by lia; apply take_all; lia).
  destruct (key_setup_ok 8 key (ag_aes st) ltac:(lia) Hk Lk ltac:(lia)) as (rk & E & Lr & W).
  change (32 * Z.of_nat 8) with 256 in E. rewrite E. cbn [obind].
  rewrite (enc8 key Hk Lk rk) by (first [exact W | apply bytes_zeros | reflexivity]). cbn [obind]. cbv zeta.
  eexists. split; [reflexivity|]. split; [exact W|]. split; [cbn [ag_aes]; lia|]. exists []. cbn [ag_ghash].
  destruct (aes8_shape key Hk Lk (zeros 16) (bytes_zeros 16) eq_refl) as [B16 L16].
  exists 0%nat, [], []. split; [|reflexivity]. apply reset_running; assumption.
Qed.

(** the state after the setup of a nonce *)
Lemma nonce_shape : forall n, bytes (gcm_nonce n) /\ zlen (gcm_nonce n) = 12.
Proof.
  intros n. unfold gcm_nonce. split; [apply bytes_app; split; [apply bytes_zeros|apply bytes_be_bytes]|].
  rewrite zlen_app, zlen_be_bytes. reflexivity.
Qed.
Lemma J0_ctr : forall iv, J0 iv = iv ++ be_bytes 4 1.
Proof. reflexivity. Qed.
Definition ready (n : Z) (msg : list Z) (st : ag_state) : Prop :=
  words_in key 8 (ag_aes st) 60 /\ zlen (ag_aes st) = 60 /\ absorbs b H_of msg (ag_ghash st) /\
  ag_counter st = J0 (gcm_nonce n) /\ ag_hash st = AES 8 key (J0 (gcm_nonce n)).
Lemma setup_ready : forall st n, ag_keyed st -> exists st', aesgcm_setup_iv b st n = Ok st' /\ ready n [] st'.
Proof.
  intros st n (W & L & msg & (k & full & rest & R & _)). unfold aesgcm_setup_iv. cbv zeta. rewrite put_uint64_be_spec.
  assert (zeros 4 ++ be_bytes 8 n ++ [0; 0; 0; 1] = J0 (gcm_nonce n)) as -> by (unfold J0, gcm_nonce; now rewrite <- app_assoc).
  destruct (nonce_shape n) as [Bn Ln]. destruct (ctr_block (gcm_nonce n) 1 Bn Ln) as [Bc Lc].
  rewrite (enc8 key Hk Lk) by (first [exact W | rewrite J0_ctr; assumption]). cbn [obind].
  eexists. split; [reflexivity|]. unfold ready. cbn [ag_aes ag_ghash ag_counter ag_hash].
  split; [exact W|]. split; [exact L|]. split; [|split; reflexivity].
  exists 0%nat, [], []. split; [|reflexivity]. exact (rereset_running b _ k full rest _ R).
Qed.
Lemma ad_ready : forall st n ad, bytes ad -> ready n [] st -> ready n (ad ++ gcm_pad ad) (aesgcm_ad b st ad).
Proof.
  intros st n ad Ha (W & L & A & C & H). unfold aesgcm_ad. destruct (Z.eqb_spec (zlen ad) 0) as [E|E].
  - assert (ad = []) as -> by (apply zlen_0_nil; lia). exact (conj W (conj L (conj A (conj C H)))).
  - unfold ready. cbn [ag_aes ag_ghash ag_counter ag_hash]. split; [exact W|]. split; [exact L|]. split; [|split; assumption].
    apply (absorbs_pad b H_of ad). exact (absorbs_update b H_of [] _ ad A Ha).
Qed.
(** the tag *)
Lemma finalize_tag : forall st ad c hash, bytes ad -> bytes c -> absorbs b H_of ((ad ++ gcm_pad ad) ++ c) (ag_ghash st) ->
  ag_hash st = hash -> zlen hash = 16 ->
  let r := aesgcm_finalize_hash b st (zlen ad) (zlen c) in
  ag_aes (fst r) = ag_aes st /\ ag_counter (fst r) = ag_counter st /\ (exists msg, absorbs b H_of msg (ag_ghash (fst r))) /\
  snd r = xors hash (be_bytes 16 (GHASH H_of (blocks_of (ad ++ gcm_pad ad ++ c ++ gcm_pad c
             ++ be_bytes 8 (8 * zlen ad) ++ be_bytes 8 (8 * zlen c))))).
Proof.
  intros st ad c hash Ha Hc A Eh Lh. unfold aesgcm_finalize_hash. cbv zeta. cbn [fst snd ag_aes ag_counter ag_ghash].
  rewrite !put_uint64_be_spec.
  change (2 ^ 64) with (256 ^ Z.of_nat 8). rewrite !be_bytes_mod. rewrite (Z.mul_comm (zlen ad)), (Z.mul_comm (zlen c)).
  apply absorbs_pad in A. rewrite pad_aligned in A by apply padded_len.
  assert (bytes (be_bytes 8 (8 * zlen ad) ++ be_bytes 8 (8 * zlen c))) as Bl by (apply bytes_app; split; apply bytes_be_bytes).
  apply (fun A => absorbs_update b H_of _ _ _ A Bl) in A.
  split; [reflexivity|]. split; [reflexivity|]. split; [eexists; exact A|].
  assert (zlen (((((ad ++ gcm_pad ad) ++ c) ++ gcm_pad c) ++ be_bytes 8 (8 * zlen ad) ++ be_bytes 8 (8 * zlen c))) mod 16 = 0) as M.
  { rewrite <- !(app_assoc (ad ++ gcm_pad ad)). rewrite zlen_app, <- Z.add_mod_idemp_l, padded_len by lia.
    rewrite <- app_assoc. rewrite Z.add_0_l. rewrite app_assoc. rewrite zlen_app, <- Z.add_mod_idemp_l, padded_len by lia.
    rewrite zlen_app, !zlen_be_bytes. reflexivity. }
  assert (Y := absorbs_hash _ _ _ _ A M). rewrite Y, Eh.
  rewrite (xor_index 16) by (rewrite ?zlen_be_bytes; lia). rewrite <- !app_assoc. reflexivity.
Qed.
Lemma GCTR_one : forall icb s, zlen s = 16 -> bytes icb -> zlen icb = 16 -> GCTR key icb s = xors (AES 8 key icb) s.
Proof.
  intros icb s Ls Bi Li. unfold GCTR. rewrite Ls. change (Z.to_nat ((16 + 15) / 16)) with 1%nat. cbn [seq map concat Nat.iter].
  rewrite app_nil_r, xor_bytes_xors. apply xors_comm_gen.
Qed.
(** the stream, for texts the 16-bit counter suffices for *)
Lemma crypt_stream : forall n st data len, words_in key 8 (ag_aes st) 60 -> ag_counter st = J0 (gcm_nonce n) ->
  0 <= len <= zlen data -> len <= 16 * 65534 ->
  exists ctr, aesgcm_encrypt_or_decrypt st data len =
    Ok (AGState (ag_aes st) (ag_ghash st) ctr (ag_hash st), GCTR key (inc32 (J0 (gcm_nonce n))) (take len data) ++ drop len data).
Proof.
  intros n st data len W C Hl Hm. destruct (nonce_shape n) as [Bn Ln].
  assert ((len + 15) / 16 < 65535) as Hd by (apply Z.div_lt_upper_bound; lia).
  assert (zlen (take len data) = len) as Lt by (rewrite zlen_take; lia).
  unfold aesgcm_encrypt_or_decrypt. rewrite C, J0_ctr.
  rewrite (loop_stream (AES 8 key) (aes8_shape key Hk Lk) (ag_aes st) (fun s Hs Ls => enc8 key Hk Lk (ag_aes st) s W Hs Ls));
    [|exact Bn|exact Ln|lia|unfold zlen in Hl; lia|exact Hl|lia].
  cbn [obind fst snd]. eexists. apply f_equal, f_equal. f_equal.
  rewrite inc32_spec by lia. change (1 + 1) with 2. rewrite GCTR_stream; [rewrite Lt; reflexivity|exact Ln|lia|].
  rewrite Lt. assert (len / 16 < 65535) by (apply Z.div_lt_upper_bound; lia). lia.
Qed.
Lemma GCTR_shape : forall n x, bytes x -> zlen x <= 16 * 65534 ->
  zlen (GCTR key (inc32 (J0 (gcm_nonce n))) x) = zlen x /\ bytes (GCTR key (inc32 (J0 (gcm_nonce n))) x).
Proof.
  intros n x Hx Lx. destruct (nonce_shape n) as [Bn Ln]. rewrite J0_ctr, inc32_spec by lia. change (1 + 1) with 2.
  assert (zlen x / 16 < 65535) by (apply Z.div_lt_upper_bound; lia).
  rewrite GCTR_stream by lia. destruct (stream_len (AES 8 key) (aes8_shape key Hk Lk) (gcm_nonce n) 2 (Z.to_nat ((zlen x + 15) / 16)) Bn Ln) as [L B].
  pose proof (zlen_nonneg Z x). assert (zlen x <= 16 * ((zlen x + 15) / 16)).
  { pose proof (Z.div_mod (zlen x + 15) 16 ltac:(lia)). pose proof (Z.mod_pos_bound (zlen x + 15) 16). lia. }
  split; [rewrite xors_comm_gen, zlen_xors; lia|apply bytes_xors; assumption].
Qed.
Lemma GCTR_twice : forall n x, bytes x -> zlen x <= 16 * 65534 ->
  GCTR key (inc32 (J0 (gcm_nonce n))) (GCTR key (inc32 (J0 (gcm_nonce n))) x) = x.
Proof.
  intros n x Hx Lx. destruct (GCTR_shape n x Hx Lx) as [L B]. destruct (nonce_shape n) as [Bn Ln].
  assert (zlen x / 16 < 65535) by (apply Z.div_lt_upper_bound; lia).
  rewrite J0_ctr, inc32_spec in * by lia. change (1 + 1) with 2 in *.
  rewrite (GCTR_stream key (gcm_nonce n) 2 (GCTR key (gcm_nonce n ++ be_bytes 4 2) x)) by (rewrite ?L; lia). rewrite L.
  rewrite GCTR_stream by lia.
  destruct (stream_len (AES 8 key) (aes8_shape key Hk Lk) (gcm_nonce n) 2 (Z.to_nat ((zlen x + 15) / 16)) Bn Ln) as [L' B'].
  pose proof (zlen_nonneg Z x). assert (zlen x <= 16 * ((zlen x + 15) / 16)).
  { pose proof (Z.div_mod (zlen x + 15) 16 ltac:(lia)). pose proof (Z.mod_pos_bound (zlen x + 15) 16). lia. }
  rewrite !(xors_comm_gen _ (stream _ _ _ _)). apply xors_twice. unfold zlen in *. lia.
Qed.
Lemma tag_shape : forall n ad c, zlen (gcm_tag key (gcm_nonce n) ad c) = 16 /\ bytes (gcm_tag key (gcm_nonce n) ad c).
Proof.
  intros n ad c. unfold gcm_tag. cbv zeta. destruct (nonce_shape n) as [Bn Ln]. destruct (ctr_block (gcm_nonce n) 1 Bn Ln) as [Bc Lc].
  rewrite <- J0_ctr in Bc, Lc. rewrite GCTR_one by (first [apply zlen_be_bytes | assumption]).
  destruct (aes8_shape key Hk Lk _ Bc Lc) as [B L].
  split; [rewrite zlen_xors; rewrite zlen_be_bytes; lia|apply bytes_xors; [exact B|apply bytes_be_bytes]].
Qed.
Lemma tag_of : forall n ad c,
  xors (AES 8 key (J0 (gcm_nonce n))) (be_bytes 16 (GHASH H_of (blocks_of (ad ++ gcm_pad ad ++ c ++ gcm_pad c
             ++ be_bytes 8 (8 * zlen ad) ++ be_bytes 8 (8 * zlen c))))) = gcm_tag key (gcm_nonce n) ad c.
Proof.
  intros n ad c. unfold gcm_tag. cbv zeta. destruct (nonce_shape n) as [Bn Ln]. destruct (ctr_block (gcm_nonce n) 1 Bn Ln) as [Bc Lc].
  rewrite <- J0_ctr in Bc, Lc. rewrite GCTR_one by (first [apply zlen_be_bytes | assumption]). reflexivity.
Qed.

Lemma put_tag : forall len (c tag mem : list Z), zlen c = len -> zlen tag = 16 -> 0 <= len ->
  splice len tag (c ++ drop len mem) = c ++ tag ++ drop (len + 16) mem.
Proof.
  intros len c tag mem Lc L16 Hl. unfold splice. rewrite L16. assert (take len (c ++ drop len mem) = c) as -> by (rewrite <- Lc at 1; apply take_app_exact).
  f_equal. f_equal. replace (len + 16) with (16 + len) by lia. rewrite <- drop_drop by lia.
  assert (drop len (c ++ drop len mem) = drop len mem) as -> by (rewrite <- Lc at 1; apply drop_app_exact).
  now rewrite drop_drop by lia.
Qed.
(** encryption of a text of any length, given what the stream is *)
Lemma encrypt_with : forall st n ad mem len (P : list Z -> Prop), ag_keyed st -> bytes ad -> 0 <= len -> len + 16 <= zlen mem ->
  (forall st1, ready n (ad ++ gcm_pad ad) st1 -> exists ctr c, P c /\ zlen c = len /\ bytes c /\
     aesgcm_encrypt_or_decrypt st1 mem len = Ok (AGState (ag_aes st1) (ag_ghash st1) ctr (ag_hash st1), c ++ drop len mem)) ->
  exists st' c, ag_keyed st' /\ P c /\ zlen c = len /\ bytes c /\
    aesgcm_encrypt b st n ad mem len = Ok (E_NONE, st', c ++ gcm_tag key (gcm_nonce n) ad c ++ drop (len + 16) mem).
Proof.
  intros st n ad mem len P Ks Ha Hl Lm HP. destruct (setup_ready st n Ks) as (st0 & E0 & R0).
  pose proof (ad_ready st0 n ad Ha R0) as R1. destruct (HP _ R1) as (ctr & c & Pc & Lc & Bc & Ec).
  unfold aesgcm_encrypt. rewrite E0. cbn [obind]. cbv zeta. rewrite Ec. cbn [obind ag_aes ag_ghash ag_counter ag_hash].
  destruct R1 as (W & L & A & C & H). set (st1 := aesgcm_ad b st0 ad) in *. clearbody st1.
  assert (take len (c ++ drop len mem) = c) as -> by (rewrite <- Lc at 1; apply take_app_exact).
  apply (fun A => absorbs_update b H_of _ _ _ A Bc) in A.
  destruct (nonce_shape n) as [Bn Ln]. destruct (ctr_block (gcm_nonce n) 1 Bn Ln) as [Bc' Lc']. rewrite <- J0_ctr in Bc', Lc'.
  destruct (aes8_shape key Hk Lk _ Bc' Lc') as [B16 L16].
  destruct (finalize_tag (AGState (ag_aes st1) (ghash_update b (ag_ghash st1) c) ctr (ag_hash st1)) ad c _ Ha Bc A H L16) as (F1 & F2 & F3 & F4).
  rewrite Lc in F1, F2, F3, F4 at 1.
  destruct (aesgcm_finalize_hash b _ (zlen ad) len) as [st' mac]. cbn [fst snd ag_aes ag_counter] in F1, F2, F3, F4.
  exists st', c. split; [|split; [exact Pc|split; [exact Lc|split; [exact Bc|]]]].
  - unfold ag_keyed. rewrite F1. exact (conj W (conj L F3)).
  - apply f_equal, f_equal. rewrite F4. rewrite <- tag_of. rewrite Lc. apply put_tag; [exact Lc| |exact Hl].
    rewrite zlen_xors; rewrite zlen_be_bytes; lia.
Qed.
Lemma encrypt_spec : forall st n ad mem len, ag_keyed st -> bytes ad -> bytes mem -> 0 <= len -> len + 16 <= zlen mem -> len <= 16 * 65534 ->
  exists st', ag_keyed st' /\
    aesgcm_encrypt b st n ad mem len =
    Ok (E_NONE, st', let '(c, tag) := gcm_encrypt key (gcm_nonce n) ad (take len mem) in c ++ tag ++ drop (len + 16) mem).
Proof.
  intros st n ad mem len Ks Ha Hm Hl Lm Hmax.
  destruct (encrypt_with st n ad mem len (fun c => c = GCTR key (inc32 (J0 (gcm_nonce n))) (take len mem)) Ks Ha Hl Lm)
    as (st' & c & K' & -> & Lc & Bc & E).
  - intros st1 (W & L & A & C & H). destruct (crypt_stream n st1 mem len W C ltac:(lia) Hmax) as (ctr & Ec).
    assert (zlen (take len mem) = len) as Lt by (rewrite zlen_take; lia).
    destruct (GCTR_shape n (take len mem) (bytes_take _ _ Hm) ltac:(lia)) as [L2 B2]. rewrite Lt in L2.
    exists ctr, (GCTR key (inc32 (J0 (gcm_nonce n))) (take len mem)).
    split; [reflexivity|]. split; [exact L2|]. split; [exact B2|exact Ec].
  - exists st'. split; [exact K'|]. rewrite E. reflexivity.
Qed.
Lemma decrypt_spec : forall st n ad mem len, ag_keyed st -> bytes ad -> bytes mem -> 0 <= len -> len + 16 <= zlen mem -> len <= 16 * 65534 ->
  exists st', ag_keyed st' /\
    aesgcm_decrypt b st n ad mem len =
    Ok (match gcm_decrypt key (gcm_nonce n) ad (take len mem) (sub len 16 mem) with
        | Some p => (E_NONE, st', p ++ drop len mem)
        | None => (E_MAC_FAILURE, st', mem)
        end).
Proof.
  intros st n ad mem len Ks Ha Hm Hl Lm Hmax. destruct (setup_ready st n Ks) as (st0 & E0 & R0).
  pose proof (ad_ready st0 n ad Ha R0) as (W & L & A & C & H). unfold aesgcm_decrypt. rewrite E0. cbn [obind]. cbv zeta.
  set (st1 := aesgcm_ad b st0 ad) in *. clearbody st1.
  set (c := take len mem) in *. assert (zlen c = len) as Lc by (unfold c; rewrite zlen_take; lia).
  assert (bytes c) as Bc by (now apply bytes_take).
  apply (fun A => absorbs_update b H_of _ _ _ A Bc) in A.
  destruct (nonce_shape n) as [Bn Ln]. destruct (ctr_block (gcm_nonce n) 1 Bn Ln) as [Bc' Lc']. rewrite <- J0_ctr in Bc', Lc'.
  destruct (aes8_shape key Hk Lk _ Bc' Lc') as [B16 L16].
  destruct (finalize_tag (AGState (ag_aes st1) (ghash_update b (ag_ghash st1) c) (ag_counter st1) (ag_hash st1)) ad c _ Ha Bc A H L16) as (F1 & F2 & F3 & F4).
  rewrite tag_of in F4. rewrite Lc in F1, F2, F3, F4 at 1.
  destruct (aesgcm_finalize_hash b _ (zlen ad) len) as [st' mac]. cbn [fst snd ag_aes ag_counter] in F1, F2, F3, F4. cbn [ag_hash].
  destruct (tag_shape n ad c) as [Lt Bt]. rewrite <- F4 in Lt, Bt.
  assert (bytes (sub len 16 mem)) as Hsub by (unfold sub; apply bytes_take, bytes_drop; exact Hm).
  assert (zlen (sub len 16 mem) = 16) as Lsub by (rewrite zlen_sub; lia).
  destruct (C40_is_equal_exact (sub len 16 mem) mac Hsub Bt ltac:(lia)) as [T F].
  unfold gcm_decrypt. rewrite <- F4. destruct (list_eq_dec Z.eq_dec (sub len 16 mem) mac) as [E|E].
  - assert (noise_is_equal (sub len 16 mem) mac = 1) as -> by (apply T; congruence). change (1 =? 0) with false. cbv iota.
    destruct (crypt_stream n (AGState (ag_aes st') (ag_ghash st') (ag_counter st') mac) mem len) as (ctr & Ec);
      [cbn [ag_aes]; rewrite F1; exact W|cbn [ag_counter]; rewrite F2; exact C|lia|exact Hmax|].
    rewrite Ec. cbn [obind fst snd ag_aes ag_ghash ag_hash]. eexists. split; [|reflexivity].
    unfold ag_keyed. cbn [ag_aes ag_ghash]. rewrite F1. exact (conj W (conj L F3)).
  - assert (noise_is_equal (sub len 16 mem) mac = 0) as -> by (apply F; congruence). change (0 =? 0) with true. cbv iota.
    eexists. split; [|reflexivity]. unfold ag_keyed. cbn [ag_aes ag_ghash]. rewrite F1. exact (conj W (conj L F3)).
Qed.
End Backend.

(** ** Shapes, for any key, nonce and length *)
Lemma third : forall A B C (x x' : A) (y y' : B) (z z' : C), (x, y, z) = (x', y', z') -> z = z'.
Proof. intros A B C x x' y y' z z' H. now injection H. Qed.
Lemma finalize_len : forall b st a d, zlen (snd (aesgcm_finalize_hash b st a d)) = 16.
Proof. intros b st a d. reflexivity. Qed.
Lemma crypt_any : forall st data len r, aesgcm_encrypt_or_decrypt st data len = Ok r -> 0 <= len <= zlen data ->
  zlen (snd r) = zlen data /\ drop len (snd r) = drop len data /\ (bytes data -> bytes (snd r)) /\
  ag_aes (fst r) = ag_aes st /\ ag_ghash (fst r) = ag_ghash st /\ ag_hash (fst r) = ag_hash st.
Proof.
  intros st data len r E Hl. unfold aesgcm_encrypt_or_decrypt in E. apply obind_ok in E. destruct E as (x & X & E).
  apply ok_inj in E. rewrite <- E. cbn [fst snd ag_aes ag_ghash ag_hash]. apply loop_shape in X; [|exact Hl]. tauto.
Qed.
Lemma init_long : forall b st key st', aesgcm_init_key b st key = Ok st' -> 32 <= zlen key /\ aesgcm_init_key b st (take 32 key) = Ok st'.
Proof.
  intros b st key st' E. unfold aesgcm_init_key in *. apply obind_ok in E. destruct E as (k & X & E). unfold load in *.
  change ((0 <=? 0) && (0 <=? 32))%bool with true in *. cbn [andb] in *. destruct (Z.leb_spec (0 + 32) (zlen key)) as [L|L]; [|discriminate X].
  apply ok_inj in X. assert (zlen (take 32 key) = 32) as L32 by (rewrite zlen_take; lia). split; [lia|].
  rewrite L32. change (0 + 32 <=? 32) with true. cbv iota. cbn [obind].
  assert (sub 0 32 (take 32 key) = k) as ->; [|exact E].
  rewrite <- X. unfold sub. rewrite !drop_le0 by lia. rewrite take_take. reflexivity.
Qed.
Lemma encrypt_len : forall b st n ad mem len e st' mem', 0 <= len -> len + 16 <= zlen mem ->
  aesgcm_encrypt b st n ad mem len = Ok (e, st', mem') -> zlen mem' = zlen mem.
Proof.
  intros b st n ad mem len e st' mem' Hl Lm E. unfold aesgcm_encrypt in E. apply obind_ok in E. destruct E as (st0 & _ & E). cbv zeta in E.
  apply obind_ok in E. destruct E as ([st1 m1] & X & E). apply crypt_any in X; [|lia]. cbn [fst snd] in X.
  pose proof (finalize_len b (AGState (ag_aes st1) (ghash_update b (ag_ghash st1) (take len m1)) (ag_counter st1) (ag_hash st1)) (zlen ad) len) as L16.
  destruct (aesgcm_finalize_hash b _ (zlen ad) len) as [st2 mac]. cbn [snd] in L16.
  apply ok_inj in E. injection E as _ _ <-. rewrite splice_length; lia.
Qed.
Lemma decrypt_any : forall b st n ad mem len e st' mem', 0 <= len <= zlen mem ->
  aesgcm_decrypt b st n ad mem len = Ok (e, st', mem') -> zlen mem' = zlen mem /\ (bytes mem -> bytes mem').
Proof.
  intros b st n ad mem len e st' mem' Hl E. unfold aesgcm_decrypt in E. apply obind_ok in E. destruct E as (st0 & _ & E). cbv zeta in E.
  destruct (aesgcm_finalize_hash b _ (zlen ad) len) as [st2 mac]. destruct (noise_is_equal _ _ =? 0).
  - apply ok_inj in E. injection E as _ _ <-. auto.
  - apply obind_ok in E. destruct E as (r & X & E). apply crypt_any in X; [|exact Hl]. apply ok_inj in E. injection E as _ _ <-. tauto.
Qed.
Lemma encrypt_bytes : forall b k st n ad mem len e st' mem', bytes k -> bytes ad -> bytes mem -> 0 <= len -> len + 16 <= zlen mem ->
  zlen (ag_aes st) = 60 -> (let! st := aesgcm_init_key b st k in aesgcm_encrypt b st n ad mem len) = Ok (e, st', mem') -> bytes mem'.
Proof.
  intros b k st n ad mem len e st' mem' Hk Ha Hm Hl Lm L60 E. apply obind_ok in E. destruct E as (st0 & I & E).
  apply init_long in I. destruct I as [L I]. assert (bytes (take 32 k)) as Hk' by (now apply bytes_take).
  assert (zlen (take 32 k) = 32) as Lk' by (rewrite zlen_take; lia).
  destruct (init_keyed b (take 32 k) Hk' Lk' st L60) as (st0' & I' & K). rewrite I in I'. apply ok_inj in I'. subst st0'.
  (* whatever the stream is, it is made of bytes *)
  assert (X := E). unfold aesgcm_encrypt in X. apply obind_ok in X. destruct X as (stA & XA & X). cbv zeta in X.
  apply obind_ok in X. destruct X as ([stB mB] & XB & _). pose proof XB as XS. apply crypt_any in XS; [|lia].
  destruct XS as (S1 & S2 & S3 & S4 & S5 & S6). cbn [fst snd] in *.
  destruct (encrypt_with b (take 32 k) Hk' Lk' st0 n ad mem len (fun _ => True) K Ha Hl Lm) as (st1 & c & _ & _ & Lc & Bc & E').
  - intros st2 R. destruct (setup_ready b (take 32 k) Hk' Lk' st0 n K) as (stA' & XA' & RA').
    (* the stream depends on the key and the counter alone *)
    pose proof (ad_ready b (take 32 k) stA' n ad Ha RA') as RB. rewrite XA in XA'. apply ok_inj in XA'. subst stA'.
    destruct R as (W2 & _ & _ & C2 & _). destruct RB as (WB & _ & _ & CB & _).
    unfold aesgcm_encrypt_or_decrypt in XB |- *. apply obind_ok in XB. destruct XB as (r & Xr & XB). apply ok_inj in XB.
    assert (forall fuel ctr data len aes aes', words_in (take 32 k) 8 aes 60 -> words_in (take 32 k) 8 aes' 60 -> bytes ctr -> zlen ctr = 16 ->
      aesgcm_loop fuel aes ctr data len = aesgcm_loop fuel aes' ctr data len) as SAME.
    { clear - Hk' Lk'. induction fuel as [|fuel IH]; intros ctr data len aes aes' W W' Hc Lc; [reflexivity|]. cbn [aesgcm_loop].
      destruct (len >? 0); [|reflexivity]. cbv zeta.
      assert (bytes (bump_counter ctr) /\ zlen (bump_counter ctr) = 16) as [Bb Lb].
      { unfold bump_counter. cbv zeta. split.
        - apply bytes_splice; [|apply bytes_splice; [|exact Hc]]; apply Forall_cons; try apply Forall_nil; unfold is_byte; apply Z.mod_pos_bound; lia.
        - rewrite !splice_length; try rewrite splice_length; change (forall x, zlen [x] = 1) || idtac; unfold zlen in *; cbn [length]; lia. }
      rewrite (enc8 (take 32 k) Hk' Lk' aes _ W Bb Lb), (enc8 (take 32 k) Hk' Lk' aes' _ W' Bb Lb). cbn [obind].
      rewrite (IH _ _ _ aes aes' W W' Bb Lb). reflexivity. }
    destruct (nonce_shape n) as [Bn Ln]. destruct (ctr_block (gcm_nonce n) 1 Bn Ln) as [Bj Lj]. rewrite <- J0_ctr in Bj, Lj.
    rewrite CB in Xr. rewrite C2, (SAME _ _ _ _ (ag_aes st2) (ag_aes (aesgcm_ad b stA ad)) W2 WB Bj Lj), Xr. cbn [obind].
    injection XB as XB1 XB2. exists (fst r), (take len mB). split; [exact Logic.I|].
    split; [rewrite zlen_take; lia|]. split; [apply bytes_take; auto|].
    rewrite XB2. apply f_equal, f_equal. rewrite <- S2. symmetry. apply take_drop.
  - rewrite E in E'. apply ok_inj in E'. apply third in E'. rewrite E'.
    apply bytes_app. split; [exact Bc|]. apply bytes_app. split; [apply (tag_shape (take 32 k) Hk' Lk')|now apply bytes_drop].
Qed.
Lemma aesgcm_shape : forall b, cipher_shape (aesgcm b).
Proof.
  intros b. constructor; cbn [aesgcm ca_mac_len ca_key_len ca_encrypt ca_decrypt]; unfold MAX_PAYLOAD_LEN; try lia;
    intros k n ad pt; unfold ag_result; pose proof (zlen_nonneg Z pt).
  - destruct (obind _ _) as [[[e st'] mem']|] eqn:E; cbn [snd].
    + apply obind_ok in E. destruct E as (st & _ & E). apply encrypt_len in E; [|lia|rewrite zlen_app, zlen_zeros; lia].
      rewrite E, zlen_app, zlen_zeros; lia.
    + rewrite zlen_app, zlen_zeros; lia.
  - intros Hk Ha Hp. assert (bytes (pt ++ zeros 16)) as B by (apply bytes_app; split; [exact Hp|apply bytes_zeros]).
    destruct (obind _ _) as [[[e st'] mem']|] eqn:E; cbn [snd]; [|exact B].
    apply encrypt_bytes in E; [exact E|exact Hk|exact Ha|exact B|lia|rewrite zlen_app, zlen_zeros; lia|reflexivity].
  - intros L. destruct (obind _ _) as [[[e st'] mem']|] eqn:E; cbn [snd]; [|reflexivity].
    apply obind_ok in E. destruct E as (st & _ & E). apply decrypt_any in E; [apply E|lia].
  - intros Hk Ha Hp. destruct (obind _ _) as [[[e st'] mem']|] eqn:E; cbn [snd]; [|exact Hp].
    apply obind_ok in E. destruct E as (st & _ & E).
    destruct (Z.leb_spec 16 (zlen pt)) as [L|L]; [apply decrypt_any in E; [now apply E|lia]|].
    unfold aesgcm_decrypt in E. apply obind_ok in E. destruct E as (st0 & _ & E). cbv zeta in E.
    destruct (aesgcm_finalize_hash b _ (zlen ad) _) as [st2 mac]. destruct (noise_is_equal _ _ =? 0).
    + apply ok_inj in E. injection E as _ _ <-. exact Hp.
    + apply obind_ok in E. destruct E as (r & X & E). apply ok_inj in E. injection E as _ _ <-.
      unfold aesgcm_encrypt_or_decrypt in X. apply obind_ok in X. destruct X as (r' & X & X'). apply ok_inj in X'. rewrite <- X'. cbn [snd].
      cbn [aesgcm_loop] in X. destruct (Z.gtb_spec (zlen pt - 16) 0); [lia|]. apply ok_inj in X. rewrite <- X. exact Hp.
Qed.
