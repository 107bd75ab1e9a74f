(** Facts about the random number generator *)
From Verif Require Import Base MHash MSha2 MBlake2 SSha2 SBlake2 PSha2 PSha2b PBlake2 MChaCha SChaCha PChaCha TChaCha MRand SRand.

Definition blocks_from (n : Z) (acts : list act) : Z :=
  fold_left (fun n a => match a with Emit len => n + (len + 63) / 64 | _ => 0 end) acts n.
Definition bytes_from (n : Z) (acts : list act) : Z :=
  fold_left (fun n a => match a with Emit len => n + len | Rekey => n | Reseed _ => 0 end) acts n.
Definition sched (n m : Z) (acts : list act) : Prop :=
  forall pre post, acts = pre ++ post -> blocks_from n pre <= 17 /\ bytes_from m pre <= 1600064.
Lemma sched_nil : forall n m, n <= 17 -> m <= 1600064 -> sched n m [].
Proof. intros n m H1 H2 pre post E. symmetry in E. apply app_eq_nil in E. destruct E as [-> ->]. auto. Qed.
Lemma sched_cons : forall n m a acts, n <= 17 -> m <= 1600064 ->
  sched (blocks_from n [a]) (bytes_from m [a]) acts -> sched n m (a :: acts).
Proof.
  intros n m a acts H1 H2 H pre post E. destruct pre as [|a' pre]; [auto|].
  injection E as <- E. exact (H pre post E).
Qed.
Lemma sched_app : forall a n m c, sched n m a -> sched (blocks_from n a) (bytes_from m a) c -> sched n m (a ++ c).
Proof.
  intros a. induction a as [|x a IH]; intros n m c Ha Hc; [exact Hc|]. cbn [app].
  destruct (Ha [] _ eq_refl) as [B1 B2]. apply sched_cons; [exact B1|exact B2|]. apply IH; [|exact Hc].
  intros pre post E. exact (Ha (x :: pre) post ltac:(cbn [app]; congruence)).
Qed.
Lemma blocks_from_app : forall n a c, blocks_from n (a ++ c) = blocks_from (blocks_from n a) c.
Proof. intros. apply fold_left_app. Qed.
Lemma bytes_from_app : forall n a c, bytes_from n (a ++ c) = bytes_from (bytes_from n a) c.
Proof. intros. apply fold_left_app. Qed.
Lemma fresh_app : forall a c, fresh_data (a ++ c) = fresh_data a ++ fresh_data c.
Proof. intros a c. induction a as [|x a IH]; [reflexivity|]. destruct x; cbn [app fresh_data]; rewrite IH; reflexivity. Qed.
Lemma run_app : forall a g c, act_run g (a ++ c) =
  (fst (act_run (fst (act_run g a)) c), snd (act_run g a) ++ snd (act_run (fst (act_run g a)) c)).
Proof.
  intros a. induction a as [|x a IH]; intros g c; cbn [app act_run fst snd].
  - destruct (act_run g c); reflexivity.
  - destruct (act_step g x) as [g1 o1]. rewrite IH. destruct (act_run g1 a) as [g2 o2]. cbn [fst snd].
    rewrite app_assoc. reflexivity.
Qed.
Lemma run_block : forall acts g, g_block (fst (act_run g acts)) = blocks_from (g_block g) acts.
Proof.
  intros acts. induction acts as [|x a IH]; intros g; [reflexivity|]. cbn [act_run].
  destruct (act_step g x) as [g1 o1] eqn:E. specialize (IH g1). destruct (act_run g1 a) as [g2 o2]. cbn [fst] in *. rewrite IH.
  unfold blocks_from. cbn [fold_left]. f_equal. destruct x; cbn [act_step] in E; injection E as <- _; reflexivity.
Qed.

Lemma keysetup_long : forall b key, b <> CC_ScalarBE -> bytes key -> 32 <= zlen key ->
  chacha_keysetup b key 256 = chacha20_state (take 32 key) 0 (zeros 12).
Proof.
  intros b key Hb Hk Lk. unfold chacha_keysetup. change (256 =? 256) with true. cbv iota.
  rewrite key_words_spec by (auto; lia).
  assert (native_words b tag256 = [0x61707865; 0x3320646e; 0x79622d32; 0x6b206574]) as ->
    by (destruct b; [reflexivity|reflexivity|now elim Hb]).
  unfold zlen in Lk. do 32 (destruct key as [|? key]; [cbn [length] in Lk; lia|]). reflexivity.
Qed.

Lemma zeros_app : forall a c, 0 <= a -> 0 <= c -> zeros a ++ zeros c = zeros (a + c).
Proof. intros a c Ha Hc. unfold zeros. rewrite Z2Nat.inj_add by lia. symmetry. apply repeat_app. Qed.

Section Rand.
Variable b : cc_build.
Hypothesis order : b <> CC_ScalarBE.
Variable temp : list Z.
Hypothesis temp_bytes : bytes temp.
Hypothesis temp_len : zlen temp = 64.
Variable entropy : nat -> list Z.
Hypothesis entropy_ok : forall i, bytes (entropy i) /\ zlen (entropy i) = 40.

(** The object holds the generator [g] *)
Definition holds_gen (g : gen) (s : randstate) : Prop :=
  rs_chacha s = chacha20_state (g_key g) (g_block g) (g_nonce g) /\
  bytes (g_key g) /\ bytes (g_nonce g) /\ 0 <= g_block g <= 17 /\ 0 <= rs_left s.

Lemma new_key_spec : forall g data, bytes (g_key g) -> bytes (g_nonce g) -> 0 <= g_block g <= 17 ->
  bytes data -> zlen data = 40 ->
  new_key b temp (chacha20_state (g_key g) (g_block g) (g_nonce g)) data =
    chacha20_state (g_key (change g data)) 0 (g_nonce (change g data)) /\
  bytes (g_key (change g data)) /\ bytes (g_nonce (change g data)) /\ g_block (change g data) = 0.
Proof.
  intros g data Hk Hn Hb Hd Ld. unfold new_key.
  rewrite encrypt_bytes_spec by (first [assumption | lia]).
  rewrite take_all, drop_all by lia. rewrite app_nil_r. unfold change. cbn [g_key g_nonce g_block]. cbv zeta.
  set (d := chacha20_encrypt (g_key g) (g_block g) (g_nonce g) data).
  assert (bytes d) as Bd by (apply bytes_encrypt; exact Hd).
  assert (zlen d = 40) as Ldd by (unfold d; rewrite zlen_encrypt; exact Ld).
  split; [|split; [now apply bytes_take|split; [apply bytes_app; split; [apply bytes_zeros|now apply bytes_drop]|reflexivity]]].
  rewrite keysetup_long by (first [assumption | lia]).
  rewrite ivsetup_spec by (first [now apply bytes_drop | rewrite zlen_drop; lia]).
  rewrite (take_all _ 8) by (rewrite zlen_drop; lia). reflexivity.
Qed.

(** What the actions [acts] do to the object *)
Definition moves (g : gen) (s : randstate) (m : Z) (acts : list act) (s' : randstate) : Prop :=
  holds_gen (fst (act_run g acts)) s' /\ bytes_from m acts + rs_left s' <= 1600064 /\
  sched (g_block g) m acts /\
  fresh_data acts = map entropy (seq (rs_reads s) (length (fresh_data acts))) /\
  rs_reads s' = (rs_reads s + length (fresh_data acts))%nat.

Lemma moves_nil : forall g s m, holds_gen g s -> m + rs_left s <= 1600064 -> moves g s m [] s.
Proof.
  intros g s m H Hm. unfold moves. cbn [act_run fst fresh_data length seq map]. split; [exact H|]. split; [exact Hm|].
  destruct H as (_ & _ & _ & Hb & Hl). split; [apply sched_nil; lia|]. split; [reflexivity|]. lia.
Qed.
Lemma moves_app : forall g s m a s1 c s2, moves g s m a s1 ->
  moves (fst (act_run g a)) s1 (bytes_from m a) c s2 -> moves g s m (a ++ c) s2.
Proof.
  intros g s m a s1 c s2 (A1 & A2 & A3 & A4 & A5) (C1 & C2 & C3 & C4 & C5). unfold moves.
  rewrite run_app. cbn [fst]. split; [exact C1|]. split; [rewrite bytes_from_app; exact C2|].
  split; [apply sched_app; [exact A3|]; rewrite <- run_block; exact C3|].
  rewrite fresh_app, app_length, seq_app, map_app, <- A4. rewrite A5 in C4. rewrite <- C4. split; [reflexivity|]. lia.
Qed.
Lemma moves_rekey : forall g s m, holds_gen g s -> m + rs_left s <= 1600064 ->
  moves g s m [Rekey] (randstate_rekey b temp s).
Proof.
  intros g s m (E & Hk & Hn & Hb & Hl) Hm. unfold moves, randstate_rekey. cbn [act_run act_step fst fresh_data length seq map rs_left rs_reads].
  destruct (new_key_spec g (zeros 40) Hk Hn Hb (bytes_zeros 40) eq_refl) as (N1 & N2 & N3 & N4). rewrite E.
  split; [|split; [exact Hm|split; [|split; [reflexivity|lia]]]].
  - unfold holds_gen. cbn [rs_chacha rs_left]. rewrite N4. split; [exact N1|]. split; [exact N2|]. split; [exact N3|]. lia.
  - apply sched_cons; [lia|lia|]. apply sched_nil; [cbn; lia|]. change (bytes_from m [Rekey]) with m. lia.
Qed.
Lemma moves_reseed : forall g s m, holds_gen g s -> m + rs_left s <= 1600064 ->
  moves g s m [Reseed (entropy (rs_reads s)); Rekey] (randstate_reseed b temp entropy s) /\
  rs_left (randstate_reseed b temp entropy s) = 1600000.
Proof.
  intros g s m (E & Hk & Hn & Hb & Hl) Hm. unfold moves, randstate_reseed. cbv zeta. split; [|reflexivity].
  destruct (entropy_ok (rs_reads s)) as [He Le].
  destruct (new_key_spec g (entropy (rs_reads s)) Hk Hn Hb He Le) as (N1 & N2 & N3 & N4).
  destruct (new_key_spec (change g (entropy (rs_reads s))) (zeros 40) N2 N3 ltac:(lia) (bytes_zeros 40) eq_refl) as (M1 & M2 & M3 & M4).
  rewrite N4 in M1. rewrite E, N1, M1.
  cbn [act_run act_step fst fresh_data length seq map rs_left rs_reads].
  split; [|split; [|split; [|split; [reflexivity|lia]]]].
  - unfold holds_gen. cbn [rs_chacha rs_left]. rewrite M4. split; [reflexivity|]. split; [exact M2|]. split; [exact M3|].
    unfold RAND_RESEED_COUNT. lia.
  - cbn. unfold RAND_RESEED_COUNT. lia.
  - apply sched_cons; [lia|lia|]. apply sched_cons; [cbn; lia|cbn; lia|]. apply sched_nil; cbn; lia.
Qed.
Lemma emit_blocks : forall len, 0 < len <= 64 -> (len + 63) / 64 = 1.
Proof. intros len H. symmetry. apply (Z.div_unique _ _ _ (len - 1)); lia. Qed.

Lemma loop_moves : forall fuel g s m blocks data len, holds_gen g s ->
  g_block g <= blocks + 1 -> 0 <= blocks <= 16 -> m + rs_left s <= 1600064 ->
  bytes data -> 0 <= len <= zlen data -> take len data = zeros len -> (Z.to_nat ((len + 63) / 64) < fuel)%nat ->
  exists acts s', generate_loop b temp entropy fuel s blocks data len = (s', snd (act_run g acts) ++ drop len data) /\
    zlen (snd (act_run g acts)) = len /\ moves g s m acts s'.
Proof.
  intros fuel. induction fuel as [|fuel IH]; intros g s m blocks data len Hs Hgb Hbl Hm Hd Hl Hz Hf; [lia|].
  cbn [generate_loop]. destruct (len >? 0) eqn:E0.
  2:{ assert (len = 0) as -> by (rewrite Z.gtb_ltb in E0; apply Z.ltb_ge in E0; lia).
      exists [], s. rewrite drop_le0 by lia. split; [reflexivity|]. split; [reflexivity|]. now apply moves_nil. }
  apply Z.gtb_lt in E0. cbv zeta. set (tl := if len >? 64 then 64 else len).
  assert (0 < tl <= 64 /\ tl <= len) as [T1 T2].
  { unfold tl. destruct (len >? 64) eqn:E1; [apply Z.gtb_lt in E1|rewrite Z.gtb_ltb in E1; apply Z.ltb_ge in E1]; lia. }
  assert (len - tl = 0 \/ tl = 64) as T3.
  { unfold tl. destruct (len >? 64) eqn:E1; [now right|left; lia]. }
  (* the counter of bytes *)
  assert (exists a1 s1 blocks1, (if rs_left s >=? 64 then (RandState (rs_left s - 64) (rs_chacha s) (rs_reads s), blocks)
        else (randstate_reseed b temp entropy s, 0)) = (s1, blocks1) /\
     holds_gen (fst (act_run g a1)) s1 /\ sched (g_block g) m a1 /\
     fresh_data a1 = map entropy (seq (rs_reads s) (length (fresh_data a1))) /\
     rs_reads s1 = (rs_reads s + length (fresh_data a1))%nat /\
     bytes_from m a1 + rs_left s1 <= 1600000 /\ snd (act_run g a1) = [] /\
     g_block (fst (act_run g a1)) <= blocks1 + 1 /\ 0 <= blocks1 <= 16)
   as (a1 & s1 & blocks1 & -> & A1 & A2 & A3 & A4 & A5 & A6 & A7 & A8).
  { destruct (rs_left s >=? 64) eqn:E1.
    - apply Z.geb_le in E1. exists [], (RandState (rs_left s - 64) (rs_chacha s) (rs_reads s)), blocks.
      cbn [act_run fst snd fresh_data length seq map rs_left rs_reads bytes_from fold_left].
      destruct Hs as (X1 & X2 & X3 & X4 & X5).
      split; [reflexivity|]. split; [unfold holds_gen; cbn [rs_chacha rs_left]; split; [exact X1|]; split; [exact X2|]; split; [exact X3|]; lia|].
      split; [apply sched_nil; lia|]. split; [reflexivity|]. split; [lia|]. split; [lia|]. split; [reflexivity|]. lia.
    - destruct (moves_reseed g s m Hs Hm) as [(M1 & M2 & M3 & M4 & M5) ML].
      exists [Reseed (entropy (rs_reads s)); Rekey], (randstate_reseed b temp entropy s), 0.
      split; [reflexivity|]. split; [exact M1|]. split; [exact M3|]. split; [exact M4|]. split; [exact M5|].
      split; [rewrite ML; cbn; lia|]. split; [reflexivity|]. split; [rewrite run_block; cbn; lia|lia]. }
  (* the counter of blocks *)
  set (g1 := fst (act_run g a1)) in *. set (m1 := bytes_from m a1) in *.
  assert (exists a2 s2 blocks2, (if blocks1 >=? RAND_REKEY_COUNT then (randstate_rekey b temp s1, 0) else (s1, blocks1 + 1)) = (s2, blocks2) /\
     moves g1 s1 m1 a2 s2 /\ snd (act_run g1 a2) = [] /\ bytes_from m1 a2 + rs_left s2 <= 1600000 /\
     g_block (fst (act_run g1 a2)) <= blocks2 /\ 0 <= blocks2 <= 16)
   as (a2 & s2 & blocks2 & -> & B1 & B2 & B3 & B4 & B5).
  { unfold RAND_REKEY_COUNT. destruct (blocks1 >=? 16) eqn:E2.
    - exists [Rekey], (randstate_rekey b temp s1), 0. split; [reflexivity|]. split; [apply moves_rekey; [exact A1|lia]|].
      split; [reflexivity|]. split; [exact A5|]. split; [rewrite run_block; cbn; lia|lia].
    - rewrite Z.geb_leb in E2. apply Z.leb_gt in E2. exists [], s1, (blocks1 + 1). split; [reflexivity|].
      split; [apply moves_nil; [exact A1|lia]|]. split; [reflexivity|]. split; [exact A5|]. cbn [act_run fst]. lia. }
  assert (moves g s m (a1 ++ a2) s2) as M12.
  { apply (moves_app g s m a1 s1 a2 s2); [|exact B1]. unfold moves. fold g1 m1.
    split; [exact A1|]. split; [lia|]. split; [exact A2|]. split; [exact A3|exact A4]. }
  set (g2 := fst (act_run g1 a2)) in *. set (m2 := bytes_from m1 a2) in *.
  assert (holds_gen g2 s2) as (X1 & X2 & X3 & X4 & X5) by apply B1.
  rewrite X1. rewrite encrypt_bytes_spec by (first [assumption | lia]).
  assert (blocks_in tl = 1) as -> by (unfold blocks_in; now apply emit_blocks).
  assert (take tl data = zeros tl) as Zt.
  { assert (take tl (take len data) = take tl data) as <- by (rewrite take_take; f_equal; lia). rewrite Hz.
    replace len with (tl + (len - tl)) by lia. rewrite <- zeros_app by lia. rewrite take_app_le by (rewrite zlen_zeros; lia).
    apply take_all. rewrite zlen_zeros; lia. }
  rewrite Zt. set (out := chacha20_encrypt (g_key g2) (g_block g2) (g_nonce g2) (zeros tl)).
  assert (zlen out = tl) as Lo by (unfold out; rewrite zlen_encrypt, zlen_zeros; lia).
  assert (take tl (out ++ drop tl data) = out) as -> by (rewrite <- Lo at 1; apply take_app_exact).
  assert (drop tl (out ++ drop tl data) = drop tl data) as -> by (rewrite <- Lo at 1; apply drop_app_exact).
  set (s3 := RandState (rs_left s2) (chacha20_state (g_key g2) (g_block g2 + 1) (g_nonce g2)) (rs_reads s2)).
  set (g3 := Gen (g_key g2) (g_nonce g2) (g_block g2 + 1)).
  assert (act_run g2 [Emit tl] = (g3, out)) as R3.
  { cbn [act_run act_step]. rewrite emit_blocks by lia. rewrite app_nil_r. reflexivity. }
  assert (moves g2 s2 m2 [Emit tl] s3) as M3.
  { unfold moves. rewrite R3. cbn [fst fresh_data length seq map]. unfold s3. cbn [rs_reads rs_left].
    assert (bytes_from m2 [Emit tl] = m2 + tl) as Eb by reflexivity.
    assert (blocks_from (g_block g2) [Emit tl] = g_block g2 + 1) as En
      by (unfold blocks_from; cbn [fold_left]; rewrite emit_blocks by lia; reflexivity).
    split; [unfold holds_gen, g3; cbn [rs_chacha rs_left g_key g_nonce g_block]; split; [reflexivity|]; split; [exact X2|]; split; [exact X3|]; lia|].
    split; [lia|]. split; [|split; [reflexivity|lia]].
    apply sched_cons; [lia|lia|]. rewrite Eb, En. apply sched_nil; lia. }
  assert (holds_gen g3 s3) as H3 by (destruct M3 as (Y & _); rewrite R3 in Y; exact Y).
  assert (m2 + tl + rs_left s3 <= 1600064) as Hm3 by (unfold s3; cbn [rs_left]; lia).
  destruct (IH g3 s3 (m2 + tl) blocks2 (drop tl data) (len - tl) H3) as (acts & s' & Er & Lr & Mr).
  - unfold g3. cbn [g_block]. lia.
  - lia.
  - exact Hm3.
  - now apply bytes_drop.
  - rewrite zlen_drop. lia.
  - rewrite take_drop_comm by lia. replace (len - tl + tl) with len by lia. rewrite Hz.
    replace len with (tl + (len - tl)) at 1 by lia. rewrite <- zeros_app by lia.
    assert (zlen (zeros tl) = tl) as Lz by (rewrite zlen_zeros; lia). rewrite <- Lz at 1. apply drop_app_exact.
  - destruct T3 as [T3|T3].
    + rewrite T3. change ((0 + 63) / 64) with 0. assert (0 < (len + 63) / 64) by (apply Z.div_str_pos; lia). lia.
    + rewrite T3. replace (len + 63) with (len - 64 + 63 + 1 * 64) in Hf by lia. rewrite Z.div_add in Hf by lia.
      assert (0 <= (len - 64 + 63) / 64) by (apply Z.div_pos; lia). lia.
  - rewrite Er. exists ((a1 ++ a2) ++ [Emit tl] ++ acts), s'.
    assert (snd (act_run g ((a1 ++ a2) ++ [Emit tl] ++ acts)) = out ++ snd (act_run g3 acts)) as Eo.
    { rewrite run_app. cbn [snd]. rewrite run_app. cbn [fst snd]. fold g1. fold g2. rewrite A6, B2. cbn [app].
      change (Emit tl :: acts) with ([Emit tl] ++ acts). rewrite run_app, R3. reflexivity. }
    rewrite Eo. split; [|split].
    + f_equal. rewrite drop_drop by lia.
      replace (len - tl + tl) with len by lia. rewrite <- app_assoc. reflexivity.
    + rewrite zlen_app. lia.
    + assert (fst (act_run g (a1 ++ a2)) = g2) as Rg by (rewrite run_app; reflexivity).
      assert (bytes_from m (a1 ++ a2) = m2) as Rm by (rewrite bytes_from_app; reflexivity).
      apply (moves_app g s m (a1 ++ a2) s2); [exact M12|]. rewrite Rg, Rm.
      apply (moves_app g2 s2 m2 [Emit tl] s3); [exact M3|]. rewrite R3. exact Mr.
Qed.

(** Filling a memory area of [len] zeros *)
Lemma generate_moves : forall g s m mem len, holds_gen g s -> g_block g = 0 -> m + rs_left s <= 1600064 ->
  bytes mem -> 0 <= len <= zlen mem ->
  exists acts s', randstate_generate b temp entropy (Some s) (Some mem) len =
      Ok (E_NONE, Some s', Some (snd (act_run g (acts ++ [Rekey])) ++ drop len mem)) /\
    zlen (snd (act_run g (acts ++ [Rekey]))) = len /\ moves g s m (acts ++ [Rekey]) s'.
Proof.
  intros g s m mem len Hs H0 Hm Hb Hl. unfold randstate_generate, store.
  assert ((0 <=? 0) && (0 + zlen (zeros len) <=? zlen mem) = true) as ->
    by (rewrite zlen_zeros by lia; destruct (Z.leb_spec (0 + len) (zlen mem)); [reflexivity|lia]).
  cbn [obind]. rewrite splice_0. rewrite zlen_zeros by lia. set (z := zeros len ++ drop len mem).
  assert (zlen (zeros len) = len) as Lz by (rewrite zlen_zeros; lia).
  assert (bytes z) as Bz by (apply bytes_app; split; [apply bytes_zeros|now apply bytes_drop]).
  assert (zlen z = zlen mem) as Lzz by (unfold z; rewrite zlen_app, zlen_drop; lia).
  assert (take len z = zeros len) as Tz by (unfold z; rewrite <- Lz at 1; apply take_app_exact).
  assert (drop len z = drop len mem) as Dz by (unfold z; rewrite <- Lz at 1; apply drop_app_exact).
  cbv zeta.
  assert (exists a1, moves g s m a1 (if rs_left s <? len then randstate_reseed b temp entropy s else s) /\
    snd (act_run g a1) = [] /\ g_block (fst (act_run g a1)) = 0) as (a1 & A1 & A2 & A3).
  { destruct (rs_left s <? len).
    - exists [Reseed (entropy (rs_reads s)); Rekey]. split; [now apply moves_reseed|]. split; [reflexivity|]. rewrite run_block. reflexivity.
    - exists []. split; [now apply moves_nil|]. split; [reflexivity|exact H0]. }
  set (s1 := if rs_left s <? len then randstate_reseed b temp entropy s else s) in *.
  set (g1 := fst (act_run g a1)) in *.
  destruct (loop_moves (S (Z.to_nat ((len + 63) / 64))) g1 s1 (bytes_from m a1) 0 z len) as (acts & s' & E & L & M);
    try lia; try assumption; [apply A1|apply A1|].
  rewrite E. exists (a1 ++ acts), (randstate_rekey b temp s').
  assert (moves g s m (a1 ++ acts) s') as M2 by (apply (moves_app g s m a1 s1); assumption).
  assert (snd (act_run g ((a1 ++ acts) ++ [Rekey])) = snd (act_run g1 acts)) as Eo.
  { rewrite run_app. cbn [snd act_run act_step]. rewrite app_nil_r. rewrite run_app. cbn [snd]. fold g1. rewrite A2. reflexivity. }
  rewrite Eo. split; [|split].
  - rewrite Dz. reflexivity.
  - exact L.
  - apply (moves_app g s m (a1 ++ acts) s'); [exact M2|]. apply moves_rekey; apply M2.
Qed.
End Rand.
