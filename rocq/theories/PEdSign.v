(** Keys and signatures of src/crypto/ed25519 *)
From Coq Require Import Field Ring.
From Verif Require Import Base MHash MSha2 MBlake2 SSha2 SBlake2 SHash PSha2 PSha2b PBlake2 PChaCha PGhash MX25519 SX25519 SEd25519 PPoly1305 PPrime PPrimeL PAes MEdTable MEd25519 MEdSlide MEdSign PEdwards PEdRep PX25519 PX25519b PX25519c PX25519d PX25519e PX25519f PEd25519 PEd25519b PEdTable PEd25519c PEd25519d PModm PEdSpec.
Local Close Scope fp_scope.
Local Open Scope Z_scope.

(** ** Hashes *)
Lemma hash_ok : forall junk parts, hctx_ok sha512_alg junk -> bytes (concat parts) -> 8 * zlen (concat parts) < 2 ^ 64 ->
  ed25519_hash junk parts = SHA512 (concat parts).
Proof.
  intros junk parts Hj Hb Hl. unfold ed25519_hash. rewrite <- sha512_code_is_fips by assumption.
  apply sha512_finish_spec. exact (updates_absorb 128 sha512_transform eq_refl sha512_h0 parts _ [] (sha512_reset_absorbed junk Hj)).
Qed.
Lemma sha512_sized : forall m, bytes m -> 8 * zlen m < 2 ^ 64 -> zlen (SHA512 m) = 64 /\ bytes (SHA512 m).
Proof.
  intros m Hb Hl. rewrite <- sha512_code_is_fips by assumption. pose proof sha512_is_law as L. split; apply L.
Qed.
Lemma extsk_ok : forall junk sk, hctx_ok sha512_alg junk -> bytes sk -> zlen sk = 32 ->
  exists lo, ed25519_extsk junk sk = lo ++ ed_prefix sk /\ bytes lo /\ zlen lo = 32 /\ mem_word lo = ed_scalar sk /\ bytes (ed_prefix sk) /\ zlen (ed_prefix sk) = 32.
Proof.
  intros junk sk Hj Hb Hl. unfold ed25519_extsk, ed_scalar, ed_prefix.
  assert (E : ed25519_hash junk [sk] = SHA512 sk).
  { rewrite hash_ok; cbn [concat]; rewrite ?app_nil_r; [reflexivity|exact Hj|exact Hb|rewrite Hl; reflexivity]. }
  rewrite E. destruct (sha512_sized sk Hb ltac:(rewrite Hl; reflexivity)) as [L B]. set (h := SHA512 sk) in *. clearbody h.
  destruct (clamp_ok (take 32 h)) as (C1 & C2 & C3); [now apply bytes_take|rewrite zlen_take; lia|].
  exists (donna_clamp (take 32 h)). split; [reflexivity|]. split; [exact C1|]. split; [exact C2|]. split; [exact C3|].
  split; [now apply bytes_drop|rewrite zlen_drop; lia].
Qed.
Lemma order_L : order_l = ed_L. Proof. reflexivity. Qed.

Section Exact.
Variable w : Z -> Z -> outcome Z.
Hypothesis Hw : exact_in_range w.
(** The point of a scalar, packed *)
Lemma base_pack_ok : forall s, scalar_mod s -> exists g, scalarmult_base_niels w niels_base_multiples s = Ok g /\ ge25519_pack w g = Ok (ed_encode (ed_mult (val56 s) ed_B)).
Proof.
  intros s [L V]. pose proof (val56_range 32 s ltac:(lia) L) as R.
  assert (D : let b := contract256_window4_modm s in length b = 64%nat /\ Forall (fun x => -8 <= x <= 8) b /\ dval b = val56 s).
  { destruct s as [[[[s0 s1] s2] s3] s4]. destruct L as (L0 & L1 & L2 & L3 & L4). apply digits_limbs_ok; [lia|lia|lia|lia|lia|]. unfold val56, order_l in V. lia. }
  destruct (base_any_ok w Hw s (val56 s) D) as (g & E & HG). exists g. split; [exact E|].
  apply (pack_point_ok w Hw g (ed_mult (val56 s) ed_B)); [|apply mult_reduced]. rewrite zm_mult by lia. now apply full_part.
Qed.
Lemma mult_mod : forall k, 0 <= k -> ed_mult (k mod order_l) ed_B = ed_mult k ed_B.
Proof.
  intros k Hk. apply emb_inj; [apply mult_reduced|apply mult_reduced|]. pose proof (Z.mod_pos_bound k order_l ltac:(reflexivity)). rewrite !zm_mult by lia. apply zm_period.
Qed.
Lemma expand_scalar_ok : forall junk sk, hctx_ok sha512_alg junk -> bytes sk -> zlen sk = 32 ->
  exists a, expand256_modm w (ed25519_extsk junk sk) 32 = Ok a /\ scalar_mod a /\ val56 a = ed_scalar sk mod order_l.
Proof.
  intros junk sk Hj Hb Hl. destruct (extsk_ok junk sk Hj Hb Hl) as (lo & -> & B & L & V & Bp & Lp).
  destruct (expand256_ok w Hw (lo ++ ed_prefix sk) 32) as (a & E & S & Va); [apply Forall_app; auto|lia|rewrite zlen_app; lia|].
  exists a. split; [exact E|]. split; [exact S|]. rewrite Va, take_app_le, take_all by lia. now rewrite V.
Qed.
Theorem publickey_ok : forall junk sk, hctx_ok sha512_alg junk -> bytes sk -> zlen sk = 32 -> ed25519_publickey w junk sk = Ok (ed_public sk).
Proof.
  intros junk sk Hj Hb Hl. unfold ed25519_publickey. cbv zeta. destruct (expand_scalar_ok junk sk Hj Hb Hl) as (a & -> & S & Va). cbn [obind].
  destruct (base_pack_ok a S) as (g & -> & E). cbn [obind]. rewrite E, Va. unfold ed_public. rewrite mult_mod; [reflexivity|]. pose proof (scalar_range (take 32 (SHA512 sk))). unfold ed_scalar. lia.
Qed.
Lemma hram_ok : forall junk R A M, hctx_ok sha512_alg junk -> bytes R -> bytes A -> bytes M -> 32 <= zlen R -> zlen A = 32 -> 8 * (64 + zlen M) < 2 ^ 64 ->
  exists k, expand256_modm w (ed25519_hram junk R A M) 64 = Ok k /\ scalar_mod k /\ val56 k = ed_k (take 32 R) A M mod order_l.
Proof.
  intros junk R A M Hj BR BA BM LR LA LM. unfold ed25519_hram, ed_k.
  assert (C : concat [take 32 R; A; M] = take 32 R ++ A ++ M) by (cbn [concat]; now rewrite app_nil_r).
  assert (B : bytes (take 32 R ++ A ++ M)) by (apply Forall_app; split; [now apply bytes_take|apply Forall_app; auto]).
  assert (L : 8 * zlen (take 32 R ++ A ++ M) < 2 ^ 64) by (rewrite !zlen_app, zlen_take; lia).
  rewrite hash_ok by (rewrite ?C; assumption). rewrite C. destruct (sha512_sized _ B L) as [L' B'].
  destruct (expand256_ok w Hw (SHA512 (take 32 R ++ A ++ M)) 64 B') as (k & E & S & V); [lia|lia|]. exists k. split; [exact E|]. split; [exact S|]. rewrite V, take_all by lia. reflexivity.
Qed.
Lemma encode_sized : forall P, ed_reduced P -> bytes (ed_encode P) /\ zlen (ed_encode P) = 32.
Proof. intros P H. unfold ed_encode. split; [apply bytes_le_bytes|rewrite zlen_le_bytes; reflexivity]. Qed.
Theorem sign_ok : forall junk m sk pk, hctx_ok sha512_alg junk -> bytes sk -> zlen sk = 32 -> bytes pk -> zlen pk = 32 -> bytes m -> 8 * (64 + zlen m) < 2 ^ 64 ->
  ed25519_sign w junk m sk pk = Ok (ed_signature sk pk m).
Proof.
  intros junk m sk pk Hj Bs Ls Bp Lp Bm Lm. unfold ed25519_sign. cbv zeta.
  destruct (expand_scalar_ok junk sk Hj Bs Ls) as (a & Ea & Sa & Va). destruct (extsk_ok junk sk Hj Bs Ls) as (lo & Ex & Bl & Ll & _ & Bpre & Lpre).
  rewrite Ex in Ea |- *. assert (D : drop 32 (lo ++ ed_prefix sk) = ed_prefix sk) by (rewrite <- Ll; apply drop_app_exact). rewrite D.
  assert (C : concat [ed_prefix sk; m] = ed_prefix sk ++ m) by (cbn [concat]; now rewrite app_nil_r).
  assert (B : bytes (ed_prefix sk ++ m)) by (apply Forall_app; auto).
  assert (L : 8 * zlen (ed_prefix sk ++ m) < 2 ^ 64) by (rewrite zlen_app; lia).
  rewrite hash_ok by (rewrite ?C; assumption). rewrite C. destruct (sha512_sized _ B L) as [L' B'].
  unfold ed_signature. cbv zeta. set (h := SHA512 (ed_prefix sk ++ m)) in *. clearbody h.
  destruct (expand256_ok w Hw h 64 B') as (r & -> & Sr & Vr); [lia|lia|]. cbn [obind]. rewrite take_all in Vr by lia. change (mem_word h) with (le_val h) in Vr.
  destruct (base_pack_ok r Sr) as (g & -> & E). cbn [obind]. rewrite E. cbn [obind]. rewrite Vr.
  assert (Hn : 0 <= le_val h) by (apply (mem_word_range h B')). rewrite mult_mod by exact Hn.
  destruct (encode_sized (ed_mult (le_val h) ed_B) (mult_reduced _ _)) as [BR LR]. set (R := ed_encode (ed_mult (le_val h) ed_B)) in *.
  destruct (hram_ok junk R pk m Hj BR Bp Bm ltac:(lia) Lp Lm) as (k & -> & Sk & Vk). cbn [obind]. rewrite (take_all _ 32 R) in Vk by lia.
  rewrite Ea. cbn [obind]. destruct (mul256_ok w Hw k a Sk (proj1 Sa)) as (s & -> & Ss & Vs).
  { destruct Sa as [_ Sa]. unfold order_l in Sa. lia. }
  cbn [obind]. destruct (add256_ok w Hw s r Ss Sr) as (t & -> & St & Vt). cbn [obind].
  rewrite contract256_ok by exact (proj1 St). do 3 f_equal. rewrite Vt, Vs, Vr, Vk, Va, <- order_L.
  rewrite <- Zmult_mod, <- Zplus_mod. f_equal. ring.
Qed.
End Exact.
