(** Check of signatures by src/crypto/ed25519: ed25519.c:93-117 *)
From Coq Require Import Field Ring.
From Verif Require Import Base MHash MSha2 MBlake2 SSha2 SBlake2 SHash PSha2 PSha2b PBlake2 PChaCha PGhash MX25519 SX25519 SEd25519 PPoly1305 PPrime PPrimeL MEdTable MEd25519 MEdSlide MEdSign PEdwards PEdRep PX25519 PX25519b PX25519c PX25519d PX25519e PX25519f PEd25519 PEd25519b PEdTable PEd25519c PEd25519d PModm PEdSpec PEdSlide PEdDouble PEdMulti PEdUnpack PEdSign.
Local Close Scope fp_scope.
Local Open Scope Z_scope.

(** ** Group algebra *)
Lemma emb_mult : forall k P, 0 <= k -> emb (ed_mult k P) = zz (emb P) k.
Proof. intros k P Hk. unfold ed_mult. rewrite emb_times, zz_nonneg by exact Hk. reflexivity. Qed.
Lemma mul_neg : forall n (P : Point), mul n (neg P) = neg (mul n P).
Proof. induction n as [|n IH]; intros P; cbn [emul]; [symmetry; exact neg_O|]. rewrite IH. symmetry. apply neg_add. Qed.
Lemma zz_neg : forall k (P : Point), 0 <= k -> zz (neg P) k = neg (zz P k).
Proof. intros k P Hk. rewrite !zz_nonneg by exact Hk. apply mul_neg. Qed.
Lemma solve_sum : forall X Y K : Point, curve dp X -> curve dp Y -> curve dp K -> X = add Y K <-> Y = add X (neg K).
Proof.
  intros X Y K HX HY HK. pose proof (neg_curve dp K HK) as HN. split; intros ->.
  - rewrite (add_assoc dp dp_nonsquare) by assumption. rewrite (add_neg dp dp_nonsquare) by assumption. symmetry. apply add_O.
  - rewrite (add_assoc dp dp_nonsquare) by assumption. rewrite (add_comm dp (neg K) K), (add_neg dp dp_nonsquare) by assumption. symmetry. apply add_O.
Qed.
Lemma B_curve : ed_on_curve ed_B. Proof. reflexivity. Qed.
Lemma plus_curve : forall P Q, ed_on_curve P -> ed_on_curve Q -> ed_on_curve (ed_plus P Q).
Proof. intros P Q HP HQ. apply emb_curve in HP, HQ. apply emb_curve. rewrite emb_plus. now apply (add_curve dp dp_nonsquare). Qed.
Lemma mult_curve : forall k P, 0 <= k -> ed_on_curve P -> ed_on_curve (ed_mult k P).
Proof. intros k P Hk HP. apply emb_curve in HP. apply emb_curve. rewrite emb_mult by exact Hk. exact (zz_curve (emb P) HP k). Qed.
Lemma opposite_curve : forall P, ed_on_curve P -> ed_on_curve (ed_opposite P).
Proof. intros P HP. apply emb_curve in HP. apply emb_curve. rewrite emb_opposite. now apply (neg_curve dp). Qed.
(** The equation, solved for the point R *)
Lemma equation : forall s k A R, 0 <= s -> 0 <= k -> ed_on_curve A -> ed_reduced R -> ed_on_curve R ->
  ed_mult s ed_B = ed_plus R (ed_mult k A) <-> R = ed_plus (ed_mult s ed_B) (ed_mult k (ed_opposite A)).
Proof.
  intros s k A R Hs Hk HA RR HR. apply emb_curve in HA, HR.
  assert (E : emb (ed_plus (ed_mult s ed_B) (ed_mult k (ed_opposite A))) = add (zm s) (neg (zz (emb A) k))).
  { rewrite emb_plus, zm_mult, emb_mult, emb_opposite, zz_neg by assumption. reflexivity. }
  pose proof (solve_sum (zm s) (emb R) (zz (emb A) k) (zm_curve s) HR (zz_curve (emb A) HA k)) as S. split; intros H.
  - apply emb_inj; [exact RR|apply plus_reduced|]. rewrite E. apply S. rewrite <- zm_mult, H, emb_plus, emb_mult by assumption. reflexivity.
  - apply emb_inj; [apply mult_reduced|apply plus_reduced|]. rewrite zm_mult, emb_plus, emb_mult by assumption. apply S. rewrite <- E. f_equal. exact H.
Qed.
Lemma encode_val : forall P, ed_reduced P -> le_val (ed_encode P) = snd P + 2 ^ 255 * (fst P mod 2).
Proof.
  intros [x y] (Rx & Ry). unfold ed_encode. cbn [fst snd] in *. rewrite le_val_le_bytes. apply Z.mod_small. pose proof (Z.mod_pos_bound x 2 ltac:(lia)). change (256 ^ Z.of_nat 32) with (2 ^ 256). unfold p25519 in *. lia.
Qed.
Lemma denotes_opens : forall s P, ed_denotes s P -> ed_opens s P.
Proof.
  intros s P (R & C & ->). split; [exact R|]. split; [exact C|]. rewrite encode_val by exact R. destruct P as [x y]. destruct R as [Rx Ry]. cbn [fst snd] in *.
  assert (Y : 0 <= y < 2 ^ 255) by (unfold p25519 in Ry; lia). replace (y + 2 ^ 255 * (x mod 2)) with (y + x mod 2 * 2 ^ 255) by ring.
  rewrite Z_mod_plus_full, Z.div_add by lia. rewrite (Z.mod_small y) by exact Y. rewrite (Z.div_small y) by exact Y. split; [now rewrite Z.mod_small|left; reflexivity].
Qed.

(** The three top bits *)
Lemma top_bits : forall b, is_byte b -> (Z.land b 224 =? 0) = (b <? 32).
Proof.
  intros b H. assert (G : forallb (fun b => Bool.eqb (Z.land (Z.of_nat b) 224 =? 0) (Z.of_nat b <? 32)) (seq 0 256) = true) by (vm_compute; reflexivity).
  rewrite forallb_forall in G. unfold is_byte in H. specialize (G (Z.to_nat b)). rewrite in_seq in G. specialize (G ltac:(lia)). rewrite Z2Nat.id in G by lia. now apply Bool.eqb_prop.
Qed.
Lemma byte_63 : forall RS, bytes RS -> zlen RS = 64 -> (Z.land (byte_at RS 63) 224 =? 0) = (le_val (drop 32 RS) <? 2 ^ 253).
Proof.
  intros RS B L. pose proof (bytes_drop 32 RS B) as BD. assert (LD : zlen (drop 32 RS) = 32) by (rewrite zlen_drop; lia).
  assert (E : byte_at RS 63 = byte_at (drop 32 RS) 31).
  { rewrite <- (take_drop _ 32 RS) at 1. unfold byte_at. assert (LT : zlen (take 32 RS) = 32) by (rewrite zlen_take; lia). unfold zlen in LT. rewrite app_nth2 by lia. f_equal. lia. }
  rewrite E. destruct (top_byte (drop 32 RS) BD LD) as (r & Br & Lr & Hb & V). rewrite V, top_bits by exact Hb. pose proof (mem_word_range r Br) as R. rewrite Lr in R. change (256 ^ 31) with (2 ^ 248) in R.
  clear E V. generalize dependent (byte_at (drop 32 RS) 31). intros b _. destruct (Z.ltb_spec b 32); symmetry; [apply Z.ltb_lt|apply Z.ltb_ge]; change (2 ^ 253) with (2 ^ 248 * 32); lia.
Qed.
Lemma open_bytes : forall (s : list Z) (P : Z * Z), zlen s = 32 -> length s = length (ed_encode P).
Proof. intros s P H. unfold ed_encode. pose proof (zlen_le_bytes 32 (snd P + 2 ^ 255 * (fst P mod 2))) as Q. unfold zlen in *. lia. Qed.

Section Exact.
Variable w : Z -> Z -> outcome Z.
Hypothesis Hw : exact_in_range w.
Theorem sign_open_ok : forall junk m pk RS, hctx_ok sha512_alg junk -> bytes pk -> zlen pk = 32 -> bytes RS -> zlen RS = 64 -> bytes m -> 8 * (64 + zlen m) < 2 ^ 64 ->
  exists r, ed25519_sign_open w junk m pk RS = Ok r /\ (r = 0 \/ r = -1) /\ (r = 0 <-> ed_accepts pk m RS).
Proof.
  intros junk m pk RS Hj Bp Lp BR LR Bm Lm. unfold ed25519_sign_open. rewrite byte_63 by assumption. unfold ed_accepts. cbv zeta.
  pose proof (bytes_drop 32 RS BR) as BD. assert (LD : zlen (drop 32 RS) = 32) by (rewrite zlen_drop; lia).
  set (S := le_val (drop 32 RS)). assert (S0 : 0 <= S) by (apply (mem_word_range (drop 32 RS) BD)).
  destruct (Z.ltb_spec S (2 ^ 253)) as [HS|HS]; cbn [negb].
  2:{ exists (-1). split; [reflexivity|]. split; [now right|]. split; [discriminate|]. intros (_ & X & _). exfalso. clear - X HS. lia. }
  destruct (unpack_ok w Hw pk Bp Lp) as [(A & g & HA & -> & Hg)|(HA & ->)]; cbn [obind].
  2:{ exists (-1). split; [reflexivity|]. split; [now right|]. split; [discriminate|]. intros (_ & _ & PA & _ & X & _). exfalso. exact (HA PA X). }
  assert (LT : zlen (take 32 RS) = 32) by (rewrite zlen_take; lia). pose proof (bytes_take 32 RS BR) as BT.
  destruct (hram_ok w Hw junk RS pk m Hj BR Bp Bm ltac:(lia) Lp Lm) as (k & -> & Sk & Vk). cbn [obind].
  destruct (expand256_ok w Hw (drop 32 RS) 32 BD ltac:(lia) ltac:(lia)) as (s & -> & Ss & Vs). cbn [obind]. rewrite take_all in Vs by lia. change (mem_word (drop 32 RS)) with S in Vs.
  destruct HA as (RA & CA & HA). assert (HA' : ed_opens pk A) by (split; [exact RA|]; split; [exact CA|exact HA]). pose proof (proj1 (emb_curve _) (opposite_curve A CA)) as CO.
  destruct (double_scalarmult_ok w Hw (emb (ed_opposite A)) CO g k s Hg Sk Ss) as (r & -> & Hr). cbn [obind]. rewrite Vk, Vs, order_L in Hr. unfold at_ in Hr.
  set (kk := ed_k (take 32 RS) pk m mod ed_L) in *. assert (K0 : 0 <= kk) by (apply Z.mod_pos_bound; reflexivity). clearbody kk. clear Vk Vs.
  set (Q := ed_plus (ed_mult S ed_B) (ed_mult kk (ed_opposite A))).
  assert (EQ : emb Q = add (zz (emb (ed_opposite A)) kk) (zm (S mod ed_L))).
  { unfold Q. rewrite emb_plus, zm_mult, emb_mult by assumption. rewrite (add_comm dp). rewrite <- order_L, zm_period. reflexivity. }
  rewrite <- EQ in Hr. rewrite (pack_point_ok w Hw r Q Hr (plus_reduced _ _)). cbn [obind].
  assert (CQ : ed_on_curve Q) by (apply plus_curve; apply mult_curve; [exact S0|exact B_curve|exact K0|now apply opposite_curve]).
  assert (RQ : ed_reduced Q) by apply plus_reduced.
  pose proof (verify_ok (take 32 RS) (ed_encode Q) BT (proj1 (encode_sized Q RQ)) (open_bytes _ Q LT)) as VQ.
  assert (Acc : ed25519_verify (take 32 RS) (ed_encode Q) = true <-> (exists PA PR, ed_opens pk PA /\ ed_denotes (take 32 RS) PR /\ ed_mult S ed_B = ed_plus PR (ed_mult kk PA))).
  { rewrite VQ. split.
    - intros E. exists A, Q. split; [exact HA'|]. split; [split; [exact RQ|]; split; [exact CQ|exact E]|]. apply (equation S kk A Q); auto.
    - intros (PA & PR & HP & (RR & CR & ER) & E). assert (PA = A) by exact (opens_unique pk PA A HP HA'). subst PA.
      apply (equation S kk A PR) in E; auto. rewrite ER, E. reflexivity. }
  destruct (ed25519_verify (take 32 RS) (ed_encode Q)).
  - exists 0. split; [reflexivity|]. split; [now left|]. split; [intros _|reflexivity]. split; [exact LR|]. split; [exact HS|]. now apply Acc.
  - exists (-1). split; [reflexivity|]. split; [now right|]. split; [discriminate|]. intros (_ & _ & X). apply Acc in X. discriminate.
Qed.
End Exact.

(** ** Keys that are multiples of the base point *)
Lemma key_point : forall A PA, ed_key A -> ed_opens A PA -> exists a, 0 <= a /\ PA = ed_mult a ed_B.
Proof.
  intros A PA (a & Ha & E) O. exists a. split; [exact Ha|]. apply (opens_unique A); [exact O|]. apply denotes_opens.
  split; [apply mult_reduced|]. split; [apply mult_curve; [exact Ha|exact B_curve]|exact E].
Qed.
Lemma zz_zm : forall a k, 0 <= k -> 0 <= a -> zz (zm a) k = zm (k * a).
Proof.
  intros a k Hk Ha. rewrite zz_nonneg by exact Hk. unfold zmul. rewrite <- (Z2Nat.id k) at 2 by exact Hk. generalize (Z.to_nat k). intros n. clear k Hk.
  induction n as [|n IH]; [reflexivity|]. cbn [emul]. rewrite IH, <- zm_add. f_equal. rewrite Nat2Z.inj_succ. ring.
Qed.
Lemma mult_mult : forall k a, 0 <= k -> 0 <= a -> emb (ed_mult k (ed_mult a ed_B)) = zm (k * a).
Proof. intros k a Hk Ha. rewrite emb_mult, zm_mult by assumption. now apply zz_zm. Qed.
Lemma mult_key : forall k a, 0 <= k -> 0 <= a -> ed_mult (k mod ed_L) (ed_mult a ed_B) = ed_mult k (ed_mult a ed_B).
Proof.
  intros k a Hk Ha. pose proof (Z.mod_pos_bound k ed_L ltac:(reflexivity)) as R. apply emb_inj; [apply mult_reduced|apply mult_reduced|].
  rewrite !mult_mult by (clear - R Hk Ha; lia). rewrite <- (zm_period (k mod ed_L * a)), <- (zm_period (k * a)). f_equal. rewrite order_L. apply Z.mul_mod_idemp_l. discriminate.
Qed.
Lemma ed_k_nonneg : forall R A M, bytes R -> bytes A -> bytes M -> 8 * zlen (R ++ A ++ M) < 2 ^ 64 -> 0 <= ed_k R A M.
Proof. intros R A M BR BA BM L. unfold ed_k. apply (mem_word_range (SHA512 (R ++ A ++ M))). apply sha512_sized; [|exact L]. apply bytes_app. split; [exact BR|]. apply bytes_app. now split. Qed.
Lemma accepts_verifies : forall A M sig, bytes A -> bytes M -> bytes sig -> 8 * zlen (take 32 sig ++ A ++ M) < 2 ^ 64 -> ed_key A ->
  (ed_verifies A M sig <-> ed_accepts A M sig /\ le_val (drop 32 sig) < ed_L).
Proof.
  intros A M sig BA BM BS LL K. pose proof (ed_k_nonneg (take 32 sig) A M (bytes_take 32 sig BS) BA BM LL) as K0. unfold ed_verifies, ed_accepts. cbv zeta. split.
  - intros (L & HS & PA & PR & DA & DR & E). split; [|exact HS]. split; [exact L|]. split; [apply (Z.lt_trans _ _ _ HS); reflexivity|].
    exists PA, PR. pose proof (denotes_opens _ _ DA) as OA. split; [exact OA|]. split; [exact DR|]. destruct (key_point A PA K OA) as (a & Ha & ->). rewrite mult_key by assumption. exact E.
  - intros ((L & _ & PA & PR & OA & DR & E) & HS). split; [exact L|]. split; [exact HS|]. exists PA, PR. destruct (key_point A PA K OA) as (a' & Ha' & EP).
    destruct K as (a & Ha & EA). assert (DA : ed_denotes A (ed_mult a ed_B)) by (split; [apply mult_reduced|]; split; [apply mult_curve; [exact Ha|exact B_curve]|exact EA]).
    pose proof (opens_unique A _ _ OA (denotes_opens _ _ DA)) as EP'. split; [rewrite EP'; exact DA|]. split; [exact DR|]. rewrite EP, mult_key in E by assumption. rewrite EP. exact E.
Qed.
Lemma mult_sum : forall r k a s, 0 <= r -> 0 <= k -> 0 <= a -> s = (r + k * a) mod ed_L -> ed_mult s ed_B = ed_plus (ed_mult r ed_B) (ed_mult k (ed_mult a ed_B)).
Proof.
  intros r k a s Hr Hk Ha ->. pose proof (Z.mod_pos_bound (r + k * a) ed_L ltac:(reflexivity)) as R.
  apply emb_inj; [apply mult_reduced|apply plus_reduced|]. rewrite emb_plus, mult_mult, !zm_mult by (try assumption; apply R). rewrite <- zm_add, <- order_L. apply zm_period.
Qed.
Lemma take_32 : forall R s : list Z, zlen R = 32 -> take 32 (R ++ s) = R.
Proof. intros R s H. rewrite <- H. apply take_app_exact. Qed.
Lemma drop_32 : forall R s : list Z, zlen R = 32 -> drop 32 (R ++ s) = s.
Proof. intros R s H. rewrite <- H. apply drop_app_exact. Qed.
Lemma signature_parts : forall sk A M r, r = le_val (SHA512 (ed_prefix sk ++ M)) ->
  take 32 (ed_signature sk A M) = ed_encode (ed_mult r ed_B) /\ drop 32 (ed_signature sk A M) = le_bytes 32 ((r + ed_k (ed_encode (ed_mult r ed_B)) A M * ed_scalar sk) mod ed_L) /\
  zlen (ed_signature sk A M) = 64 /\ bytes (ed_signature sk A M).
Proof.
  intros sk A M r Hr. unfold ed_signature. cbv zeta. rewrite <- Hr. clear Hr. destruct (encode_sized (ed_mult r ed_B) (mult_reduced _ _)) as [BR LR].
  set (R := ed_encode (ed_mult r ed_B)) in *. clearbody R. set (s := _ mod ed_L). clearbody s. split; [now apply take_32|]. split; [now apply drop_32|].
  split; [rewrite zlen_app, zlen_le_bytes, LR; reflexivity|apply bytes_app; split; [exact BR|apply bytes_le_bytes]].
Qed.
Lemma own_signature : forall sk M, bytes sk -> zlen sk = 32 -> bytes M -> 8 * (64 + zlen M) < 2 ^ 64 -> ed_verifies (ed_public sk) M (ed_signature sk (ed_public sk) M).
Proof.
  intros sk M B L BM LM. destruct (sha512_sized sk B ltac:(rewrite L; reflexivity)) as [Lh Bh].
  assert (R0 : 0 <= le_val (SHA512 (ed_prefix sk ++ M))).
  { apply (mem_word_range (SHA512 _)). apply sha512_sized; [apply bytes_app; split; [now apply bytes_drop|exact BM]|]. rewrite zlen_app. unfold ed_prefix. rewrite zlen_drop, Lh by lia. lia. }
  remember (le_val (SHA512 (ed_prefix sk ++ M))) as r eqn:Hr. destruct (signature_parts sk (ed_public sk) M r Hr) as (T & D & Ls & Bs). unfold ed_verifies. cbv zeta. rewrite T, D.
  pose proof (scalar_range (take 32 (SHA512 sk))) as [S0 _]. fold (ed_scalar sk) in S0.
  destruct (encode_sized (ed_mult r ed_B) (mult_reduced _ _)) as [BR LR]. destruct (encode_sized (ed_mult (ed_scalar sk) ed_B) (mult_reduced _ _)) as [BP LP].
  assert (K0 : 0 <= ed_k (ed_encode (ed_mult r ed_B)) (ed_public sk) M).
  { apply ed_k_nonneg; [exact BR|exact BP|exact BM|]. unfold ed_public. rewrite !zlen_app, LR, LP. clear - LM. lia. }
  set (k := ed_k _ _ _) in *. clearbody k. set (s := (r + k * ed_scalar sk) mod ed_L). assert (Hs : 0 <= s < ed_L) by (apply Z.mod_pos_bound; reflexivity).
  assert (V : le_val (le_bytes 32 s) = s). { rewrite le_val_le_bytes. apply Z.mod_small. split; [apply Hs|]. apply (Z.lt_trans _ _ _ (proj2 Hs)). reflexivity. }
  rewrite V. split; [exact Ls|]. split; [apply Hs|]. exists (ed_mult (ed_scalar sk) ed_B), (ed_mult r ed_B).
  split; [split; [apply mult_reduced|]; split; [apply mult_curve; [exact S0|exact B_curve]|reflexivity]|].
  split; [split; [apply mult_reduced|]; split; [apply mult_curve; [exact R0|exact B_curve]|reflexivity]|].
  apply mult_sum; auto.
Qed.
Lemma public_key : forall sk, bytes sk -> ed_key (ed_public sk).
Proof. intros sk B. exists (ed_scalar sk). split; [apply scalar_range|reflexivity]. Qed.

(** ** What is accepted beyond RFC 8032 *)
Lemma accepts_shifted : forall A M R s, zlen R = 32 -> ed_accepts A M (R ++ s) -> 0 <= le_val s -> le_val s + ed_L < 2 ^ 253 ->
  ed_accepts A M (R ++ le_bytes 32 (le_val s + ed_L)).
Proof.
  intros A M R s LR (_ & _ & PA & PR & OA & DR & E) Hs Hf. assert (V : le_val (le_bytes 32 (le_val s + ed_L)) = le_val s + ed_L).
  { rewrite le_val_le_bytes. apply Z.mod_small. unfold ed_L in *. change (256 ^ Z.of_nat 32) with (2 ^ 256). lia. }
  unfold ed_accepts. cbv zeta. rewrite !take_32, !drop_32 in * by exact LR. rewrite V. split; [rewrite zlen_app, zlen_le_bytes, LR; reflexivity|].
  split; [exact Hf|]. exists PA, PR. split; [exact OA|]. split; [exact DR|]. rewrite <- E. rewrite <- (mult_mod (le_val s + ed_L)), <- (mult_mod (le_val s)) by (unfold ed_L in *; lia).
  f_equal. rewrite order_L. rewrite <- (Z_mod_plus_full (le_val s) 1 ed_L). f_equal.
Qed.
Lemma neutral_curve : ed_on_curve ed_neutral. Proof. reflexivity. Qed.
Lemma neutral_reduced : ed_reduced ed_neutral. Proof. split; cbn; unfold p25519; lia. Qed.
Lemma neutral_mult : forall k, ed_mult k ed_neutral = ed_neutral.
Proof.
  intros k. unfold ed_mult. induction (Z.to_nat k) as [|n IH]; [reflexivity|]. cbn [ed_times]. rewrite IH. apply emb_inj; [apply plus_reduced|apply neutral_reduced|].
  rewrite emb_plus, emb_neutral. apply add_O.
Qed.
Lemma plus_neutral : forall P, ed_reduced P -> ed_plus P ed_neutral = P.
Proof. intros P R. apply emb_inj; [apply plus_reduced|exact R|]. rewrite emb_plus, emb_neutral. apply add_O. Qed.
Lemma weak_key : forall A M, ed_opens A ed_neutral -> ed_accepts A M (ed_encode ed_neutral ++ zeros 32).
Proof.
  intros A M O. unfold ed_accepts. cbv zeta. assert (LR : zlen (ed_encode ed_neutral) = 32) by reflexivity. rewrite take_32, drop_32 by exact LR.
  assert (Z0 : le_val (zeros 32) = 0) by reflexivity. rewrite Z0. split; [reflexivity|]. split; [reflexivity|]. exists ed_neutral, ed_neutral. split; [exact O|].
  split; [split; [exact neutral_reduced|]; split; [exact neutral_curve|reflexivity]|]. rewrite neutral_mult. change (ed_mult 0 ed_B) with ed_neutral. symmetry. apply plus_neutral, neutral_reduced.
Qed.
Lemma large_y_opens : ed_opens (le_bytes 32 (p25519 + 1)) ed_neutral.
Proof. split; [exact neutral_reduced|]. split; [exact neutral_curve|]. split; [reflexivity|now right]. Qed.
Lemma minus_zero_opens : ed_opens (le_bytes 32 (1 + 2 ^ 255)) ed_neutral.
Proof. split; [exact neutral_reduced|]. split; [exact neutral_curve|]. split; [reflexivity|now right]. Qed.
Lemma large_y_none : forall P, ~ ed_denotes (le_bytes 32 (p25519 + 1)) P.
Proof.
  intros P (R & _ & E). apply (f_equal le_val) in E. rewrite encode_val in E by exact R. assert (V : le_val (le_bytes 32 (p25519 + 1)) = p25519 + 1) by reflexivity. rewrite V in E.
  destruct R as [_ R]. pose proof (Z.mod_pos_bound (fst P) 2 ltac:(reflexivity)) as B. set (b := fst P mod 2) in *. clearbody b. set (y := snd P) in *. clearbody y. unfold p25519 in *. lia.
Qed.
Lemma minus_zero_none : forall P, ~ ed_denotes (le_bytes 32 (1 + 2 ^ 255)) P.
Proof.
  intros P D. pose proof (opens_unique _ _ _ (denotes_opens _ _ D) minus_zero_opens) as ->. destruct D as (_ & _ & E). vm_compute in E. discriminate.
Qed.

(** ** A signature for the secret number 1 and the nonce 0 *)
Definition one_hash : Z := 4148192952097908743422474266598969370439933080175043353499085860459106870399.
Lemma B_reduced : ed_reduced ed_B. Proof. split; cbn; unfold p25519; lia. Qed.
Lemma one_k : ed_k (ed_encode ed_neutral) (ed_encode ed_B) [] mod ed_L = one_hash.
Proof.
  pose (junk := HCtx (repeat 0 8) (zeros 128) 0 0). assert (Hj : hctx_ok sha512_alg junk) by (repeat split; reflexivity).
  destruct (encode_sized ed_neutral neutral_reduced) as [BR LR]. destruct (encode_sized ed_B B_reduced) as [BB LB].
  assert (H : ed25519_hash junk [ed_encode ed_neutral; ed_encode ed_B] = SHA512 (ed_encode ed_neutral ++ ed_encode ed_B ++ [])).
  { apply (hash_ok junk [ed_encode ed_neutral; ed_encode ed_B] Hj); cbn [concat].
    - apply bytes_app. split; [exact BR|]. apply bytes_app. split; [exact BB|constructor].
    - rewrite !zlen_app, LR, LB. reflexivity. }
  unfold ed_k. rewrite <- H. clear. vm_cast_no_check (@eq_refl Z one_hash).
Qed.
Lemma mult_one : ed_mult 1 ed_B = ed_B.
Proof. apply emb_inj; [apply mult_reduced|exact B_reduced|]. rewrite emb_mult by discriminate. apply zz_1. Qed.
Lemma one_signature : ed_accepts (ed_encode ed_B) [] (ed_encode ed_neutral ++ le_bytes 32 one_hash).
Proof.
  unfold ed_accepts. cbv zeta. rewrite take_32, drop_32 by reflexivity. assert (V : le_val (le_bytes 32 one_hash) = one_hash) by (rewrite le_val_le_bytes; apply Z.mod_small; split; [discriminate|reflexivity]).
  rewrite V. split; [reflexivity|]. split; [reflexivity|]. exists ed_B, ed_neutral.
  split; [apply denotes_opens; split; [exact B_reduced|]; split; [exact B_curve|reflexivity]|].
  split; [split; [exact neutral_reduced|]; split; [exact neutral_curve|reflexivity]|]. rewrite one_k. clear V.
  apply emb_inj; [apply mult_reduced|apply plus_reduced|]. rewrite emb_plus, emb_neutral. rewrite (add_comm dp). symmetry. apply add_O.
Qed.
