(** The points of RFC 8032 as points of the curve of PX25519d; encoding of points *)
From Coq Require Import Field Ring.
From Verif Require Import Base MHash MSha2 MBlake2 SSha2 SBlake2 PSha2 PSha2b PBlake2 PChaCha PGhash MX25519 SX25519 SEd25519 PPoly1305 PPrime PPrimeL PAes MEdTable MEd25519 MEdSlide MEdSign PEdwards PEdRep PX25519 PX25519b PX25519c PX25519d PX25519e PX25519f PEd25519 PEd25519b PEdTable PEd25519c PEd25519d PModm.
Local Close Scope fp_scope.
Local Open Scope Z_scope.

Definition emb (P : Z * Z) : Point := (Fmul im (T (fst P)), T (snd P)).
Lemma T_quotient : forall a b, T (ed_quotient a b) = Fdiv (T a) (T b).
Proof. intros a b. unfold ed_quotient. rewrite T_mod, T_mul, T_inv. symmetry. apply (Fdiv_def FT). Qed.
Lemma ed_d_dd : ed_d = dd. Proof. reflexivity. Qed.
Lemma emb_alg : forall d x1 y1 x2 y2 : F,
  (Fmul im (Fdiv (Fadd (Fmul x1 y2) (Fmul x2 y1)) (Fadd F1 (Fmul (Fmul (Fmul (Fmul (Fopp d) x1) x2) y1) y2))),
   Fdiv (Fadd (Fmul y1 y2) (Fmul x1 x2)) (Fsub F1 (Fmul (Fmul (Fmul (Fmul (Fopp d) x1) x2) y1) y2))) =
  eadd F F1 Fadd Fmul Fsub Fdiv d (Fmul im x1, y1) (Fmul im x2, y2).
Proof.
  intros d x1 y1 x2 y2. cbn [eadd].
  assert (E : Fmul (Fmul (Fmul (Fmul d (Fmul im x1)) (Fmul im x2)) y1) y2 = Fmul (Fmul (Fmul (Fmul (Fopp d) x1) x2) y1) y2).
  { transitivity (Fmul (Fmul im im) (Fmul (Fmul (Fmul (Fmul d x1) x2) y1) y2)); [ring|]. rewrite im_sq. ring. }
  rewrite E. set (t := Fmul (Fmul (Fmul (Fmul (Fopp d) x1) x2) y1) y2). clearbody t. apply (f_equal2 pair); rewrite !(Fdiv_def FT).
  - ring.
  - apply (f_equal2 Fmul); [|reflexivity]. transitivity (Fsub (Fmul y1 y2) (Fmul (Fmul im im) (Fmul x1 x2))); [rewrite im_sq; ring|ring].
Qed.
Lemma emb_plus : forall P Q, emb (ed_plus P Q) = add (emb P) (emb Q).
Proof.
  intros [x1 y1] [x2 y2]. unfold emb, ed_plus. cbn [fst snd]. rewrite !T_quotient, ed_d_dd.
  rewrite (T_add 1), (T_sub 1), !T_add, !T_mul, T_dd, <- F1_T. apply (emb_alg dp).
Qed.
Lemma emb_neutral : emb ed_neutral = O_.
Proof. unfold emb, ed_neutral, eO. cbn [fst snd]. rewrite <- F0_T, <- F1_T. apply (f_equal2 pair); [ring|reflexivity]. Qed.
Lemma emb_times : forall n P, emb (ed_times n P) = mul n (emb P).
Proof. induction n as [|n IH]; intros P; cbn [ed_times emul]; [apply emb_neutral|]. rewrite emb_plus, IH. reflexivity. Qed.
Lemma emb_B : emb ed_B = B9. Proof. reflexivity. Qed.
Lemma zm_mult : forall k, 0 <= k -> emb (ed_mult k ed_B) = zm k.
Proof. intros k Hk. unfold ed_mult. rewrite emb_times, emb_B, zm_nonneg by exact Hk. reflexivity. Qed.
Lemma zmul_L : zmul B9 order_l = O_.
Proof. exact (zmul_order B9 B9_curve B9_kum). Qed.
Lemma zm_period : forall k, zm (k mod order_l) = zm k.
Proof.
  intros k. assert (G : forall c, zm (order_l * c) = O_).
  { intros c. destruct (Z.leb_spec 0 c).
    - rewrite zm_nonneg by (apply Z.mul_nonneg_nonneg; [discriminate|lia]). rewrite Z.mul_comm. apply (zmul_null B9 B9_curve); [discriminate|lia|exact zmul_L].
    - replace (order_l * c) with (- (order_l * (- c))) by ring. rewrite zm_opp. rewrite zm_nonneg by (apply Z.mul_nonneg_nonneg; [discriminate|lia]).
      rewrite Z.mul_comm. rewrite (zmul_null B9 B9_curve order_l (- c)); [exact neg_O|discriminate|lia|exact zmul_L]. }
  rewrite (Z.div_mod k order_l) at 2 by discriminate. rewrite zm_add, G. rewrite (add_comm dp), add_O. reflexivity.
Qed.

(** Reduced pairs are given by their points *)
Lemma T_inj : forall a b, 0 <= a < p25519 -> 0 <= b < p25519 -> T a = T b -> a = b.
Proof. intros a b A B H. apply T_eq in H. rewrite !Z.mod_small in H by assumption. exact H. Qed.
Lemma emb_inj : forall P Q, ed_reduced P -> ed_reduced Q -> emb P = emb Q -> P = Q.
Proof.
  intros [x1 y1] [x2 y2] (A & B) (C & D) H. unfold emb in H. cbn [fst snd] in *. pose proof (f_equal fst H) as H1. pose proof (f_equal snd H) as H2. cbn [fst snd] in H1, H2. clear H.
  assert (X : T x1 = T x2).
  { apply (i_cancel F F0 F1 Fadd Fmul Fsub Fopp Fdiv Finv FT im im_sq). exact H1. }
  apply (f_equal2 pair); apply T_inj; assumption.
Qed.
Lemma quotient_range : forall a b, 0 <= ed_quotient a b < p25519.
Proof. intros. unfold ed_quotient. apply Z.mod_pos_bound. reflexivity. Qed.
Lemma plus_reduced : forall P Q, ed_reduced (ed_plus P Q).
Proof. intros [x1 y1] [x2 y2]. unfold ed_plus, ed_reduced. cbn [fst snd]. split; apply quotient_range. Qed.
Lemma neutral_reduced : ed_reduced ed_neutral. Proof. unfold ed_reduced, ed_neutral, p25519. cbn [fst snd]. lia. Qed.
Lemma times_reduced : forall n P, ed_reduced (ed_times n P).
Proof. intros [|n] P; cbn [ed_times]; [exact neutral_reduced|apply plus_reduced]. Qed.
Lemma mult_reduced : forall k P, ed_reduced (ed_mult k P). Proof. intros. apply times_reduced. Qed.

(** ** Encoding *)
Lemma parity_byte : forall v, Z.land (byte_at (le_bytes 32 v) 0) 1 = v mod 2.
Proof.
  intros v. change 32%nat with (S 31). rewrite le_bytes_S. unfold byte_at. cbn [Z.to_nat nth]. change 1 with (Z.ones 1). rewrite Z.land_ones by lia.
  change (2 ^ 1) with 2. symmetry. apply Znumtheory.Zmod_div_mod; [lia|lia|exists 128; reflexivity].
Qed.
Lemma le_bytes_32 : forall v, 0 <= v < 2 ^ 256 -> le_bytes 32 v = le_bytes 31 v ++ [v / 2 ^ 248].
Proof.
  intros v Hv. change 32%nat with (31 + 1)%nat. rewrite le_bytes_app. change (256 ^ Z.of_nat 31) with (2 ^ 248). rewrite (le_bytes_S 0). change (le_bytes 0 _) with (@nil Z).
  rewrite Z.mod_small; [reflexivity|]. split; [apply Z.div_pos; lia|]. apply Z.div_lt_upper_bound; [lia|]. change (2 ^ 248 * 256) with (2 ^ 256). lia.
Qed.
Lemma encode_bytes : forall y b, 0 <= y < 2 ^ 255 -> 0 <= b <= 1 ->
  splice 31 [Z.lxor (byte_at (le_bytes 32 y) 31) (Z.shiftl b 7)] (le_bytes 32 y) = le_bytes 32 (y + 2 ^ 255 * b).
Proof.
  intros y b Hy Hb. rewrite (le_bytes_32 y), (le_bytes_32 (y + 2 ^ 255 * b)) by lia.
  assert (L : zlen (le_bytes 31 y) = 31) by (rewrite zlen_le_bytes; reflexivity).
  assert (E1 : byte_at (le_bytes 31 y ++ [y / 2 ^ 248]) 31 = y / 2 ^ 248).
  { unfold byte_at. rewrite app_nth2 by (unfold zlen in L; lia). unfold zlen in L. replace (Z.to_nat 31 - length (le_bytes 31 y))%nat with 0%nat by lia. reflexivity. }
  rewrite E1. unfold splice. rewrite take_app_le, take_all by lia.
  assert (E2 : drop (31 + zlen [Z.lxor (y / 2 ^ 248) (Z.shiftl b 7)]) (le_bytes 31 y ++ [y / 2 ^ 248]) = []).
  { apply drop_all. rewrite zlen_app, L, !zlen_cons, zlen_nil. lia. }
  rewrite E2, app_nil_r. f_equal.
  - apply le_bytes_mod. change (256 ^ Z.of_nat 31) with (2 ^ 248). replace (y + 2 ^ 255 * b) with (y + (2 ^ 7 * b) * 2 ^ 248) by lia. now rewrite Z_mod_plus_full.
  - f_equal. replace (y + 2 ^ 255 * b) with (y + (2 ^ 7 * b) * 2 ^ 248) by lia. rewrite Z.div_add by lia.
    rewrite Z.lxor_comm, lxor_add; [lia|lia|]. split; [apply Z.div_pos; lia|]. apply Z.div_lt_upper_bound; [lia|]. change (2 ^ 248 * 2 ^ 7) with (2 ^ 255). lia.
Qed.

Section Exact.
Variable w : Z -> Z -> outcome Z.
Hypothesis Hw : exact_in_range w.
Lemma pack_point_ok : forall g P, ge_part g (emb P) -> ed_reduced P -> ge25519_pack w g = Ok (ed_encode P).
Proof.
  intros g [x y] (Lx & Ly & Lz & (Hz & EX & EY)) (Rx & Ry). unfold emb in EX, EY. cbn [fst snd] in *. unfold ge25519_pack.
  destruct (f_recip w Hw 1 _ Lz ltac:(lia)) as (zi & -> & Lzi & Vzi). cbn [obind].
  destruct (f_mul w Hw 1 1 _ _ Lx Lzi ltac:(lia) ltac:(lia)) as (tx & -> & Ltx & Vtx). cbn [obind].
  destruct (f_mul w Hw 1 1 _ _ Ly Lzi ltac:(lia) ltac:(lia)) as (ty & -> & Lty & Vty). cbn [obind].
  rewrite (ed_contract_ok w Hw ty Lty), (ed_contract_ok w Hw tx Ltx). cbn [obind].
  assert (X : val tx mod p25519 = x).
  { apply T_inj; [apply Z.mod_pos_bound; reflexivity|exact Rx|]. rewrite T_mod. change (T (val tx)) with (fv tx). rewrite Vtx, Vzi.
    assert (E : fv (ge_x g) = Fmul (T x) (fv (ge_z g))).
    { apply (i_cancel F F0 F1 Fadd Fmul Fsub Fopp Fdiv Finv FT im im_sq). rewrite <- EX. ring. }
    rewrite E, <- (Fdiv_def FT). field. exact Hz. }
  assert (Y : val ty mod p25519 = y).
  { apply T_inj; [apply Z.mod_pos_bound; reflexivity|exact Ry|]. rewrite T_mod. change (T (val ty)) with (fv ty). rewrite Vty, Vzi. rewrite <- EY, <- (Fdiv_def FT). field. exact Hz. }
  rewrite X, Y, parity_byte. f_equal. unfold ed_encode. cbn [fst snd]. apply encode_bytes.
  - unfold p25519 in Ry. lia.
  - pose proof (Z.mod_pos_bound x 2 ltac:(lia)). lia.
Qed.
End Exact.
