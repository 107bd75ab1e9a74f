(** Proofs about the model of rijndael-alg-fst.c *)
From Verif Require Import Base MHash MSha2 MBlake2 SSha2 SBlake2 PSha2 PSha2b PBlake2 SChaCha PChaCha PPoly1305 PRand MGhash SGhash PGhash MAesTables MAes SAes.

Lemma xor_bytes_xors : xor_bytes = xors.
Proof. reflexivity. Qed.

(** ** Words *)
Lemma lxor_add : forall a b k, 0 <= k -> 0 <= b < 2 ^ k -> Z.lxor (Z.shiftl a k) b = a * 2 ^ k + b.
Proof.
  intros a b k Hk Hb. rewrite <- lor_add by assumption. apply Z.lxor_lor. now apply land_shift_low.
Qed.
Lemma be_val4 : forall a b c d, be_val [a; b; c; d] = a * 2 ^ 24 + (b * 2 ^ 16 + (c * 2 ^ 8 + d)).
Proof. intros. unfold be_val. cbn [fold_left]. lia. Qed.
Lemma getu32_val : forall a b c d, is_byte a -> is_byte b -> is_byte c -> is_byte d ->
  getu32 [a; b; c; d] = be_val [a; b; c; d].
Proof.
  unfold is_byte; intros. unfold getu32, byte_at.
  change (Z.to_nat 0) with 0%nat. change (Z.to_nat 1) with 1%nat. change (Z.to_nat 2) with 2%nat. change (Z.to_nat 3) with 3%nat. cbn [nth].
  rewrite !Z.lxor_assoc. rewrite be_val4.
  rewrite (lxor_add c d 8) by lia. rewrite (lxor_add b _ 16) by lia. rewrite (lxor_add a _ 24) by lia. reflexivity.
Qed.
Lemma four : forall (l : list Z), zlen l = 4 -> exists a b c d, l = [a; b; c; d].
Proof.
  intros l H. unfold zlen in H. destruct l as [|a [|b [|c [|d [|e l]]]]]; cbn [length] in H; try lia. now exists a, b, c, d.
Qed.
Lemma getu32_spec : forall m, bytes m -> zlen m = 4 -> getu32 m = be_val m.
Proof.
  intros m Hm Lm. destruct (four m Lm) as (a & b & c & d & ->). repeat (inversion Hm as [|? ? ? Hm']; subst; clear Hm; rename Hm' into Hm).
  now apply getu32_val.
Qed.
Lemma putu32_spec : forall m, bytes m -> zlen m = 4 -> putu32 (be_val m) = m.
Proof.
  intros m Hm Lm. transitivity (be_bytes 4 (be_val m)).
  - unfold putu32, be_bytes. cbn [seq map]. rewrite !Z.shiftr_div_pow2 by lia.
    change (256 ^ Z.of_nat (4 - 1 - 0)) with (2 ^ 24). change (256 ^ Z.of_nat (4 - 1 - 1)) with (2 ^ 16).
    change (256 ^ Z.of_nat (4 - 1 - 2)) with (2 ^ 8). change (256 ^ Z.of_nat (4 - 1 - 3)) with 1. now rewrite Z.div_1_r.
  - replace 4%nat with (length m) by (unfold zlen in Lm; lia). now apply be_bytes_val.
Qed.
Lemma word_bytes : forall a b c d, is_byte a -> is_byte b -> is_byte c -> is_byte d ->
  Z.shiftr (be_val [a; b; c; d]) 24 = a /\ Z.land (Z.shiftr (be_val [a; b; c; d]) 16) 0xff = b /\
  Z.land (Z.shiftr (be_val [a; b; c; d]) 8) 0xff = c /\ Z.land (be_val [a; b; c; d]) 0xff = d.
Proof.
  unfold is_byte; intros a b c d Ha Hb Hc Hd. change 0xff with (Z.ones 8). rewrite !Z.land_ones by lia. change (2 ^ 8) with 256.
  rewrite !Z.shiftr_div_pow2 by lia. rewrite be_val4.
  split; [symmetry; apply Z.div_unique with (r := b * 2 ^ 16 + (c * 2 ^ 8 + d)); lia|].
  split; [|split].
  - replace ((a * 2 ^ 24 + (b * 2 ^ 16 + (c * 2 ^ 8 + d))) / 2 ^ 16) with (b + a * 256)
      by (apply Z.div_unique with (r := c * 2 ^ 8 + d); lia).
    rewrite Z_mod_plus_full. apply Z.mod_small; lia.
  - replace ((a * 2 ^ 24 + (b * 2 ^ 16 + (c * 2 ^ 8 + d))) / 2 ^ 8) with (c + (a * 256 + b) * 256)
      by (apply Z.div_unique with (r := d); lia).
    rewrite Z_mod_plus_full. apply Z.mod_small; lia.
  - replace (a * 2 ^ 24 + (b * 2 ^ 16 + (c * 2 ^ 8 + d))) with (d + (a * 65536 + b * 256 + c) * 256) by lia.
    rewrite Z_mod_plus_full. apply Z.mod_small; lia.
Qed.

(** ** The tables, entry by entry *)
Definition check (s s2 s3 t0 t1 t2 t3 t4 : Z) : bool :=
  (0 <=? s) && (s <? 256) && (0 <=? s2) && (s2 <? 256) && (0 <=? s3) && (s3 <? 256) &&
  (t0 =? be_val [s2; s; s; s3]) && (t1 =? be_val [s3; s2; s; s]) &&
  (t2 =? be_val [s; s3; s2; s]) && (t3 =? be_val [s; s; s3; s2]) &&
  (Z.land t4 0xff000000 =? be_val [s; 0; 0; 0]) && (Z.land t4 0x00ff0000 =? be_val [0; s; 0; 0]) &&
  (Z.land t4 0x0000ff00 =? be_val [0; 0; s; 0]) && (Z.land t4 0x000000ff =? be_val [0; 0; 0; s]).
Lemma check_true : forall s s2 s3 t0 t1 t2 t3 t4, check s s2 s3 t0 t1 t2 t3 t4 = true ->
  is_byte s /\ is_byte s2 /\ is_byte s3 /\
  t0 = be_val [s2; s; s; s3] /\ t1 = be_val [s3; s2; s; s] /\ t2 = be_val [s; s3; s2; s] /\ t3 = be_val [s; s; s3; s2] /\
  Z.land t4 0xff000000 = be_val [s; 0; 0; 0] /\ Z.land t4 0x00ff0000 = be_val [0; s; 0; 0] /\
  Z.land t4 0x0000ff00 = be_val [0; 0; s; 0] /\ Z.land t4 0x000000ff = be_val [0; 0; 0; s].
Proof.
  intros s s2 s3 t0 t1 t2 t3 t4 E. unfold is_byte. unfold check in E. rewrite !andb_true_iff in E.
  destruct E as [[[[[[[[[[[[[E1 E2] E3] E4] E5] E6] E7] E8] E9] E10] E11] E12] E13] E14].
  apply Z.leb_le in E1, E3, E5. apply Z.ltb_lt in E2, E4, E6. apply Z.eqb_eq in E7, E8, E9, E10, E11, E12, E13, E14.
  repeat (split; [first [assumption | lia]|]). assumption.
Qed.
Definition entry (P : Z -> Z -> Z -> Z -> Z -> Z -> Z -> Z -> bool) (x s : Z) : bool :=
  P s (gf_mul 2 s) (gf_mul 3 s) (tab Te0 x) (tab Te1 x) (tab Te2 x) (tab Te3 x) (tab Te4 x).
Lemma entries : forallb (fun k => entry check (Z.of_nat k) (S_box (Z.of_nat k))) (seq 0 256) = true.
Proof. vm_compute. reflexivity. Qed.
Global Opaque check S_box gf_mul Te0 Te1 Te2 Te3 Te4.
Lemma tables : forall x, is_byte x ->
  is_byte (S_box x) /\ is_byte (gf_mul 2 (S_box x)) /\ is_byte (gf_mul 3 (S_box x)) /\
  tab Te0 x = be_val [gf_mul 2 (S_box x); S_box x; S_box x; gf_mul 3 (S_box x)] /\
  tab Te1 x = be_val [gf_mul 3 (S_box x); gf_mul 2 (S_box x); S_box x; S_box x] /\
  tab Te2 x = be_val [S_box x; gf_mul 3 (S_box x); gf_mul 2 (S_box x); S_box x] /\
  tab Te3 x = be_val [S_box x; S_box x; gf_mul 3 (S_box x); gf_mul 2 (S_box x)] /\
  Z.land (tab Te4 x) 0xff000000 = be_val [S_box x; 0; 0; 0] /\ Z.land (tab Te4 x) 0x00ff0000 = be_val [0; S_box x; 0; 0] /\
  Z.land (tab Te4 x) 0x0000ff00 = be_val [0; 0; S_box x; 0] /\ Z.land (tab Te4 x) 0x000000ff = be_val [0; 0; 0; S_box x].
Proof.
  intros x Hx. pose proof entries as C. rewrite forallb_forall in C. specialize (C (Z.to_nat x)).
  rewrite Z2Nat.id in C by (unfold is_byte in Hx; lia).
  specialize (C ltac:(apply in_seq; unfold is_byte in Hx; lia)). revert C. generalize (S_box x). intros s C.
  apply check_true. exact C.
Qed.
Lemma rcon_ok : forallb (fun i => tab rcon (Z.of_nat i) =? be_val (Rcon (S i))) (seq 0 10) = true.
Proof. vm_compute. reflexivity. Qed.
Lemma rcon_spec : forall i, (i < 10)%nat -> tab rcon (Z.of_nat i) = be_val (Rcon (S i)).
Proof.
  intros i Hi. pose proof rcon_ok as C. rewrite forallb_forall in C. apply Z.eqb_eq. apply C. apply in_seq. lia.
Qed.
Lemma Rcon_bytes : forall i, (i < 10)%nat -> bytes (Rcon (S i)).
Proof.
  assert (forallb (fun i => forallb (fun x => (0 <=? x) && (x <? 256)) (Rcon (S i))) (seq 0 10) = true) as C by reflexivity.
  intros i Hi. rewrite forallb_forall in C. specialize (C i ltac:(apply in_seq; lia)). rewrite forallb_forall in C.
  apply Forall_forall. intros x Hx. specialize (C x Hx). apply andb_true_iff in C. destruct C as [C1 C2].
  apply Z.leb_le in C1. apply Z.ltb_lt in C2. unfold is_byte. lia.
Qed.
Global Opaque rcon.

Lemma xor_words : forall a b, bytes a -> bytes b -> zlen a = 4 -> zlen b = 4 ->
  Z.lxor (be_val a) (be_val b) = be_val (xors a b) /\ bytes (xors a b) /\ zlen (xors a b) = 4.
Proof.
  intros a b Ha Hb La Lb. split; [symmetry; apply be_val_xors; (assumption || lia)|]. split; [now apply bytes_xors|]. rewrite zlen_xors; lia.
Qed.

(** ** Columns *)
Ltac bytes4 := repeat (apply Forall_cons; [first [assumption | unfold is_byte; lia]|]); apply Forall_nil.
Lemma enc_column_spec : forall a0 a1 a2 a3 b0 b1 b2 b3 c0 c1 c2 c3 d0 d1 d2 d3 k,
  bytes [a0; a1; a2; a3] -> bytes [b0; b1; b2; b3] -> bytes [c0; c1; c2; c3] -> bytes [d0; d1; d2; d3] -> bytes k -> zlen k = 4 ->
  enc_column (be_val [a0; a1; a2; a3]) (be_val [b0; b1; b2; b3]) (be_val [c0; c1; c2; c3]) (be_val [d0; d1; d2; d3]) (be_val k)
  = be_val (xors [Z.lxor (Z.lxor (Z.lxor (gf_mul 2 (S_box a0)) (gf_mul 3 (S_box b1))) (S_box c2)) (S_box d3);
                  Z.lxor (Z.lxor (Z.lxor (S_box a0) (gf_mul 2 (S_box b1))) (gf_mul 3 (S_box c2))) (S_box d3);
                  Z.lxor (Z.lxor (Z.lxor (S_box a0) (S_box b1)) (gf_mul 2 (S_box c2))) (gf_mul 3 (S_box d3));
                  Z.lxor (Z.lxor (Z.lxor (gf_mul 3 (S_box a0)) (S_box b1)) (S_box c2)) (gf_mul 2 (S_box d3))] k).
Proof.
  intros a0 a1 a2 a3 b0 b1 b2 b3 c0 c1 c2 c3 d0 d1 d2 d3 k Ha Hb Hc Hd Hk Lk.
  repeat match goal with H : bytes (_ :: _) |- _ => inversion H; subst; clear H | H : Forall _ (_ :: _) |- _ => inversion H; subst; clear H end.
  unfold enc_column.
  rewrite (proj1 (word_bytes a0 a1 a2 a3 ltac:(assumption) ltac:(assumption) ltac:(assumption) ltac:(assumption))).
  rewrite (proj1 (proj2 (word_bytes b0 b1 b2 b3 ltac:(assumption) ltac:(assumption) ltac:(assumption) ltac:(assumption)))).
  rewrite (proj1 (proj2 (proj2 (word_bytes c0 c1 c2 c3 ltac:(assumption) ltac:(assumption) ltac:(assumption) ltac:(assumption))))).
  rewrite (proj2 (proj2 (proj2 (word_bytes d0 d1 d2 d3 ltac:(assumption) ltac:(assumption) ltac:(assumption) ltac:(assumption))))).
  destruct (tables a0 ltac:(assumption)) as (A1 & A2 & A3 & A4 & _). rewrite A4.
  destruct (tables b1 ltac:(assumption)) as (B1 & B2 & B3 & _ & B4 & _). rewrite B4.
  destruct (tables c2 ltac:(assumption)) as (C1 & C2 & C3 & _ & _ & C4 & _). rewrite C4.
  destruct (tables d3 ltac:(assumption)) as (D1 & D2 & D3 & _ & _ & _ & D4 & _). rewrite D4.
  destruct (xor_words [gf_mul 2 (S_box a0); S_box a0; S_box a0; gf_mul 3 (S_box a0)] [gf_mul 3 (S_box b1); gf_mul 2 (S_box b1); S_box b1; S_box b1])
    as (E1 & F1 & G1); [bytes4|bytes4|reflexivity|reflexivity|]. rewrite E1.
  destruct (xor_words _ [S_box c2; gf_mul 3 (S_box c2); gf_mul 2 (S_box c2); S_box c2] F1) as (E2 & F2 & G2); [bytes4|exact G1|reflexivity|]. rewrite E2.
  destruct (xor_words _ [S_box d3; S_box d3; gf_mul 3 (S_box d3); gf_mul 2 (S_box d3)] F2) as (E3 & F3 & G3); [bytes4|exact G2|reflexivity|]. rewrite E3.
  rewrite (proj1 (xor_words _ k F3 Hk G3 Lk)). reflexivity.
Qed.
Lemma last_column_spec : forall a0 a1 a2 a3 b0 b1 b2 b3 c0 c1 c2 c3 d0 d1 d2 d3 k,
  bytes [a0; a1; a2; a3] -> bytes [b0; b1; b2; b3] -> bytes [c0; c1; c2; c3] -> bytes [d0; d1; d2; d3] -> bytes k -> zlen k = 4 ->
  last_column (be_val [a0; a1; a2; a3]) (be_val [b0; b1; b2; b3]) (be_val [c0; c1; c2; c3]) (be_val [d0; d1; d2; d3]) (be_val k)
  = be_val (xors [S_box a0; S_box b1; S_box c2; S_box d3] k).
Proof.
  intros a0 a1 a2 a3 b0 b1 b2 b3 c0 c1 c2 c3 d0 d1 d2 d3 k Ha Hb Hc Hd Hk Lk.
  repeat match goal with H : bytes (_ :: _) |- _ => inversion H; subst; clear H | H : Forall _ (_ :: _) |- _ => inversion H; subst; clear H end.
  unfold last_column.
  rewrite (proj1 (word_bytes a0 a1 a2 a3 ltac:(assumption) ltac:(assumption) ltac:(assumption) ltac:(assumption))).
  rewrite (proj1 (proj2 (word_bytes b0 b1 b2 b3 ltac:(assumption) ltac:(assumption) ltac:(assumption) ltac:(assumption)))).
  rewrite (proj1 (proj2 (proj2 (word_bytes c0 c1 c2 c3 ltac:(assumption) ltac:(assumption) ltac:(assumption) ltac:(assumption))))).
  rewrite (proj2 (proj2 (proj2 (word_bytes d0 d1 d2 d3 ltac:(assumption) ltac:(assumption) ltac:(assumption) ltac:(assumption))))).
  destruct (tables a0 ltac:(assumption)) as (A1 & _ & _ & _ & _ & _ & _ & A4 & _). rewrite A4.
  destruct (tables b1 ltac:(assumption)) as (B1 & _ & _ & _ & _ & _ & _ & _ & B4 & _). rewrite B4.
  destruct (tables c2 ltac:(assumption)) as (C1 & _ & _ & _ & _ & _ & _ & _ & _ & C4 & _). rewrite C4.
  destruct (tables d3 ltac:(assumption)) as (D1 & _ & _ & _ & _ & _ & _ & _ & _ & _ & D4). rewrite D4.
  destruct (xor_words [S_box a0; 0; 0; 0] [0; S_box b1; 0; 0]) as (E1 & F1 & G1); [bytes4|bytes4|reflexivity|reflexivity|]. rewrite E1.
  destruct (xor_words _ [0; 0; S_box c2; 0] F1) as (E2 & F2 & G2); [bytes4|exact G1|reflexivity|]. rewrite E2.
  destruct (xor_words _ [0; 0; 0; S_box d3] F2) as (E3 & F3 & G3); [bytes4|exact G2|reflexivity|]. rewrite E3.
  rewrite (proj1 (xor_words _ k F3 Hk G3 Lk)). do 2 f_equal. unfold xors. cbn [combine map fst snd].
  rewrite !Z.lxor_0_r, !Z.lxor_0_l. reflexivity.
Qed.
Lemma sub_rot_spec : forall w, bytes w -> zlen w = 4 -> sub_rot (be_val w) = be_val (SubWord (RotWord w)).
Proof.
  intros w Hw Lw. destruct (four w Lw) as (a & b & c & d & ->).
  repeat match goal with H : bytes (_ :: _) |- _ => inversion H; subst; clear H | H : Forall _ (_ :: _) |- _ => inversion H; subst; clear H end.
  unfold sub_rot. destruct (word_bytes a b c d ltac:(assumption) ltac:(assumption) ltac:(assumption) ltac:(assumption)) as (W1 & W2 & W3 & W4).
  rewrite W1, W2, W3, W4.
  destruct (tables b ltac:(assumption)) as (A1 & _ & _ & _ & _ & _ & _ & A4 & _). rewrite A4.
  destruct (tables c ltac:(assumption)) as (B1 & _ & _ & _ & _ & _ & _ & _ & B4 & _). rewrite B4.
  destruct (tables d ltac:(assumption)) as (C1 & _ & _ & _ & _ & _ & _ & _ & _ & C4 & _). rewrite C4.
  destruct (tables a ltac:(assumption)) as (D1 & _ & _ & _ & _ & _ & _ & _ & _ & _ & D4). rewrite D4.
  destruct (xor_words [S_box b; 0; 0; 0] [0; S_box c; 0; 0]) as (E1 & F1 & G1); [bytes4|bytes4|reflexivity|reflexivity|]. rewrite E1.
  destruct (xor_words _ [0; 0; S_box d; 0] F1) as (E2 & F2 & G2); [bytes4|exact G1|reflexivity|]. rewrite E2.
  rewrite (proj1 (xor_words _ [0; 0; 0; S_box a] F2 ltac:(bytes4) G2 eq_refl)).
  f_equal. unfold xors, SubWord, RotWord. cbn [combine map fst snd tl firstn app].
  rewrite !Z.lxor_0_r, !Z.lxor_0_l. reflexivity.
Qed.
Lemma sub_only_spec : forall w, bytes w -> zlen w = 4 -> sub_only (be_val w) = be_val (SubWord w).
Proof.
  intros w Hw Lw. destruct (four w Lw) as (a & b & c & d & ->).
  repeat match goal with H : bytes (_ :: _) |- _ => inversion H; subst; clear H | H : Forall _ (_ :: _) |- _ => inversion H; subst; clear H end.
  unfold sub_only. destruct (word_bytes a b c d ltac:(assumption) ltac:(assumption) ltac:(assumption) ltac:(assumption)) as (W1 & W2 & W3 & W4).
  rewrite W1, W2, W3, W4.
  destruct (tables a ltac:(assumption)) as (A1 & _ & _ & _ & _ & _ & _ & A4 & _). rewrite A4.
  destruct (tables b ltac:(assumption)) as (B1 & _ & _ & _ & _ & _ & _ & _ & B4 & _). rewrite B4.
  destruct (tables c ltac:(assumption)) as (C1 & _ & _ & _ & _ & _ & _ & _ & _ & C4 & _). rewrite C4.
  destruct (tables d ltac:(assumption)) as (D1 & _ & _ & _ & _ & _ & _ & _ & _ & _ & D4). rewrite D4.
  destruct (xor_words [S_box a; 0; 0; 0] [0; S_box b; 0; 0]) as (E1 & F1 & G1); [bytes4|bytes4|reflexivity|reflexivity|]. rewrite E1.
  destruct (xor_words _ [0; 0; S_box c; 0] F1) as (E2 & F2 & G2); [bytes4|exact G1|reflexivity|]. rewrite E2.
  rewrite (proj1 (xor_words _ [0; 0; 0; S_box d] F2 ltac:(bytes4) G2 eq_refl)).
  f_equal. unfold xors, SubWord. cbn [combine map fst snd].
  rewrite !Z.lxor_0_r, !Z.lxor_0_l. reflexivity.
Qed.
Lemma SubWord_bytes : forall w, bytes w -> bytes (SubWord w) /\ zlen (SubWord w) = zlen w.
Proof.
  intros w Hw. split.
  - unfold SubWord. apply Forall_map. eapply Forall_impl; [|exact Hw]. intros x Hx. apply (tables x Hx).
  - unfold SubWord, zlen. now rewrite map_length.
Qed.
Lemma RotWord_bytes : forall w, bytes w -> zlen w = 4 -> bytes (RotWord w) /\ zlen (RotWord w) = 4.
Proof.
  intros w Hw Lw. destruct (four w Lw) as (a & b & c & d & ->).
  repeat match goal with H : bytes (_ :: _) |- _ => inversion H; subst; clear H | H : Forall _ (_ :: _) |- _ => inversion H; subst; clear H end.
  split; [|reflexivity]. unfold RotWord. cbn [tl firstn app]. bytes4.
Qed.

(** ** The key schedule *)
Section Schedule.
Variable key : list Z.
Variable nk : nat.
Hypothesis Hnk : (nk = 4 \/ nk = 6 \/ nk = 8)%nat.
Hypothesis Hkey : bytes key.
Hypothesis Lkey : zlen key = 4 * Z.of_nat nk.
Let total : nat := (4 * (nk + 6 + 1))%nat.
Definition kw (i : nat) : list Z := nth i (KeyExpansion key nk (S i)) [].

Lemma KE_length : forall n, length (KeyExpansion key nk n) = n.
Proof. intros n. induction n as [|n IH]; [reflexivity|]. cbn [KeyExpansion]. rewrite app_length, IH. cbn [length]. lia. Qed.
Lemma KE_nth : forall n i, (i < n)%nat -> nth i (KeyExpansion key nk n) [] = kw i.
Proof.
  intros n. induction n as [|n IH]; intros i Hi; [lia|]. destruct (Nat.eq_dec i n) as [->|Hne]; [reflexivity|].
  cbn [KeyExpansion]. rewrite app_nth1 by (rewrite KE_length; lia). apply IH. lia.
Qed.
Lemma kw_key : forall i, (i < nk)%nat -> kw i = firstn 4 (skipn (4 * i) key).
Proof.
  intros i Hi. unfold kw. cbn [KeyExpansion]. rewrite app_nth2 by (rewrite KE_length; lia). rewrite KE_length, Nat.sub_diag.
  cbn [nth]. destruct (Nat.ltb_spec i nk); [reflexivity|lia].
Qed.
Lemma kw_next : forall i, (nk <= i)%nat -> kw i =
  xors (kw (i - nk))
    (if (i mod nk =? 0)%nat then xors (SubWord (RotWord (kw (i - 1)))) (Rcon (i / nk))
     else if ((6 <? nk) && (i mod nk =? 4))%nat then SubWord (kw (i - 1)) else kw (i - 1)).
Proof.
  intros i Hi. unfold kw at 1. cbn [KeyExpansion]. rewrite app_nth2 by (rewrite KE_length; lia). rewrite KE_length, Nat.sub_diag.
  cbn [nth]. destruct (Nat.ltb_spec i nk); [lia|]. cbv zeta. rewrite !KE_nth by lia. reflexivity.
Qed.
Lemma mod_split : forall q r, (r < nk)%nat -> ((nk * q + r) mod nk = r /\ (nk * q + r) / nk = q)%nat.
Proof.
  intros q r Hr. split.
  - symmetry. apply Nat.mod_unique with (q := q); lia.
  - symmetry. apply Nat.div_unique with (r := r); lia.
Qed.
Lemma kw_ok : forall i, (i < total)%nat -> bytes (kw i) /\ zlen (kw i) = 4.
Proof.
  intros i. induction i as [i IH] using (well_founded_induction lt_wf). intros Hi.
  destruct (Nat.lt_ge_cases i nk) as [Hlt|Hge].
  - rewrite kw_key by exact Hlt. change (firstn 4 (skipn (4 * i) key)) with (take 4 (skipn (4 * i) key)).
    replace (skipn (4 * i) key) with (drop (4 * Z.of_nat i) key) by (unfold drop; f_equal; lia).
    split; [apply bytes_take; now apply bytes_drop|]. rewrite zlen_take, zlen_drop. lia.
  - rewrite kw_next by exact Hge.
    destruct (IH (i - nk)%nat ltac:(lia) ltac:(lia)) as [B1 L1]. destruct (IH (i - 1)%nat ltac:(lia) ltac:(lia)) as [B2 L2].
    assert (forall t, bytes t -> zlen t = 4 -> bytes (xors (kw (i - nk)) t) /\ zlen (xors (kw (i - nk)) t) = 4) as X
      by (intros t Bt Lt; split; [now apply bytes_xors|rewrite zlen_xors; lia]).
    destruct (i mod nk =? 0)%nat.
    + destruct (RotWord_bytes _ B2 L2) as [B3 L3]. destruct (SubWord_bytes _ B3) as [B4 L4].
      assert (1 <= i / nk <= 10)%nat as Hd.
      { split; [apply Nat.div_le_lower_bound; lia|]. assert (i / nk < 11)%nat; [|lia]. apply Nat.div_lt_upper_bound; unfold total in Hi; lia. }
      destruct (i / nk)%nat as [|q] eqn:E; [lia|]. apply X; [apply bytes_xors; [exact B4|apply Rcon_bytes; lia]|].
      rewrite zlen_xors; [reflexivity|]. rewrite L4, L3. reflexivity.
    + destruct ((6 <? nk) && (i mod nk =? 4))%nat; [|now apply X]. destruct (SubWord_bytes _ B2) as [B4 L4]. apply X; [exact B4|lia].
Qed.

(** the first [n] words are there *)
Definition words_in (rk : list Z) (n : nat) : Prop :=
  Z.of_nat total <= zlen rk /\ forall j, (j < n)%nat -> nth j rk 0 = be_val (kw j).
Lemma words_get : forall rk n i j, words_in rk n -> i = Z.of_nat j -> (j < n)%nat -> (j < total)%nat -> rk_get rk i = Ok (be_val (kw j)).
Proof.
  intros rk n i j [L H] -> Hj Ht. unfold rk_get. destruct (Z.leb_spec 0 (Z.of_nat j)); [|lia]. destruct (Z.ltb_spec (Z.of_nat j) (zlen rk)); [|lia].
  cbn [andb]. rewrite Nat2Z.id. now rewrite H.
Qed.
Lemma words_set : forall rk n i v, words_in rk n -> i = Z.of_nat n -> (n < total)%nat -> v = be_val (kw n) ->
  exists rk', rk_set rk i v = Ok rk' /\ words_in rk' (S n) /\ zlen rk' = zlen rk.
Proof.
  intros rk n i v [L H] -> Ht ->. unfold rk_set. destruct (Z.leb_spec 0 (Z.of_nat n)); [|lia].
  destruct (Z.ltb_spec (Z.of_nat n) (zlen rk)); [|lia]. cbn [andb].
  exists (splice (Z.of_nat n) [be_val (kw n)] rk). split; [reflexivity|].
  assert (zlen (splice (Z.of_nat n) [be_val (kw n)] rk) = zlen rk) as LS by (rewrite splice_length; [reflexivity|lia|change (zlen [be_val (kw n)]) with 1; lia]).
  split; [|exact LS]. split; [lia|]. intros j Hj. unfold splice. unfold take. rewrite Nat2Z.id.
  assert (length (firstn n rk) = n) as Lf by (rewrite firstn_length; unfold zlen in *; lia).
  destruct (Nat.eq_dec j n) as [->|Hne].
  - rewrite app_nth2 by lia. rewrite Lf, Nat.sub_diag. reflexivity.
  - rewrite app_nth1 by lia. rewrite <- H by lia. rewrite <- (firstn_skipn n rk) at 2. rewrite app_nth1 by lia. reflexivity.
Qed.
Lemma words_xor : forall rk n dst a b q r, words_in rk n -> dst = Z.of_nat n -> (n < total)%nat -> (n = nk * q + r)%nat ->
  (1 <= q)%nat -> (0 < r < nk)%nat -> (nk = 8 -> r <> 4)%nat -> a = dst - Z.of_nat nk -> b = dst - 1 ->
  exists rk', rk_xor rk dst a b = Ok rk' /\ words_in rk' (S n) /\ zlen rk' = zlen rk.
Proof.
  intros rk n dst a b q r HW Hd Ht Hn Hq Hr H4 Ha Hb. assert (nk <= n)%nat as Hge by nia.
  assert (n - nk < total)%nat as T1 by lia. assert (n - 1 < total)%nat as T2 by lia.
  unfold rk_xor. rewrite (words_get rk n a (n - nk)%nat HW) by lia. cbn [obind].
  rewrite (words_get rk n b (n - 1)%nat HW) by lia. cbn [obind].
  apply words_set; try assumption. rewrite (kw_next n) by exact Hge.
  assert (n mod nk = r)%nat as -> by (rewrite Hn; apply mod_split; lia).
  destruct (Nat.eqb_spec r 0); [lia|].
  assert (((6 <? nk) && (r =? 4))%nat = false) as ->.
  { destruct (Nat.ltb_spec 6 nk); [|reflexivity]. destruct (Nat.eqb_spec r 4); [lia|reflexivity]. }
  destruct (kw_ok (n - nk)%nat T1) as [B1 L1]. destruct (kw_ok (n - 1)%nat T2) as [B2 L2].
  symmetry. apply be_val_xors; [assumption..|lia].
Qed.
Lemma words_rot : forall rk n dst q temp r0, words_in rk n -> dst = Z.of_nat n -> (n < total)%nat -> (n = nk * S q)%nat -> (q < 10)%nat ->
  temp = be_val (kw (n - 1)) -> r0 = be_val (kw (n - nk)) ->
  exists rk', rk_set rk dst (Z.lxor (Z.lxor r0 (sub_rot temp)) (tab rcon (Z.of_nat q))) = Ok rk' /\ words_in rk' (S n) /\ zlen rk' = zlen rk.
Proof.
  intros rk n dst q temp r0 HW Hd Ht Hn Hq -> ->. assert (nk <= n)%nat as Hge by nia.
  destruct (kw_ok (n - nk)%nat ltac:(lia)) as [B1 L1]. destruct (kw_ok (n - 1)%nat ltac:(lia)) as [B2 L2].
  apply words_set; try assumption. rewrite (kw_next n) by exact Hge.
  destruct (mod_split (S q) 0 ltac:(lia)) as [M1 M2]. rewrite Nat.add_0_r in M1, M2. rewrite <- Hn in M1, M2. rewrite M1, M2. cbn [Nat.eqb].
  destruct (RotWord_bytes _ B2 L2) as [B3 L3]. destruct (SubWord_bytes _ B3) as [B4 L4].
  rewrite sub_rot_spec by assumption. rewrite rcon_spec by exact Hq. rewrite Z.lxor_assoc.
  pose proof (Rcon_bytes q Hq) as B5.
  rewrite <- be_val_xors by (first [assumption | rewrite L4, L3; reflexivity]).
  rewrite <- be_val_xors; [reflexivity|assumption|now apply bytes_xors|]. rewrite zlen_xors by (rewrite L4, L3; change (zlen (Rcon (S q))) with 4; lia).
  rewrite L1. reflexivity.
Qed.
Lemma words_sub : forall rk n dst q temp r4, words_in rk n -> dst = Z.of_nat n -> (n < total)%nat -> (n = nk * q + 4)%nat -> (nk = 8)%nat -> (1 <= q)%nat ->
  temp = be_val (kw (n - 1)) -> r4 = be_val (kw (n - nk)) ->
  exists rk', rk_set rk dst (Z.lxor r4 (sub_only temp)) = Ok rk' /\ words_in rk' (S n) /\ zlen rk' = zlen rk.
Proof.
  intros rk n dst q temp r4 HW Hd Ht Hn H8 Hq -> ->. assert (nk <= n)%nat as Hge by nia.
  destruct (kw_ok (n - nk)%nat ltac:(lia)) as [B1 L1]. destruct (kw_ok (n - 1)%nat ltac:(lia)) as [B2 L2].
  apply words_set; try assumption. rewrite (kw_next n) by exact Hge.
  assert (n mod nk = 4)%nat as -> by (rewrite Hn; apply mod_split; lia). cbn [Nat.eqb].
  assert ((6 <? nk)%nat = true) as -> by (rewrite H8; reflexivity). cbn [andb].
  destruct (SubWord_bytes _ B2) as [B4 L4].
  rewrite sub_only_spec by assumption. symmetry. apply be_val_xors; [assumption..|lia].
Qed.
Lemma words_key : forall rk n i, words_in rk n -> i = Z.of_nat n -> (n < nk)%nat ->
  exists rk', key_word key rk i = Ok rk' /\ words_in rk' (S n) /\ zlen rk' = zlen rk.
Proof.
  intros rk n i HW -> Hn. unfold key_word, load.
  destruct (kw_ok n ltac:(unfold total; lia)) as [B1 L1]. rewrite kw_key in B1, L1 by exact Hn.
  assert (sub (4 * Z.of_nat n) 4 key = firstn 4 (skipn (4 * n) key)) as E.
  { unfold sub, take, drop. f_equal. f_equal. lia. }
  match goal with |- context [if ?c then _ else _] => assert (c = true) as -> by lia end.
  cbn [obind]. rewrite E. rewrite getu32_spec by assumption. apply words_set; try assumption; [reflexivity|unfold total; lia|]. now rewrite kw_key.
Qed.
End Schedule.

Ltac xor_step key nk q r :=
  match goal with HW : words_in key nk ?rk ?n |- context [rk_xor ?rk ?dst ?a ?b] =>
    let rk' := fresh "rk" in let E := fresh "E" in let W := fresh "W" in let L := fresh "L" in
    destruct (words_xor key nk ltac:(lia) ltac:(assumption) ltac:(assumption) rk n dst a b q r HW ltac:(lia) ltac:(lia) ltac:(lia) ltac:(lia) ltac:(lia) ltac:(lia) ltac:(lia) ltac:(lia))
      as (rk' & E & W & L); rewrite E; cbn [obind]; clear E HW
  end.
Lemma setup128_ok : forall key, bytes key -> zlen key = 16 -> forall fuel q rk base, (q + fuel = 10)%nat -> (1 <= fuel)%nat ->
  words_in key 4 rk (4 * S q) -> base = 4 * Z.of_nat q ->
  exists rk', setup128 fuel (Z.of_nat q) base rk = Ok (rk', 10) /\ words_in key 4 rk' 44 /\ zlen rk' = zlen rk.
Proof.
  intros key Hk Lk. assert (zlen key = 4 * Z.of_nat 4) as Lk' by lia.
  intros fuel. induction fuel as [|fuel IH]; intros q rk base Hq Hf HW Hb; [lia|].
  cbn [setup128].
  rewrite (words_get key 4 ltac:(lia) rk (4 * S q) (base + 3) (4 * S q - 1)%nat HW) by lia. cbn [obind].
  rewrite (words_get key 4 ltac:(lia) rk (4 * S q) base (4 * S q - 4)%nat HW) by lia. cbn [obind].
  destruct (words_rot key 4 ltac:(lia) Hk Lk' rk (4 * S q) (base + 4) q (be_val (kw key 4 (4 * S q - 1))) (be_val (kw key 4 (4 * S q - 4))) HW
    ltac:(lia) ltac:(lia) eq_refl ltac:(lia) eq_refl eq_refl) as (rk1 & E1 & W1 & L1).
  rewrite E1. cbn [obind]. clear E1 HW.
  xor_step key 4%nat (S q) 1%nat. xor_step key 4%nat (S q) 2%nat. xor_step key 4%nat (S q) 3%nat.
  destruct (Z.eqb_spec (Z.of_nat q + 1) 10) as [E|E].
  - match goal with HW : words_in key 4 ?r ?n |- _ => exists r; split; [reflexivity|]; split; [|lia]; replace 44%nat with n by lia; exact HW end.
  - match goal with HW : words_in key 4 ?r ?n |- context [setup128 fuel _ _ ?r] =>
      destruct (IH (S q) r (base + 4) ltac:(lia) ltac:(lia)) as (rk' & E' & W' & L');
        [replace (4 * S (S q))%nat with n by lia; exact HW|lia|] end.
    exists rk'. replace (Z.of_nat q + 1) with (Z.of_nat (S q)) by lia. split; [exact E'|]. split; [exact W'|lia].
Qed.
Lemma setup192_ok : forall key, bytes key -> zlen key = 24 -> forall fuel q rk base, (q + fuel = 8)%nat -> (1 <= fuel)%nat ->
  words_in key 6 rk (6 * S q) -> base = 6 * Z.of_nat q ->
  exists rk', setup192 fuel (Z.of_nat q) base rk = Ok (rk', 12) /\ words_in key 6 rk' 52 /\ zlen rk' = zlen rk.
Proof.
  intros key Hk Lk. assert (zlen key = 4 * Z.of_nat 6) as Lk' by lia.
  intros fuel. induction fuel as [|fuel IH]; intros q rk base Hq Hf HW Hb; [lia|].
  cbn [setup192].
  rewrite (words_get key 6 ltac:(lia) rk (6 * S q) (base + 5) (6 * S q - 1)%nat HW) by lia. cbn [obind].
  rewrite (words_get key 6 ltac:(lia) rk (6 * S q) base (6 * S q - 6)%nat HW) by lia. cbn [obind].
  destruct (words_rot key 6 ltac:(lia) Hk Lk' rk (6 * S q) (base + 6) q (be_val (kw key 6 (6 * S q - 1))) (be_val (kw key 6 (6 * S q - 6))) HW
    ltac:(lia) ltac:(lia) eq_refl ltac:(lia) eq_refl eq_refl) as (rk1 & E1 & W1 & L1).
  rewrite E1. cbn [obind]. clear E1 HW.
  xor_step key 6%nat (S q) 1%nat. xor_step key 6%nat (S q) 2%nat. xor_step key 6%nat (S q) 3%nat.
  destruct (Z.eqb_spec (Z.of_nat q + 1) 8) as [E|E].
  - match goal with HW : words_in key 6 ?r ?n |- _ => exists r; split; [reflexivity|]; split; [|lia]; replace 52%nat with n by lia; exact HW end.
  - xor_step key 6%nat (S q) 4%nat. xor_step key 6%nat (S q) 5%nat.
    match goal with HW : words_in key 6 ?r ?n |- context [setup192 fuel _ _ ?r] =>
      destruct (IH (S q) r (base + 6) ltac:(lia) ltac:(lia)) as (rk' & E' & W' & L');
        [replace (6 * S (S q))%nat with n by lia; exact HW|lia|] end.
    exists rk'. replace (Z.of_nat q + 1) with (Z.of_nat (S q)) by lia. split; [exact E'|]. split; [exact W'|lia].
Qed.
Lemma setup256_ok : forall key, bytes key -> zlen key = 32 -> forall fuel q rk base, (q + fuel = 7)%nat -> (1 <= fuel)%nat ->
  words_in key 8 rk (8 * S q) -> base = 8 * Z.of_nat q ->
  exists rk', setup256 fuel (Z.of_nat q) base rk = Ok (rk', 14) /\ words_in key 8 rk' 60 /\ zlen rk' = zlen rk.
Proof.
  intros key Hk Lk. assert (zlen key = 4 * Z.of_nat 8) as Lk' by lia.
  intros fuel. induction fuel as [|fuel IH]; intros q rk base Hq Hf HW Hb; [lia|].
  cbn [setup256].
  rewrite (words_get key 8 ltac:(lia) rk (8 * S q) (base + 7) (8 * S q - 1)%nat HW) by lia. cbn [obind].
  rewrite (words_get key 8 ltac:(lia) rk (8 * S q) base (8 * S q - 8)%nat HW) by lia. cbn [obind].
  destruct (words_rot key 8 ltac:(lia) Hk Lk' rk (8 * S q) (base + 8) q (be_val (kw key 8 (8 * S q - 1))) (be_val (kw key 8 (8 * S q - 8))) HW
    ltac:(lia) ltac:(lia) eq_refl ltac:(lia) eq_refl eq_refl) as (rk1 & E1 & W1 & L1).
  rewrite E1. cbn [obind]. clear E1 HW.
  xor_step key 8%nat (S q) 1%nat. xor_step key 8%nat (S q) 2%nat. xor_step key 8%nat (S q) 3%nat.
  destruct (Z.eqb_spec (Z.of_nat q + 1) 7) as [E|E].
  - match goal with HW : words_in key 8 ?r ?n |- _ => exists r; split; [reflexivity|]; split; [|lia]; replace 60%nat with n by lia; exact HW end.
  - match goal with HW : words_in key 8 ?rk3 ?n |- _ =>
      rewrite (words_get key 8 ltac:(lia) rk3 n (base + 11) (n - 1)%nat HW) by lia; cbn [obind];
      rewrite (words_get key 8 ltac:(lia) rk3 n (base + 4) (n - 8)%nat HW) by lia; cbn [obind];
      destruct (words_sub key 8 ltac:(lia) Hk Lk' rk3 n (base + 12) (S q) (be_val (kw key 8 (n - 1))) (be_val (kw key 8 (n - 8))) HW
        ltac:(lia) ltac:(lia) ltac:(lia) eq_refl ltac:(lia) eq_refl eq_refl) as (rk4 & E4 & W4 & L4); rewrite E4; cbn [obind]; clear E4 HW
    end.
    xor_step key 8%nat (S q) 5%nat. xor_step key 8%nat (S q) 6%nat. xor_step key 8%nat (S q) 7%nat.
    match goal with HW : words_in key 8 ?r ?n |- context [setup256 fuel _ _ ?r] =>
      destruct (IH (S q) r (base + 8) ltac:(lia) ltac:(lia)) as (rk' & E' & W' & L');
        [replace (8 * S (S q))%nat with n by lia; exact HW|lia|] end.
    exists rk'. replace (Z.of_nat q + 1) with (Z.of_nat (S q)) by lia. split; [exact E'|]. split; [exact W'|lia].
Qed.
Ltac key_step key nk :=
  match goal with HW : words_in key nk ?rk ?n |- context [key_word key ?rk ?i] =>
    let rk' := fresh "rk" in let E := fresh "E" in let W := fresh "W" in let L := fresh "L" in
    destruct (words_key key nk ltac:(lia) ltac:(assumption) ltac:(assumption) rk n i HW ltac:(lia) ltac:(lia))
      as (rk' & E & W & L); rewrite E; cbn [obind]; clear E HW
  end.
Lemma key_setup_ok : forall nk key rk, (nk = 4 \/ nk = 6 \/ nk = 8)%nat -> bytes key -> zlen key = 4 * Z.of_nat nk -> 4 * (Z.of_nat nk + 7) <= zlen rk ->
  exists rk', rijndael_key_setup_enc rk key (32 * Z.of_nat nk) = Ok (rk', Z.of_nat nk + 6) /\ zlen rk' = zlen rk /\
    words_in key nk rk' (4 * (nk + 6 + 1)).
Proof.
  intros nk key rk Hnk Hk Lk Lrk.
  assert (words_in key nk rk 0) as HW by (split; [lia|intros j Hj; lia]).
  unfold rijndael_key_setup_enc. key_step key nk. key_step key nk. key_step key nk. key_step key nk.
  destruct Hnk as [-> | [-> | ->]]; cbn [Z.of_nat Pos.of_succ_nat Pos.succ].
  - change (32 * 4 =? 128) with true. cbv iota.
    match goal with HW : words_in key 4 ?r ?n |- context [setup128 _ _ _ ?r] =>
      destruct (setup128_ok key Hk Lk 10 0 r 0 eq_refl ltac:(lia) HW eq_refl) as (rk' & E' & W' & L') end.
    exists rk'. split; [exact E'|]. split; [lia|exact W'].
  - change (32 * 6 =? 128) with false. cbv iota. key_step key 6%nat. key_step key 6%nat.
    change (32 * 6 =? 192) with true. cbv iota.
    match goal with HW : words_in key 6 ?r ?n |- context [setup192 _ _ _ ?r] =>
      destruct (setup192_ok key Hk Lk 8 0 r 0 eq_refl ltac:(lia) HW eq_refl) as (rk' & E' & W' & L') end.
    exists rk'. split; [exact E'|]. split; [lia|exact W'].
  - change (32 * 8 =? 128) with false. cbv iota. key_step key 8%nat. key_step key 8%nat.
    change (32 * 8 =? 192) with false. cbv iota. key_step key 8%nat. key_step key 8%nat.
    change (32 * 8 =? 256) with true. cbv iota.
    match goal with HW : words_in key 8 ?r ?n |- context [setup256 _ _ _ ?r] =>
      destruct (setup256_ok key Hk Lk 7 0 r 0 eq_refl ltac:(lia) HW eq_refl) as (rk' & E' & W' & L') end.
    exists rk'. split; [exact E'|]. split; [lia|exact W'].
Qed.

(** ** Rounds *)
Definition quad_of (s : list Z) : quad := (be_val (sub 0 4 s), be_val (sub 4 4 s), be_val (sub 8 4 s), be_val (sub 12 4 s)).
Lemma sixteen : forall (l : list Z), zlen l = 16 -> exists a b c d e f g h i j k m n o p q, l = [a; b; c; d; e; f; g; h; i; j; k; m; n; o; p; q].
Proof.
  intros l H. unfold zlen in H. do 16 (destruct l as [|? l]; [cbn [length] in H; lia|]). destruct l; [|cbn [length] in H; lia].
  repeat eexists.
Qed.
Lemma quad_columns : forall a b c d e f g h i j k m n o p q,
  quad_of [a; b; c; d; e; f; g; h; i; j; k; m; n; o; p; q]
  = (be_val [a; b; c; d], be_val [e; f; g; h], be_val [i; j; k; m], be_val [n; o; p; q]).
Proof. reflexivity. Qed.
Definition shifted (s : list Z) : list Z := ShiftRows (SubBytes s).
Lemma shifted_columns : forall a b c d e f g h i j k m n o p q,
  shifted [a; b; c; d; e; f; g; h; i; j; k; m; n; o; p; q]
  = [S_box a; S_box f; S_box k; S_box q; S_box e; S_box j; S_box p; S_box d;
     S_box i; S_box o; S_box c; S_box h; S_box n; S_box b; S_box g; S_box m].
Proof. reflexivity. Qed.
Lemma mixed_columns : forall a b c d e f g h i j k m n o p q,
  MixColumns [a; b; c; d; e; f; g; h; i; j; k; m; n; o; p; q]
  = let m4 := fun a b c d => Z.lxor (Z.lxor (Z.lxor (gf_mul 2 a) (gf_mul 3 b)) c) d in
    [m4 a b c d; m4 b c d a; m4 c d a b; m4 d a b c; m4 e f g h; m4 f g h e; m4 g h e f; m4 h e f g;
     m4 i j k m; m4 j k m i; m4 k m i j; m4 m i j k; m4 n o p q; m4 o p q n; m4 p q n o; m4 q n o p].
Proof. reflexivity. Qed.
Definition m4 (a b c d : Z) : Z := Z.lxor (Z.lxor (Z.lxor (gf_mul 2 a) (gf_mul 3 b)) c) d.
Lemma lxor_turn : forall x y z a, Z.lxor (Z.lxor (Z.lxor x y) z) a = Z.lxor (Z.lxor (Z.lxor a x) y) z.
Proof. intros. rewrite (Z.lxor_comm _ a). now rewrite !Z.lxor_assoc. Qed.
Lemma enc_column_m4 : forall a0 a1 a2 a3 b0 b1 b2 b3 c0 c1 c2 c3 d0 d1 d2 d3 k,
  bytes [a0; a1; a2; a3] -> bytes [b0; b1; b2; b3] -> bytes [c0; c1; c2; c3] -> bytes [d0; d1; d2; d3] -> bytes k -> zlen k = 4 ->
  enc_column (be_val [a0; a1; a2; a3]) (be_val [b0; b1; b2; b3]) (be_val [c0; c1; c2; c3]) (be_val [d0; d1; d2; d3]) (be_val k)
  = be_val (xors [m4 (S_box a0) (S_box b1) (S_box c2) (S_box d3); m4 (S_box b1) (S_box c2) (S_box d3) (S_box a0);
                  m4 (S_box c2) (S_box d3) (S_box a0) (S_box b1); m4 (S_box d3) (S_box a0) (S_box b1) (S_box c2)] k).
Proof.
  intros. rewrite enc_column_spec by assumption. do 2 f_equal. unfold m4.
  rewrite (lxor_turn (gf_mul 2 (S_box b1))). rewrite (lxor_turn (gf_mul 2 (S_box c2)) (gf_mul 3 (S_box d3))).
  rewrite (lxor_turn (S_box b1) (gf_mul 2 (S_box c2))). rewrite <- (lxor_turn (gf_mul 3 (S_box a0)) (S_box b1)). reflexivity.
Qed.
Lemma mixed_m4 : forall a b c d e f g h i j k m n o p q,
  MixColumns [a; b; c; d; e; f; g; h; i; j; k; m; n; o; p; q]
  = [m4 a b c d; m4 b c d a; m4 c d a b; m4 d a b c] ++ [m4 e f g h; m4 f g h e; m4 g h e f; m4 h e f g] ++
    [m4 i j k m; m4 j k m i; m4 k m i j; m4 m i j k] ++ [m4 n o p q; m4 o p q n; m4 p q n o; m4 q n o p].
Proof. reflexivity. Qed.
Lemma quad_app : forall a b c d, zlen a = 4 -> zlen b = 4 -> zlen c = 4 -> zlen d = 4 ->
  quad_of (a ++ b ++ c ++ d) = (be_val a, be_val b, be_val c, be_val d).
Proof.
  intros a b c d La Lb Lc Ld. destruct (four a La) as (a0 & a1 & a2 & a3 & ->). destruct (four b Lb) as (b0 & b1 & b2 & b3 & ->).
  destruct (four c Lc) as (c0 & c1 & c2 & c3 & ->). destruct (four d Ld) as (d0 & d1 & d2 & d3 & ->). reflexivity.
Qed.
Lemma m4_byte : forall x y z t, is_byte x -> is_byte y -> is_byte z -> is_byte t -> is_byte (m4 (S_box x) (S_box y) (S_box z) (S_box t)).
Proof.
  intros x y z t Hx Hy Hz Ht. unfold m4, is_byte. change 256 with (2 ^ 8).
  destruct (tables x Hx) as (X1 & X2 & X3 & _). destruct (tables y Hy) as (Y1 & Y2 & Y3 & _).
  destruct (tables z Hz) as (Z1 & _). destruct (tables t Ht) as (T1 & _). unfold is_byte in *.
  repeat (apply lxor_word; [lia| |]); lia.
Qed.
Ltac split_bytes := repeat match goal with H : bytes (_ :: _) |- _ => inversion H; subst; clear H | H : Forall _ (_ :: _) |- _ => inversion H; subst; clear H end.
Definition key_at (rk : list Z) (off : Z) (k0 k1 k2 k3 : list Z) : Prop :=
  bytes k0 /\ bytes k1 /\ bytes k2 /\ bytes k3 /\ zlen k0 = 4 /\ zlen k1 = 4 /\ zlen k2 = 4 /\ zlen k3 = 4 /\
  rk_get rk off = Ok (be_val k0) /\ rk_get rk (off + 1) = Ok (be_val k1) /\
  rk_get rk (off + 2) = Ok (be_val k2) /\ rk_get rk (off + 3) = Ok (be_val k3).
Lemma enc_round_ok : forall rk off s k0 k1 k2 k3, bytes s -> zlen s = 16 -> key_at rk off k0 k1 k2 k3 ->
  enc_round rk off (quad_of s) = Ok (quad_of (xors (MixColumns (shifted s)) (k0 ++ k1 ++ k2 ++ k3))) /\
  bytes (xors (MixColumns (shifted s)) (k0 ++ k1 ++ k2 ++ k3)) /\ zlen (xors (MixColumns (shifted s)) (k0 ++ k1 ++ k2 ++ k3)) = 16.
Proof.
  intros rk off s k0 k1 k2 k3 Hs Ls (B0 & B1 & B2 & B3 & L0 & L1 & L2 & L3 & G0 & G1 & G2 & G3).
  destruct (sixteen s Ls) as (a & b & c & d & e & f & g & h & i & j & k & m & n & o & p & q & ->).
  rewrite quad_columns, shifted_columns, mixed_m4. unfold enc_round. rewrite G0, G1, G2, G3. cbn [obind]. clear G0 G1 G2 G3.
  split_bytes.
  assert (bytes [a; b; c; d] /\ bytes [e; f; g; h] /\ bytes [i; j; k; m] /\ bytes [n; o; p; q]) as (C0 & C1 & C2 & C3)
    by (refine (conj _ (conj _ (conj _ _))); bytes4).
  rewrite !enc_column_m4 by assumption.
  assert (forall (x k : list Z), zlen x = 4 -> zlen k = 4 -> length x = length k) as LL by (unfold zlen; lia).
  rewrite !xors_app by (apply LL; [reflexivity|assumption]).
  set (x0 := [m4 (S_box a) (S_box f) (S_box k) (S_box q); m4 (S_box f) (S_box k) (S_box q) (S_box a);
    m4 (S_box k) (S_box q) (S_box a) (S_box f); m4 (S_box q) (S_box a) (S_box f) (S_box k)]).
  set (x1 := [m4 (S_box e) (S_box j) (S_box p) (S_box d); m4 (S_box j) (S_box p) (S_box d) (S_box e);
    m4 (S_box p) (S_box d) (S_box e) (S_box j); m4 (S_box d) (S_box e) (S_box j) (S_box p)]).
  set (x2 := [m4 (S_box i) (S_box o) (S_box c) (S_box h); m4 (S_box o) (S_box c) (S_box h) (S_box i);
    m4 (S_box c) (S_box h) (S_box i) (S_box o); m4 (S_box h) (S_box i) (S_box o) (S_box c)]).
  set (x3 := [m4 (S_box n) (S_box b) (S_box g) (S_box m); m4 (S_box b) (S_box g) (S_box m) (S_box n);
    m4 (S_box g) (S_box m) (S_box n) (S_box b); m4 (S_box m) (S_box n) (S_box b) (S_box g)]).
  assert (bytes x0 /\ bytes x1 /\ bytes x2 /\ bytes x3) as (X0 & X1 & X2 & X3).
  { refine (conj _ (conj _ (conj _ _))); repeat (apply Forall_cons; [apply m4_byte; assumption|]); apply Forall_nil. }
  assert (zlen x0 = 4 /\ zlen x1 = 4 /\ zlen x2 = 4 /\ zlen x3 = 4) as (Y0 & Y1 & Y2 & Y3) by (repeat split).
  clearbody x0 x1 x2 x3.
  assert (zlen (xors x0 k0) = 4 /\ zlen (xors x1 k1) = 4 /\ zlen (xors x2 k2) = 4 /\ zlen (xors x3 k3) = 4) as (T0 & T1 & T2 & T3)
    by (repeat split; rewrite zlen_xors; lia).
  split; [now rewrite quad_app|]. split.
  - repeat (apply bytes_app; split); now apply bytes_xors.
  - rewrite !zlen_app. lia.
Qed.
Lemma enc_last_ok : forall s k0 k1 k2 k3, bytes s -> zlen s = 16 ->
  bytes k0 -> bytes k1 -> bytes k2 -> bytes k3 -> zlen k0 = 4 -> zlen k1 = 4 -> zlen k2 = 4 -> zlen k3 = 4 ->
  let '(t0, t1, t2, t3) := quad_of s in
  putu32 (last_column t0 t1 t2 t3 (be_val k0)) ++ putu32 (last_column t1 t2 t3 t0 (be_val k1)) ++
  putu32 (last_column t2 t3 t0 t1 (be_val k2)) ++ putu32 (last_column t3 t0 t1 t2 (be_val k3))
  = xors (shifted s) (k0 ++ k1 ++ k2 ++ k3).
Proof.
  intros s k0 k1 k2 k3 Hs Ls B0 B1 B2 B3 L0 L1 L2 L3.
  destruct (sixteen s Ls) as (a & b & c & d & e & f & g & h & i & j & k & m & n & o & p & q & ->).
  rewrite quad_columns, shifted_columns. split_bytes.
  assert (bytes [a; b; c; d] /\ bytes [e; f; g; h] /\ bytes [i; j; k; m] /\ bytes [n; o; p; q]) as (C0 & C1 & C2 & C3)
    by (refine (conj _ (conj _ (conj _ _))); bytes4).
  rewrite !last_column_spec by assumption.
  assert (forall x y z t l, is_byte x -> is_byte y -> is_byte z -> is_byte t -> bytes l -> zlen l = 4 ->
    putu32 (be_val (xors [S_box x; S_box y; S_box z; S_box t] l)) = xors [S_box x; S_box y; S_box z; S_box t] l) as P.
  { intros x y z t l Hx Hy Hz Ht Hl Ll. destruct (tables x Hx) as [X _]. destruct (tables y Hy) as [Y _]. destruct (tables z Hz) as [Z' _].
    destruct (tables t Ht) as [T _]. apply putu32_spec; [apply bytes_xors; [bytes4|exact Hl]|]. rewrite zlen_xors; [exact Ll|]. change (zlen [S_box x; S_box y; S_box z; S_box t]) with 4. lia. }
  rewrite !P by assumption.
  change [S_box a; S_box f; S_box k; S_box q; S_box e; S_box j; S_box p; S_box d; S_box i; S_box o; S_box c; S_box h; S_box n; S_box b; S_box g; S_box m]
    with ([S_box a; S_box f; S_box k; S_box q] ++ [S_box e; S_box j; S_box p; S_box d] ++ [S_box i; S_box o; S_box c; S_box h] ++ [S_box n; S_box b; S_box g; S_box m]).
  assert (forall (x k : list Z), zlen x = 4 -> zlen k = 4 -> length x = length k) as LL by (unfold zlen; lia).
  rewrite !xors_app by (apply LL; [reflexivity|assumption]). reflexivity.
Qed.

Section Encrypt.
Variable key : list Z.
Variable nk : nat.
Hypothesis Hnk : (nk = 4 \/ nk = 6 \/ nk = 8)%nat.
Hypothesis Hkey : bytes key.
Hypothesis Lkey : zlen key = 4 * Z.of_nat nk.
Variable rk : list Z.
Hypothesis HW : words_in key nk rk (4 * (nk + 6 + 1)).
Let w := KeyExpansion key nk (4 * (nk + 6 + 1)).

Lemma round_key : forall r, (r <= nk + 6)%nat ->
  key_at rk (4 * Z.of_nat r) (kw key nk (4 * r)) (kw key nk (4 * r + 1)) (kw key nk (4 * r + 2)) (kw key nk (4 * r + 3)) /\
  (forall s, AddRoundKey w r s = xors s (kw key nk (4 * r) ++ kw key nk (4 * r + 1) ++ kw key nk (4 * r + 2) ++ kw key nk (4 * r + 3))).
Proof.
  intros r Hr.
  destruct (kw_ok key nk Hnk Hkey Lkey (4 * r)%nat ltac:(lia)) as [B0 L0]. destruct (kw_ok key nk Hnk Hkey Lkey (4 * r + 1)%nat ltac:(lia)) as [B1 L1].
  destruct (kw_ok key nk Hnk Hkey Lkey (4 * r + 2)%nat ltac:(lia)) as [B2 L2]. destruct (kw_ok key nk Hnk Hkey Lkey (4 * r + 3)%nat ltac:(lia)) as [B3 L3].
  split.
  - unfold key_at. do 8 (split; [assumption|]).
    split; [apply (words_get key nk Hnk rk _ _ (4 * r)%nat HW); lia|]. split; [apply (words_get key nk Hnk rk _ _ (4 * r + 1)%nat HW); lia|].
    split; [apply (words_get key nk Hnk rk _ _ (4 * r + 2)%nat HW); lia|]. apply (words_get key nk Hnk rk _ _ (4 * r + 3)%nat HW); lia.
  - intros s. unfold AddRoundKey. rewrite xor_bytes_xors. f_equal. cbn [seq map concat]. rewrite app_nil_r. unfold w.
    rewrite !KE_nth by lia. now rewrite Nat.add_0_r.
Qed.
Lemma rounds_step : forall r s, (S r <= nk + 6)%nat -> bytes (rounds w r s) -> zlen (rounds w r s) = 16 ->
  enc_round rk (4 * Z.of_nat (S r)) (quad_of (rounds w r s)) = Ok (quad_of (rounds w (S r) s)) /\
  bytes (rounds w (S r) s) /\ zlen (rounds w (S r) s) = 16.
Proof.
  intros r s Hr Hs Ls. destruct (round_key (S r) Hr) as [KA ADD].
  pose proof (enc_round_ok rk _ (rounds w r s) _ _ _ _ Hs Ls KA) as E. rewrite <- ADD in E.
  change (AddRoundKey w (S r) (MixColumns (shifted (rounds w r s)))) with (rounds w (S r) s) in E. exact E.
Qed.
Lemma enc_loop_ok : forall s fuel r base, (2 * fuel + 2 * r = nk + 6)%nat -> (1 <= fuel)%nat -> base = 4 * Z.of_nat (2 * r) ->
  bytes (rounds w (2 * r) s) -> zlen (rounds w (2 * r) s) = 16 ->
  enc_loop fuel (Z.of_nat fuel) rk base (quad_of (rounds w (2 * r) s)) = Ok (quad_of (rounds w (nk + 5) s), 4 * Z.of_nat (nk + 6)) /\
  bytes (rounds w (nk + 5) s) /\ zlen (rounds w (nk + 5) s) = 16.
Proof.
  intros s fuel. induction fuel as [|fuel IH]; intros r base Hf H1 Hb Bs Ls; [lia|]. cbn [enc_loop]. cbv zeta.
  destruct (rounds_step (2 * r) s ltac:(lia) Bs Ls) as (E1 & B1 & L1).
  replace (base + 4) with (4 * Z.of_nat (S (2 * r))) by lia. rewrite E1. cbn [obind].
  destruct (Z.eqb_spec (Z.of_nat (S fuel) - 1) 0) as [E|E].
  - replace (S (2 * r)) with (nk + 5)%nat in * by lia. split; [|split; assumption]. do 2 f_equal. lia.
  - destruct (rounds_step (S (2 * r)) s ltac:(lia) B1 L1) as (E2 & B2 & L2).
    replace (base + 8) with (4 * Z.of_nat (S (S (2 * r)))) by lia. rewrite E2. cbn [obind].
    replace (Z.of_nat (S fuel) - 1) with (Z.of_nat fuel) by lia. replace (S (S (2 * r))) with (2 * S r)%nat in * by lia.
    apply IH; [lia|lia|lia|assumption|assumption].
Qed.
Lemma encrypt_ok : forall s, bytes s -> zlen s = 16 ->
  rijndael_encrypt rk (Z.of_nat nk + 6) s = Ok (AES nk key s).
Proof.
  intros s Hs Ls. unfold rijndael_encrypt, load.
  repeat match goal with |- context [if ?c then Ok _ else UB] => assert (c = true) as -> by lia; cbn [obind] end.
  destruct (round_key 0 ltac:(lia)) as [(B0 & B1 & B2 & B3 & L0 & L1 & L2 & L3 & G0 & G1 & G2 & G3) ADD].
  change (4 * Z.of_nat 0) with 0 in G0, G1, G2, G3. change (0 + 1) with 1 in G1. change (0 + 2) with 2 in G2. change (0 + 3) with 3 in G3.
  rewrite G0, G1, G2, G3. cbn [obind]. cbv zeta.
  assert (forall i, In i [0; 4; 8; 12] -> bytes (sub i 4 s) /\ zlen (sub i 4 s) = 4) as Sb.
  { intros i Hi. cbn [In] in Hi. split; [unfold sub; apply bytes_take; now apply bytes_drop|]. rewrite zlen_sub; lia. }
  destruct (Sb 0 ltac:(cbn; auto)) as [P0 Q0]. destruct (Sb 4 ltac:(cbn; auto)) as [P1 Q1].
  destruct (Sb 8 ltac:(cbn; auto)) as [P2 Q2]. destruct (Sb 12 ltac:(cbn; auto)) as [P3 Q3].
  rewrite !getu32_spec by assumption.
  assert (s = sub 0 4 s ++ sub 4 4 s ++ sub 8 4 s ++ sub 12 4 s) as Es.
  { destruct (sixteen s Ls) as (a & b & c & d & e & f & g & h & i & j & k & m & n & o & p & q & ->). reflexivity. }
  assert (rounds w 0 s = xors (sub 0 4 s) (kw key nk (4 * 0)) ++ xors (sub 4 4 s) (kw key nk (4 * 0 + 1)) ++
    xors (sub 8 4 s) (kw key nk (4 * 0 + 2)) ++ xors (sub 12 4 s) (kw key nk (4 * 0 + 3))) as R0.
  { cbn [rounds]. rewrite ADD. rewrite Es at 1. assert (forall (x k : list Z), zlen x = 4 -> zlen k = 4 -> length x = length k) as LL by (unfold zlen; lia).
    rewrite !xors_app by (apply LL; assumption). reflexivity. }
  destruct (xor_words _ _ P0 B0 Q0 L0) as (X0 & Y0 & Z0'). destruct (xor_words _ _ P1 B1 Q1 L1) as (X1 & Y1 & Z1').
  destruct (xor_words _ _ P2 B2 Q2 L2) as (X2 & Y2 & Z2'). destruct (xor_words _ _ P3 B3 Q3 L3) as (X3 & Y3 & Z3').
  rewrite X0, X1, X2, X3. rewrite <- quad_app by assumption. rewrite <- R0.
  assert (bytes (rounds w 0 s) /\ zlen (rounds w 0 s) = 16) as [BR LR].
  { rewrite R0. split; [repeat (apply bytes_app; split); assumption|]. rewrite !zlen_app. lia. }
  clear R0 X0 X1 X2 X3 G0 G1 G2 G3 Es.
  assert (exists f, Z.shiftr (Z.of_nat nk + 6) 1 = Z.of_nat f /\ (2 * f = nk + 6)%nat) as (f & Ef & Hf).
  { destruct Hnk as [-> | [-> | ->]]; [exists 5%nat|exists 6%nat|exists 7%nat]; split; reflexivity. }
  rewrite Ef, Nat2Z.id.
  destruct (enc_loop_ok s f 0 0 ltac:(lia) ltac:(lia) eq_refl BR LR) as (E & BN & LN). change (2 * 0)%nat with 0%nat in E.
  rewrite E. cbn [obind]. clear E.
  destruct (round_key (nk + 6) ltac:(lia)) as [(C0 & C1 & C2 & C3 & M0 & M1 & M2 & M3 & G0 & G1 & G2 & G3) ADD'].
  pose proof (enc_last_ok (rounds w (nk + 5) s) _ _ _ _ BN LN C0 C1 C2 C3 M0 M1 M2 M3) as F.
  destruct (quad_of (rounds w (nk + 5) s)) as [[[t0 t1] t2] t3]. rewrite G0, G1, G2, G3. cbn [obind]. rewrite F. rewrite <- ADD'.
  unfold AES, Cipher. fold w. replace (nk + 6 - 1)%nat with (nk + 5)%nat by lia. reflexivity.
Qed.
End Encrypt.
Lemma putu32_bytes : forall v, bytes (putu32 v) /\ zlen (putu32 v) = 4.
Proof.
  intros v. split; [|reflexivity]. unfold putu32. repeat (apply Forall_cons; [unfold is_byte; apply Z.mod_pos_bound; lia|]). apply Forall_nil.
Qed.
Lemma obind_ok : forall A B (x : outcome A) (f : A -> outcome B) y, obind x f = Ok y -> exists a, x = Ok a /\ f a = Ok y.
Proof. intros A B [a|] f y H; [now exists a|discriminate]. Qed.
Lemma encrypt_shape : forall rk nr pt ct, rijndael_encrypt rk nr pt = Ok ct -> bytes ct /\ zlen ct = 16.
Proof.
  intros rk nr pt ct H. unfold rijndael_encrypt in H.
  do 9 (apply obind_ok in H; let x := fresh "x" in let E := fresh "E" in destruct H as (x & E & H); clear E; cbv zeta in H).
  match type of H with (let '(_, _) := ?x in _) = _ => destruct x as [[[[t0 t1] t2] t3] base] end.
  do 4 (apply obind_ok in H; let x := fresh "x" in let E := fresh "E" in destruct H as (x & E & H); clear E).
  assert (forall A (x y : A), Ok x = Ok y -> x = y) as OI by (intros ? ? ? E; now injection E).
  apply OI in H. subst ct. split.
  - apply bytes_app; split; [apply putu32_bytes|]. apply bytes_app; split; [apply putu32_bytes|].
    apply bytes_app; split; apply putu32_bytes.
  - rewrite !zlen_app. now rewrite !(proj2 (putu32_bytes _)).
Qed.
Lemma AES_shape : forall nk key s, (nk = 4 \/ nk = 6 \/ nk = 8)%nat -> bytes key -> zlen key = 4 * Z.of_nat nk -> bytes s -> zlen s = 16 ->
  bytes (AES nk key s) /\ zlen (AES nk key s) = 16.
Proof.
  intros nk key s Hnk Hk Lk Hs Ls.
  destruct (key_setup_ok nk key (zeros 60) Hnk Hk Lk) as (rk & _ & _ & W); [rewrite zlen_zeros; lia|].
  exact (encrypt_shape _ _ _ _ (encrypt_ok key nk Hnk Hk Lk rk W s Hs Ls)).
Qed.
