(** The standard constructions only depend on the hash function at the
    (bounded) messages they feed to it. *)
From Coq Require Import ZifyBool ZifyNat.
From Verif Require Import Base MHash SHash PHash.

Definition agree (lim : Z) (H H' : list Z -> list Z) : Prop :=
  forall m, bytes m -> zlen m < lim -> H m = H' m.

Lemma lxor_byte : forall a b, is_byte a -> is_byte b -> is_byte (Z.lxor a b).
Proof.
  unfold is_byte; intros a b Ha Hb. assert (0 <= Z.lxor a b) by (apply Z.lxor_nonneg; lia). split; auto.
  destruct (Z.eq_dec (Z.lxor a b) 0) as [->|]; [lia|].
  apply Z.log2_lt_cancel. change (Z.log2 256) with 8.
  pose proof (Z.log2_lxor a b ltac:(lia) ltac:(lia)).
  assert (Z.log2 a < 8) by (destruct (Z.eq_dec a 0) as [->|]; [reflexivity|apply Z.log2_lt_pow2; lia]).
  assert (Z.log2 b < 8) by (destruct (Z.eq_dec b 0) as [->|]; [reflexivity|apply Z.log2_lt_pow2; lia]).
  lia.
Qed.
Lemma bytes_xorb : forall a b, bytes a -> bytes b -> bytes (xorb_list a b).
Proof.
  induction a as [|x a IH]; intros [|y b] Ha Hb; cbn; try constructor; inversion Ha; inversion Hb; subst.
  - now apply lxor_byte.
  - now apply IH.
Qed.

Section Ext.
Variable H H' : list Z -> list Z.
Variable lim B L : Z.
Hypothesis Hag : agree lim H H'.
Hypothesis Hlen : forall m, zlen (H m) = L.
Hypothesis Hbytes : forall m, bytes (H m).
Hypothesis HL : 0 <= L <= B.
Hypothesis HB : 0 <= B.
Hypothesis Hlim : 2 * B + 16 < lim.

Lemma hmac_key_ext : forall K, bytes K -> zlen K < lim -> hmac_key H B K = hmac_key H' B K /\
  bytes (hmac_key H B K) /\ zlen (hmac_key H B K) = B.
Proof.
  intros K HK HzK. unfold hmac_key. rewrite <- Hag by auto. split; auto.
  pose proof (zlen_nonneg _ K).
  destruct (Z.ltb_spec B (zlen K)); split.
  - apply bytes_app; split; auto. apply bytes_repeat; unfold is_byte; lia.
  - rewrite zlen_app, zlen_repeat, Hlen. lia.
  - apply bytes_app; split; auto. apply bytes_repeat; unfold is_byte; lia.
  - rewrite zlen_app, zlen_repeat. lia.
Qed.
Lemma HMAC_ext : forall K t, bytes K -> bytes t -> zlen K < lim -> zlen t + B < lim ->
  HMAC H B K t = HMAC H' B K t.
Proof.
  intros K t HK Ht HzK Hzt. destruct (hmac_key_ext K HK HzK) as (E & Hkb & Hkl).
  unfold HMAC. rewrite <- E.
  assert (Hx : forall v, is_byte v -> bytes (xorb_list (hmac_key H B K) (repeat v (Z.to_nat B)))
              /\ zlen (xorb_list (hmac_key H B K) (repeat v (Z.to_nat B))) = B).
  { intros v Hv; split; [apply bytes_xorb; auto; now apply bytes_repeat|].
    rewrite (zlen_xorb (hmac_key H B K)), zlen_repeat. lia. }
  destruct (Hx 54) as [Hb1 Hz1]; [unfold is_byte; lia|].
  destruct (Hx 92) as [Hb2 Hz2]; [unfold is_byte; lia|].
  rewrite <- (Hag (xorb_list (hmac_key H B K) (repeat 54 (Z.to_nat B)) ++ t)).
  - apply Hag; [apply bytes_app; auto|]. rewrite zlen_app, Hlen. lia.
  - apply bytes_app; auto.
  - rewrite zlen_app. lia.
Qed.
Lemma zlen_HMAC : forall K t, zlen (HMAC H B K t) = L.
Proof. intros; unfold HMAC; apply Hlen. Qed.
Lemma bytes_HMAC : forall K t, bytes (HMAC H B K t).
Proof. intros; unfold HMAC; apply Hbytes. Qed.

Lemma HKDF_ext : forall K d, bytes K -> bytes d -> zlen K < lim -> zlen d + B < lim ->
  HKDF H B K d = HKDF H' B K d.
Proof.
  intros K d HK Hd HzK Hzd. unfold HKDF. rewrite <- (HMAC_ext K d) by auto.
  assert (H1 : bytes [1]) by (repeat constructor; unfold is_byte; lia).
  assert (H2 : bytes [2]) by (repeat constructor; unfold is_byte; lia).
  pose proof (zlen_HMAC K d). pose proof (bytes_HMAC K d).
  rewrite <- (HMAC_ext (HMAC H B K d) [1]) by (auto; rewrite ?zlen_cons, ?zlen_nil; lia).
  pose proof (zlen_HMAC (HMAC H B K d) [1]). pose proof (bytes_HMAC (HMAC H B K d) [1]).
  rewrite <- (HMAC_ext (HMAC H B K d) (HMAC H B (HMAC H B K d) [1] ++ [2]));
    auto; [apply bytes_app; auto|lia|rewrite zlen_app, zlen_cons, zlen_nil; lia].
Qed.

Lemma U_ext : forall P S_ i j, bytes P -> bytes S_ -> zlen P < lim -> zlen S_ + 4 + B < lim ->
  pbkdf2_U H B P S_ i j = pbkdf2_U H' B P S_ i j.
Proof.
  intros P S_ i j HP HS HzP HzS; induction j; cbn [pbkdf2_U].
  - apply HMAC_ext; auto.
    + apply bytes_app; split; auto. repeat constructor; unfold is_byte; apply Z.mod_pos_bound; lia.
    + rewrite zlen_app, !zlen_cons, zlen_nil. lia.
  - rewrite <- IHj. apply HMAC_ext; auto.
    + destruct j; cbn [pbkdf2_U]; apply bytes_HMAC.
    + destruct j; cbn [pbkdf2_U]; rewrite zlen_HMAC; lia.
Qed.
Lemma PBKDF2_ext : forall P S_ c n, bytes P -> bytes S_ -> zlen P < lim -> zlen S_ + 4 + B < lim ->
  PBKDF2 H B P S_ c n = PBKDF2 H' B P S_ c n.
Proof.
  intros. unfold PBKDF2. do 2 f_equal. apply map_ext. intros i.
  generalize (Z.to_nat (c - 1)). intros k; induction k; cbn [pbkdf2_F].
  - apply (U_ext P S_ (Z.of_nat i) 0); auto.
  - f_equal; [exact IHk|]. apply (U_ext P S_ (Z.of_nat i) (S k)); auto.
Qed.
End Ext.
