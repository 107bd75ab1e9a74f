(** X25519 on byte strings: scalars commute, and public keys are not null *)
From Verif Require Import Base SBlake2 MBlake2 PChaCha PGhash SCipher MDh SDh PDh SX25519 PX25519b PX25519c PX25519d PX25519e.
Local Close Scope fp_scope.
Local Open Scope Z_scope.

Lemma le_val_le_bytes : forall n v, le_val (le_bytes n v) = v mod 256 ^ Z.of_nat n.
Proof.
  induction n as [|n IH]; intros v.
  - change (256 ^ Z.of_nat 0) with 1. now rewrite Z.mod_1_r.
  - rewrite le_bytes_S. change (le_val (?a :: ?l)) with (a + 256 * le_val l). rewrite IH, Nat2Z.inj_succ, Z.pow_succ_r, Z.rem_mul_r by lia. reflexivity.
Qed.
Lemma scalar_range : forall k, 0 <= decode_scalar k < 2^255.
Proof. intros k. unfold decode_scalar. pose proof (Z.mod_pos_bound (le_val k / 8) (2^251) eq_refl). lia. Qed.
Lemma decode_encode : forall v, 0 <= v < p25519 -> decode_u (encode_u v) = v.
Proof.
  intros v H. unfold decode_u, encode_u. rewrite le_val_le_bytes. change (256 ^ Z.of_nat 32) with (2^256). assert (p25519 < 2^255) by reflexivity.
  rewrite (Z.mod_small v p25519) by exact H. rewrite !Z.mod_small; lia.
Qed.
Theorem X25519_comm : forall a b u, X25519 a (X25519 b u) = X25519 b (X25519 a u).
Proof.
  intros a b u. unfold X25519. rewrite !decode_encode by apply number_range. f_equal. apply number_comm; apply scalar_range.
Qed.
(** The base point: u = 9 *)
Definition nine : list Z := 9 :: zeros 31.
Lemma decode_nine : decode_u nine = 9. Proof. reflexivity. Qed.
Theorem X25519_nine_not_null : forall k, all_zerob (X25519 k nine) = false.
Proof.
  intros k. destruct (all_zerob (X25519 k nine)) eqn:E; [|reflexivity]. exfalso. apply all_zerob_iff in E. unfold X25519 in E. rewrite decode_nine in E.
  assert (V : forall l, all_zero l -> le_val l = 0).
  { induction l as [|x l IH]; intros H; auto. inversion H; subst. cbn. fold (le_val l). rewrite IH by auto. reflexivity. }
  apply V in E. unfold encode_u in E. rewrite le_val_le_bytes in E. change (256 ^ Z.of_nat 32) with (2^256) in E.
  pose proof (number_range (decode_scalar k) 9) as R. assert (p25519 < 2^255) by reflexivity.
  rewrite (Z.mod_small _ p25519), Z.mod_small in E by lia.
  unfold decode_scalar in E. pose proof (Z.mod_pos_bound (le_val k / 8) (2^251) eq_refl) as M.
  replace (8 * (le_val k / 8 mod 2^251) + 2^254) with (8 * (le_val k / 8 mod 2^251 + 2^251)) in E by (clear; lia).
  revert E. apply base_not_null. lia.
Qed.
