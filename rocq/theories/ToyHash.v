(** A small concrete hash used only in Examples (the real ones satisfy the same
    law, see THash.library_law, but are slow to compute with). *)
From Verif Require Import Base MHash SHash Toy.

Definition toy_absorb (s : Z * Z * Z * Z) (x : Z) : Z * Z * Z * Z :=
  let '(a, b, c, d) := s in (b, c, (d + x) mod 256, (7 * a + 13 * d + x + 1) mod 256).
Definition toy_state (l : list Z) : Z * Z * Z * Z := (nth 0 l 0, nth 1 l 0, nth 2 l 0, nth 3 l 0).
Definition toy_list (s : Z * Z * Z * Z) : list Z := let '(a, b, c, d) := s in [a mod 256; b mod 256; c mod 256; d mod 256].
Definition toy_hash : hash_alg := {|
  ha_id := NOISE_ID 72 99; ha_hash_len := 4; ha_block_len := 4;
  ha_reset := fun c => HCtx (toy_list (1, 2, 3, 4)) (hc_m c) 0 0;
  ha_update := fun c d => HCtx (toy_list (fold_left toy_absorb d (toy_state (hc_h c)))) (hc_m c) 0 0;
  ha_final := fun c => (c, toy_list (toy_state (hc_h c)))
|}.
Definition toy_hash_new : hctx := HCtx [] (zeros 4) 0 0.
Definition toy_H (m : list Z) : list Z := toy_list (fold_left toy_absorb m (1, 2, 3, 4)).

Definition toy_small (s : Z * Z * Z * Z) : Prop := let '(a, b, c, d) := s in is_byte a /\ is_byte b /\ is_byte c /\ is_byte d.
Lemma toy_absorb_small : forall m s, toy_small s -> toy_small (fold_left toy_absorb m s).
Proof.
  induction m as [|x m IH]; intros [[[a b] c] d] Hs; auto. cbn [fold_left]. apply IH. cbn in *.
  intuition auto using mod256_byte.
Qed.
Lemma toy_list_state : forall s, toy_small s -> toy_state (toy_list s) = s.
Proof.
  intros [[[a b] c] d] (Ha & Hb & Hc & Hd). unfold is_byte in *. unfold toy_state, toy_list. cbn [nth].
  now rewrite !Z.mod_small by lia.
Qed.
Lemma toy_hash_law : hash_law toy_hash toy_H.
Proof.
  assert (S0 : toy_small (1, 2, 3, 4)) by (cbn; unfold is_byte; lia).
  assert (Hm : forall chunks c, hc_m (fold_left (ha_update toy_hash) chunks c) = hc_m c).
  { induction chunks as [|d r IH]; intros c; cbn; auto. now rewrite IH. }
  assert (Hh : forall chunks c s, toy_small s -> hc_h c = toy_list s ->
     hc_h (fold_left (ha_update toy_hash) chunks c) = toy_list (fold_left toy_absorb (concat chunks) s)).
  { induction chunks as [|d r IH]; intros c s Hs E; cbn [fold_left concat]; auto.
    rewrite fold_left_app. apply IH.
    - now apply toy_absorb_small.
    - cbn [toy_hash ha_update hc_h]. rewrite E, toy_list_state by auto. reflexivity. }
  constructor.
  - intros c Hc. exact Hc.
  - intros c chunks Hc. unfold hctx_ok in *. cbn [toy_hash ha_final fst]. now rewrite Hm.
  - intros c chunks Hc. cbn [toy_hash ha_final snd]. rewrite (Hh chunks _ (1, 2, 3, 4)) by auto.
    rewrite toy_list_state by (now apply toy_absorb_small). reflexivity.
  - intros m. unfold toy_H. destruct (fold_left _ _ _) as [[[a b] c] d]. reflexivity.
  - intros m. unfold toy_H. destruct (fold_left _ _ _) as [[[a b] c] d]. repeat constructor; apply mod256_byte.
  - cbn. lia.
Qed.
