(** Small DH backends for the examples. *)
From Coq Require Import ZifyBool.
From Verif Require Import Base MUtil TUtil MDh SDh PDh.

Definition toy_base (k : list Z) : list Z := map (Z.lxor 85) k.
Definition toy_mult (k q : list Z) : list Z := map (fun p => Z.lxor (fst p) (snd p)) (combine k q).
Definition toy_curve : dh_alg := curve25519 toy_base toy_mult.
Definition toy_curve_functions : dh_functions := curve25519_functions toy_base toy_mult.

Lemma toy_base_sized : forall n k, sized n k -> sized n (toy_base k).
Proof.
  intros n k [H1 H2]. split; [unfold zlen, toy_base in *; rewrite map_length; exact H1|].
  apply Forall_map. eapply Forall_impl; [|exact H2]. intros a Ha. apply lxor_byte; auto. unfold is_byte; lia.
Qed.
Lemma toy_mult_sized : forall n k q, sized n k -> sized n q -> sized n (toy_mult k q).
Proof.
  intros n k q [H1 H2] [H3 H4]. split.
  - unfold zlen, toy_mult in *. rewrite map_length, combine_length. lia.
  - apply Forall_map, Forall_forall. intros [a b] Hab. cbn. apply lxor_byte.
    + eapply Forall_forall; [exact H2|]. eapply in_combine_l; eauto.
    + eapply Forall_forall; [exact H4|]. eapply in_combine_r; eauto.
Qed.
Lemma toy_curve_suite : dh_suite toy_curve toy_curve_functions.
Proof. apply suite_25519; [apply toy_base_sized|intros; now apply toy_mult_sized]. Qed.
Lemma toy_commutes : forall a b, toy_mult a (toy_base b) = toy_mult b (toy_base a).
Proof.
  unfold toy_mult, toy_base. induction a as [|x a IH]; intros [|y b]; cbn; auto. f_equal; auto.
  rewrite (Z.lxor_comm 85 y), (Z.lxor_comm 85 x). rewrite <- !Z.lxor_assoc. now rewrite (Z.lxor_comm x y).
Qed.

(** A New Hope with the right sizes: the shared key is the sum of the seeds. *)
Definition toy_keygen (r : list Z) : list Z * list Z := (r ++ zeros 1760, r ++ zeros 1984).
Definition toy_sharedb (a r : list Z) : list Z * list Z := (toy_mult (take 32 a) r, r ++ zeros 2016).
Definition toy_shareda (p b : list Z) : list Z := toy_mult (take 32 p) (take 32 b).
Definition toy_newhope : dh_alg := newhope toy_keygen toy_sharedb toy_shareda.
Definition toy_newhope_functions : dh_functions := newhope_functions toy_keygen toy_sharedb toy_shareda.
Lemma toy_newhope_suite : dh_suite toy_newhope toy_newhope_functions.
Proof.
  assert (P : forall n m l, sized n l -> 0 <= m -> sized (n + m) (l ++ zeros m)).
  { intros n m l [H1 H2] Hm. split; [rewrite zlen_app, zlen_zeros; lia|apply bytes_app; split; [auto|apply bytes_zeros]]. }
  apply suite_newhope.
  - intros r Hr. split; cbn; [apply (P 64 1760)|apply (P 64 1984)]; auto; lia.
  - intros a r Ha Hr. split; cbn [fst snd toy_sharedb]; [apply toy_mult_sized; auto; eapply sized_take; [exact Ha|lia]|apply (P 32 2016); auto; lia].
  - intros p b Hp Hb. apply toy_mult_sized; [eapply sized_take; [exact Hp|lia]|eapply sized_take; [exact Hb|lia]].
Qed.
