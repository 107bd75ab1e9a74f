(** Lemmas for C64 *)
From Verif Require Import Base MUtil MDh MSign SCipher SDh SUtil SSign TUtil.

Lemma nth_set_same : forall A (l : list A) i x y, nth_error l i = Some y -> nth_error (set_nth i x l) i = Some x.
Proof. induction l as [|a l IH]; intros [|i] x y H; cbn in *; try easy. eauto. Qed.
Lemma nth_set_other : forall A (l : list A) i j x, i <> j -> nth_error (set_nth i x l) j = nth_error l j.
Proof. induction l as [|a l IH]; intros [|i] [|j] x H; cbn in *; try easy. apply IH. lia. Qed.

Lemma forall2_nth : forall A B (R : A -> B -> Prop) l m, Forall2 R l m -> forall i,
  match nth_error l i, nth_error m i with
  | Some a, Some b => R a b
  | None, None => True
  | _, _ => False
  end.
Proof. intros A B R l m H. induction H as [|a b l m Hab H IH]; intros [|i]; cbn; auto. apply IH. Qed.
Lemma forall2_set : forall A B (R : A -> B -> Prop) l m, Forall2 R l m -> forall i x y, R x y ->
  Forall2 R (set_nth i x l) (set_nth i y m).
Proof. intros A B R l m H. induction H as [|a b l m Hab H IH]; intros [|i] x y Hxy; cbn; auto. Qed.

Definition rep (publickey : list Z -> list Z) (s : signstate) (h : holds_key) : Prop :=
  ss_id s = SIGN_ED25519 /\ sized 32 (ss_private s) /\ sized 32 (ss_public s) /\
  match h with
  | HNothing => ss_type s = NO_KEY /\ ss_private s = zeros 32 /\ ss_public s = zeros 32
  | HPublic q => ss_type s = PUBLIC /\ ss_private s = zeros 32 /\ ss_public s = q
  | HPair k q => ss_type s = KEYPAIR /\ ss_private s = k /\ ss_public s = q /\ publickey k = q
  end.

Lemma low3 : forall b, is_byte b -> Z.land b 0xF8 = b - b mod 8.
Proof.
  intros b Hb.
  assert (H : forallb (fun x => Z.land x 0xF8 =? x - x mod 8) (map Z.of_nat (seq 0 256)) = true) by reflexivity.
  rewrite forallb_forall in H. apply Z.eqb_eq, H. apply in_map_iff. exists (Z.to_nat b).
  unfold is_byte in Hb. split; [lia|]. apply in_seq. lia.
Qed.
Lemma high2 : forall b, is_byte b -> Z.lor (Z.land b 0x7F) 0x40 = 64 + b mod 64.
Proof.
  intros b Hb.
  assert (H : forallb (fun x => Z.lor (Z.land x 0x7F) 0x40 =? 64 + x mod 64) (map Z.of_nat (seq 0 256)) = true) by reflexivity.
  rewrite forallb_forall in H. apply Z.eqb_eq, H. apply in_map_iff. exists (Z.to_nat b).
  unfold is_byte in Hb. split; [lia|]. apply in_seq. lia.
Qed.

Lemma byte_at_is : forall l i, bytes l -> 0 <= i < zlen l -> is_byte (byte_at l i).
Proof.
  intros l i H Hi. unfold byte_at. apply (proj1 (Forall_forall _ _) H). apply nth_In. unfold zlen in Hi. lia.
Qed.
Lemma fresh_key_clamp : forall r, sized 32 r -> clamp25519 r = fresh_key r /\ sized 32 (fresh_key r).
Proof.
  intros r [Hl Hb]. unfold clamp25519, fresh_key.
  pose proof (byte_at_is r 0 Hb ltac:(lia)) as H0. pose proof (byte_at_is r 31 Hb ltac:(lia)) as H31.
  rewrite low3, high2 by assumption. split; [reflexivity|]. unfold is_byte in *. split.
  - rewrite !zlen_app, !zlen_cons, !zlen_nil, zlen_sub by lia. lia.
  - apply bytes_app. split; [|apply bytes_app; split; [now apply bytes_sub|]];
      repeat apply Forall_cons; try apply Forall_nil; unfold is_byte;
      match goal with |- context [?a mod ?b] => pose proof (Z.mod_pos_bound a b ltac:(lia)); pose proof (Z.mod_le a b) end; lia.
Qed.
Lemma sized_zeros : sized 32 (zeros 32).
Proof. split; [reflexivity|]. apply bytes_zeros. Qed.
Lemma sized_take : forall n l, 0 <= n <= zlen l -> bytes l -> sized n (take n l).
Proof. intros n l H Hb. split; [rewrite zlen_take; lia|now apply bytes_take]. Qed.
Lemma store_front : forall mem d, zlen d <= zlen mem -> store mem 0 d = Ok (d ++ drop (zlen d) mem).
Proof. intros mem d H. rewrite store_ok by lia. now rewrite splice_0. Qed.
Lemma read_some : forall l n, n <= zlen l -> read_ptr (Some l) n = Ok (take n l).
Proof. intros l n H. cbn. destruct (Z.leb_spec n (zlen l)); [reflexivity|lia]. Qed.
Lemma take_sized : forall n l, sized n l -> take n l = l.
Proof. intros n l [H _]. apply take_all. lia. Qed.

Section Step.
Variable publickey : list Z -> list Z.
Variable sign : list Z -> list Z -> list Z -> list Z.
Variable sign_open : list Z -> list Z -> list Z -> bool.
Hypothesis shape : ed25519_shape publickey sign.

Notation R := (rep publickey).
Definition good (pool : list signstate) (hs : list holds_key) (op : sg_op) (r : outcome (sg_seen * list signstate)) : Prop :=
  exists seen pool' hs', r = Ok (seen, pool') /\ expects publickey sign sign_open hs op seen hs' /\ Forall2 R pool' hs'.

Lemma good_same : forall pool hs op seen, Forall2 R pool hs -> expects publickey sign sign_open hs op seen hs ->
  good pool hs op (Ok (seen, pool)).
Proof. intros. eexists _, _, _. eauto. Qed.

Lemma set_self : forall A (l : list A) i x, nth_error l i = Some x -> set_nth i x l = l.
Proof. induction l as [|a l IH]; intros [|i] x H; cbn in *; try easy; [now injection H as ->|]. now rewrite IH. Qed.
(** A call which leaves object [i] as it is *)
Lemma good_refused : forall pool hs op i e, Forall2 R pool hs ->
  expects publickey sign sign_open hs op (code e) hs -> good pool hs op (Ok (put i (e, nth_error pool i) pool)).
Proof.
  intros pool hs op i e H Hx. unfold put. cbn [fst snd]. destruct (nth_error pool i) as [s|] eqn:E.
  - rewrite set_self by assumption. now apply good_same.
  - now apply good_same.
Qed.
(** A call which makes object [i] hold [h] *)
Lemma good_holds : forall pool hs op i s h, Forall2 R pool hs -> R s h ->
  expects publickey sign sign_open hs op (code E_NONE) (update hs i h) ->
  good pool hs op (Ok (put i (E_NONE, Some s) pool)).
Proof.
  intros pool hs op i s h H Hs Hx. unfold put. cbn [fst snd]. eexists _, _, _. split; [reflexivity|].
  split; [exact Hx|]. now apply forall2_set.
Qed.

Lemma rep_types : forall s h, R s h ->
  (secret_of h = None /\ key_type_eqb (ss_type s) KEYPAIR = false) \/
  (exists k q, secret_of h = Some (k, q) /\ key_type_eqb (ss_type s) KEYPAIR = true /\ ss_private s = k /\ ss_public s = q /\
     sized 32 k /\ sized 32 q /\ publickey k = q).
Proof.
  intros s [|q|k q] (Hid & Hp & Hq & H).
  - left. destruct H as (-> & _). now split.
  - left. destruct H as (-> & _). now split.
  - right. destruct H as (-> & <- & <- & HH). exists (ss_private s), (ss_public s). cbn. tauto.
Qed.
Lemma rep_public : forall s h, R s h ->
  (public_of h = None /\ key_type_eqb (ss_type s) NO_KEY = true) \/
  (exists q, public_of h = Some q /\ key_type_eqb (ss_type s) NO_KEY = false /\ ss_public s = q /\ sized 32 q).
Proof.
  intros s [|q|k q] (Hid & Hp & Hq & H).
  - left. destruct H as (-> & _). now split.
  - right. destruct H as (-> & _ & <-). exists (ss_public s). cbn. tauto.
  - right. destruct H as (-> & _ & <- & _). exists (ss_public s). cbn. tauto.
Qed.

Lemma step_good : forall pool hs op, Forall2 R pool hs -> sg_op_ok op -> good pool hs op (sg_step publickey sign sign_open pool op).
Proof.
  intros pool hs op HR Hop. destruct shape as [Hpk Hsg].
  assert (HN := forall2_nth _ _ _ _ _ HR).
  destruct op as [id|i rng|i p n q m|i p n|i q m|i|i j|i|i|i p n q m|i q m|i m ml g gl|i m ml g gl|i t b n]; cbn [sg_op_ok] in Hop;
    cbn [sg_step]; try (pose proof (HN i) as Hi).
  - (* new *) unfold signstate_new_by_id. destruct (Z.eqb_spec id SIGN_ED25519) as [->|Hid].
    + eexists _, _, _. split; [reflexivity|]. split; [apply x_new|]. apply Forall2_app; [assumption|].
      constructor; [|constructor]. split; [reflexivity|]. split; [apply sized_zeros|]. split; [apply sized_zeros|]. repeat split.
    + apply good_same; [assumption|]. now apply x_new_unknown.
  - (* generate *) destruct (nth_error pool i) as [s|] eqn:Es, (nth_error hs i) as [h|] eqn:Eh; try easy.
    + cbn [signstate_generate_keypair]. unfold ed25519_generate_keypair. cbn [ss_id ss_private ss_public].
      destruct (fresh_key_clamp (rng 32)) as [-> Hf]; [apply Hop; lia|].
      eapply good_holds; [assumption| |eapply x_generate; eassumption].
      destruct Hi as (Hid & _). split; [exact Hid|]. split; [exact Hf|]. split; [now apply Hpk|]. repeat split.
    + cbn [signstate_generate_keypair]. rewrite <- Es. apply good_refused; [assumption|]. eapply x_no_object; [exact Eh|]. left. now eexists.
  - (* set_keypair *)
    destruct (nth_error pool i) as [s|] eqn:Es, (nth_error hs i) as [h|] eqn:Eh; try easy.
    2:{ cbn. rewrite <- Es. apply good_refused; [assumption|]. apply x_pair_null. now left. }
    destruct p as [k|]; [|cbn; rewrite <- Es; apply good_refused; [assumption|]; apply x_pair_null; right; now left].
    destruct q as [q|]; [|cbn; rewrite <- Es; apply good_refused; [assumption|]; apply x_pair_null; right; now right].
    destruct Hop as [[Hn [Hn1 Hn2]] [Hm [Hm1 Hm2]]].
    unfold signstate_set_keypair, ss_private_len, ss_public_len.
    destruct (Z.eqb_spec n 32) as [->|H32]; cbn [negb].
    2:{ cbn [obind]. rewrite <- Es. apply good_refused; [assumption|]. eapply x_pair_length; [exact Eh|now left]. }
    destruct (Z.eqb_spec m 32) as [->|H32]; cbn [negb].
    2:{ cbn [obind]. rewrite <- Es. apply good_refused; [assumption|]. eapply x_pair_length; [exact Eh|now right]. }
    rewrite !read_some by assumption. cbn [obind]. unfold ed25519_validate_keypair.
    pose proof (sized_take 32 k ltac:(lia) Hn2) as Sk. pose proof (sized_take 32 q ltac:(lia) Hm2) as Sq.
    pose proof (Hpk _ Sk) as Spk.
    destruct (C40_is_equal_exact (publickey (take 32 k)) (take 32 q)) as [E1 _];
      [apply Spk|apply Sq|destruct Spk as [-> _], Sq as [-> _]; reflexivity|].
    destruct (Z.eqb_spec (noise_is_equal (publickey (take 32 k)) (take 32 q)) 1) as [He|He].
    + cbn [is_none negb]. eapply good_holds; [assumption| |eapply x_pair; [eassumption|lia|lia|now apply E1]].
      destruct Hi as (Hid & _). split; [exact Hid|]. split; [exact Sk|]. split; [exact Sq|]. repeat split. now apply E1.
    + cbn [is_none negb obind]. rewrite <- Es. apply good_refused; [assumption|]. eapply x_pair_mismatch; [eassumption|lia|lia|].
      intros He2. apply He, E1, He2.
  - (* set_keypair_private *)
    destruct (nth_error pool i) as [s|] eqn:Es, (nth_error hs i) as [h|] eqn:Eh; try easy.
    2:{ cbn. rewrite <- Es. apply good_refused; [assumption|]. apply x_private_null. now left. }
    destruct p as [k|]; [|cbn; rewrite <- Es; apply good_refused; [assumption|]; apply x_private_null; now right].
    destruct Hop as [Hn [Hn1 Hn2]]. unfold signstate_set_keypair_private, ss_private_len, ss_public_len.
    destruct (Z.eqb_spec n 32) as [->|H32]; cbn [negb].
    2:{ cbn [obind]. rewrite <- Es. apply good_refused; [assumption|]. eapply x_private_length; eassumption. }
    rewrite !read_some by assumption. cbn [obind ed25519_derive_public_key is_none negb ss_id ss_public].
    pose proof (sized_take 32 k ltac:(lia) Hn2) as Sk.
    eapply good_holds; [assumption| |eapply x_private; [eassumption|lia]].
    destruct Hi as (Hid & _). split; [exact Hid|]. split; [exact Sk|]. split; [now apply Hpk|]. repeat split.
  - (* set_public_key *)
    destruct (nth_error pool i) as [s|] eqn:Es, (nth_error hs i) as [h|] eqn:Eh; try easy.
    2:{ cbn. rewrite <- Es. apply good_refused; [assumption|]. apply x_public_null. now left. }
    destruct q as [q|]; [|cbn; rewrite <- Es; apply good_refused; [assumption|]; apply x_public_null; now right].
    destruct Hop as [Hn [Hn1 Hn2]]. unfold signstate_set_public_key, ss_private_len, ss_public_len.
    destruct (Z.eqb_spec m 32) as [->|H32]; cbn [negb].
    2:{ cbn [obind]. rewrite <- Es. apply good_refused; [assumption|]. eapply x_public_length; eassumption. }
    rewrite !read_some by assumption. cbn [obind ed25519_validate_public_key is_none negb].
    pose proof (sized_take 32 q ltac:(lia) Hn2) as Sq.
    eapply good_holds; [assumption| |eapply x_public; [eassumption|lia]].
    destruct Hi as (Hid & _). split; [exact Hid|]. split; [apply sized_zeros|]. split; [exact Sq|]. repeat split.
  - (* clear *)
    destruct (nth_error pool i) as [s|] eqn:Es, (nth_error hs i) as [h|] eqn:Eh; try easy.
    2:{ cbn. rewrite <- Es. apply good_refused; [assumption|]. eapply x_no_object; [exact Eh|]. tauto. }
    cbn [signstate_clear_key]. eapply good_holds; [assumption| |eapply x_clear; eassumption].
    destruct Hi as (Hid & _). split; [exact Hid|]. split; [apply sized_zeros|]. split; [apply sized_zeros|]. repeat split.
  - (* copy *)
    destruct (nth_error pool i) as [s|] eqn:Es, (nth_error hs i) as [h|] eqn:Eh; try easy.
    2:{ cbn. rewrite <- Es. apply good_refused; [assumption|]. eapply x_no_object; [exact Eh|]. eauto. }
    pose proof (HN j) as Hj. destruct (nth_error pool j) as [f|] eqn:Ef, (nth_error hs j) as [h'|] eqn:Eh'; try easy.
    2:{ cbn. rewrite <- Es. apply good_refused; [assumption|]. eapply x_no_object; [exact Eh'|]. eauto. }
    cbn [signstate_copy]. destruct Hi as (Hid & _), Hj as (Hjd & Hj). rewrite Hid, Hjd, Z.eqb_refl. cbn [negb].
    eapply good_holds; [assumption| |eapply x_copy; eassumption]. split; [reflexivity|exact Hj].
  - (* has_keypair *)
    eexists _, _, _. split; [reflexivity|]. split; [|exact HR].
    replace (signstate_has_keypair (nth_error pool i)) with
      match nth_error hs i with Some h => match secret_of h with Some _ => true | None => false end | None => false end; [apply x_has_pair|].
    destruct (nth_error pool i) as [s|], (nth_error hs i) as [h|]; try easy. cbn.
    destruct (rep_types _ _ Hi) as [[-> ->]|(k & q & -> & -> & _)]; reflexivity.
  - (* has_public_key *)
    eexists _, _, _. split; [reflexivity|]. split; [|exact HR].
    replace (signstate_has_public_key (nth_error pool i)) with
      match nth_error hs i with Some h => match public_of h with Some _ => true | None => false end | None => false end; [apply x_has_public|].
    destruct (nth_error pool i) as [s|], (nth_error hs i) as [h|]; try easy. cbn.
    destruct (rep_public _ _ Hi) as [[-> ->]|(q & -> & -> & _)]; reflexivity.
  - (* get_keypair *)
    destruct (nth_error pool i) as [s|] eqn:Es, (nth_error hs i) as [h|] eqn:Eh; try easy.
    2:{ cbn. apply good_same; [assumption|]. apply x_get_pair_null. now left. }
    destruct p as [p|]; [|cbn; apply good_same; [assumption|]; apply x_get_pair_null; right; now left].
    destruct q as [q|]; [|cbn; apply good_same; [assumption|]; apply x_get_pair_null; right; now right].
    destruct Hop as [[Hn [Hn1 Hn2]] [Hm [Hm1 Hm2]]].
    unfold signstate_get_keypair, ss_private_len, ss_public_len.
    destruct (Z.eqb_spec n 32) as [->|H32]; cbn [negb].
    2:{ cbn [obind]. apply good_same; [assumption|]. eapply x_get_pair_length; [exact Eh|now left]. }
    destruct (Z.eqb_spec m 32) as [->|H32]; cbn [negb].
    2:{ cbn [obind]. apply good_same; [assumption|]. eapply x_get_pair_length; [exact Eh|now right]. }
    destruct (rep_types _ _ Hi) as [[Hs ->]|(k0 & q0 & Hs & -> & -> & -> & [Sk Sk'] & [Sq Sq'] & _)]; cbn [negb].
    + rewrite !store_front by (rewrite zlen_zeros by lia; lia). cbn [obind].
      apply good_same; [assumption|]. eapply x_get_pair_none; eassumption.
    + rewrite !take_sized by (split; assumption). rewrite !store_front by lia. cbn [obind].
      apply good_same; [assumption|]. eapply x_get_pair; eassumption.
  - (* get_public_key *)
    destruct (nth_error pool i) as [s|] eqn:Es, (nth_error hs i) as [h|] eqn:Eh; try easy.
    2:{ cbn. apply good_same; [assumption|]. apply x_get_public_null. now left. }
    destruct q as [q|]; [|cbn; apply good_same; [assumption|]; apply x_get_public_null; now right].
    destruct Hop as [Hm [Hm1 Hm2]].
    unfold signstate_get_public_key, ss_public_len.
    destruct (Z.eqb_spec m 32) as [->|H32]; cbn [negb].
    2:{ cbn [obind fst snd]. apply good_same; [assumption|]. eapply x_get_public_length; eassumption. }
    destruct (rep_public _ _ Hi) as [[Hs ->]|(q0 & Hs & -> & -> & [Sq Sq'])].
    + cbn [obind fst snd]. apply good_same; [assumption|]. eapply x_get_public_none; eassumption.
    + rewrite !take_sized by (split; assumption). rewrite !store_front by lia. cbn [obind fst snd].
      apply good_same; [assumption|]. eapply x_get_public; eassumption.
  - (* sign *)
    destruct (nth_error pool i) as [s|] eqn:Es, (nth_error hs i) as [h|] eqn:Eh; try easy.
    2:{ cbn. apply good_same; [assumption|]. apply x_sign_null. now left. }
    destruct m as [m|]; [|cbn; apply good_same; [assumption|]; apply x_sign_null; right; now left].
    destruct g as [g|]; [|cbn; apply good_same; [assumption|]; apply x_sign_null; right; now right].
    destruct Hop as [[Hn [Hn1 Hn2]] [Hm [Hm1 Hm2]]].
    unfold signstate_sign, ss_signature_len.
    destruct (Z.eqb_spec gl 64) as [->|H64]; cbn [negb].
    2:{ cbn [obind fst snd]. apply good_same; [assumption|]. eapply x_sign_length; eassumption. }
    destruct (rep_types _ _ Hi) as [[Hs ->]|(k0 & q0 & Hs & -> & Hk & Hq & Sk & Sq & _)]; cbn [negb].
    + cbn [obind fst snd]. apply good_same; [assumption|]. eapply x_sign_no_key; eassumption.
    + rewrite read_some by assumption. cbn [obind]. unfold ed25519_sign_with. rewrite Hk, Hq.
      destruct (Hsg (take ml m) k0 q0) as [Sg _]; [now apply bytes_take|assumption|assumption|].
      rewrite store_front by lia. cbn [obind fst snd].
      apply good_same; [assumption|]. eapply x_sign; eauto.
  - (* verify *)
    destruct (nth_error pool i) as [s|] eqn:Es, (nth_error hs i) as [h|] eqn:Eh; try easy.
    2:{ cbn. apply good_same; [assumption|]. apply x_verify_null. now left. }
    destruct m as [m|]; [|cbn; apply good_same; [assumption|]; apply x_verify_null; right; now left].
    destruct g as [g|]; [|cbn; apply good_same; [assumption|]; apply x_verify_null; right; now right].
    destruct Hop as [[Hn [Hn1 Hn2]] [Hm [Hm1 Hm2]]].
    unfold signstate_verify, ss_signature_len.
    destruct (Z.eqb_spec gl 64) as [->|H64]; cbn [negb].
    2:{ cbn [obind fst snd]. apply good_same; [assumption|]. eapply x_verify_length; eassumption. }
    destruct (rep_public _ _ Hi) as [[Hs ->]|(q0 & Hs & -> & Hq & Sq)]; cbn [negb].
    + cbn [obind fst snd]. apply good_same; [assumption|]. eapply x_verify_no_key; eassumption.
    + rewrite !read_some by assumption. cbn [obind]. unfold ed25519_verify_with. rewrite Hq.
      apply good_same; [assumption|]. eapply x_verify; eauto.
  - (* fingerprint *)
    destruct b as [b|]; [|cbn; apply good_same; [assumption|]; apply x_finger_null].
    destruct Hop as [Hn [Hn1 Hn2]]. unfold signstate_format_fingerprint, ss_public_len.
    destruct (Z.eqb_spec n 0) as [->|H0].
    { cbn [obind fst snd]. apply good_same; [assumption|]. apply x_finger_length. }
    rewrite store_front by (rewrite zlen_cons, zlen_nil; lia). cbn [obind].
    destruct (nth_error pool i) as [s|] eqn:Es, (nth_error hs i) as [h|] eqn:Eh; try easy.
    2:{ cbn [obind fst snd]. apply good_same; [assumption|]. apply (x_finger_no_object _ _ _ _ i t b n Eh H0). }
    destruct (rep_public _ _ Hi) as [[Hs ->]|(q0 & Hs & -> & Hq & Sq)]; cbn [negb].
    { cbn [obind fst snd]. apply good_same; [assumption|]. eapply (x_finger_no_key _ _ _ _ i h t b n); eassumption. }
    rewrite Hq. set (b1 := [0] ++ drop (zlen [0]) b).
    assert (Hb1 : zlen b1 = zlen b) by (unfold b1; rewrite zlen_app, zlen_drop, !zlen_cons, !zlen_nil by lia; lia).
    destruct Sq as [Lq Bq].
    destruct (C41_fingerprint_exact t b1 n q0 Bq ltac:(lia) ltac:(lia)) as (e & b' & HH & Hl' & Hd' & HF).
    rewrite Lq in HH. rewrite HH. cbn [obind fst snd].
    apply good_same; [assumption|]. eapply x_finger; [eassumption|eassumption|lia|reflexivity|].
    exists b'. split; [reflexivity|]. split; [lia|]. split.
    + rewrite Hd'. unfold b1. rewrite drop_app_ge by (rewrite !zlen_cons, !zlen_nil; lia).
      rewrite !zlen_cons, !zlen_nil, drop_drop by lia. f_equal. lia.
    + unfold fingerprint_bytes in HF. unfold fingerprint_size. cbn [seen_error wrote].
      destruct (if t =? FINGERPRINT_BASIC then _ else _) as [k|]; [|tauto].
      destruct (zlen (fingerprint k q0) <? n); tauto.
Qed.

Lemma run_good : forall ops pool hs, Forall2 R pool hs -> Forall sg_op_ok ops ->
  exists seens pool' hs', sg_run publickey sign sign_open pool ops = Ok (seens, pool') /\
    expects_all publickey sign sign_open hs ops seens hs' /\ Forall2 R pool' hs'.
Proof.
  induction ops as [|op ops IH]; intros pool hs HR Hops.
  - exists [], pool, hs. split; [reflexivity|]. split; [constructor|assumption].
  - inversion Hops as [|? ? Ho Ho']; subst. destruct (step_good pool hs op HR Ho) as (seen & pool1 & hs1 & E & X & HR1).
    destruct (IH pool1 hs1 HR1 Ho') as (seens & pool2 & hs2 & E2 & X2 & HR2).
    exists (seen :: seens), pool2, hs2. cbn [sg_run]. rewrite E. cbn [obind snd]. rewrite E2. cbn [obind fst snd].
    split; [reflexivity|]. split; [|assumption]. econstructor; eassumption.
Qed.
End Step.
