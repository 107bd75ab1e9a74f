(** Proofs about names.c *)
From Coq Require Import ZifyBool ZifyNat String.
From Verif Require Import Base Str MCipher MHash MSymm MNames SUtil SNames.

Lemma table_registry : map (fun e => let '(i, n, _) := e in (i, n)) algorithm_names = registry.
Proof. reflexivity. Qed.
Definition entry_ok (e : id_mapping) : bool :=
  let '(i, n, l) := e in
  (l =? zlen n) && (0 <? l) && (l <=? 14) && (0 <? i) && (Z.land i 65280 =? i - i mod 256) && (i - i mod 256 >? 0) &&
  forallb (fun c => (1 <=? c) && (c <? 256) && negb (c =? 95)) n &&
  (negb (i - i mod 256 =? 68 * 256) || forallb (fun c => negb (c =? 43)) n).
Lemma table_ok : forall e, In e algorithm_names -> entry_ok e = true.
Proof. apply forallb_forall. reflexivity. Qed.
Lemma nodup_dec : forall A (dec : forall x y : A, {x = y} + {x <> y}) l, (if list_eq_dec dec (nodup dec l) l then true else false) = true -> NoDup l.
Proof. intros A dec l. destruct (list_eq_dec dec (nodup dec l) l) as [E|]; [|discriminate]. intros _. rewrite <- E. apply NoDup_nodup. Qed.
Lemma ids_unique : NoDup (map fst registry).
Proof. apply (nodup_dec _ Z.eq_dec). reflexivity. Qed.
Lemma names_unique : NoDup (map snd registry).
Proof. apply (nodup_dec _ (list_eq_dec Z.eq_dec)). reflexivity. Qed.
Lemma nodup_fun : forall A B C (f : A -> B) (g : A -> C) l x y, NoDup (map f l) -> In x l -> In y l -> f x = f y -> g x = g y.
Proof.
  intros A B C f g l x y. induction l as [|a l IH]; intros Hn Hx Hy E; [destruct Hx|]. cbn in Hn. inversion Hn; subst.
  destruct Hx as [->|Hx], Hy as [->|Hy]; auto.
  - exfalso. apply H1. rewrite E. now apply in_map.
  - exfalso. apply H1. rewrite <- E. now apply in_map.
Qed.
Lemma reg_fun : forall i n m, In (i, n) registry -> In (i, m) registry -> n = m.
Proof. intros i n m H1 H2. exact (nodup_fun _ _ _ fst snd registry (i, n) (i, m) ids_unique H1 H2 eq_refl). Qed.
Lemma reg_inj : forall i j n, In (i, n) registry -> In (j, n) registry -> i = j.
Proof. intros i j n H1 H2. exact (nodup_fun _ _ _ snd fst registry (i, n) (j, n) names_unique H1 H2 eq_refl). Qed.
Lemma in_table_reg : forall i n l, In (i, n, l) algorithm_names -> In (i, n) registry.
Proof. intros i n l H. rewrite <- table_registry. apply in_map_iff. exists (i, n, l). auto. Qed.
Lemma reg_in_table : forall i n, In (i, n) registry -> exists l, In (i, n, l) algorithm_names.
Proof. intros i n H. rewrite <- table_registry in H. apply in_map_iff in H as ([[i' n'] l] & E & H). inversion E; subst. eauto. Qed.

Lemma mask_ok : forall i n l cat, In (i, n, l) algorithm_names ->
  (Z.land i (category_mask cat) =? cat) = true <-> (cat = 0 \/ cat = i - i mod 256).
Proof.
  intros i n l cat H. apply table_ok in H. unfold entry_ok in H. unfold category_mask.
  destruct (Z.eqb_spec cat 0) as [->|Hc]; [rewrite Z.land_0_r; cbn; intuition auto|].
  change (NOISE_ID 255 0) with 65280. destruct (Z.eqb_spec (Z.land i 65280) (i - i mod 256)) as [E|E]; [|lia]. rewrite E. lia.
Qed.
Lemma memcmp_ok : forall (a b : list Z) n, zlen a = n -> zlen b = n -> memcmp_eq a b n = true <-> a = b.
Proof.
  intros a b n Ha Hb. unfold memcmp_eq. rewrite !take_all by lia.
  destruct (list_eq_dec Z.eq_dec a b); intuition congruence.
Qed.

Lemma name_loop : forall table cat d, (forall e, In e table -> In e algorithm_names) ->
  (let r := name_to_id_loop table cat d (zlen d) in
   (r <> 0 /\ exists l, In (r, d, l) table /\ (cat = 0 \/ cat = r - r mod 256)) \/
   (r = 0 /\ forall i l, In (i, d, l) table -> ~ (cat = 0 \/ cat = i - i mod 256))).
Proof.
  induction table as [|[[i n] l] table IH]; intros cat d Hin; cbn [name_to_id_loop].
  - right. split; auto.
  - assert (H0 : In (i, n, l) algorithm_names) by (apply Hin; now left).
    pose proof (table_ok _ H0) as Hok. unfold entry_ok in Hok.
    pose proof (mask_ok i n l cat H0) as Hm.
    destruct ((Z.land i (category_mask cat) =? cat) && ((l =? zlen d) && memcmp_eq n d (zlen d))) eqn:E.
    + left. apply andb_true_iff in E as [E1 E2]. apply andb_true_iff in E2 as [E2 E3]. apply Z.eqb_eq in E2.
      apply memcmp_ok in E3; [|lia|auto]. subst n. split; [lia|]. exists l. split; [now left|]. now apply Hm.
    + destruct (IH cat d) as [(R1 & l' & R2 & R3)|(R1 & R2)]; [intros; apply Hin; now right| |].
      * left. split; auto. exists l'. split; [now right|auto].
      * right. split; auto. intros i' l' [Heq|Hi]; [|eauto]. inversion Heq; subst.
        intros C. apply Hm in C. rewrite C in E. cbn in E. apply andb_false_iff in E as [E|E]; [lia|].
        assert (memcmp_eq d d (zlen d) = true) by (now apply memcmp_ok). congruence.
Qed.
Lemma name_loop_iff : forall cat d i, i <> 0 ->
  (name_to_id_loop algorithm_names cat d (zlen d) = i <-> registered cat i d).
Proof.
  intros cat d i Hi. pose proof (name_loop algorithm_names cat d (fun e H => H)) as H. cbv zeta in H. unfold registered. split.
  - intros <-. destruct H as [(_ & l & H & Hc)|(H & _)]; [|congruence]. eauto using in_table_reg.
  - intros [Hr Hc]. destruct H as [(_ & l & H & _)|(_ & H)].
    + apply in_table_reg in H. eapply reg_inj; eauto.
    + destruct (reg_in_table _ _ Hr) as [l Hl]. exfalso. eapply H; eauto.
Qed.
Lemma name_loop_0 : forall cat d,
  (name_to_id_loop algorithm_names cat d (zlen d) = 0 <-> forall i, ~ registered cat i d).
Proof.
  intros cat d. split.
  - intros E i Hr. assert (Hi : i <> 0).
    { destruct Hr as [Hr _]. destruct (reg_in_table _ _ Hr) as [l Hl]. apply table_ok in Hl. unfold entry_ok in Hl. lia. }
    apply name_loop_iff in Hr; auto. congruence.
  - intros H. destruct (Z.eq_dec (name_to_id_loop algorithm_names cat d (zlen d)) 0) as [E|E]; auto.
    exfalso. eapply H. apply name_loop_iff; eauto.
Qed.
Lemma id_loop : forall table cat id, (forall e, In e table -> In e algorithm_names) ->
  match id_to_name_loop table cat id with
  | Some n => exists l, In (id, n, l) table /\ (cat = 0 \/ cat = id - id mod 256)
  | None => forall n l, In (id, n, l) table -> ~ (cat = 0 \/ cat = id - id mod 256)
  end.
Proof.
  induction table as [|[[i n] l] table IH]; intros cat id Hin; cbn [id_to_name_loop]; [intros n l []|].
  assert (H0 : In (i, n, l) algorithm_names) by (apply Hin; now left).
  pose proof (mask_ok i n l cat H0) as Hm.
  destruct ((Z.land i (category_mask cat) =? cat) && (i =? id)) eqn:E.
  - apply andb_true_iff in E as [E1 E2]. apply Z.eqb_eq in E2. subst i. exists l. split; [now left|]. now apply Hm.
  - specialize (IH cat id (fun e H => Hin e (or_intror H))). destruct (id_to_name_loop table cat id).
    + destruct IH as (l' & H & Hc). exists l'. split; [now right|auto].
    + intros n' l' [Heq|H]; [|eauto]. inversion Heq; subst. intros C. apply Hm in C. rewrite C in E. cbn in E. lia.
Qed.
Lemma reg_facts : forall cat id n, registered cat id n -> 0 < id /\ 0 < zlen n <= 14 /\ c_string n /\
  Forall (fun c => c <> 95) n /\ (cat = DH_CATEGORY -> Forall (fun c => c <> 43) n).
Proof.
  intros cat id n [Hr Hc]. destruct (reg_in_table _ _ Hr) as [l Hl]. apply table_ok in Hl. unfold entry_ok in Hl.
  destruct (forallb (fun c => (1 <=? c) && (c <? 256) && negb (c =? 95)) n) eqn:F1; [|lia].
  rewrite forallb_forall in F1. repeat split; try lia.
  - apply Forall_forall. intros x Hx. specialize (F1 x Hx). lia.
  - apply Forall_forall. intros x Hx. specialize (F1 x Hx). lia.
  - intros ->. assert (Hd : id - id mod 256 = 68 * 256) by (change DH_CATEGORY with (68 * 256) in Hc; lia).
    destruct (forallb (fun c => negb (c =? 43)) n) eqn:F2; [|lia].
    rewrite forallb_forall in F2. apply Forall_forall. intros x Hx. specialize (F2 x Hx). lia.
Qed.
Lemma id_to_name_iff : forall cat id n, noise_id_to_name cat id = Some n <-> registered cat id n.
Proof.
  intros cat id n. unfold noise_id_to_name. pose proof (id_loop algorithm_names cat id (fun e H => H)) as H. split.
  - destruct (Z.leb_spec id 0); [discriminate|]. intros E. rewrite E in H. destruct H as (l & H & Hc). split; eauto using in_table_reg.
  - intros Hr. pose proof (reg_facts _ _ _ Hr) as Hf. destruct Hr as [Hr Hc]. destruct (Z.leb_spec id 0); [lia|].
    destruct (id_to_name_loop algorithm_names cat id) as [m|].
    + destruct H as (l & H & _). apply in_table_reg in H. f_equal. eapply reg_fun; eauto.
    + destruct (reg_in_table _ _ Hr) as [l Hl]. exfalso. eapply H; eauto.
Qed.
Lemma id_to_name_none : forall cat id, noise_id_to_name cat id = None <-> forall n, ~ registered cat id n.
Proof.
  intros cat id. split.
  - intros E n Hr. apply id_to_name_iff in Hr. congruence.
  - intros H. destruct (noise_id_to_name cat id) as [n|] eqn:E; auto. apply id_to_name_iff in E. exfalso. eapply H; eauto.
Qed.
Lemma reg_cat_fun : forall cat i n m, registered cat i n -> registered cat i m -> n = m.
Proof. intros cat i n m [H1 _] [H2 _]. eapply reg_fun; eauto. Qed.

Ltac pr := repeat match goal with |- (_, _) = (_, _) => apply f_equal2 end; try reflexivity; try lia.

(** ** Parsing *)
Lemma scan_app : forall stop a c r, Forall (fun x => stop x = false) a -> stop c = true -> scan stop (a ++ c :: r) = zlen a.
Proof.
  intros stop a c r Ha Hc. induction Ha as [|x a Hx Ha IH]; cbn [app scan]; [now rewrite Hc|]. rewrite Hx, IH, zlen_cons. reflexivity.
Qed.
Lemma scan_all : forall stop a, Forall (fun x => stop x = false) a -> scan stop a = zlen a.
Proof. intros stop a Ha. induction Ha as [|x a Hx Ha IH]; cbn [scan]; auto. rewrite Hx, IH, zlen_cons. reflexivity. Qed.
Lemma scan_spec : forall stop l, exists a r, l = a ++ r /\ scan stop l = zlen a /\ Forall (fun x => stop x = false) a /\
  match r with [] => True | c :: _ => stop c = true end.
Proof.
  intros stop l. induction l as [|c l IH]; cbn [scan]; [exists [], []; repeat split; auto|].
  destruct (stop c) eqn:E.
  - exists [], (c :: l). repeat split; auto.
  - destruct IH as (a & r & -> & H1 & H2 & H3). exists (c :: a), r. rewrite H1, zlen_cons. repeat split; auto.
Qed.

(* one field at [p], the text before it, [l] what is left *)
Lemma parse_field_spec : forall cat p l last id posn, parse_field cat (p ++ l) (zlen p) last true = (id, posn, true) ->
  exists n, registered cat id n /\
    if last then l = n /\ posn = zlen (p ++ n)
    else exists r, l = n ++ 95 :: r /\ posn = zlen (p ++ n ++ [95]).
Proof.
  intros cat p l last id posn H. unfold parse_field in H. cbn [negb] in H.
  rewrite drop_app_exact in H. destruct (scan_spec is_underscore l) as (a & r & -> & Hs & Ha & Hr). rewrite Hs in H.
  replace (zlen p + zlen a - zlen p) with (zlen a) in H by lia.
  assert (Hsub : sub (zlen p) (zlen a) (p ++ a ++ r) = a) by (unfold sub; rewrite drop_app_exact, take_app_exact; reflexivity).
  rewrite Hsub in H. pose proof (zlen_nonneg _ r).
  destruct last.
  - destruct (Z.ltb_spec (zlen p + zlen a) (zlen (p ++ a ++ r))) as [|Hle]; [discriminate H|].
    rewrite !zlen_app in Hle. assert (r = []) by (apply zlen_0_nil; lia). subst r. rewrite app_nil_r in *.
    remember (name_to_id_loop algorithm_names cat a (zlen a)) as f eqn:Ef. injection H as H1 H2 H3. subst id posn. destruct (Z.eqb_spec f 0) as [|Hid]; [discriminate H3|].
    exists a. split; [apply name_loop_iff; auto|]. split; auto. rewrite zlen_app. lia.
  - destruct (Z.leb_spec (zlen (p ++ a ++ r)) (zlen p + zlen a)) as [|Hlt]; [discriminate H|].
    rewrite !zlen_app in Hlt. destruct r as [|c r]; [rewrite zlen_nil in Hlt; lia|].
    unfold is_underscore in Hr. apply Z.eqb_eq in Hr. subst c.
    remember (name_to_id_loop algorithm_names cat a (zlen a)) as f eqn:Ef. injection H as H1 H2 H3. subst id posn. destruct (Z.eqb_spec f 0) as [|Hid]; [discriminate H3|].
    exists a. split; [apply name_loop_iff; auto|]. exists r. split; auto. rewrite !zlen_app, zlen_cons, zlen_nil. lia.
Qed.
Lemma parse_field_ok : forall cat p n r id, registered cat id n ->
  parse_field cat (p ++ n ++ 95 :: r) (zlen p) false true = (id, zlen (p ++ n ++ [95]), true).
Proof.
  intros cat p n r id Hr. destruct (reg_facts _ _ _ Hr) as (Hi & Hl & _ & Hu & _). unfold parse_field. cbn [negb].
  rewrite drop_app_exact. rewrite scan_app; [|eapply Forall_impl; [|apply Hu]; cbn; intros x Hx; unfold is_underscore; lia|reflexivity].
  replace (zlen p + zlen n - zlen p) with (zlen n) by lia.
  assert (Hsub : sub (zlen p) (zlen n) (p ++ n ++ 95 :: r) = n) by (unfold sub; rewrite drop_app_exact, take_app_exact; reflexivity).
  rewrite Hsub. pose proof (zlen_nonneg _ r).
  destruct (Z.leb_spec (zlen (p ++ n ++ 95 :: r)) (zlen p + zlen n)) as [Hle|_]; [rewrite !zlen_app, zlen_cons in Hle; lia|].
  apply name_loop_iff in Hr; [|lia]. rewrite Hr. destruct (Z.eqb_spec id 0); [lia|].
  rewrite !zlen_app, zlen_cons, zlen_nil. pr.
Qed.
Lemma parse_field_ok_last : forall cat p n id, registered cat id n ->
  parse_field cat (p ++ n) (zlen p) true true = (id, zlen (p ++ n), true).
Proof.
  intros cat p n id Hr. destruct (reg_facts _ _ _ Hr) as (Hi & Hl & _ & Hu & _). unfold parse_field. cbn [negb].
  rewrite drop_app_exact. rewrite scan_all by (eapply Forall_impl; [|apply Hu]; cbn; intros x Hx; unfold is_underscore; lia).
  replace (zlen p + zlen n - zlen p) with (zlen n) by lia.
  assert (Hsub : sub (zlen p) (zlen n) (p ++ n) = n) by (unfold sub; rewrite drop_app_exact; apply take_all; lia).
  rewrite Hsub. destruct (Z.ltb_spec (zlen p + zlen n) (zlen (p ++ n))) as [Hlt|_]; [rewrite zlen_app in Hlt; lia|].
  apply name_loop_iff in Hr; [|lia]. rewrite Hr. destruct (Z.eqb_spec id 0); [lia|]. rewrite zlen_app. reflexivity.
Qed.
Lemma parse_field_sticky : forall cat name posn last, parse_field cat name posn last false = (0, posn, false).
Proof. reflexivity. Qed.
Lemma parse_field_true : forall cat name posn last ok id posn', parse_field cat name posn last ok = (id, posn', true) -> ok = true.
Proof. intros cat name posn last [|] id posn' H; [reflexivity|]. discriminate H. Qed.
Lemma byte_at_mid : forall a c r, byte_at (a ++ c :: r) (zlen a) = c.
Proof. intros a c r. unfold byte_at, zlen. rewrite Nat2Z.id, app_nth2, Nat.sub_diag by lia. reflexivity. Qed.

Lemma parse_dual_spec : forall p l id id2 posn, parse_dual_field DH_CATEGORY (p ++ l) (zlen p) true = (id, id2, posn, true) ->
  exists n, registered DH_CATEGORY id n /\
    ((id2 = 0 /\ exists r, l = n ++ 95 :: r /\ posn = zlen (p ++ n ++ [95])) \/
     (exists n2 r, registered DH_CATEGORY id2 n2 /\ l = n ++ 43 :: n2 ++ 95 :: r /\ posn = zlen (p ++ n ++ 43 :: n2 ++ [95]))).
Proof.
  intros p l id id2 posn H. unfold parse_dual_field in H. cbn [negb] in H. rewrite drop_app_exact in H.
  destruct (scan_spec is_underscore_or_plus l) as (a & r & -> & Hs & Ha & Hr). rewrite Hs in H.
  replace (zlen p + zlen a - zlen p) with (zlen a) in H by lia.
  assert (Hsub : sub (zlen p) (zlen a) (p ++ a ++ r) = a) by (unfold sub; rewrite drop_app_exact, take_app_exact; reflexivity).
  rewrite Hsub in H. destruct (Z.leb_spec (zlen (p ++ a ++ r)) (zlen p + zlen a)) as [|Hlt]; [discriminate H|].
  rewrite !zlen_app in Hlt. destruct r as [|c r]; [rewrite zlen_nil in Hlt; lia|].
  set (f := name_to_id_loop algorithm_names DH_CATEGORY a (zlen a)) in *.
  destruct (Z.eqb_spec f 0) as [|Hf]; [discriminate H|].
  assert (Hreg : registered DH_CATEGORY f a) by (apply name_loop_iff; auto).
  assert (Hby : byte_at (p ++ a ++ c :: r) (zlen p + zlen a) = c) by (rewrite app_assoc, <- zlen_app; apply byte_at_mid).
  rewrite Hby in H. unfold is_underscore_or_plus in Hr. destruct (Z.eqb_spec c 95) as [->|Hc].
  - inversion H; subst id id2. exists a. split; auto. left. split; auto. exists r. split; auto. rewrite !zlen_app, zlen_cons, zlen_nil. lia.
  - assert (c = 43) by lia. subst c. clear Hc Hr Hby Hsub.
    replace (p ++ a ++ 43 :: r) with ((p ++ a ++ [43]) ++ r) in H by (rewrite <- !app_assoc; reflexivity).
    replace (zlen p + zlen a + 1) with (zlen (p ++ a ++ [43])) in H by (rewrite !zlen_app, zlen_cons, zlen_nil; lia).
    destruct (parse_field DH_CATEGORY ((p ++ a ++ [43]) ++ r) (zlen (p ++ a ++ [43])) false true) as [[i2 po] k] eqn:E.
    destruct (Z.eqb_spec i2 0) as [->|Hi2].
    + inversion H; subst. exfalso. apply parse_field_spec in E as (n & Hn & _). apply reg_facts in Hn. lia.
    + inversion H; subst. apply parse_field_spec in E as (n & Hn & r2 & -> & ->). exists a. split; auto. right. exists n, r2.
      split; auto. split; auto. rewrite !zlen_app, !zlen_cons, !zlen_app, !zlen_cons, ?zlen_nil. lia.
Qed.
Lemma parse_dual_ok : forall p n r id, registered DH_CATEGORY id n ->
  parse_dual_field DH_CATEGORY (p ++ n ++ 95 :: r) (zlen p) true = (id, 0, zlen (p ++ n ++ [95]), true).
Proof.
  intros p n r id Hr. destruct (reg_facts _ _ _ Hr) as (Hi & Hl & _ & Hu & Hp). specialize (Hp eq_refl). unfold parse_dual_field. cbn [negb].
  rewrite drop_app_exact. rewrite scan_app; [| |reflexivity].
  2:{ apply Forall_forall. intros x Hx. rewrite Forall_forall in Hu, Hp. specialize (Hu x Hx). specialize (Hp x Hx). unfold is_underscore_or_plus. lia. }
  replace (zlen p + zlen n - zlen p) with (zlen n) by lia.
  assert (Hsub : sub (zlen p) (zlen n) (p ++ n ++ 95 :: r) = n) by (unfold sub; rewrite drop_app_exact, take_app_exact; reflexivity).
  rewrite Hsub. pose proof (zlen_nonneg _ r).
  destruct (Z.leb_spec (zlen (p ++ n ++ 95 :: r)) (zlen p + zlen n)) as [Hle|_]; [rewrite !zlen_app, zlen_cons in Hle; lia|].
  apply name_loop_iff in Hr; [|lia]. rewrite Hr. destruct (Z.eqb_spec id 0); [lia|].
  assert (Hby : byte_at (p ++ n ++ 95 :: r) (zlen p + zlen n) = 95) by (rewrite app_assoc, <- zlen_app; apply byte_at_mid).
  rewrite Hby. change (95 =? 95) with true; change (43 =? 95) with false; cbv iota. rewrite !zlen_app, zlen_cons, zlen_nil. pr.
Qed.
Lemma parse_dual_ok2 : forall p n n2 r id id2, registered DH_CATEGORY id n -> registered DH_CATEGORY id2 n2 ->
  parse_dual_field DH_CATEGORY (p ++ n ++ 43 :: n2 ++ 95 :: r) (zlen p) true = (id, id2, zlen (p ++ n ++ 43 :: n2 ++ [95]), true).
Proof.
  intros p n n2 r id id2 Hr Hr2. destruct (reg_facts _ _ _ Hr) as (Hi & Hl & _ & Hu & Hp). specialize (Hp eq_refl). unfold parse_dual_field. cbn [negb].
  rewrite drop_app_exact. rewrite scan_app; [| |reflexivity].
  2:{ apply Forall_forall. intros x Hx. rewrite Forall_forall in Hu, Hp. specialize (Hu x Hx). specialize (Hp x Hx). unfold is_underscore_or_plus. lia. }
  set (R := n2 ++ 95 :: r).
  replace (zlen p + zlen n - zlen p) with (zlen n) by lia.
  assert (Hsub : sub (zlen p) (zlen n) (p ++ n ++ 43 :: R) = n) by (unfold sub; rewrite drop_app_exact, take_app_exact; reflexivity).
  rewrite Hsub. pose proof (zlen_nonneg _ R).
  destruct (Z.leb_spec (zlen (p ++ n ++ 43 :: R)) (zlen p + zlen n)) as [Hle|_]; [rewrite !zlen_app, zlen_cons in Hle; lia|].
  apply name_loop_iff in Hr; [|lia]. rewrite Hr. destruct (Z.eqb_spec id 0); [lia|].
  assert (Hby : byte_at (p ++ n ++ 43 :: R) (zlen p + zlen n) = 43) by (rewrite app_assoc, <- zlen_app; apply byte_at_mid).
  rewrite Hby. change (95 =? 95) with true; change (43 =? 95) with false; cbv iota. clear Hsub Hby.
  replace (p ++ n ++ 43 :: R) with ((p ++ n ++ [43]) ++ R) by (rewrite <- !app_assoc; reflexivity).
  replace (zlen p + zlen n + 1) with (zlen (p ++ n ++ [43])) by (rewrite !zlen_app, zlen_cons, zlen_nil; lia).
  unfold R. rewrite (parse_field_ok _ _ _ _ _ Hr2). pose proof (reg_facts _ _ _ Hr2). destruct (Z.eqb_spec id2 0); [lia|].
  rewrite !zlen_app, !zlen_cons, !zlen_app, !zlen_cons, ?zlen_nil. pr.
Qed.
Lemma parse_dual_true : forall cat name posn ok id id2 posn', parse_dual_field cat name posn ok = (id, id2, posn', true) -> ok = true.
Proof. intros cat name posn [|] id id2 posn' H; [reflexivity|]. discriminate H. Qed.

Definition parse_all (name : list Z) : option protocol_id :=
  let '(prefix_id, posn, ok) := parse_field PREFIX_CATEGORY name 0 false true in
  let '(pattern_id, posn, ok) := parse_field PATTERN_CATEGORY name posn false ok in
  let '(dh_id, hybrid_id, posn, ok) := parse_dual_field DH_CATEGORY name posn ok in
  let '(cipher_id, posn, ok) := parse_field CIPHER_CATEGORY name posn false ok in
  let '(hash_id, posn, ok) := parse_field HASH_CATEGORY name posn true ok in
  if negb ok then None else Some (ProtocolId prefix_id pattern_id dh_id cipher_id hash_id hybrid_id).

Lemma parse_all_sound : forall name id, parse_all name = Some id -> protocol_text id name.
Proof.
  intros name id H. unfold parse_all in H.
  destruct (parse_field PREFIX_CATEGORY name 0 false true) as [[i1 p1] k1] eqn:E1.
  destruct (parse_field PATTERN_CATEGORY name p1 false k1) as [[i2 p2] k2] eqn:E2.
  destruct (parse_dual_field DH_CATEGORY name p2 k2) as [[[i3 i3'] p3] k3] eqn:E3.
  destruct (parse_field CIPHER_CATEGORY name p3 false k3) as [[i4 p4] k4] eqn:E4.
  destruct (parse_field HASH_CATEGORY name p4 true k4) as [[i5 p5] k5] eqn:E5.
  destruct k5; [|discriminate H]. cbn [negb] in H. inversion H; subst id. clear H.
  pose proof (parse_field_true _ _ _ _ _ _ _ E5). subst k4.
  pose proof (parse_field_true _ _ _ _ _ _ _ E4). subst k3.
  pose proof (parse_dual_true _ _ _ _ _ _ _ E3). subst k2.
  pose proof (parse_field_true _ _ _ _ _ _ _ E2). subst k1.
  change name with ([] ++ name) in E1. change 0 with (zlen (@nil Z)) in E1 at 1.
  apply parse_field_spec in E1 as (n1 & R1 & r1 & -> & ->). cbn [app] in *.
  replace (n1 ++ 95 :: r1) with ((n1 ++ [95]) ++ r1) in * by (rewrite <- app_assoc; reflexivity).
  apply parse_field_spec in E2 as (n2 & R2 & r2 & -> & ->).
  replace ((n1 ++ [95]) ++ n2 ++ 95 :: r2) with (((n1 ++ [95]) ++ n2 ++ [95]) ++ r2) in * by (rewrite <- !app_assoc; reflexivity).
  apply parse_dual_spec in E3 as (n3 & R3 & H3).
  destruct H3 as [(-> & r3 & -> & ->)|(n3' & r3 & R3' & -> & ->)].
  - set (P := (n1 ++ [95]) ++ n2 ++ [95]) in *.
    replace (P ++ n3 ++ 95 :: r3) with ((P ++ n3 ++ [95]) ++ r3) in * by (rewrite <- !app_assoc; reflexivity).
    apply parse_field_spec in E4 as (n4 & R4 & r4 & -> & ->). set (Q := P ++ n3 ++ [95]) in *.
    replace (Q ++ n4 ++ 95 :: r4) with ((Q ++ n4 ++ [95]) ++ r4) in * by (rewrite <- !app_assoc; reflexivity).
    apply parse_field_spec in E5 as (n5 & R5 & -> & _).
    exists n1, n2, n3, n4, n5. cbn [pi_prefix pi_pattern pi_dh pi_cipher pi_hash pi_hybrid].
    repeat (split; [assumption|]). left. split; auto. unfold Q, P. rewrite <- !app_assoc. reflexivity.
  - set (P := (n1 ++ [95]) ++ n2 ++ [95]) in *.
    replace (P ++ n3 ++ 43 :: n3' ++ 95 :: r3) with ((P ++ n3 ++ 43 :: n3' ++ [95]) ++ r3) in *
      by (rewrite <- !app_assoc, <- !app_comm_cons, <- !app_assoc; reflexivity).
    apply parse_field_spec in E4 as (n4 & R4 & r4 & -> & ->). set (Q := P ++ n3 ++ 43 :: n3' ++ [95]) in *.
    replace (Q ++ n4 ++ 95 :: r4) with ((Q ++ n4 ++ [95]) ++ r4) in * by (rewrite <- !app_assoc; reflexivity).
    apply parse_field_spec in E5 as (n5 & R5 & -> & _).
    exists n1, n2, n3, n4, n5. cbn [pi_prefix pi_pattern pi_dh pi_cipher pi_hash pi_hybrid].
    repeat (split; [assumption|]). right. exists n3'. split; auto. unfold Q, P. rewrite <- !app_assoc, <- !app_comm_cons, <- !app_assoc. reflexivity.
Qed.
Lemma parse_all_complete : forall id text, protocol_text id text -> parse_all text = Some id.
Proof.
  intros id text (n1 & n2 & n3 & n4 & n5 & R1 & R2 & R3 & R4 & R5 & H). unfold parse_all.
  change (78 * 256) with PREFIX_CATEGORY in *. change (80 * 256) with PATTERN_CATEGORY in *. change (68 * 256) with DH_CATEGORY in *.
  change (67 * 256) with CIPHER_CATEGORY in *. change (72 * 256) with HASH_CATEGORY in *.
  change (str "_") with [95] in H. change (str "+") with [43] in H.
  destruct H as [(Hh & ->)|(n3' & R3' & ->)].
  - pose proof (parse_field_ok PREFIX_CATEGORY [] n1 (n2 ++ [95] ++ n3 ++ [95] ++ n4 ++ [95] ++ n5) _ R1) as E. cbn [app] in E. change (zlen (@nil Z)) with 0 in E.
    cbn [app]. rewrite E. clear E.
    replace (n1 ++ 95 :: n2 ++ 95 :: n3 ++ 95 :: n4 ++ 95 :: n5) with ((n1 ++ [95]) ++ n2 ++ 95 :: n3 ++ 95 :: n4 ++ 95 :: n5) by (rewrite <- !app_assoc; reflexivity).
    rewrite (parse_field_ok _ _ _ _ _ R2). set (P := n1 ++ [95]).
    replace (P ++ n2 ++ 95 :: n3 ++ 95 :: n4 ++ 95 :: n5) with ((P ++ n2 ++ [95]) ++ n3 ++ 95 :: n4 ++ 95 :: n5) by (rewrite <- !app_assoc; reflexivity).
    rewrite (parse_dual_ok _ _ _ _ R3). set (Q := P ++ n2 ++ [95]).
    replace (Q ++ n3 ++ 95 :: n4 ++ 95 :: n5) with ((Q ++ n3 ++ [95]) ++ n4 ++ 95 :: n5) by (rewrite <- !app_assoc; reflexivity).
    rewrite (parse_field_ok _ _ _ _ _ R4). set (T := Q ++ n3 ++ [95]).
    replace (T ++ n4 ++ 95 :: n5) with ((T ++ n4 ++ [95]) ++ n5) by (rewrite <- !app_assoc; reflexivity).
    rewrite (parse_field_ok_last _ _ _ _ R5). cbn [negb]. destruct id; cbn in *. now subst.
  - pose proof (parse_field_ok PREFIX_CATEGORY [] n1 (n2 ++ [95] ++ n3 ++ [43] ++ n3' ++ [95] ++ n4 ++ [95] ++ n5) _ R1) as E. cbn [app] in E. change (zlen (@nil Z)) with 0 in E.
    cbn [app]. rewrite E. clear E.
    replace (n1 ++ 95 :: n2 ++ 95 :: n3 ++ 43 :: n3' ++ 95 :: n4 ++ 95 :: n5) with ((n1 ++ [95]) ++ n2 ++ 95 :: n3 ++ 43 :: n3' ++ 95 :: n4 ++ 95 :: n5) by (rewrite <- !app_assoc; reflexivity).
    rewrite (parse_field_ok _ _ _ _ _ R2). set (P := n1 ++ [95]).
    replace (P ++ n2 ++ 95 :: n3 ++ 43 :: n3' ++ 95 :: n4 ++ 95 :: n5) with ((P ++ n2 ++ [95]) ++ n3 ++ 43 :: n3' ++ 95 :: n4 ++ 95 :: n5) by (rewrite <- !app_assoc; reflexivity).
    rewrite (parse_dual_ok2 _ _ _ _ _ _ R3 R3'). set (Q := P ++ n2 ++ [95]).
    replace (Q ++ n3 ++ 43 :: n3' ++ 95 :: n4 ++ 95 :: n5) with ((Q ++ n3 ++ 43 :: n3' ++ [95]) ++ n4 ++ 95 :: n5) by (rewrite <- !app_assoc, <- !app_comm_cons, <- !app_assoc; reflexivity).
    rewrite (parse_field_ok _ _ _ _ _ R4). set (T := Q ++ n3 ++ 43 :: n3' ++ [95]).
    replace (T ++ n4 ++ 95 :: n5) with ((T ++ n4 ++ [95]) ++ n5) by (rewrite <- !app_assoc; reflexivity).
    rewrite (parse_field_ok_last _ _ _ _ R5). cbn [negb]. destruct id; cbn in *. now subst.
Qed.
Lemma name_to_id_eq : forall name,
  noise_protocol_name_to_id (Some name) (zlen name) =
  Ok (match parse_all name with Some id => (E_NONE, Some id) | None => (E_UNKNOWN_NAME, Some zero_id) end).
Proof.
  intros name. unfold noise_protocol_name_to_id, read_ptr. rewrite Z.leb_refl, take_all by lia. cbn [obind]. unfold parse_all.
  destruct (parse_field PREFIX_CATEGORY name 0 false true) as [[i1 p1] k1].
  destruct (parse_field PATTERN_CATEGORY name p1 false k1) as [[i2 p2] k2].
  destruct (parse_dual_field DH_CATEGORY name p2 k2) as [[[i3 i3'] p3] k3].
  destruct (parse_field CIPHER_CATEGORY name p3 false k3) as [[i4 p4] k4].
  destruct (parse_field HASH_CATEGORY name p4 true k4) as [[i5 p5] k5]. destruct k5; reflexivity.
Qed.

(** ** Formatting *)
(* the buffer [mem] started as [m0]; [t] has been written so far *)
Definition fmt_ok (m0 : list Z) (len : Z) (t : list Z) (s : format_state) : Prop :=
  s = (t ++ drop (zlen t) m0, zlen t, E_NONE) /\ zlen t <= len.
Definition fmt_frame (m0 : list Z) (len : Z) (mem : list Z) : Prop :=
  zlen mem = zlen m0 /\ drop len mem = drop len m0.
Lemma fmt_ok_frame : forall m0 len t, zlen t <= len -> len <= zlen m0 -> fmt_frame m0 len (t ++ drop (zlen t) m0).
Proof.
  intros m0 len t H1 H2. pose proof (zlen_nonneg _ t). split.
  - rewrite zlen_app, zlen_drop. lia.
  - rewrite drop_app_ge by lia. rewrite drop_drop by lia. f_equal. lia.
Qed.
(* an error and where it comes from *)
Definition fmt_err (m0 : list Z) (len : Z) (s : format_state) : Prop :=
  exists mem p e, s = (mem, p, e) /\ e <> E_NONE /\ fmt_frame m0 len mem.
Lemma store_over : forall m0 t n, zlen (t ++ n) <= zlen m0 ->
  store (t ++ drop (zlen t) m0) (zlen t) n = Ok ((t ++ n) ++ drop (zlen (t ++ n)) m0).
Proof.
  intros m0 t n H. rewrite zlen_app in H. pose proof (zlen_nonneg _ t). pose proof (zlen_nonneg _ n).
  rewrite store_ok; [|lia|rewrite zlen_app, zlen_drop; lia].
  unfold splice. rewrite take_app_exact. rewrite drop_app_ge by lia. rewrite drop_drop by lia. rewrite zlen_app, <- app_assoc.
  do 4 f_equal. lia.
Qed.
Lemma format_field_eq : forall cat id len last m0 t, 0 < len <= zlen m0 -> len < 2^64 -> zlen t <= len ->
  format_field cat id len last (t ++ drop (zlen t) m0, zlen t, E_NONE) =
  match noise_id_to_name cat id with
  | None => Ok (t ++ drop (zlen t) m0, zlen t, E_UNKNOWN_ID)
  | Some n =>
    if zlen (t ++ n) <? len
    then if last then Ok (((t ++ n) ++ [0]) ++ drop (zlen ((t ++ n) ++ [0])) m0, zlen (t ++ n), E_NONE)
         else Ok (((t ++ n) ++ [95]) ++ drop (zlen ((t ++ n) ++ [95])) m0, zlen ((t ++ n) ++ [95]), E_NONE)
    else Ok (t ++ drop (zlen t) m0, zlen t, E_INVALID_LENGTH)
  end.
Proof.
  intros cat id len last m0 t Hl Hl2 Ht. unfold format_field. cbn [is_none err_eqb negb].
  destruct (noise_id_to_name cat id) as [n|]; auto.
  pose proof (zlen_nonneg _ t). rewrite Z.mod_small by lia. rewrite zlen_app.
  destruct (Z.leb_spec (len - zlen t) (zlen n)) as [H1|H1]; destruct (Z.ltb_spec (zlen t + zlen n) len) as [H2|H2]; try lia; auto.
  rewrite store_over by (rewrite zlen_app; lia). cbn [obind]. rewrite <- zlen_app.
  destruct last; rewrite store_over by (rewrite !zlen_app, zlen_cons, zlen_nil; lia); cbn [obind].
  - reflexivity.
  - rewrite (zlen_app _ (t ++ n) [95]), zlen_cons, zlen_nil. reflexivity.
Qed.
Lemma format_field_sticky : forall cat id len last mem p e, e <> E_NONE ->
  format_field cat id len last (mem, p, e) = Ok (mem, p, e).
Proof. intros cat id len last mem p e He. unfold format_field. destruct (is_none e) eqn:E; [apply is_none_true in E; congruence|]. reflexivity. Qed.
Lemma format_plus_sticky : forall len mem p e, e <> E_NONE -> format_plus len (mem, p, e) = Ok (mem, p, e).
Proof. intros len mem p e He. unfold format_plus. destruct (is_none e) eqn:E; [apply is_none_true in E; congruence|]. reflexivity. Qed.
Lemma format_plus_eq : forall len m0 t, 0 < len <= zlen m0 -> zlen t < len ->
  format_plus len ((t ++ [0]) ++ drop (zlen (t ++ [0])) m0, zlen t, E_NONE) =
  if zlen (t ++ [43]) <? len then Ok ((t ++ [43]) ++ drop (zlen (t ++ [43])) m0, zlen (t ++ [43]), E_NONE)
  else Ok ((t ++ [0]) ++ drop (zlen (t ++ [0])) m0, zlen t, E_INVALID_LENGTH).
Proof.
  intros len m0 t Hl Ht. unfold format_plus. cbn [is_none err_eqb negb].
  assert (E1 : forall c : Z, zlen (t ++ [c]) = zlen t + 1) by (intros c; rewrite zlen_app, zlen_cons, zlen_nil; lia). rewrite !E1.
  destruct (Z.ltb_spec (zlen t + 1) len); auto.
  pose proof (zlen_nonneg _ t). rewrite store_ok; [|lia|rewrite !zlen_app, !zlen_cons, !zlen_nil, zlen_drop; lia].
  cbn [obind]. set (D := drop (zlen t + 1) m0).
  assert (Es : splice (zlen t) [43] ((t ++ [0]) ++ D) = (t ++ [43]) ++ D).
  { unfold splice. rewrite <- !app_assoc, take_app_exact. f_equal. f_equal.
    rewrite app_assoc, zlen_cons, zlen_nil. replace (zlen t + (1 + 0)) with (zlen (t ++ [0])) by (rewrite E1; lia). apply drop_app_exact. }
  rewrite Es. reflexivity.
Qed.

Lemma text_fun : forall id t1 t2, protocol_text id t1 -> protocol_text id t2 -> t1 = t2.
Proof.
  intros id t1 t2 (a1 & a2 & a3 & a4 & a5 & R1 & R2 & R3 & R4 & R5 & H) (b1 & b2 & b3 & b4 & b5 & S1 & S2 & S3 & S4 & S5 & K).
  rewrite (reg_cat_fun _ _ _ _ R1 S1), (reg_cat_fun _ _ _ _ R2 S2), (reg_cat_fun _ _ _ _ R3 S3), (reg_cat_fun _ _ _ _ R4 S4), (reg_cat_fun _ _ _ _ R5 S5) in H.
  destruct H as [(Hh & ->)|(h & Rh & ->)], K as [(Kh & ->)|(k & Rk & ->)]; auto.
  - exfalso. apply reg_facts in Rk. lia.
  - exfalso. apply reg_facts in Rh. lia.
  - now rewrite (reg_cat_fun _ _ _ _ Rh Rk).
Qed.

Definition fmt_result (id : protocol_id) (reserved mem : list Z) (len : Z) (e : err) (mem' : list Z) : Prop :=
  fmt_frame mem len mem' /\
  ((e = E_NONE /\ Forall (fun r => r = 0) reserved /\
    exists text, protocol_text id text /\ zlen text < len /\ mem' = (text ++ [0]) ++ drop (zlen (text ++ [0])) mem) \/
   (holds_string mem' [] /\
    ((e = E_UNKNOWN_ID /\ (~ Forall (fun r => r = 0) reserved \/ forall t, ~ protocol_text id t)) \/
     (e = E_INVALID_LENGTH /\ len < 128 /\ forall t, protocol_text id t -> len <= zlen t)))).

Lemma fmt_fail : forall id reserved mem len e m,
  0 < len <= zlen mem -> fmt_frame mem len m ->
  ((e = E_UNKNOWN_ID /\ forall t, ~ protocol_text id t) \/
   (e = E_INVALID_LENGTH /\ len < 128 /\ forall t, protocol_text id t -> len <= zlen t)) ->
  exists e' mem',
    (let e0 := if is_none e && negb (forallb (Z.eqb 0) reserved) then E_UNKNOWN_ID else e in
     if negb (is_none e0) then let! m1 := store m 0 [0] in Ok (e0, Some m1) else Ok (e0, Some m)) = Ok (e', Some mem') /\
    fmt_result id reserved mem len e' mem'.
Proof.
  intros id reserved mem len e m Hl [Hf1 Hf2] He.
  assert (Hn : is_none e = false) by (destruct He as [(-> & _)|(-> & _)]; reflexivity). rewrite Hn. cbv zeta. cbn [andb negb]. rewrite Hn. cbn [negb].
  rewrite store_ok by (rewrite ?zlen_cons, ?zlen_nil; lia). cbn [obind]. do 2 eexists. split; [reflexivity|]. rewrite splice_0. split.
  - split.
    + rewrite zlen_app, zlen_drop, zlen_cons, zlen_nil. lia.
    + rewrite <- Hf2. rewrite drop_app_ge by (rewrite zlen_cons, zlen_nil; lia). rewrite zlen_cons, zlen_nil, drop_drop by lia. f_equal. lia.
  - right. split; [eexists; reflexivity|]. destruct He as [(-> & H)|(-> & H)]; [left|right]; auto.
Qed.

Lemma format_all : forall id reserved mem len, 0 < len <= zlen mem -> len < 2^64 ->
  exists e mem', noise_protocol_id_to_name (Some mem) len (Some (id, reserved)) = Ok (e, Some mem') /\
    fmt_result id reserved mem len e mem'.
Proof.
  intros id reserved mem len Hl Hl2. unfold noise_protocol_id_to_name. destruct (Z.eqb_spec len 0); [lia|].
  assert (Hnone : forall cat i (P : Prop), noise_id_to_name cat i = None -> (exists n, registered cat i n) -> P).
  { intros cat i P E [m Hm]. exfalso. eapply id_to_name_none; eauto. }
  assert (Hsame : forall cat i n m, noise_id_to_name cat i = Some n -> registered cat i m -> m = n).
  { intros cat i n' m E Hm. apply id_to_name_iff in E. eapply reg_cat_fun; eauto. }
  assert (Hlen : forall cat i n, noise_id_to_name cat i = Some n -> 0 < zlen n <= 14).
  { intros cat i n' E. apply id_to_name_iff in E. apply reg_facts in E. tauto. }
  Ltac fail_with Hl Hl2 Hnone Hsame Hlen :=
    cbn [obind]; repeat (rewrite ?format_field_sticky, ?format_plus_sticky by discriminate; cbn [obind]);
    match goal with |- context [store ?M 0 [0]] =>
      match goal with |- context [is_none ?e && _] =>
      match type of Hl with _ /\ ?len <= zlen ?mem =>
      let Fr := fresh in
      assert (Fr : fmt_frame mem len M) by (apply fmt_ok_frame; [first [lia|rewrite ?zlen_app, ?zlen_cons, ?zlen_nil; lia]|exact (proj2 Hl)]);
      match goal with |- context [fmt_result ?id ?res _ _ _ _] => apply (fmt_fail id res mem len e M Hl Fr); clear Fr end end end end.
  Ltac unk Hnone E := left; split; [reflexivity|]; intros t (a1 & a2 & a3 & a4 & a5 & R1 & R2 & R3 & R4 & R5 & H); revert E;
    first [intros E; apply (Hnone _ _ _ E); eauto; fail
          |destruct H as [(Hhy & _)|(h & Rh & _)]; [lia|intros E; apply (Hnone _ _ _ E); eauto; fail]].
  Ltac bad Hsame Hlen := right; split; [reflexivity|];
    repeat match goal with E : noise_id_to_name _ _ = Some ?n |- _ => lazymatch goal with _ : 0 < zlen n <= 14 |- _ => fail | _ => pose proof (Hlen _ _ _ E) end end;
    repeat match goal with H : context [zlen (_ ++ _)] |- _ => rewrite !zlen_app, ?zlen_cons, ?zlen_nil in H end;
    split; [lia|];
    intros t (a1 & a2 & a3 & a4 & a5 & R1 & R2 & R3 & R4 & R5 & HTX);
    pose proof (reg_facts _ _ _ R1); pose proof (reg_facts _ _ _ R2); pose proof (reg_facts _ _ _ R3); pose proof (reg_facts _ _ _ R4); pose proof (reg_facts _ _ _ R5);
    repeat match goal with E : noise_id_to_name ?c ?i = Some _, R : registered _ ?i _ |- _ => pose proof (Hsame _ _ _ _ E R); clear E; subst end;
    change (str "_") with [95] in *; change (str "+") with [43] in *;
    destruct HTX as [(Hhy & ->)|(h & Rh & ->)]; try lia;
    repeat match goal with E : noise_id_to_name ?c ?i = Some _, R : registered _ ?i _ |- _ => pose proof (Hsame _ _ _ _ E R); clear E; subst end;
    rewrite ?zlen_app, ?zlen_cons, ?zlen_nil; try pose proof (reg_facts _ _ _ Rh); lia.
  pose proof (format_field_eq PREFIX_CATEGORY (pi_prefix id) len false mem [] Hl Hl2 ltac:(rewrite zlen_nil; lia)) as F.
  rewrite zlen_nil, drop_le0 in F by lia. cbn [app] in F. rewrite F. clear F.
  destruct (noise_id_to_name PREFIX_CATEGORY (pi_prefix id)) as [n1|] eqn:E1.
  2:{ cbn [obind]. destruct (pi_hybrid id =? 0); repeat (rewrite ?format_field_sticky, ?format_plus_sticky by discriminate; cbn [obind]);
      (apply (fmt_fail _ _ _ _ E_UNKNOWN_ID); [exact Hl|split; auto|unk Hnone E1]). }
  destruct (Z.ltb_spec (zlen n1) len) as [L1|L1].
  2:{ cbn [obind]. destruct (pi_hybrid id =? 0); repeat (rewrite ?format_field_sticky, ?format_plus_sticky by discriminate; cbn [obind]);
      (apply (fmt_fail _ _ _ _ E_INVALID_LENGTH); [exact Hl|split; auto|bad Hsame Hlen]). }
  cbn [obind].
  rewrite format_field_eq by (auto; rewrite ?zlen_app, ?zlen_cons, ?zlen_nil; lia).
  destruct (noise_id_to_name PATTERN_CATEGORY (pi_pattern id)) as [n2|] eqn:E2.
  2:{ cbn [obind]. destruct (pi_hybrid id =? 0); fail_with Hl Hl2 Hnone Hsame Hlen; try (rewrite ?zlen_app, ?zlen_cons, ?zlen_nil; lia); unk Hnone E2. }
  match goal with |- context [if ?x <? len then _ else _] => destruct (Z.ltb_spec x len) as [L2|L2] end.
  2:{ cbn [obind]. destruct (pi_hybrid id =? 0); fail_with Hl Hl2 Hnone Hsame Hlen; try (rewrite ?zlen_app, ?zlen_cons, ?zlen_nil; lia); bad Hsame Hlen. }
  cbn [obind].
  set (P := ((n1 ++ [95]) ++ n2) ++ [95]) in *.
  assert (HP : zlen P = zlen ((n1 ++ [95]) ++ n2) + 1) by (unfold P; rewrite (zlen_app _ _ [95]), zlen_cons, zlen_nil; lia).
  assert (Htail : forall Q, zlen Q <= len ->
    (forall c h, registered CIPHER_CATEGORY (pi_cipher id) c -> registered HASH_CATEGORY (pi_hash id) h ->
       protocol_text id (Q ++ c ++ [95] ++ h)) ->
    zlen Q <= 60 ->
    (forall t, protocol_text id t -> zlen Q + 3 <= zlen t) ->
    exists e mem',
      (let! s := format_field CIPHER_CATEGORY (pi_cipher id) len false (Q ++ drop (zlen Q) mem, zlen Q, E_NONE) in
       let! s := format_field HASH_CATEGORY (pi_hash id) len true s in
        let '(mem, _, e) := s in
        let e := if is_none e && negb (forallb (Z.eqb 0) reserved) then E_UNKNOWN_ID else e in
        if negb (is_none e) then let! mem := store mem 0 [0] in Ok (e, Some mem)
        else Ok (e, Some mem)) = Ok (e, Some mem') /\ fmt_result id reserved mem len e mem').
  { intros Q HQ Htx HQ2 HQ3. rewrite format_field_eq by auto.
    destruct (noise_id_to_name CIPHER_CATEGORY (pi_cipher id)) as [n4|] eqn:E4.
    2:{ fail_with Hl Hl2 Hnone Hsame Hlen. unk Hnone E4. }
    pose proof (Hlen _ _ _ E4) as Hn4.
    match goal with |- context [if ?x <? len then _ else _] => destruct (Z.ltb_spec x len) as [L4|L4] end.
    2:{ fail_with Hl Hl2 Hnone Hsame Hlen. right. split; [reflexivity|]. rewrite zlen_app in L4. split; [lia|].
        intros t Ht. destruct (noise_id_to_name HASH_CATEGORY (pi_hash id)) as [n5|] eqn:E5.
        - rewrite <- (text_fun _ _ _ (Htx _ _ (proj1 (id_to_name_iff _ _ _) E4) (proj1 (id_to_name_iff _ _ _) E5)) Ht). rewrite !zlen_app, zlen_cons, zlen_nil. pose proof (zlen_nonneg _ n5). lia.
        - destruct Ht as (a1 & a2 & a3 & a4 & a5 & R1 & R2 & R3 & R4 & R5 & H). apply (Hnone _ _ _ E5). eauto. }
    cbn [obind]. set (Q2 := (Q ++ n4) ++ [95]) in *.
    assert (HzQ2 : zlen Q2 = zlen (Q ++ n4) + 1) by (unfold Q2; rewrite (zlen_app _ _ [95]), zlen_cons, zlen_nil; lia).
    rewrite zlen_app in L4, HzQ2.
    rewrite format_field_eq by (auto; lia).
    destruct (noise_id_to_name HASH_CATEGORY (pi_hash id)) as [n5|] eqn:E5.
    2:{ fail_with Hl Hl2 Hnone Hsame Hlen. unk Hnone E5. }
    pose proof (Hlen _ _ _ E5) as Hn5. specialize (Htx _ _ (proj1 (id_to_name_iff _ _ _) E4) (proj1 (id_to_name_iff _ _ _) E5)).
    match goal with |- context [if ?x <? len then _ else _] => destruct (Z.ltb_spec x len) as [L5|L5] end.
    2:{ fail_with Hl Hl2 Hnone Hsame Hlen. right. split; [reflexivity|]. rewrite zlen_app in L5. split; [lia|].
        intros t Ht. rewrite <- (text_fun _ _ _ Htx Ht). rewrite !zlen_app, zlen_cons, zlen_nil. lia. }
    cbn [obind].
    assert (ET : Q2 ++ n5 = Q ++ n4 ++ [95] ++ n5) by (unfold Q2; rewrite <- !app_assoc; reflexivity). rewrite ET in *.
    set (T := Q ++ n4 ++ [95] ++ n5) in *. cbn [is_none err_eqb andb].
    assert (HzT : zlen (T ++ [0]) = zlen T + 1) by (rewrite (zlen_app _ T [0]), zlen_cons, zlen_nil; lia).
    destruct (forallb (Z.eqb 0) reserved) eqn:Er; cbn [negb is_none err_eqb].
    - do 2 eexists. split; [reflexivity|]. split; [apply fmt_ok_frame; lia|]. left. split; auto. split.
      + apply Forall_forall. rewrite forallb_forall in Er. intros x Hx. specialize (Er x Hx). lia.
      + exists T. auto.
    - destruct (fmt_ok_frame mem len (T ++ [0]) ltac:(lia) ltac:(lia)) as [F1 F2].
      rewrite store_ok; [|lia|rewrite F1, zlen_cons, zlen_nil; lia]. cbn [obind].
      do 2 eexists. split; [reflexivity|]. rewrite splice_0. split.
      + split.
        * rewrite zlen_app, zlen_drop, zlen_cons, zlen_nil. lia.
        * rewrite <- F2. rewrite drop_app_ge by (rewrite zlen_cons, zlen_nil; lia). rewrite zlen_cons, zlen_nil, drop_drop by lia. f_equal. lia.
      + right. split; [eexists; reflexivity|]. left. split; auto. left. intros C.
        assert (forallb (Z.eqb 0) reserved = true).
        { apply forallb_forall. rewrite Forall_forall in C. intros x Hx. specialize (C x Hx). lia. }
        congruence. }
  pose proof (Hlen _ _ _ E1) as Hn1. pose proof (Hlen _ _ _ E2) as Hn2.
  destruct (Z.eqb_spec (pi_hybrid id) 0) as [Hh|Hh].
  - rewrite format_field_eq by (auto; lia).
    destruct (noise_id_to_name DH_CATEGORY (pi_dh id)) as [n3|] eqn:E3.
    2:{ fail_with Hl Hl2 Hnone Hsame Hlen. unk Hnone E3. }
    match goal with |- context [if ?x <? len then _ else _] => destruct (Z.ltb_spec x len) as [L3|L3] end.
    2:{ fail_with Hl Hl2 Hnone Hsame Hlen. bad Hsame Hlen. }
    cbn [obind]. pose proof (Hlen _ _ _ E3) as Hn3. apply Htail.
    + rewrite (zlen_app _ (P ++ n3) [95]), zlen_cons, zlen_nil. lia.
    + intros c h Ec Eh. apply id_to_name_iff in E1, E2, E3. exists n1, n2, n3, c, h. repeat (split; [assumption|]). left. split; auto.
      unfold P. rewrite <- !app_assoc. reflexivity.
    + rewrite !zlen_app, !zlen_cons, !zlen_nil in *. lia.
    + intros t (a1 & a2 & a3 & a4 & a5 & R1 & R2 & R3 & R4 & R5 & [(_ & ->)|(h & Rh & ->)]); [|apply reg_facts in Rh; lia].
      rewrite (Hsame _ _ _ _ E1 R1), (Hsame _ _ _ _ E2 R2), (Hsame _ _ _ _ E3 R3). apply reg_facts in R4, R5.
      change (str "_") with [95]. unfold P. rewrite !zlen_app, !zlen_cons, !zlen_nil. lia.
  - rewrite format_field_eq by (auto; lia).
    destruct (noise_id_to_name DH_CATEGORY (pi_dh id)) as [n3|] eqn:E3.
    2:{ fail_with Hl Hl2 Hnone Hsame Hlen. unk Hnone E3. }
    match goal with |- context [if ?x <? len then _ else _] => destruct (Z.ltb_spec x len) as [L3|L3] end.
    2:{ fail_with Hl Hl2 Hnone Hsame Hlen. bad Hsame Hlen. }
    cbn [obind]. pose proof (Hlen _ _ _ E3) as Hn3.
    rewrite format_plus_eq by lia. set (R := P ++ n3) in *.
    assert (HzR : forall c : Z, zlen (R ++ [c]) = zlen R + 1) by (intros c; rewrite (zlen_app _ R [c]), zlen_cons, zlen_nil; lia).
    destruct (Z.ltb_spec (zlen (R ++ [43])) len) as [L6|L6]; rewrite HzR in L6.
    2:{ cbn [obind]; repeat (rewrite ?format_field_sticky by discriminate; cbn [obind]).
        apply (fmt_fail _ _ _ _ E_INVALID_LENGTH); [exact Hl|apply fmt_ok_frame; [rewrite ?HzR; lia|exact (proj2 Hl)]|].
        unfold R, P in *. bad Hsame Hlen. }
    cbn [obind]. rewrite format_field_eq by (auto; rewrite HzR; lia).
    destruct (noise_id_to_name DH_CATEGORY (pi_hybrid id)) as [n6|] eqn:E6.
    2:{ cbn [obind]; repeat (rewrite ?format_field_sticky by discriminate; cbn [obind]).
        apply (fmt_fail _ _ _ _ E_UNKNOWN_ID); [exact Hl|apply fmt_ok_frame; [rewrite ?HzR; lia|exact (proj2 Hl)]|]. unk Hnone E6. }
    match goal with |- context [if ?x <? len then _ else _] => destruct (Z.ltb_spec x len) as [L7|L7] end.
    2:{ cbn [obind]; repeat (rewrite ?format_field_sticky by discriminate; cbn [obind]).
        apply (fmt_fail _ _ _ _ E_INVALID_LENGTH); [exact Hl|apply fmt_ok_frame; [rewrite ?HzR; lia|exact (proj2 Hl)]|].
        unfold R, P in *. bad Hsame Hlen. }
    cbn [obind]. pose proof (Hlen _ _ _ E6) as Hn6. apply Htail.
    + rewrite (zlen_app _ ((R ++ [43]) ++ n6) [95]), zlen_cons, zlen_nil. lia.
    + intros c h Ec Eh. apply id_to_name_iff in E1, E2, E3, E6. exists n1, n2, n3, c, h. repeat (split; [assumption|]). right. exists n6. split; auto.
      unfold R, P. rewrite <- !app_assoc. reflexivity.
    + unfold R, P in *. rewrite !zlen_app, !zlen_cons, !zlen_nil in *.
      pose proof (proj1 (id_to_name_iff _ _ _) E1) as Q1. pose proof (proj1 (id_to_name_iff _ _ _) E3) as Q3. pose proof (proj1 (id_to_name_iff _ _ _) E6) as Q6.
      assert (Hsmall : forall cat i n, registered cat i n -> cat <> 80 * 256 -> cat <> 0 -> zlen n <= 10).
      { intros cat i n' [Hin Hc] Hc2 Hc0.
        assert (All : forallb (fun e => (fst e - fst e mod 256 =? 80 * 256) || (zlen (snd e) <=? 10)) registry = true) by reflexivity.
        rewrite forallb_forall in All. specialize (All _ Hin). cbn [fst snd] in All. lia. }
      pose proof (Hsmall _ _ _ Q1 ltac:(discriminate) ltac:(discriminate)). pose proof (Hsmall _ _ _ Q3 ltac:(discriminate) ltac:(discriminate)).
      pose proof (Hsmall _ _ _ Q6 ltac:(discriminate) ltac:(discriminate)). lia.
    + intros t (a1 & a2 & a3 & a4 & a5 & R1 & R2 & R3 & R4 & R5 & [(Hx & _)|(h & Rh & ->)]); [lia|].
      rewrite (Hsame _ _ _ _ E1 R1), (Hsame _ _ _ _ E2 R2), (Hsame _ _ _ _ E3 R3), (Hsame _ _ _ _ E6 Rh). apply reg_facts in R4, R5.
      change (str "_") with [95]. change (str "+") with [43]. unfold R, P. rewrite !zlen_app, !zlen_cons, !zlen_nil. lia.
Qed.
