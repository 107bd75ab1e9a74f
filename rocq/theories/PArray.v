(** Proofs about dynamic arrays *)
From Verif Require Import Base MProto MArray SArray PProtoRead.

Lemma grow_bounds : forall m, 0 <= m < 2^63 -> m < grow_array m <= m + 64.
Proof.
  intros m H. unfold grow_array. destruct (64 <=? m) eqn:E; [rewrite usize_small; lia|].
  destruct (m =? 0) eqn:F; cbn [negb]; [lia|]. rewrite usize_small; lia.
Qed.
Lemma zlen_concat : forall size (es : list (list Z)), Forall (fun e => zlen e = size) es -> zlen (concat es) = zlen es * size.
Proof.
  intros size es H. induction H as [|e es E _ IH]; [reflexivity|].
  cbn [concat]. rewrite zlen_app, zlen_cons, IH, E. lia.
Qed.
Lemma concat_take : forall size i (es : list (list Z)), 0 <= size -> Forall (fun e => zlen e = size) es -> 0 <= i <= zlen es ->
  take (i * size) (concat es) = concat (take i es).
Proof.
  intros size i es S H. revert i. induction H as [|e es E _ IH]; intros i I.
  - unfold take; cbn [concat]. now rewrite !firstn_nil.
  - destruct (Z.eq_dec i 0) as [->|N]; [now rewrite !take_le0 by lia|].
    rewrite zlen_cons in I.
    replace (take i (e :: es)) with (e :: take (i - 1) es).
    2:{ unfold take. replace (Z.to_nat i) with (Datatypes.S (Z.to_nat (i - 1))) by lia. reflexivity. }
    cbn [concat]. rewrite take_app_ge by nia.
    f_equal. rewrite E. replace (i * size - size) with ((i - 1) * size) by lia. apply IH; lia.
Qed.
Lemma concat_drop : forall size i (es : list (list Z)), 0 <= size -> Forall (fun e => zlen e = size) es -> 0 <= i <= zlen es ->
  drop (i * size) (concat es) = concat (drop i es).
Proof.
  intros size i es S H. revert i. induction H as [|e es E _ IH]; intros i I.
  - unfold drop; cbn [concat]. now rewrite !skipn_nil.
  - destruct (Z.eq_dec i 0) as [->|N]; [now rewrite !drop_le0 by lia|].
    rewrite zlen_cons in I.
    replace (drop i (e :: es)) with (drop (i - 1) es).
    2:{ unfold drop. replace (Z.to_nat i) with (Datatypes.S (Z.to_nat (i - 1))) by lia. reflexivity. }
    cbn [concat]. rewrite drop_app_ge by nia.
    rewrite E. replace (i * size - size) with ((i - 1) * size) by lia. apply IH; lia.
Qed.

(** [a] has room for one element more *)
Lemma make_room_ok : forall alloc a size es, 0 < size -> holds size a es ->
  exists e a' old, make_room alloc a size = Ok (e, a', old) /\ holds size a' es /\
    (old = None \/ old = Some (zeros (ar_max a * size))) /\
    ((e = E_NONE /\ zlen es < ar_max a' /\ (exists m, ar_data a' = Some m)) \/
     (e = E_NO_MEMORY /\ a' = a /\ old = None /\ (alloc = false \/ 2^63 <= (zlen es + 64) * size))).
Proof.
  intros alloc a size es S (C & F & L & M & D). unfold make_room.
  pose proof (zlen_nonneg _ es) as P.
  destruct (ar_max a <=? ar_count a) eqn:E.
  2:{ exists E_NONE, a, None. split; [reflexivity|]. split; [unfold holds; tauto|]. split; [tauto|]. left. split; [reflexivity|].
      split; [lia|]. destruct (ar_data a) as [m|]; [eauto|lia]. }
  assert (Q : ar_max a = zlen es) by lia.
  assert (B : 0 <= ar_max a < 2^63) by nia.
  pose proof (grow_bounds _ B) as G. unfold calloc.
  destruct (alloc && (grow_array (ar_max a) * size <? 2^63)) eqn:K.
  2:{ exists E_NO_MEMORY, a, None. split; [reflexivity|]. split; [unfold holds; tauto|]. split; [tauto|]. right.
      split; [reflexivity|]. split; [reflexivity|]. split; [reflexivity|].
      destruct alloc; [right|now left]. cbn [andb] in K. rewrite <- Q. nia. }
  apply andb_true_iff in K; destruct K as (_ & K).
  assert (Z0 : zlen (zeros (grow_array (ar_max a) * size)) = grow_array (ar_max a) * size) by (apply zlen_zeros; nia).
  assert (N : exists m', (if negb (ar_count a =? 0) then
           let! d := read_ptr (ar_data a) (usize (ar_count a * size)) in store (zeros (grow_array (ar_max a) * size)) 0 d
         else Ok (zeros (grow_array (ar_max a) * size))) = Ok m' /\ zlen m' = grow_array (ar_max a) * size /\
         take (zlen es * size) m' = concat es).
  { destruct (ar_count a =? 0) eqn:Z; cbn [negb].
    - destruct es as [|x es]; [|rewrite zlen_cons in C; pose proof (zlen_nonneg _ es); lia].
      eexists; split; [reflexivity|]. split; [exact Z0|]. now rewrite take_le0 by (rewrite zlen_nil; lia).
    - destruct (ar_data a) as [m|] eqn:DD; [|lia]. destruct D as (D1 & D2).
      rewrite usize_small by nia. unfold read_ptr. replace (ar_count a * size <=? zlen m) with true by nia.
      cbn [obind]. rewrite C, D2. unfold store. rewrite (zlen_concat _ _ F), Z0.
      replace ((0 <=? 0) && (0 + zlen es * size <=? grow_array (ar_max a) * size)) with true by nia.
      eexists; split; [reflexivity|]. split.
      + rewrite splice_length; [exact Z0|lia|rewrite (zlen_concat _ _ F), Z0; nia].
      + rewrite <- (zlen_concat _ _ F). rewrite splice_0. apply take_app_exact. }
  destruct N as (m' & -> & N1 & N2). cbn [obind].
  assert (O : free_memory (ar_data a) (usize (ar_max a * size)) = Ok (match ar_data a with Some _ => Some (zeros (ar_max a * size)) | None => None end)).
  { unfold free_memory. destruct (ar_data a) as [m|]; [|reflexivity]. destruct D as (D1 & D2).
    rewrite usize_small by nia. unfold store. rewrite zlen_zeros by nia. rewrite D1.
    replace ((0 <=? 0) && (0 + ar_max a * size <=? ar_max a * size)) with true by nia. cbn [obind]. do 2 f_equal.
    rewrite splice_0. rewrite zlen_zeros by nia.
    rewrite drop_all by lia. apply app_nil_r. }
  rewrite O. cbn [obind]. eexists E_NONE, _, _. split; [reflexivity|].
  split. { unfold holds; cbn. split; [exact C|]. split; [exact F|]. split; [lia|]. split; [lia|]. split; assumption. }
  split. { destruct (ar_data a); tauto. }
  left. split; [reflexivity|]. cbn. split; [lia|]. eauto.
Qed.

Lemma add_ok : forall alloc a v size es, 0 < size -> zlen v = size -> holds size a es ->
  exists e a' old, add_to_array alloc a v size = Ok (e, a', old) /\
    (old = None \/ old = Some (zeros (ar_max a * size))) /\
    ((e = E_NONE /\ holds size a' (es ++ [v])) \/
     (e = E_NO_MEMORY /\ a' = a /\ old = None /\ (alloc = false \/ 2^63 <= (zlen es + 64) * size))).
Proof.
  intros alloc a v size es S V H. unfold add_to_array.
  destruct (make_room_ok alloc a size es S H) as (e & a' & old & -> & H' & O & K). cbn [obind].
  destruct K as [(-> & R & m & Dm)|(-> & -> & -> & K)]; cbn [is_none err_eqb negb].
  2:{ eexists E_NO_MEMORY, _, _. split; [reflexivity|]. split; [tauto|]. right. tauto. }
  destruct H' as (C & F & L & M & D). rewrite Dm in *. destruct D as (D1 & D2).
  pose proof (zlen_nonneg _ es) as P.
  unfold read_ptr. replace (size <=? zlen v) with true by lia. cbn [obind]. rewrite take_all by lia.
  rewrite usize_small by nia. unfold store. rewrite D1, C, V.
  replace ((0 <=? zlen es * size) && (zlen es * size + size <=? ar_max a' * size)) with true by nia.
  cbn [obind]. eexists E_NONE, _, _. split; [reflexivity|]. split; [exact O|]. left. split; [reflexivity|].
  unfold holds; cbn. rewrite usize_small by nia. rewrite zlen_app, zlen_cons, zlen_nil.
  split; [lia|]. split; [apply Forall_app; split; [exact F|constructor; [exact V|constructor]]|].
  split; [lia|]. split; [exact M|]. split.
  - rewrite splice_length; [exact D1|nia|rewrite V, D1; nia].
  - rewrite concat_app. cbn [concat]. rewrite app_nil_r. rewrite <- D2. unfold splice. rewrite app_assoc.
    rewrite take_app_le.
    + apply take_all. rewrite zlen_app, zlen_take, V, D1. nia.
    + rewrite zlen_app, zlen_take, V, D1. nia.
Qed.

Lemma insert_ok : forall alloc a i v size es, 0 < size -> zlen v = size -> 0 <= i -> holds size a es ->
  exists e a' old, insert_into_array alloc a i v size = Ok (e, a', old) /\
    (old = None \/ old = Some (zeros (ar_max a * size))) /\
    ((e = E_NONE /\ holds size a' (inserted i v es)) \/
     (e = E_NO_MEMORY /\ a' = a /\ old = None /\ (alloc = false \/ 2^63 <= (zlen es + 64) * size))).
Proof.
  intros alloc a i v size es S V I H. unfold insert_into_array, inserted.
  assert (C0 := proj1 H). rewrite C0.
  destruct (zlen es <=? i) eqn:J.
  { replace (i <? zlen es) with false by lia. now apply add_ok. }
  replace (i <? zlen es) with true by lia.
  destruct (make_room_ok alloc a size es S H) as (e & a' & old & -> & H' & O & K). cbn [obind].
  destruct K as [(-> & R & m & Dm)|(-> & -> & -> & K)]; cbn [is_none err_eqb negb].
  2:{ eexists E_NO_MEMORY, _, _. split; [reflexivity|]. split; [tauto|]. right. tauto. }
  destruct H' as (C & F & L & M & D). rewrite Dm in *. destruct D as (D1 & D2).
  pose proof (zlen_nonneg _ es) as P.
  rewrite C. rewrite !usize_small by nia. unfold load.
  replace ((0 <=? i * size) && (0 <=? (zlen es - i) * size) && (i * size + (zlen es - i) * size <=? zlen m)) with true by nia.
  cbn [obind].
  assert (ZD : zlen (sub (i * size) ((zlen es - i) * size) m) = (zlen es - i) * size) by (apply zlen_sub; nia).
  assert (DD : sub (i * size) ((zlen es - i) * size) m = concat (drop i es)).
  { unfold sub. rewrite take_drop_comm by nia. replace ((zlen es - i) * size + i * size) with (zlen es * size) by lia.
    rewrite D2. apply concat_drop; [lia|exact F|lia]. }
  assert (TT : take (i * size) m = concat (take i es)).
  { rewrite <- (concat_take size) by (assumption || lia). rewrite <- D2. rewrite take_take. f_equal. nia. }
  unfold store. rewrite ZD.
  replace ((0 <=? (i + 1) * size) && ((i + 1) * size + (zlen es - i) * size <=? zlen m)) with true by nia.
  cbn [obind]. unfold read_ptr. replace (size <=? zlen v) with true by lia. cbn [obind].
  rewrite (take_all _ size v) by lia.
  rewrite splice_length by (rewrite ?ZD; nia).
  rewrite V. replace ((0 <=? i * size) && (i * size + size <=? zlen m)) with true by nia.
  cbn [obind]. eexists E_NONE, _, _. split; [reflexivity|]. split; [exact O|]. left. split; [reflexivity|].
  unfold holds; cbn.
  assert (ZI : zlen (take i es ++ v :: drop i es) = zlen es + 1) by (rewrite zlen_app, zlen_cons, zlen_take, zlen_drop; lia).
  rewrite ZI. split; [lia|].
  split. { apply Forall_app; split; [|constructor; [exact V|]].
    - rewrite <- (take_drop _ i es) in F. now apply Forall_app in F.
    - rewrite <- (take_drop _ i es) in F. now apply Forall_app in F. }
  split; [lia|]. split; [exact M|]. split.
  - pose proof (splice_length _ ((i + 1) * size) _ m ltac:(nia) ltac:(rewrite ZD; nia)) as ZS.
    rewrite splice_length; rewrite ?ZS, ?V; nia.
  - rewrite concat_app. cbn [concat]. rewrite <- DD, <- TT.
    set (d := sub (i * size) ((zlen es - i) * size) m) in *.
    unfold splice at 1. rewrite app_assoc.
    assert (A1 : take (i * size) (splice ((i + 1) * size) d m) = take (i * size) m).
    { unfold splice. rewrite take_app_le by (rewrite zlen_take; nia). rewrite take_take. f_equal. nia. }
    assert (A2 : drop (i * size + zlen v) (splice ((i + 1) * size) d m) = d ++ drop ((i + 1) * size + zlen d) m).
    { unfold splice. rewrite drop_app_ge by (rewrite zlen_take; nia).
      rewrite drop_le0; [reflexivity|]. rewrite zlen_take. nia. }
    rewrite A1, A2. rewrite !app_assoc. rewrite take_app_le.
    + apply take_all. rewrite !zlen_app, zlen_take. nia.
    + rewrite !zlen_app, zlen_take. nia.
Qed.

Definition after (o : array_op) (es : list (list Z)) : list (list Z) :=
  match o with Add _ v => es ++ [v] | Insert _ i v => inserted i v es end.
Lemma call_ok : forall size a o es, 0 < size -> op_fits size o -> holds size a es ->
  exists e a' old, array_call size a o = Ok (e, a', old) /\
    (old = None \/ old = Some (zeros (ar_max a * size))) /\
    ((e = E_NONE /\ holds size a' (after o es)) \/
     (e = E_NO_MEMORY /\ a' = a /\ old = None /\ (op_alloc o = false \/ 2^63 <= (zlen es + 64) * size))).
Proof.
  intros size a [alloc e|alloc i e] es S (V & I) H; cbn in *.
  - now apply add_ok.
  - apply insert_ok; tauto.
Qed.
Lemma run_ok : forall size ops a es, 0 < size -> Forall (op_fits size) ops -> holds size a es ->
  exists errs olds a', array_run size a ops = Ok (errs, olds, a') /\ zlen errs = zlen ops /\
    holds size a' (elements es ops errs) /\
    Forall (fun e => e = E_NONE \/ e = E_NO_MEMORY) errs /\
    Forall (fun o => forall m, o = Some m -> Forall (eq 0) m) olds.
Proof.
  intros size ops; induction ops as [|o ops IH]; intros a es S F H.
  - exists [], [], a. split; [reflexivity|]. split; [reflexivity|]. split; [exact H|]. split; constructor.
  - inversion F as [|? ? F1 F2]; subst.
    destruct (call_ok size a o es S F1 H) as (e & a1 & old & E & O & K).
    assert (H1 : holds size a1 (if is_none e then after o es else es)).
    { destruct K as [(-> & K)|(-> & -> & K)]; assumption. }
    destruct (IH a1 _ S F2 H1) as (errs & olds & a2 & R & L & H2 & E2 & O2).
    exists (e :: errs), (old :: olds), a2. cbn [array_run]. rewrite E. cbn [obind]. rewrite R. cbn [obind].
    split; [reflexivity|]. split; [rewrite !zlen_cons; lia|]. split; [exact H2|]. split.
    + constructor; [|exact E2]. destruct K as [(-> & _)|(-> & _)]; tauto.
    + constructor; [|exact O2]. intros m M. destruct O as [O|O]; rewrite O in M; [discriminate|].
      injection M as <-. unfold zeros. apply Forall_forall. intros x X. now apply repeat_spec in X.
Qed.

(** ** Arrays of blocks *)
Lemma zlen_repeat_to_nat : forall A (x : A) n, 0 <= n -> zlen (repeat x (Z.to_nat n)) = n.
Proof. intros; rewrite zlen_repeat; lia. Qed.
Lemma cells_ok : forall A (l : list A) n, n <= zlen l -> cells (Some l) n = Ok (take n l).
Proof. intros A l n H; unfold cells. now replace (n <=? zlen l) with true by lia. Qed.
Lemma set_cells_ok : forall A (l d : list A) off, 0 <= off -> off + zlen d <= zlen l -> set_cells (Some l) off d = Ok (Some (splice off d l)).
Proof. intros; unfold set_cells. now replace ((0 <=? off) && (off + zlen d <=? zlen l)) with true by lia. Qed.
Lemma take_splice_end : forall A (l : list A) x n, 0 <= n < zlen l -> take (n + 1) (splice n [x] l) = take n l ++ [x].
Proof.
  intros A l x n H. unfold splice. rewrite app_assoc. rewrite take_app_le by (rewrite zlen_app, zlen_take, zlen_cons, zlen_nil; lia).
  apply take_all. rewrite zlen_app, zlen_take, zlen_cons, zlen_nil. lia.
Qed.

Lemma add_block_ok : forall a1 a2 a3 nul b vs v, holds_blocks b vs nul -> zlen v < 2^63 ->
  exists e b' old, add_to_block_array a1 a2 a3 b (Some v) (zlen v) (nul v) = Ok (e, b', old) /\
    ((e = E_NONE /\ holds_blocks b' (vs ++ [v]) nul) \/
     (e = E_NO_MEMORY /\ b' = b /\ (a1 && a2 && a3 = false \/ 2^60 <= zlen vs + 64) /\
      (old = None \/ old = Some (zeros (zlen v) ++ if nul v then [0] else [])))).
Proof.
  intros a1 a2 a3 nul b vs v H V. assert (H0 := H). destruct H as (C & (L & B) & D). unfold add_to_block_array.
  pose proof (zlen_nonneg _ vs) as P. pose proof (zlen_nonneg _ v) as PV.
  destruct a1; cbn [negb andb].
  2:{ exists E_NO_MEMORY, b, None. split; [reflexivity|]. right. tauto. }
  assert (R : (if negb (zlen v =? 0) then read_ptr (Some v) (zlen v) else Ok []) = Ok v).
  { destruct (zlen v =? 0) eqn:E; cbn [negb].
    - destruct v as [|x v]; [reflexivity|]. rewrite zlen_cons in E. pose proof (zlen_nonneg _ v). lia.
    - unfold read_ptr. replace (zlen v <=? zlen v) with true by lia. now rewrite take_all by lia. }
  rewrite R. cbn [obind]. clear R.
  set (data := v ++ (if nul v then [0] else [])).
  assert (G : exists e b' old,
    grow_blocks a2 a3 b data (zlen v) = Ok (e, b', old) /\
     ((e = E_NONE /\ holds_blocks b' vs nul /\ zlen vs < bl_max b' /\ old = None) \/
      (e = E_NO_MEMORY /\ b' = b /\ (a2 && a3 = false \/ 2^60 <= zlen vs + 64) /\ old = Some (zeros (zlen v) ++ if nul v then [0] else [])))).
  { unfold grow_blocks. destruct (bl_max b <=? bl_count b) eqn:E.
    2:{ exists E_NONE, b, None. split; [reflexivity|]. left. split; [reflexivity|]. split; [exact H0|]. split; [lia|reflexivity]. }
    assert (Q : bl_max b = zlen vs) by lia.
    pose proof (grow_bounds (bl_max b)) as GB. assert (GG : bl_max b < grow_array (bl_max b) <= bl_max b + 64) by (apply GB; lia). clear GB.
    assert (FR : free_memory (Some data) (zlen v) = Ok (Some (zeros (zlen v) ++ if nul v then [0] else []))).
    { unfold free_memory, store. rewrite zlen_zeros by lia. unfold data. rewrite zlen_app.
      pose proof (zlen_nonneg _ (if nul v then [0] else [])).
      replace ((0 <=? 0) && (0 + zlen v <=? zlen v + zlen (if nul v then [0] else []))) with true by lia. cbn [obind].
      rewrite splice_0, zlen_zeros by lia. rewrite drop_app_exact. reflexivity. }
    cbv zeta. unfold calloc_cells.
    destruct (a2 && a3) eqn:A.
    2:{ eexists E_NO_MEMORY, b, _. split.
        - rewrite FR. destruct a2, a3; try discriminate A; cbn [andb]; try reflexivity; destruct (grow_array (bl_max b) * 8 <? 2^63); reflexivity.
        - right. tauto. }
    apply andb_true_iff in A; destruct A as (-> & ->). cbn [andb].
    destruct (grow_array (bl_max b) * 8 <? 2^63) eqn:W.
    2:{ rewrite FR. cbn [obind]. eexists E_NO_MEMORY, b, _. split; [reflexivity|]. right. split; [reflexivity|]. split; [reflexivity|]. split; [right; lia|reflexivity]. }
    set (na := repeat (@None (list Z)) (Z.to_nat (grow_array (bl_max b)))).
    set (nl := repeat 0 (Z.to_nat (grow_array (bl_max b)))).
    assert (ZA : zlen na = grow_array (bl_max b)) by (apply zlen_repeat_to_nat; lia).
    assert (ZL : zlen nl = grow_array (bl_max b)) by (apply zlen_repeat_to_nat; lia).
    destruct (bl_count b =? 0) eqn:C0; cbn [negb].
    - cbn [obind fst snd]. eexists E_NONE, _, None. split; [reflexivity|]. left. split; [reflexivity|].
      destruct vs as [|x vs]; [|rewrite zlen_cons in *; pose proof (zlen_nonneg _ vs); lia].
      split; [|cbn; split; [rewrite zlen_nil; lia|reflexivity]].
      unfold holds_blocks; cbn. split; [exact C|]. rewrite zlen_nil in *. split; [lia|]. split; [exact ZA|]. split; [exact ZL|].
      rewrite !take_le0 by lia. split; reflexivity.
    - destruct (bl_array b) as [a|]; [|destruct (bl_lens b); [destruct D|lia]].
      destruct (bl_lens b) as [l|]; [|destruct D]. destruct D as (D1 & D2 & D3 & D4).
      rewrite cells_ok by lia. cbn [obind]. rewrite C, D3.
      rewrite set_cells_ok by (rewrite ?zlen_map; lia). cbn [obind]. rewrite cells_ok by lia. cbn [obind]. rewrite D4.
      rewrite set_cells_ok by (rewrite ?zlen_map; lia). cbn [obind fst snd].
      eexists E_NONE, _, None. split; [reflexivity|]. left. split; [reflexivity|].
      split; [|cbn; split; [lia|reflexivity]].
      unfold holds_blocks; cbn. split; [reflexivity|]. split; [lia|].
      rewrite !splice_length by (rewrite ?zlen_map; lia). split; [exact ZA|]. split; [exact ZL|].
      rewrite !splice_0. split.
      + rewrite take_app_le by (rewrite zlen_map; lia). apply take_all. rewrite zlen_map; lia.
      + rewrite take_app_le by (rewrite zlen_map; lia). apply take_all. rewrite zlen_map; lia. }
  destruct G as (e & b' & old & -> & K). cbn [obind].
  destruct K as [(-> & H1 & R & ->)|(-> & -> & K & ->)]; cbn [is_none err_eqb negb].
  2:{ eexists E_NO_MEMORY, _, _. split; [reflexivity|]. right. cbn [andb] in *. tauto. }
  destruct H1 as (C1 & (L1 & B1) & D1).
  destruct (bl_array b') as [a|]; [|destruct (bl_lens b'); [destruct D1|lia]].
  destruct (bl_lens b') as [l|]; [|destruct D1]. destruct D1 as (Z1 & Z2 & D3 & D4).
  rewrite set_cells_ok by (rewrite ?zlen_cons, ?zlen_nil; lia). cbn [obind].
  rewrite set_cells_ok by (rewrite ?zlen_cons, ?zlen_nil; lia). cbn [obind].
  eexists E_NONE, _, None. split; [reflexivity|]. left. split; [reflexivity|].
  unfold holds_blocks; cbn. rewrite zlen_app, zlen_cons, zlen_nil. rewrite usize_small by lia.
  split; [lia|]. split; [lia|]. rewrite !splice_length by (rewrite ?zlen_cons, ?zlen_nil; lia).
  split; [exact Z1|]. split; [exact Z2|]. rewrite C1. replace (zlen vs + (1 + 0)) with (zlen vs + 1) by lia.
  assert (W1 : 0 <= zlen vs < zlen a) by lia. assert (W2 : 0 <= zlen vs < zlen l) by lia.
  rewrite (take_splice_end _ l _ _ W2), D4. split; [|now rewrite (map_app zlen)].
  etransitivity; [exact (take_splice_end _ a _ _ W1)|]. rewrite D3, map_app. reflexivity.
Qed.
