(** Proofs for TBatcher.v: the network on bits and on the array. *)
From Coq Require Import Permutation.
From Verif Require Import Base MNewhope MBatcher SNewhope PBatcher.

Lemma upd_app : forall A (pre mid post : list A) i v, (i < length mid)%nat -> upd (pre ++ mid ++ post) (length pre + i) v = pre ++ upd mid i v ++ post.
Proof.
  intros A pre mid post i v H. unfold upd. rewrite firstn_app, skipn_app. replace (length pre + i - length pre)%nat with i by lia.
  replace (S (length pre + i) - length pre)%nat with (S i) by lia. rewrite (firstn_all2 (n := length pre + i)) by lia.
  rewrite (skipn_all2 (n := S (length pre + i))) by lia. cbn [app]. rewrite firstn_app, skipn_app. replace (i - length mid)%nat with 0%nat by lia.
  replace (S i - length mid)%nat with 0%nat by lia. cbn [firstn skipn]. rewrite app_nil_r, <- !app_assoc. reflexivity.
Qed.
Lemma nth_mid : forall A (pre mid post : list A) i d, (i < length mid)%nat -> nth (length pre + i) (pre ++ mid ++ post) d = nth i mid d.
Proof. intros A pre mid post i d H. rewrite app_nth2 by lia. replace (length pre + i - length pre)%nat with i by lia. now apply app_nth1. Qed.
Lemma cas_length : forall b i j, (i < length b)%nat -> (j < length b)%nat -> length (cas_bits b (i, j)) = length b.
Proof. intros b i j Hi Hj. unfold cas_bits. destruct (nth i b false); [|reflexivity]. now rewrite !upd_length by (rewrite ?upd_length; assumption). Qed.
Lemma run_shift : forall cs pre mid post, within (length mid) cs = true ->
  run_bits (shift_by (length pre) cs) (pre ++ mid ++ post) = pre ++ run_bits cs mid ++ post /\ length (run_bits cs mid) = length mid.
Proof.
  induction cs as [|[i j] cs IH]; intros pre mid post W; [split; reflexivity|]. cbn [within forallb] in W. apply andb_prop in W. destruct W as [IJ W].
  apply andb_prop in IJ. destruct IJ as [I J]. apply Nat.ltb_lt in I, J. unfold run_bits, shift_by. cbn [map fold_left].
  assert (cas_bits (pre ++ mid ++ post) (length pre + i, length pre + j)%nat = pre ++ cas_bits mid (i, j) ++ post) as ->.
  { unfold cas_bits. rewrite !nth_mid by assumption. destruct (nth i mid false); [|reflexivity]. rewrite upd_app by assumption.
    apply upd_app. now rewrite upd_length. }
  pose proof (cas_length mid i j I J) as L. destruct (IH pre (cas_bits mid (i, j)) post) as [E1 E2]; [rewrite L; exact W|]. split; [exact E1|].
  unfold run_bits in E2. rewrite E2. exact L.
Qed.
Definition leaves (p : list op) : nat := length (filter (fun o => match o with Leaf => true | _ => false end) p).
Lemma plan_sorts : forall p sizes n total blocks rest,
  plan_ok p sizes = Some [n] -> map (@length bool) blocks = sizes -> Forall is_sorted blocks -> total = length (concat (rev blocks)) ->
  length rest = leaves p -> is_sorted (run_bits (comparators p sizes total) (concat (rev blocks) ++ rest)).
Proof.
  induction p as [|o p IH]; intros sizes n total blocks rest P Sz F T R.
  - cbn [plan_ok] in P. injection P as ->. destruct rest; [|discriminate]. destruct blocks as [|b [|? ?]]; try discriminate.
    cbn [comparators run_bits fold_left rev app concat]. rewrite !app_nil_r. now inversion F.
  - destruct o as [|cs].
    + cbn [plan_ok] in P. unfold leaves in R. cbn [filter length] in R. destruct rest as [|x rest]; [discriminate|]. injection R as R.
      cbn [comparators]. specialize (IH (1%nat :: sizes) n (S total) ([x] :: blocks) rest P). cbn [rev] in IH. rewrite concat_app in IH. cbn [concat app] in IH.
      rewrite <- app_assoc in IH. cbn [app] in IH. apply IH; [now rewrite <- Sz| |rewrite app_length, <- T; cbn; lia|exact R].
      constructor; [|exact F]. destruct x; [exists 0%nat, 1%nat|exists 1%nat, 0%nat]; reflexivity.
    + destruct blocks as [|B [|A blocks]]; cbn [map] in Sz; subst sizes; cbn [plan_ok] in P; try discriminate.
      destruct (check_merge (length A) (length B) cs) eqn:C; [|discriminate]. cbn [comparators].
      unfold check_merge in C. apply andb_prop in C. destruct C as [W C].
      inversion F as [|? ? SB F']; subst. inversion F' as [|? ? SA F'']; subst. clear F F'.
      cbn [rev] in *. rewrite !concat_app in *. cbn [concat] in *. rewrite !app_nil_r in *. rewrite <- !app_assoc in *.
      set (pre := concat (rev blocks)) in *.
      replace (length (pre ++ A ++ B) - (length A + length B))%nat with (length pre) by (rewrite !app_length; lia).
      unfold run_bits. rewrite fold_left_app. fold (run_bits (shift_by (length pre) cs) (pre ++ A ++ B ++ rest)).
      rewrite (app_assoc A B rest).
      destruct (run_shift cs pre (A ++ B) rest) as [E L]; [rewrite app_length; exact W|]. rewrite E.
      assert (is_sorted (run_bits cs (A ++ B))) as SM.
      { destruct SA as (n1 & m1 & ->). destruct SB as (n2 & m2 & ->). unfold sorted_bits in C at 3 4 6 7.
        rewrite forallb_forall in C. specialize (C m1). unfold sorted_bits in C. rewrite !app_length, !repeat_length in C.
        specialize (C ltac:(apply in_seq; lia)). rewrite forallb_forall in C. specialize (C m2 ltac:(apply in_seq; lia)).
        apply same_ok in C. replace (n1 + m1 - m1)%nat with n1 in C by lia. replace (n2 + m2 - m2)%nat with n2 in C by lia.
        unfold sorted_bits. rewrite C. eexists. eexists. reflexivity. }
      specialize (IH _ n (length (pre ++ A ++ B)) (run_bits cs (A ++ B) :: blocks) rest P).
      cbn [rev] in IH. rewrite concat_app in IH. cbn [concat] in IH. rewrite app_nil_r, <- app_assoc in IH. fold pre in IH.
      apply IH; [cbn [map]; now rewrite L, app_length|now constructor|rewrite !app_length in *; lia|exact R].
Qed.
Lemma network_sorts : forall b, length b = 84%nat -> is_sorted (run_bits network b).
Proof.
  intros b L. rewrite <- plan_is_network. apply (plan_sorts plan [] 84%nat 0%nat [] b plan_checked eq_refl (Forall_nil _) eq_refl). rewrite L. reflexivity.
Qed.
(** the number of true bits does not change *)
Fixpoint count (b : list bool) : nat := match b with [] => 0 | x :: b' => (if x then 1 else 0) + count b' end%nat.
Lemma count_app : forall a b, count (a ++ b) = (count a + count b)%nat.
Proof. induction a as [|x a IH]; intros b; [reflexivity|]. cbn [app count]. rewrite IH. lia. Qed.
Lemma count_upd : forall b i v, (i < length b)%nat -> (count (upd b i v) + (if nth i b false then 1 else 0) = count b + (if v then 1 else 0))%nat.
Proof.
  induction b as [|x b IH]; intros i v H; [cbn in H; lia|]. cbn [length] in H. destruct i as [|i]; unfold upd in *; cbn [firstn skipn app nth count]; [destruct x, v; lia|].
  specialize (IH i v ltac:(lia)). cbn [skipn] in IH. destruct x, v, (nth i b false); lia.
Qed.
Lemma network_good : forallb (fun '(i, j) => (i <? j)%nat && (j <? 84)%nat) network = true.
Proof. vm_compute. reflexivity. Qed.
Lemma run_count : forall cs b, forallb (fun '(i, j) => (i <? j)%nat && (j <? length b)%nat) cs = true ->
  count (run_bits cs b) = count b /\ length (run_bits cs b) = length b.
Proof.
  induction cs as [|[i j] cs IH]; intros b W; [split; reflexivity|]. cbn [forallb] in W. apply andb_prop in W. destruct W as [IJ W].
  apply andb_prop in IJ. destruct IJ as [I J]. apply Nat.ltb_lt in I, J. unfold run_bits. cbn [fold_left].
  pose proof (cas_length b i j ltac:(lia) J) as L. destruct (IH (cas_bits b (i, j))) as [C1 L1]; [now rewrite L|].
  unfold run_bits in *. rewrite C1, L1. split; [|exact L]. unfold cas_bits. destruct (nth i b false) eqn:E; [|reflexivity].
  pose proof (count_upd b i (nth j b false) ltac:(lia)) as U1. rewrite E in U1.
  pose proof (count_upd (upd b i (nth j b false)) j true ltac:(rewrite upd_length; lia)) as U2. rewrite upd_nth in U2 by lia.
  replace (j =? i)%nat with false in U2 by (symmetry; apply Nat.eqb_neq; lia). lia.
Qed.

(** ** The array *)
Definition bad (v : Z) : bool := 61444 <? v.
Lemma upd_same : forall A (l : list A) i d, (i < length l)%nat -> upd l i (nth i l d) = l.
Proof.
  intros A l i d H. apply nth_eq with d; [now apply upd_length|]. intros k Hk. rewrite upd_nth by assumption.
  destruct (k =? i)%nat eqn:E; [apply Nat.eqb_eq in E; now subst|reflexivity].
Qed.
Lemma cas_value : forall x i j, Forall (fun v => 0 <= v < 2^16) x -> (i < j)%nat -> (j < length x)%nat ->
  compare_and_swap x i j = if bad (nth i x 0) then upd (upd x i (nth j x 0)) j (nth i x 0) else x.
Proof.
  intros x i j F Hij Hj. unfold compare_and_swap, PARAM_Q. change (u16 (5 * 12289)) with 61445.
  assert (forall k, (k < length x)%nat -> 0 <= nth k x 0 < 2^16) as R by (intros k Hk; rewrite Forall_forall in F; apply F, nth_In, Hk).
  pose proof (R i ltac:(lia)) as Ri. pose proof (R j Hj) as Rj. rewrite upd_nth by lia.
  replace (j =? i)%nat with false by (symmetry; apply Nat.eqb_neq; lia).
  unfold bad. destruct (61444 <? nth i x 0) eqn:E.
  - assert (Z.shiftr (61445 - 1 - nth i x 0) 31 = -1) as -> by (rewrite Z.shiftr_div_pow2 by lia; symmetry; apply Z.div_unique with (61445 - 1 - nth i x 0 + 2^31); lia).
    rewrite Z.land_m1_r. assert (u16 (Z.lxor (nth i x 0) (nth j x 0)) = Z.lxor (nth i x 0) (nth j x 0)) as ->.
    { unfold u16. rewrite <- Z.land_ones by lia. apply Z.bits_inj'. intros n Hn. rewrite Z.land_spec, Z.lxor_spec.
      destruct (Z.lt_ge_cases n 16); [rewrite Z.ones_spec_low by lia; apply andb_true_r|].
      rewrite Z.ones_spec_high by lia. rewrite <- (Z.mod_small (nth i x 0) (2^16)), <- (Z.mod_small (nth j x 0) (2^16)) by lia.
      now rewrite !Z.mod_pow2_bits_high by lia. }
    f_equal; [f_equal; rewrite <- Z.lxor_assoc, Z.lxor_nilpotent; apply Z.lxor_0_l|].
    rewrite (Z.lxor_comm (nth i x 0)), <- Z.lxor_assoc, Z.lxor_nilpotent. apply Z.lxor_0_l.
  - assert (Z.shiftr (61445 - 1 - nth i x 0) 31 = 0) as -> by (rewrite Z.shiftr_div_pow2 by lia; apply Z.div_small; lia).
    rewrite Z.land_0_r. change (u16 0) with 0. rewrite !Z.lxor_0_r. rewrite upd_same by lia. now apply upd_same.
Qed.
Lemma swap_perm : forall A (x : list A) i j d, (i < j)%nat -> (j < length x)%nat -> Permutation x (upd (upd x i (nth j x d)) j (nth i x d)).
Proof.
  intros A x i j d Hij Hj. destruct (nth_split x d (Nat.lt_trans _ _ _ Hij Hj)) as (a & r & E & La).
  set (u := nth i x d) in *. assert (length x = (i + S (length r))%nat) as Lx by (rewrite E, app_length; cbn; lia).
  destruct (nth_split r d (n := j - i - 1) ltac:(lia)) as (m & c & Er & Lm). set (v := nth (j - i - 1) r d) in *.
  assert (nth j x d = v) as ->.
  { rewrite E. rewrite app_nth2 by lia. replace (j - length a)%nat with (S (j - i - 1)) by lia. reflexivity. }
  assert (x = a ++ [u] ++ (m ++ [v] ++ c)) as Ex by (rewrite E, Er; reflexivity). clearbody u v. clear E Lx Er. subst x.
  assert (upd (a ++ [u] ++ (m ++ [v] ++ c)) i v = (a ++ [v] ++ m) ++ [v] ++ c) as ->.
  { pose proof (upd_app _ a [u] (m ++ [v] ++ c) 0 v ltac:(cbn; lia)) as U. replace (length a + 0)%nat with i in U by lia. rewrite U.
    change (upd [u] 0 v) with [v]. now rewrite <- !app_assoc. }
  pose proof (upd_app _ (a ++ [v] ++ m) [v] c 0 u ltac:(cbn; lia)) as U.
  replace (length (a ++ [v] ++ m) + 0)%nat with j in U by (rewrite !app_length; cbn; lia). rewrite U. change (upd [v] 0 u) with [u].
  rewrite <- !app_assoc. apply Permutation_app_head. cbn [app].
  rewrite <- (Permutation_middle m c v), <- (Permutation_middle m c u). apply perm_swap.
Qed.
Definition column (off : nat) (x : list Z) : list bool := map (fun k => bad (nth (off + 16 * k) x 0)) (seq 0 84).
Lemma column_nth : forall off x k, (k < 84)%nat -> nth k (column off x) false = bad (nth (off + 16 * k) x 0).
Proof.
  intros off x k H. unfold column. match goal with |- nth _ (map ?f _) _ = _ => rewrite (nth_indep _ false (f 0%nat)), (map_nth f) by (rewrite map_length, seq_length; lia) end.
  now rewrite seq_nth by lia.
Qed.
Lemma column_length : forall off x, length (column off x) = 84%nat.
Proof. intros. unfold column. now rewrite map_length, seq_length. Qed.
Definition array (x : list Z) : Prop := length x = 1344%nat /\ Forall (fun v => 0 <= v < 2^16) x.
Lemma array_perm : forall x y, Permutation x y -> array x -> array y.
Proof. intros x y P [L F]. split; [now rewrite <- (Permutation_length P)|]. rewrite Forall_forall in *. intros v Hv. apply F. now apply (Permutation_in v (Permutation_sym P)). Qed.
Lemma cas_column : forall x off i j, array x -> (off < 16)%nat -> (i < j)%nat -> (j < 84)%nat ->
  let x' := compare_and_swap x (off + 16 * i) (off + 16 * j) in
  Permutation x x' /\ column off x' = cas_bits (column off x) (i, j) /\
  forall off', (off' < 16)%nat -> off' <> off -> column off' x' = column off' x.
Proof.
  intros x off i j [L F] Ho Hij Hj x'. unfold x'. rewrite cas_value by (try assumption; lia).
  unfold cas_bits. rewrite (column_nth off x i), (column_nth off x j) by lia.
  destruct (bad (nth (off + 16 * i) x 0)) eqn:E; [|split; [apply Permutation_refl|split; reflexivity]].
  split; [apply swap_perm; lia|]. split.
  - apply nth_eq with false; [rewrite !upd_length; rewrite ?upd_length; rewrite !column_length; lia|]. intros k Hk. rewrite column_length in Hk.
    rewrite column_nth by lia. rewrite !upd_nth by (rewrite ?upd_length; rewrite ?column_length; lia).
    replace (off + 16 * k =? off + 16 * j)%nat with (k =? j)%nat by (destruct (Nat.eqb_spec k j); destruct (Nat.eqb_spec (off + 16 * k) (off + 16 * j)); lia).
    replace (off + 16 * k =? off + 16 * i)%nat with (k =? i)%nat by (destruct (Nat.eqb_spec k i); destruct (Nat.eqb_spec (off + 16 * k) (off + 16 * i)); lia).
    destruct (k =? j)%nat; [exact E|]. destruct (k =? i)%nat; [reflexivity|]. now rewrite column_nth.
  - intros off' Ho' N. unfold column. apply map_ext_in. intros k Hk. rewrite !upd_nth by (rewrite ?upd_length; lia).
    destruct (Nat.eqb_spec (off' + 16 * k) (off + 16 * j)); [lia|]. destruct (Nat.eqb_spec (off' + 16 * k) (off + 16 * i)); [lia|]. reflexivity.
Qed.
Lemma batcher_column : forall x off, array x -> (off < 16)%nat ->
  let x' := batcher84 off x in
  Permutation x x' /\ column off x' = run_bits network (column off x) /\ forall off', (off' < 16)%nat -> off' <> off -> column off' x' = column off' x.
Proof.
  intros x off H Ho. unfold batcher84, run_bits. pose proof network_good as G. revert x H G. generalize network. intros cs.
  induction cs as [|[i j] cs IH]; intros x H G; [split; [apply Permutation_refl|split; reflexivity]|].
  cbn [forallb] in G. apply andb_prop in G. destruct G as [IJ G]. apply andb_prop in IJ. destruct IJ as [I J]. apply Nat.ltb_lt in I, J. cbn [fold_left].
  destruct (cas_column x off i j H Ho I J) as (P & C & O). destruct (IH _ (array_perm _ _ P H) G) as (P' & C' & O').
  split; [now apply Permutation_trans with (2 := P')|]. split; [now rewrite C', C|]. intros off' A B. now rewrite O', O.
Qed.
Lemma all_columns : forall x, array x -> let x' := fold_left (fun x i => batcher84 i x) (seq 0 16) x in
  Permutation x x' /\ forall off, (off < 16)%nat -> column off x' = run_bits network (column off x).
Proof.
  assert (forall n k x, (k + n = 16)%nat -> array x -> let x' := fold_left (fun x i => batcher84 i x) (seq k n) x in
    Permutation x x' /\ (forall off, (k <= off < 16)%nat -> column off x' = run_bits network (column off x)) /\
    (forall off, (off < k)%nat -> column off x' = column off x)) as G.
  { induction n as [|n IH]; intros k x E H; cbn [seq fold_left]; [split; [apply Permutation_refl|split; [intros; lia|reflexivity]]|].
    destruct (batcher_column x k H ltac:(lia)) as (P & C & O). destruct (IH (S k) _ ltac:(lia) (array_perm _ _ P H)) as (P' & C' & O').
    split; [now apply Permutation_trans with (2 := P')|]. split.
    - intros off Ho. destruct (Nat.eq_dec off k) as [-> | N]; [rewrite O' by lia; exact C|]. rewrite C' by lia. f_equal. apply O; lia.
    - intros off Ho. rewrite O' by lia. apply O; lia. }
  intros x H. destruct (G 16%nat 0%nat x eq_refl H) as (P & C & _). split; [exact P|]. intros off Ho. apply C. lia.
Qed.
(** ** The check of the last row *)
Lemma sorted_at : forall b, is_sorted b -> length b = 84%nat -> (nth 63 b false = false <-> (count b <= 20)%nat) /\
  (nth 63 b false = false -> forall k, (k < 64)%nat -> nth k b false = false).
Proof.
  intros b (n & m & ->) L. unfold sorted_bits in *. rewrite app_length, !repeat_length in L.
  assert (forall j, count (repeat false j) = 0%nat) as C0 by (induction j; [reflexivity|cbn [repeat count]; lia]).
  assert (forall j, count (repeat true j) = j) as C1 by (induction j; [reflexivity|cbn [repeat count]; lia]).
  assert (forall j, (j < 84)%nat -> nth j (repeat false n ++ repeat true m) false = negb (j <? n)%nat) as N.
  { intros j Hj. destruct (Nat.ltb_spec j n); [rewrite app_nth1 by (rewrite repeat_length; lia); apply nth_repeat|].
    rewrite app_nth2 by (rewrite repeat_length; lia). rewrite repeat_length.
    rewrite (nth_indep _ false true) by (rewrite repeat_length; lia). apply nth_repeat. }
  rewrite N, count_app, C0, C1 by lia. destruct (Nat.ltb_spec 63 n); cbn [negb].
  - split; [split; [lia|reflexivity]|]. intros _ k Hk. rewrite N by lia. now replace (k <? n)%nat with true by (symmetry; apply Nat.ltb_lt; lia).
  - split; [split; [discriminate|lia]|discriminate].
Qed.
Lemma lor_check : forall l, Forall (fun v => - 2^31 <= v < 2^31) l ->
  (Z.shiftr (fold_left Z.lor l 0) 31 =? 0) = forallb (fun v => 0 <=? v) l.
Proof.
  intros l F. assert (forall a, - 2^31 <= a < 2^31 -> (Z.shiftr (fold_left Z.lor l a) 31 =? 0) = (0 <=? a) && forallb (fun v => 0 <=? v) l) as G; [|apply (G 0); lia].
  assert (forall v, - 2^31 <= v < 2^31 <-> (Z.shiftr v 31 = 0 \/ Z.shiftr v 31 = -1)) as S.
  { intros v. rewrite Z.shiftr_div_pow2 by lia. pose proof (Z.div_mod v (2^31) ltac:(lia)). pose proof (Z.mod_pos_bound v (2^31) ltac:(lia)). lia. }
  induction F as [|v l V F IH]; intros a A; cbn [fold_left forallb].
  - rewrite andb_true_r. rewrite Z.shiftr_div_pow2 by lia. pose proof (Z.div_mod a (2^31) ltac:(lia)). pose proof (Z.mod_pos_bound a (2^31) ltac:(lia)). lia.
  - rewrite IH.
    + rewrite andb_assoc. f_equal. pose proof (Z.lor_nonneg a v). destruct (0 <=? a) eqn:EA; destruct (0 <=? v) eqn:EV; cbn [andb]; lia.
    + apply S. rewrite Z.shiftr_lor. apply S in A, V. destruct A as [-> | ->]; destruct V as [-> | ->]; cbn; auto.
Qed.
