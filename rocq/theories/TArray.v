(** C68: objects in arrays keep their order and are never lost *)
From Verif Require Import Base MProto MArray SArray PArray.

(** Any sequence of add and insert calls on an array that starts empty, whatever
    allocations fail, is free of undefined behaviour (reads or writes outside
    the storage); afterwards the array holds the elements of the successful
    calls in their order, each at the index it was inserted at; the only error
    is E_NO_MEMORY; blocks are cleared before they are freed. *)
Theorem C68_arrays_keep_order : forall size ops, 0 < size -> Forall (op_fits size) ops ->
  exists errs freed a, array_run size empty_array ops = Ok (errs, freed, a) /\ zlen errs = zlen ops /\
    holds size a (elements [] ops errs) /\
    Forall (fun e => e = E_NONE \/ e = E_NO_MEMORY) errs /\
    Forall (fun b => forall m, b = Some m -> Forall (eq 0) m) freed.
Proof.
  intros size ops S F. apply run_ok; [exact S|exact F|]. unfold holds, empty_array; cbn.
  split; [reflexivity|]. split; [constructor|]. split; [now vm_compute|]. split; [lia|reflexivity].
Qed.
Print Assumptions C68_arrays_keep_order.
(** A call fails only if it cannot allocate (or the array would outgrow the
    address space), and then leaves the array exactly as it was. *)
Theorem C68_failed_call_changes_nothing : forall size a es o, 0 < size -> op_fits size o -> holds size a es ->
  exists e a' freed, array_call size a o = Ok (e, a', freed) /\
    (op_alloc o = true -> (zlen es + 64) * size < 2^63 -> e = E_NONE) /\
    (e <> E_NONE -> e = E_NO_MEMORY /\ a' = a /\ freed = None).
Proof.
  intros size a es o S F H. destruct (call_ok size a o es S F H) as (e & a' & old & E & _ & K).
  exists e, a', old. split; [exact E|]. destruct K as [(-> & _)|(-> & -> & -> & K)].
  - split; [reflexivity|]. intros N; now destruct N.
  - split; [|tauto]. intros A B. destruct K as [K|K]; [congruence|lia].
Qed.
Print Assumptions C68_failed_call_changes_nothing.
(** The element added by a successful insert is found at its index. *)
Theorem C68_inserted_at_index : forall (i : Z) (e : list Z) es, 0 <= i ->
  nth_error (inserted i e es) (Z.to_nat (Z.min i (zlen es))) = Some e /\
  zlen (inserted i e es) = zlen es + 1.
Proof.
  intros i e es I. unfold inserted. pose proof (zlen_nonneg _ es) as P. destruct (i <? zlen es) eqn:J.
  - rewrite Z.min_l by lia. split.
    + rewrite nth_error_app2 by (unfold take; rewrite firstn_length; lia).
      unfold take. rewrite firstn_length. unfold zlen in *.
      replace (Z.to_nat i - Nat.min (Z.to_nat i) (length es))%nat with O by lia. reflexivity.
    + rewrite zlen_app, zlen_cons, zlen_take, zlen_drop. lia.
  - rewrite Z.min_r by lia. split.
    + rewrite nth_error_app2 by (unfold zlen; lia). unfold zlen. rewrite Nat2Z.id, Nat.sub_diag. reflexivity.
    + rewrite zlen_app, zlen_cons, zlen_nil. lia.
Qed.
Print Assumptions C68_inserted_at_index.
(** The getters of the array: the i-th element is where *array + i * size points. *)
Theorem C68_element_read_back : forall size a es i e, 0 < size -> holds size a es -> 0 <= i ->
  nth_error es (Z.to_nat i) = Some e ->
  exists m, ar_data a = Some m /\ i < ar_count a /\ load m (i * size) size = Ok e.
Proof.
  intros size a es i e S (C & F & L & M & D) I N.
  assert (Q : (Z.to_nat i < length es)%nat) by (apply nth_error_Some; congruence).
  assert (Q' : i < zlen es) by (unfold zlen; lia).
  destruct (ar_data a) as [m|]; [|pose proof (zlen_nonneg _ es); lia].
  exists m. split; [reflexivity|]. split; [lia|]. destruct D as (D1 & D2). unfold load.
  replace ((0 <=? i * size) && (0 <=? size) && (i * size + size <=? zlen m)) with true by nia. f_equal.
  assert (E : e :: drop (i + 1) es = drop i es).
  { unfold drop. replace (Z.to_nat (i + 1)) with (Datatypes.S (Z.to_nat i)) by lia.
    clear - N. revert N. generalize (Z.to_nat i) as n. induction es as [|x es IH]; intros [|n] N; try discriminate N.
    - cbn in N. injection N as ->. reflexivity.
    - cbn in N. cbn [skipn]. now apply IH. }
  assert (FE : zlen e = size) by (rewrite Forall_forall in F; apply F; now apply nth_error_In in N).
  transitivity (take size (drop (i * size) (concat es))).
  - rewrite <- D2. unfold sub. rewrite (take_drop_comm _ size (i * size) m) by nia.
    rewrite (take_drop_comm _ size (i * size) (take _ m)) by nia. rewrite take_take. do 2 f_equal. nia.
  - rewrite concat_drop by (assumption || lia). rewrite <- E. cbn [concat]. rewrite <- FE. apply take_app_exact.
Qed.
Print Assumptions C68_element_read_back.

(** The same for arrays of strings and byte strings: values are copied (with a
    NUL after strings and empty values), kept in order with their lengths, and a
    failed call leaves the array as it was. *)
Theorem C68_string_arrays : forall a1 a2 a3 b vs v, holds_blocks b vs string_nul -> zlen v < 2^63 ->
  exists e b' freed, add_to_string_array a1 a2 a3 b (Some v) (zlen v) = Ok (e, b', freed) /\
    ((e = E_NONE /\ holds_blocks b' (vs ++ [v]) string_nul) \/
     (e = E_NO_MEMORY /\ b' = b /\ (a1 && a2 && a3 = false \/ 2^60 <= zlen vs + 64))).
Proof.
  intros. destruct (add_block_ok a1 a2 a3 string_nul b vs v) as (e & b' & old & E & K); [assumption|assumption|].
  exists e, b', old. split; [exact E|]. tauto.
Qed.
Print Assumptions C68_string_arrays.
Theorem C68_bytes_arrays : forall a1 a2 a3 b vs v, holds_blocks b vs bytes_nul -> zlen v < 2^63 ->
  exists e b' freed, add_to_bytes_array a1 a2 a3 b (Some v) (zlen v) = Ok (e, b', freed) /\
    ((e = E_NONE /\ holds_blocks b' (vs ++ [v]) bytes_nul) \/
     (e = E_NO_MEMORY /\ b' = b /\ (a1 && a2 && a3 = false \/ 2^60 <= zlen vs + 64))).
Proof.
  intros. destruct (add_block_ok a1 a2 a3 bytes_nul b vs v) as (e & b' & old & E & K); [assumption|assumption|].
  exists e, b', old. split; [|tauto]. unfold add_to_bytes_array. unfold bytes_nul in E.
  destruct (zlen v =? 0); exact E.
Qed.
Print Assumptions C68_bytes_arrays.

(** Six insertions, the last of which needs more memory than there is: *)
Definition some_ops : list array_op :=
  [Add true [1; 1]; Insert true 0 [2; 2]; Insert true 1 [3; 3]; Insert true 9 [4; 4]; Insert false 0 [5; 5]; Insert true 0 [6; 6]].
Example some_ops_fit : Forall (op_fits 2) some_ops.
Proof. repeat constructor; cbn; lia. Qed.
Example some_ops_run : exists freed a,
  array_run 2 empty_array some_ops = Ok ([E_NONE; E_NONE; E_NONE; E_NONE; E_NO_MEMORY; E_NONE], freed, a) /\
  ar_data a = Some [6; 6; 2; 2; 3; 3; 1; 1; 4; 4; 0; 0; 0; 0; 0; 0] /\ ar_count a = 5 /\
  freed = [None; None; None; None; None; Some (zeros 8)] /\ holds 2 a [[6; 6]; [2; 2]; [3; 3]; [1; 1]; [4; 4]].
Proof.
  eexists _, _. split; [vm_compute; reflexivity|]. split; [reflexivity|]. split; [reflexivity|]. split; [reflexivity|].
  unfold holds; cbn. split; [reflexivity|]. split; [repeat constructor|]. split; [now vm_compute|]. split; [lia|]. split; reflexivity.
Qed.
Example some_strings : holds_blocks empty_blocks [] string_nul /\ exists e b o,
  add_to_string_array true true true empty_blocks (Some [65; 66]) 2 = Ok (e, b, o) /\ e = E_NONE /\
  bl_array b = Some [Some [65; 66; 0]; None; None; None].
Proof.
  split. { unfold holds_blocks, empty_blocks; cbn. rewrite zlen_nil. split; [reflexivity|]. split; [lia|reflexivity]. }
  eexists _, _, _. split; [vm_compute; reflexivity|]. split; reflexivity.
Qed.
