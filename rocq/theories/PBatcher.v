(** Proofs for TBatcher.v. *)
From Coq Require Import Permutation.
From Verif Require Import Base MNewhope MBatcher.

(** ** Arrays *)
Lemma upd_length : forall A (l : list A) i v, (i < length l)%nat -> length (upd l i v) = length l.
Proof. intros A l i v H. unfold upd. rewrite app_length, firstn_length. cbn [length]. rewrite skipn_length. lia. Qed.
Lemma upd_nth : forall A (l : list A) i v k d, (i < length l)%nat -> nth k (upd l i v) d = if (k =? i)%nat then v else nth k l d.
Proof.
  intros A l. induction l as [|x l IH]; intros i v k d H; [cbn in H; lia|].
  destruct i as [|i]; destruct k as [|k]; cbn [upd firstn skipn app nth Nat.eqb] in *; try reflexivity.
  apply (IH i v k d). cbn in H. lia.
Qed.
Lemma upd_map : forall A B (f : A -> B) l i v, map f (upd l i v) = upd (map f l) i (f v).
Proof. intros. unfold upd. now rewrite map_app, firstn_map, map_cons, skipn_map. Qed.
Lemma nth_eq : forall A (d : A) a b, length a = length b -> (forall k, (k < length a)%nat -> nth k a d = nth k b d) -> a = b.
Proof. intros. now apply nth_ext with d d. Qed.

(** ** Sorting bits; true is to go to the end *)
Definition cas_bits (b : list bool) (c : nat * nat) : list bool :=
  let '(i, j) := c in if nth i b false then upd (upd b i (nth j b false)) j true else b.
Definition run_bits (cs : list (nat * nat)) (b : list bool) : list bool := fold_left cas_bits cs b.
Definition sorted_bits (a b : nat) : list bool := repeat false a ++ repeat true b.
Definition is_sorted (b : list bool) : Prop := exists n m, b = sorted_bits n m.
Fixpoint same (a b : list bool) : bool :=
  match a, b with
  | [], [] => true
  | x :: a', y :: b' => Bool.eqb x y && same a' b'
  | _, _ => false
  end.
Lemma same_ok : forall a b, same a b = true -> a = b.
Proof.
  induction a as [|x a IH]; intros [|y b] H; try discriminate; [reflexivity|]. cbn [same] in H. apply andb_prop in H. destruct H as [E H].
  apply Bool.eqb_prop in E. now rewrite E, (IH b).
Qed.
Definition within (n : nat) (cs : list (nat * nat)) : bool := forallb (fun '(i, j) => (i <? n)%nat && (j <? n)%nat) cs.
(* the comparators cs sort two sorted blocks of a and b bits *)
Definition check_merge (a b : nat) (cs : list (nat * nat)) : bool :=
  within (a + b) cs &&
  forallb (fun p => forallb (fun q =>
    same (run_bits cs (sorted_bits (a - p) p ++ sorted_bits (b - q) q)) (sorted_bits (a + b - p - q) (p + q)))
    (seq 0 (S b))) (seq 0 (S a)).
Inductive op : Type := Leaf | Merge (cs : list (nat * nat)).
Definition shift_by (lo : nat) (cs : list (nat * nat)) : list (nat * nat) := map (fun '(i, j) => (lo + i, lo + j)%nat) cs.
(* sizes of the sorted blocks so far, the last block first; the comparators of the rest *)
Fixpoint comparators (plan : list op) (sizes : list nat) (total : nat) : list (nat * nat) :=
  match plan, sizes with
  | Leaf :: plan', _ => comparators plan' (1%nat :: sizes) (S total)
  | Merge cs :: plan', b :: a :: sizes' => shift_by (total - (a + b)) cs ++ comparators plan' ((a + b)%nat :: sizes') total
  | _, _ => []
  end.
Fixpoint plan_ok (plan : list op) (sizes : list nat) : option (list nat) :=
  match plan, sizes with
  | [], _ => Some sizes
  | Leaf :: plan', _ => plan_ok plan' (1%nat :: sizes)
  | Merge cs :: plan', b :: a :: sizes' => if check_merge a b cs then plan_ok plan' ((a + b)%nat :: sizes') else None
  | _, _ => None
  end.
Definition plan : list op :=
  [
Leaf;
   Leaf;
   Merge [(0, 1)]%nat;
   Leaf;
   Leaf;
   Merge [(0, 1)]%nat;
   Merge [(0, 2); (1, 3); (1, 2)]%nat;
   Leaf;
   Leaf;
   Merge [(0, 1)]%nat;
   Leaf;
   Leaf;
   Merge [(0, 1)]%nat;
   Merge [(0, 2); (1, 3); (1, 2)]%nat;
   Merge [(0, 4); (2, 6); (2, 4); (1, 5); (3, 7); (3, 5); (1, 2); (3, 4); (5, 6)]%nat;
   Leaf;
   Leaf;
   Merge [(0, 1)]%nat;
   Leaf;
   Leaf;
   Merge [(0, 1)]%nat;
   Merge [(0, 2); (1, 3); (1, 2)]%nat;
   Leaf;
   Leaf;
   Merge [(0, 1)]%nat;
   Leaf;
   Leaf;
   Merge [(0, 1)]%nat;
   Merge [(0, 2); (1, 3); (1, 2)]%nat;
   Merge [(0, 4); (2, 6); (2, 4); (1, 5); (3, 7); (3, 5); (1, 2); (3, 4); (5, 6)]%nat;
   Merge [(0, 8); (4, 12); (4, 8); (2, 10); (6, 14); (6, 10); (2, 4); (6, 8); (10, 12); (1, 9); (5, 13); (5, 9); (3, 11); (7, 15);
   (7, 11); (3, 5); (7, 9); (11, 13); (1, 2); (3, 4); (5, 6); (7, 8); (9, 10); (11, 12); (13, 14)]%nat;
   Leaf;
   Leaf;
   Merge [(0, 1)]%nat;
   Leaf;
   Leaf;
   Merge [(0, 1)]%nat;
   Merge [(0, 2); (1, 3); (1, 2)]%nat;
   Leaf;
   Leaf;
   Merge [(0, 1)]%nat;
   Leaf;
   Leaf;
   Merge [(0, 1)]%nat;
   Merge [(0, 2); (1, 3); (1, 2)]%nat;
   Merge [(0, 4); (2, 6); (2, 4); (1, 5); (3, 7); (3, 5); (1, 2); (3, 4); (5, 6)]%nat;
   Leaf;
   Leaf;
   Merge [(0, 1)]%nat;
   Leaf;
   Leaf;
   Merge [(0, 1)]%nat;
   Merge [(0, 2); (1, 3); (1, 2)]%nat;
   Leaf;
   Leaf;
   Merge [(0, 1)]%nat;
   Leaf;
   Leaf;
   Merge [(0, 1)]%nat;
   Merge [(0, 2); (1, 3); (1, 2)]%nat;
   Merge [(0, 4); (2, 6); (2, 4); (1, 5); (3, 7); (3, 5); (1, 2); (3, 4); (5, 6)]%nat;
   Merge [(0, 8); (4, 12); (4, 8); (2, 10); (6, 14); (6, 10); (2, 4); (6, 8); (10, 12); (1, 9); (5, 13); (5, 9); (3, 11); (7, 15);
   (7, 11); (3, 5); (7, 9); (11, 13); (1, 2); (3, 4); (5, 6); (7, 8); (9, 10); (11, 12); (13, 14)]%nat;
   Merge [(0, 16); (8, 24); (8, 16); (4, 20); (12, 28); (12, 20); (4, 8); (12, 16); (20, 24); (2, 18); (10, 26); (10, 18); (6, 22); (14, 30);
   (14, 22); (6, 10); (14, 18); (22, 26); (2, 4); (6, 8); (10, 12); (14, 16); (18, 20); (22, 24); (26, 28); (1, 17); (9, 25); (9, 17);
   (5, 21); (13, 29); (13, 21); (5, 9); (13, 17); (21, 25); (3, 19); (11, 27); (11, 19); (7, 23); (15, 31); (15, 23); (7, 11); (15, 19);
   (23, 27); (3, 5); (7, 9); (11, 13); (15, 17); (19, 21); (23, 25); (27, 29); (1, 2); (3, 4); (5, 6); (7, 8); (9, 10); (11, 12);
   (13, 14); (15, 16); (17, 18); (19, 20); (21, 22); (23, 24); (25, 26); (27, 28); (29, 30)]%nat;
   Leaf;
   Leaf;
   Merge [(0, 1)]%nat;
   Leaf;
   Leaf;
   Merge [(0, 1)]%nat;
   Merge [(0, 2); (1, 3); (1, 2)]%nat;
   Leaf;
   Leaf;
   Merge [(0, 1)]%nat;
   Leaf;
   Leaf;
   Merge [(0, 1)]%nat;
   Merge [(0, 2); (1, 3); (1, 2)]%nat;
   Merge [(0, 4); (2, 6); (2, 4); (1, 5); (3, 7); (3, 5); (1, 2); (3, 4); (5, 6)]%nat;
   Leaf;
   Leaf;
   Merge [(0, 1)]%nat;
   Leaf;
   Leaf;
   Merge [(0, 1)]%nat;
   Merge [(0, 2); (1, 3); (1, 2)]%nat;
   Leaf;
   Leaf;
   Merge [(0, 1)]%nat;
   Leaf;
   Leaf;
   Merge [(0, 1)]%nat;
   Merge [(0, 2); (1, 3); (1, 2)]%nat;
   Merge [(0, 4); (2, 6); (2, 4); (1, 5); (3, 7); (3, 5); (1, 2); (3, 4); (5, 6)]%nat;
   Merge [(0, 8); (4, 12); (4, 8); (2, 10); (6, 14); (6, 10); (2, 4); (6, 8); (10, 12); (1, 9); (5, 13); (5, 9); (3, 11); (7, 15);
   (7, 11); (3, 5); (7, 9); (11, 13); (1, 2); (3, 4); (5, 6); (7, 8); (9, 10); (11, 12); (13, 14)]%nat;
   Leaf;
   Leaf;
   Merge [(0, 1)]%nat;
   Leaf;
   Leaf;
   Merge [(0, 1)]%nat;
   Merge [(0, 2); (1, 3); (1, 2)]%nat;
   Leaf;
   Leaf;
   Merge [(0, 1)]%nat;
   Leaf;
   Leaf;
   Merge [(0, 1)]%nat;
   Merge [(0, 2); (1, 3); (1, 2)]%nat;
   Merge [(0, 4); (2, 6); (2, 4); (1, 5); (3, 7); (3, 5); (1, 2); (3, 4); (5, 6)]%nat;
   Leaf;
   Leaf;
   Merge [(0, 1)]%nat;
   Leaf;
   Leaf;
   Merge [(0, 1)]%nat;
   Merge [(0, 2); (1, 3); (1, 2)]%nat;
   Leaf;
   Leaf;
   Merge [(0, 1)]%nat;
   Leaf;
   Leaf;
   Merge [(0, 1)]%nat;
   Merge [(0, 2); (1, 3); (1, 2)]%nat;
   Merge [(0, 4); (2, 6); (2, 4); (1, 5); (3, 7); (3, 5); (1, 2); (3, 4); (5, 6)]%nat;
   Merge [(0, 8); (4, 12); (4, 8); (2, 10); (6, 14); (6, 10); (2, 4); (6, 8); (10, 12); (1, 9); (5, 13); (5, 9); (3, 11); (7, 15);
   (7, 11); (3, 5); (7, 9); (11, 13); (1, 2); (3, 4); (5, 6); (7, 8); (9, 10); (11, 12); (13, 14)]%nat;
   Merge [(0, 16); (8, 24); (8, 16); (4, 20); (12, 28); (12, 20); (4, 8); (12, 16); (20, 24); (2, 18); (10, 26); (10, 18); (6, 22); (14, 30);
   (14, 22); (6, 10); (14, 18); (22, 26); (2, 4); (6, 8); (10, 12); (14, 16); (18, 20); (22, 24); (26, 28); (1, 17); (9, 25); (9, 17);
   (5, 21); (13, 29); (13, 21); (5, 9); (13, 17); (21, 25); (3, 19); (11, 27); (11, 19); (7, 23); (15, 31); (15, 23); (7, 11); (15, 19);
   (23, 27); (3, 5); (7, 9); (11, 13); (15, 17); (19, 21); (23, 25); (27, 29); (1, 2); (3, 4); (5, 6); (7, 8); (9, 10); (11, 12);
   (13, 14); (15, 16); (17, 18); (19, 20); (21, 22); (23, 24); (25, 26); (27, 28); (29, 30)]%nat;
   Merge [(0, 32); (16, 48); (16, 32); (8, 40); (24, 56); (24, 40); (8, 16); (24, 32); (40, 48); (4, 36); (20, 52); (20, 36); (12, 44); (28, 60);
   (28, 44); (12, 20); (28, 36); (44, 52); (4, 8); (12, 16); (20, 24); (28, 32); (36, 40); (44, 48); (52, 56); (2, 34); (18, 50); (18, 34);
   (10, 42); (26, 58); (26, 42); (10, 18); (26, 34); (42, 50); (6, 38); (22, 54); (22, 38); (14, 46); (30, 62); (30, 46); (14, 22); (30, 38);
   (46, 54); (6, 10); (14, 18); (22, 26); (30, 34); (38, 42); (46, 50); (54, 58); (2, 4); (6, 8); (10, 12); (14, 16); (18, 20); (22, 24);
   (26, 28); (30, 32); (34, 36); (38, 40); (42, 44); (46, 48); (50, 52); (54, 56); (58, 60); (1, 33); (17, 49); (17, 33); (9, 41); (25, 57);
   (25, 41); (9, 17); (25, 33); (41, 49); (5, 37); (21, 53); (21, 37); (13, 45); (29, 61); (29, 45); (13, 21); (29, 37); (45, 53); (5, 9);
   (13, 17); (21, 25); (29, 33); (37, 41); (45, 49); (53, 57); (3, 35); (19, 51); (19, 35); (11, 43); (27, 59); (27, 43); (11, 19); (27, 35);
   (43, 51); (7, 39); (23, 55); (23, 39); (15, 47); (31, 63); (31, 47); (15, 23); (31, 39); (47, 55); (7, 11); (15, 19); (23, 27); (31, 35);
   (39, 43); (47, 51); (55, 59); (3, 5); (7, 9); (11, 13); (15, 17); (19, 21); (23, 25); (27, 29); (31, 33); (35, 37); (39, 41); (43, 45);
   (47, 49); (51, 53); (55, 57); (59, 61); (1, 2); (3, 4); (5, 6); (7, 8); (9, 10); (11, 12); (13, 14); (15, 16); (17, 18); (19, 20);
   (21, 22); (23, 24); (25, 26); (27, 28); (29, 30); (31, 32); (33, 34); (35, 36); (37, 38); (39, 40); (41, 42); (43, 44); (45, 46); (47, 48);
   (49, 50); (51, 52); (53, 54); (55, 56); (57, 58); (59, 60); (61, 62)]%nat;
   Leaf;
   Leaf;
   Merge [(0, 1)]%nat;
   Leaf;
   Leaf;
   Merge [(0, 1)]%nat;
   Merge [(0, 2); (1, 3); (1, 2)]%nat;
   Leaf;
   Leaf;
   Merge [(0, 1)]%nat;
   Leaf;
   Leaf;
   Merge [(0, 1)]%nat;
   Merge [(0, 2); (1, 3); (1, 2)]%nat;
   Merge [(0, 4); (2, 6); (2, 4); (1, 5); (3, 7); (3, 5); (1, 2); (3, 4); (5, 6)]%nat;
   Leaf;
   Leaf;
   Merge [(0, 1)]%nat;
   Leaf;
   Leaf;
   Merge [(0, 1)]%nat;
   Merge [(0, 2); (1, 3); (1, 2)]%nat;
   Leaf;
   Leaf;
   Merge [(0, 1)]%nat;
   Leaf;
   Leaf;
   Merge [(0, 1)]%nat;
   Merge [(0, 2); (1, 3); (1, 2)]%nat;
   Merge [(0, 4); (2, 6); (2, 4); (1, 5); (3, 7); (3, 5); (1, 2); (3, 4); (5, 6)]%nat;
   Merge [(0, 8); (4, 12); (4, 8); (2, 10); (6, 14); (6, 10); (2, 4); (6, 8); (10, 12); (1, 9); (5, 13); (5, 9); (3, 11); (7, 15);
   (7, 11); (3, 5); (7, 9); (11, 13); (1, 2); (3, 4); (5, 6); (7, 8); (9, 10); (11, 12); (13, 14)]%nat;
   Leaf;
   Leaf;
   Merge [(0, 1)]%nat;
   Leaf;
   Leaf;
   Merge [(0, 1)]%nat;
   Merge [(0, 2); (1, 3); (1, 2)]%nat;
   Merge [(17, 18); (17, 18); (0, 16); (8, 16); (4, 8); (12, 16); (2, 18); (10, 18); (6, 10); (14, 18); (2, 4); (6, 8); (10, 12); (14, 16);
   (1, 17); (9, 17); (5, 9); (13, 17); (3, 19); (11, 19); (7, 11); (15, 19); (3, 5); (7, 9); (11, 13); (15, 17); (1, 2); (3, 4);
   (5, 6); (7, 8); (9, 10); (11, 12); (13, 14); (15, 16); (17, 18)]%nat;
   Merge [(72, 80); (68, 72); (76, 80); (74, 82); (70, 74); (78, 82); (66, 68); (70, 72); (74, 76); (78, 80); (73, 81); (69, 73); (77, 81); (75, 83);
   (71, 75); (79, 83); (67, 69); (71, 73); (75, 77); (79, 81); (65, 66); (67, 68); (69, 70); (71, 72); (73, 74); (75, 76); (77, 78); (79, 80);
   (81, 82); (0, 64); (32, 64); (16, 80); (48, 80); (16, 32); (48, 64); (8, 72); (40, 72); (24, 40); (56, 72); (8, 16); (24, 32); (40, 48);
   (56, 64); (72, 80); (4, 68); (36, 68); (20, 36); (52, 68); (12, 76); (44, 76); (28, 44); (60, 76); (12, 20); (28, 36); (44, 52); (60, 68);
   (4, 8); (12, 16); (20, 24); (28, 32); (36, 40); (44, 48); (52, 56); (60, 64); (68, 72); (76, 80); (2, 66); (34, 66); (18, 82); (50, 82);
   (18, 34); (50, 66); (10, 74); (42, 74); (26, 42); (58, 74); (10, 18); (26, 34); (42, 50); (58, 66); (74, 82); (6, 70); (38, 70); (22, 38);
   (54, 70); (14, 78); (46, 78); (30, 46); (62, 78); (14, 22); (30, 38); (46, 54); (62, 70); (6, 10); (14, 18); (22, 26); (30, 34); (38, 42);
   (46, 50); (54, 58); (62, 66); (70, 74); (78, 82); (2, 4); (6, 8); (10, 12); (14, 16); (18, 20); (22, 24); (26, 28); (30, 32); (34, 36);
   (38, 40); (42, 44); (46, 48); (50, 52); (54, 56); (58, 60); (62, 64); (66, 68); (70, 72); (74, 76); (78, 80); (1, 65); (33, 65); (17, 81);
   (49, 81); (17, 33); (49, 65); (9, 73); (41, 73); (25, 41); (57, 73); (9, 17); (25, 33); (41, 49); (57, 65); (73, 81); (5, 69); (37, 69);
   (21, 37); (53, 69); (13, 77); (45, 77); (29, 45); (61, 77); (13, 21); (29, 37); (45, 53); (61, 69); (5, 9); (13, 17); (21, 25); (29, 33);
   (37, 41); (45, 49); (53, 57); (61, 65); (69, 73); (77, 81); (3, 67); (35, 67); (19, 83); (51, 83); (19, 35); (51, 67); (11, 75); (43, 75);
   (27, 43); (59, 75); (11, 19); (27, 35); (43, 51); (59, 67); (75, 83); (7, 71); (39, 71); (23, 39); (55, 71); (15, 79); (47, 79); (31, 47);
   (63, 79); (15, 23); (31, 39); (47, 55); (63, 71); (7, 11); (15, 19); (23, 27); (31, 35); (39, 43); (47, 51); (55, 59); (63, 67); (71, 75);
   (79, 83); (3, 5); (7, 9); (11, 13); (15, 17); (19, 21); (23, 25); (27, 29); (31, 33); (35, 37); (39, 41); (43, 45); (47, 49); (51, 53);
   (55, 57); (59, 61); (63, 65); (67, 69); (71, 73); (75, 77); (79, 81); (1, 2); (3, 4); (5, 6); (7, 8); (9, 10); (11, 12); (13, 14);
   (15, 16); (17, 18); (19, 20); (21, 22); (23, 24); (25, 26); (27, 28); (29, 30); (31, 32); (33, 34); (35, 36); (37, 38); (39, 40); (41, 42);
   (43, 44); (45, 46); (47, 48); (49, 50); (51, 52); (53, 54); (55, 56); (57, 58); (59, 60); (61, 62); (63, 64); (65, 66); (67, 68); (69, 70);
   (71, 72); (73, 74); (75, 76); (77, 78); (79, 80); (81, 82)]%nat].
Lemma plan_is_network : comparators plan [] 0 = network.
Proof. vm_compute. reflexivity. Qed.
Lemma plan_checked : plan_ok plan [] = Some [84%nat].
Proof. vm_compute. reflexivity. Qed.
