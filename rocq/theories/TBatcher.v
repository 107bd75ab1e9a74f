(** C86: the coefficients that the NewHope code draws from a stream *)
From Coq Require Import Permutation.
From Verif Require Import Base MNewhope MBatcher SNewhope SBatcher PBatcher PBatcherb.

Lemma stream_words_nth : forall n buf, bytes buf -> length buf = (2 * n)%nat ->
  stream_words buf = map (stream_word buf) (seq 0 n) /\ Forall (fun v => 0 <= v < 2^16) (stream_words buf).
Proof.
  induction n as [|n IH]; intros buf B L.
  - destruct buf; [|discriminate]. split; [reflexivity|constructor].
  - destruct buf as [|b0 [|b1 buf]]; cbn [length] in L; try lia. inversion B as [|? ? B0 B']; subst. inversion B' as [|? ? B1 B'']; subst.
    destruct (IH buf B'' ltac:(lia)) as [E F]. cbn [stream_words seq map].
    assert (u16 (Z.lor b0 (Z.shiftl b1 8)) = b0 + 256 * b1 /\ 0 <= b0 + 256 * b1 < 2^16) as [V R].
    { unfold is_byte in *. assert (Z.lor b0 (Z.shiftl b1 8) = b0 + 256 * b1) as ->.
      { rewrite Z.shiftl_mul_pow2 by lia.
        assert (Z.land b0 (b1 * 2^8) = 0) as N.
        { apply Z.bits_inj'. intros k Hk. rewrite Z.land_spec, Z.bits_0. destruct (Z.lt_ge_cases k 8).
          - rewrite Z.mul_pow2_bits_low by lia. apply andb_false_r.
          - rewrite <- (Z.mod_small b0 (2^8)) by lia. rewrite Z.mod_pow2_bits_high by lia. reflexivity. }
        rewrite <- Z.lxor_lor by exact N. rewrite <- Z.add_nocarry_lxor by exact N. lia. }
      unfold u16. split; [apply Z.mod_small|]; lia. }
    split; [|rewrite V; now constructor].
    rewrite V, E. f_equal. rewrite <- seq_shift, map_map. apply map_ext. intros i. unfold stream_word, byte_at.
    replace (Z.to_nat (2 * Z.of_nat (S i))) with (S (S (Z.to_nat (2 * Z.of_nat i)))) by lia.
    replace (Z.to_nat (2 * Z.of_nat (S i) + 1)) with (S (S (Z.to_nat (2 * Z.of_nat i + 1)))) by lia. reflexivity.
Qed.
Lemma count_filter : forall (f : nat -> bool) l, (count (map f l) + length (filter (fun k => negb (f k)) l) = length l)%nat.
Proof. intros f. induction l as [|x l IH]; [reflexivity|]. cbn [map count filter length]. destruct (f x); cbn [negb length]; lia. Qed.
Lemma fold_lor_map : forall A (f : A -> Z) l a, fold_left (fun r i => Z.lor r (f i)) l a = fold_left Z.lor (map f l) a.
Proof. intros A f. induction l as [|x l IH]; intros a; [reflexivity|]. apply IH. Qed.
Lemma nth_words : forall buf i, (i < 1344)%nat -> nth i (words_of buf) 0 = stream_word buf i.
Proof.
  intros buf i H. unfold words_of. rewrite (nth_indep _ 0 (stream_word buf 0)), map_nth, seq_nth by (rewrite ?map_length, ?seq_length; lia). reflexivity.
Qed.
Lemma some_eq : forall (c : bool) (a p : list Z), (if c then Some a else None) = Some p -> c = true /\ p = a.
Proof. intros [] a p H; [injection H as ->; now split|discriminate]. Qed.
Lemma some_iff : forall (c : bool) (a : list Z), (exists p, (if c then Some a else None) = Some p) <-> c = true.
Proof. intros [] a; split; [reflexivity|now exists a|intros [p H]; discriminate|discriminate]. Qed.
(* what the check of the last row says *)
Lemma discard_cases : forall buf, bytes buf -> zlen buf = 2688 -> exists x,
  array x /\ Permutation (words_of buf) x /\
  (forall off, (off < 16)%nat -> is_sorted (column off x) /\ count (column off x) = count (column off (words_of buf))) /\
  discardtopoly buf = if forallb (fun off => negb (nth 63 (column off x) false)) (seq 0 16) then Some (firstn 1024 x) else None.
Proof.
  intros buf B L. unfold zlen in L. destruct (stream_words_nth 1344 buf B ltac:(lia)) as [E F].
  assert (array (words_of buf)) as A.
  { split; [unfold words_of; now rewrite map_length, seq_length|]. unfold words_of. rewrite <- E. exact F. }
  destruct (all_columns _ A) as [P C]. unfold discardtopoly. rewrite E. fold (words_of buf).
  set (x := fold_left (fun x i => batcher84 i x) (seq 0 16) (words_of buf)) in *. exists x. pose proof (array_perm _ _ P A) as X.
  split; [exact X|]. split; [exact P|]. split.
  - intros off Ho. rewrite C by assumption. split; [apply network_sorts, column_length|]. apply run_count. rewrite column_length. exact network_good.
  - clearbody x. rewrite fold_lor_map, lor_check.
    + match goal with |- (if ?a then _ else _) = (if ?b then _ else _) => replace a with b; [reflexivity|] end.
      change (seq 1008 16) with (map (fun k => (k + 16 * 63)%nat) (seq 0 16)). rewrite map_map.
      assert (forall l, (forall k, In k l -> (k < 16)%nat) -> forallb (fun off => negb (nth 63 (column off x) false)) l =
        forallb (fun v => 0 <=? v) (map (fun k => 61444 - nth (k + 16 * 63) x 0) l)) as G.
      { induction l as [|k l IH]; intros Hl; [reflexivity|]. cbn [forallb map]. rewrite IH by (intros; apply Hl; now right). f_equal.
        rewrite column_nth by lia. unfold bad. rewrite <- Z.leb_antisym. destruct (Z.leb_spec (nth (k + 16 * 63) x 0) 61444); lia. }
      apply G. intros k Hk. apply in_seq in Hk. lia.
    + rewrite Forall_map, Forall_forall. intros i Hi. apply in_seq in Hi. destruct X as [Lx Fx]. rewrite Forall_forall in Fx.
      assert (In (nth i x 0) x) as IN by (apply nth_In; lia). specialize (Fx _ IN). lia.
Qed.

(** The 1024 coefficients are below 5 q, and they are words of the stream, none of
    them used twice. *)
Theorem C86_coefficients : forall buf p, bytes buf -> zlen buf = 2688 -> discardtopoly buf = Some p ->
  zlen p = 1024 /\ Forall (fun v => 0 <= v < 5 * newhope_q) p /\ exists rest, Permutation (words_of buf) (p ++ rest).
Proof.
  intros buf p B L D. destruct (discard_cases buf B L) as (x & [Lx Fx] & P & C & E). rewrite E in D.
  apply some_eq in D. destruct D as [O ->]. rewrite forallb_forall in O.
  unfold zlen. rewrite firstn_length, Lx. split; [reflexivity|]. split.
  - rewrite Forall_forall. intros v Hv. apply (In_nth _ _ 0) in Hv. destruct Hv as (i & Hi & <-). rewrite firstn_length, Lx in Hi.
    rewrite <- (firstn_skipn 1024 x) in Fx. rewrite Forall_forall in Fx.
    assert (nth i (firstn 1024 x) 0 = nth i x 0) as N.
    { rewrite <- (firstn_skipn 1024 x) at 2. symmetry. apply app_nth1. rewrite firstn_length, Lx. exact Hi. }
    assert (0 <= nth i (firstn 1024 x) 0 < 2^16) as R by (apply Fx, in_or_app; left; apply nth_In; rewrite firstn_length, Lx; exact Hi).
    rewrite N in *. pose proof (Nat.div_mod i 16 ltac:(lia)) as DM. pose proof (Nat.mod_upper_bound i 16 ltac:(lia)) as MB.
    set (off := (i mod 16)%nat) in *. set (k := (i / 16)%nat) in *. clearbody off k.
    destruct (C off MB) as [S _]. destruct (sorted_at _ S (column_length _ _)) as [_ G].
    specialize (O off ltac:(apply in_seq; lia)). apply negb_true_iff in O. specialize (G O k ltac:(lia)). rewrite column_nth in G by lia.
    replace (off + 16 * k)%nat with i in G by lia. unfold bad in G. unfold newhope_q. lia.
  - exists (skipn 1024 x). now rewrite firstn_skipn.
Qed.
Print Assumptions C86_coefficients.
(** The stream is accepted exactly when each of the 16 columns has 64 usable words. *)
Theorem C86_accepted : forall buf, bytes buf -> zlen buf = 2688 ->
  ((exists p, discardtopoly buf = Some p) <-> forall off, (off < 16)%nat -> (64 <= length (usable buf off))%nat).
Proof.
  intros buf B L. destruct (discard_cases buf B L) as (x & X & P & C & E). rewrite E.
  assert (forall off, (off < 16)%nat -> negb (nth 63 (column off x) false) = true <-> (64 <= length (usable buf off))%nat) as K.
  { intros off Ho. destruct (C off Ho) as [S N]. destruct (sorted_at _ S (column_length _ _)) as [I _]. rewrite negb_true_iff, I, N.
    unfold column. pose proof (count_filter (fun k => bad (nth (off + 16 * k) (words_of buf) 0)) (seq 0 84)) as Q. rewrite seq_length in Q.
    replace (usable buf off) with (filter (fun k => negb (bad (nth (off + 16 * k) (words_of buf) 0))) (seq 0 84)); [lia|].
    unfold usable. apply filter_ext_in. intros k Hk. apply in_seq in Hk. rewrite nth_words by lia. unfold bad, newhope_q.
    destruct (Z.ltb_spec 61444 (stream_word buf (off + 16 * k))); cbn [negb]; lia. }
  rewrite some_iff, forallb_forall. split.
  - intros O off Ho. apply K; [exact Ho|]. apply O, in_seq. lia.
  - intros H off Ho. apply in_seq in Ho. apply K, H; lia.
Qed.
Print Assumptions C86_accepted.

(** A stream whose first column has 20 words of the largest value in front is accepted;
    with 21 such words it is refused.  The largest
    usable word is 61444. *)
Definition sample_stream (n : nat) : list Z := concat (repeat ([255; 255] ++ zeros 30) n ++ repeat ([4; 240] ++ zeros 30) (84 - n)).
Lemma sample_bytes : forall n, (n <= 84)%nat -> bytes (sample_stream n) /\ zlen (sample_stream n) = 2688.
Proof.
  intros n H. assert (forall l k, bytes l -> zlen l = 32 -> bytes (concat (repeat l k)) /\ zlen (concat (repeat l k)) = 32 * Z.of_nat k) as G.
  { intros l k B L. unfold zlen in *. induction k as [|k [IB IL]]; [split; [constructor|reflexivity]|]. cbn [repeat concat].
    rewrite app_length. split; [apply bytes_app; now split|lia]. }
  assert (forall a b, is_byte a -> is_byte b -> bytes ([a; b] ++ zeros 30) /\ zlen ([a; b] ++ zeros 30) = 32) as Z32.
  { intros a b Ha Hb. split; [|reflexivity]. apply bytes_app. split; [exact (Forall_cons _ Ha (Forall_cons _ Hb (Forall_nil _)))|]. apply bytes_zeros. }
  destruct (Z32 255 255) as [B1 L1]; try (unfold is_byte; lia). destruct (Z32 4 240) as [B2 L2]; try (unfold is_byte; lia).
  destruct (G _ n B1 L1) as [C1 M1]. destruct (G _ (84 - n)%nat B2 L2) as [C2 M2]. unfold sample_stream. rewrite concat_app.
  split; [apply bytes_app; now split|]. unfold zlen in *. rewrite app_length. lia.
Qed.
Example stream_accepted : exists p, discardtopoly (sample_stream 20) = Some p.
Proof.
  apply C86_accepted; try (apply sample_bytes; lia). intros off Ho.
  assert (forallb (fun off => (64 <=? length (usable (sample_stream 20) off))%nat) (seq 0 16) = true) as C by (vm_compute; reflexivity).
  rewrite forallb_forall in C. apply Nat.leb_le, C, in_seq. lia.
Qed.
Example stream_refused : ~ exists p, discardtopoly (sample_stream 21) = Some p.
Proof.
  intros H. destruct (sample_bytes 21 ltac:(lia)) as [B L]. pose proof (proj1 (C86_accepted _ B L) H) as H'. clear H.
  assert (length (usable (sample_stream 21) 0) = 63%nat) as C by (vm_compute; reflexivity). specialize (H' 0%nat ltac:(lia)). lia.
Qed.
