(** Properties C40, C41, C65: constant-time comparisons, fingerprints, error strings. *)
From Coq Require Import ZifyBool ZifyNat String.
From Verif Require Import Base Str MHash MSha2 SHash SSha2 SHashLib THash MUtil SUtil.

(** ** C40 *)
Lemma lor_byte : forall a b, is_byte a -> is_byte b -> is_byte (Z.lor a b).
Proof.
  unfold is_byte. intros a b Ha Hb. split; [apply Z.lor_nonneg; lia|].
  destruct (Z.eq_dec (Z.lor a b) 0); [lia|]. change 256 with (2^8). apply Z.log2_lt_pow2; [assert (0 <= Z.lor a b) by (apply Z.lor_nonneg; lia); lia|].
  rewrite Z.log2_lor by lia.
  assert (forall x, 0 <= x < 256 -> Z.log2 x < 8).
  { intros x Hx. destruct (Z.eq_dec x 0); [subst; cbn; lia|]. apply Z.log2_lt_pow2; lia. }
  apply Z.max_lub_lt; auto.
Qed.
Lemma lxor_byte : forall a b, is_byte a -> is_byte b -> is_byte (Z.lxor a b).
Proof.
  unfold is_byte. intros a b Ha Hb. split; [apply Z.lxor_nonneg; lia|].
  destruct (Z.eq_dec (Z.lxor a b) 0); [lia|]. change 256 with (2^8). apply Z.log2_lt_pow2; [assert (0 <= Z.lxor a b) by (apply Z.lxor_nonneg; lia); lia|].
  eapply Z.le_lt_trans; [apply Z.log2_lxor; lia|].
  assert (forall x, 0 <= x < 256 -> Z.log2 x < 8).
  { intros x Hx. destruct (Z.eq_dec x 0); [subst; cbn; lia|]. apply Z.log2_lt_pow2; lia. }
  apply Z.max_lub_lt; auto.
Qed.
Lemma lor_fold : forall l a, bytes l -> is_byte a ->
  is_byte (fold_left Z.lor l a) /\ (fold_left Z.lor l a = 0 <-> a = 0 /\ Forall (fun b => b = 0) l).
Proof.
  induction l as [|b l IH]; intros a Hl Ha; cbn [fold_left].
  - split; auto. intuition auto.
  - inversion Hl; subst. destruct (IH (Z.lor a b)) as [H1' H2']; auto using lor_byte. split; auto.
    rewrite H2'. rewrite Z.lor_eq_0_iff. split; intros H.
    + destruct H as [[-> ->] H]. auto.
    + destruct H as [-> H]. inversion H; subst. auto.
Qed.
Lemma shift_flag : forall t, is_byte t -> (Z.shiftr (256 - t) 8 = 1 <-> t = 0) /\ (Z.shiftr (256 - t) 8 = 0 <-> t <> 0).
Proof.
  unfold is_byte. intros t Ht. rewrite Z.shiftr_div_pow2 by lia. change (2^8) with 256.
  destruct (Z.eq_dec t 0) as [->|Hn]; [cbn; lia|]. rewrite Z.div_small by lia. lia.
Qed.

Theorem C40_is_zero_exact : forall d, bytes d ->
  (noise_is_zero d = 1 <-> Forall (fun b => b = 0) d) /\
  (noise_is_zero d = 0 <-> ~ Forall (fun b => b = 0) d).
Proof.
  intros d Hd. destruct (lor_fold d 0 Hd) as [Hb Hz]; [unfold is_byte; lia|].
  unfold noise_is_zero, is_zero_temp. destruct (shift_flag _ Hb) as [-> ->]. rewrite Hz. intuition auto.
Qed.
Print Assumptions C40_is_zero_exact.

Lemma equal_temp_fold : forall p a,
  fold_left (fun temp p => Z.lor temp (Z.lxor (fst p) (snd p))) p a =
  fold_left Z.lor (map (fun p => Z.lxor (fst p) (snd p)) p) a.
Proof. induction p as [|x p IH]; intros a; cbn; auto. Qed.
Theorem C40_is_equal_exact : forall s1 s2, bytes s1 -> bytes s2 -> zlen s1 = zlen s2 ->
  (noise_is_equal s1 s2 = 1 <-> s1 = s2) /\ (noise_is_equal s1 s2 = 0 <-> s1 <> s2).
Proof.
  intros s1 s2 H1 H2 Hl. unfold noise_is_equal, is_equal_temp. rewrite equal_temp_fold.
  destruct (lor_fold (map (fun p => Z.lxor (fst p) (snd p)) (combine s1 s2)) 0) as [Hb Hz].
  - clear Hl. revert s2 H2. induction H1; intros s2 H2; cbn; [constructor|]. destruct H2; cbn; constructor; auto using lxor_byte.
    apply IHForall; auto.
  - unfold is_byte; lia.
  - destruct (shift_flag _ Hb) as [-> ->]. rewrite Hz.
    assert (E : (0 = 0 /\ Forall (fun b => b = 0) (map (fun p => Z.lxor (fst p) (snd p)) (combine s1 s2))) <-> s1 = s2).
    { clear -Hl. assert (Hl' : List.length s1 = List.length s2) by (unfold zlen in Hl; lia). clear Hl. revert s2 Hl'.
      induction s1 as [|a s1 IH]; intros [|b s2] Hl; cbn in Hl; try discriminate; [cbn; intuition auto|].
      cbn [combine map fst snd]. specialize (IH s2 ltac:(lia)). split.
      - intros [_ H]. inversion H; subst. apply Z.lxor_eq in H2. f_equal; auto. apply IH; auto.
      - intros E. inversion E; subst. split; auto. constructor; [apply Z.lxor_nilpotent|]. apply IH; auto. }
    rewrite E. intuition auto.
Qed.
Print Assumptions C40_is_equal_exact.

Example C40_example :
  noise_is_equal [1; 2; 255] [1; 2; 255] = 1 /\ noise_is_equal [1; 2; 255] [1; 2; 127] = 0 /\
  noise_is_zero [0; 0] = 1 /\ noise_is_zero [0; 128] = 0 /\ bytes [1; 2; 255].
Proof. repeat split; try reflexivity. repeat constructor; unfold is_byte; lia. Qed.

(** ** C41 *)
Lemma hexchars_digit : forall v, 0 <= v < 16 -> byte_at hexchars v = hex_digit v.
Proof.
  intros v Hv. assert (E : forallb (fun k => byte_at hexchars (Z.of_nat k) =? hex_digit (Z.of_nat k)) (seq 0 16) = true) by reflexivity.
  rewrite forallb_forall in E. specialize (E (Z.to_nat v)). rewrite Z2Nat.id in E by lia.
  apply Z.eqb_eq, E, in_seq. lia.
Qed.
Lemma byte_at_app_r : forall a b, byte_at (a ++ b) (zlen a) = hd 0 b.
Proof.
  intros a b. unfold byte_at, zlen. rewrite Nat2Z.id. rewrite app_nth2 by lia. rewrite Nat.sub_diag. now destruct b.
Qed.
(* writing at the boundary between [a] and [b] *)
Lemma store_at : forall a b x, 1 <= zlen b -> store (a ++ b) (zlen a) [x] = Ok (a ++ [x] ++ drop 1 b).
Proof.
  intros a b x Hb. rewrite store_ok; rewrite ?zlen_app, ?zlen_cons, ?zlen_nil; pose proof (zlen_nonneg _ a); try lia.
  unfold splice. rewrite take_app_exact. rewrite zlen_cons, zlen_nil.
  rewrite drop_app_ge by lia. replace (zlen a + (1 + 0) - zlen a) with 1 by lia. reflexivity.
Qed.
Lemma store_at' : forall a b x k, k = zlen a -> 1 <= zlen b -> store (a ++ b) k [x] = Ok (a ++ [x] ++ drop 1 b).
Proof. intros a b x k ->. apply store_at. Qed.
Lemma zlen_flat : forall l, zlen (flat_map (fun b => hex_byte b ++ [58]) l) = 3 * zlen l.
Proof. induction l as [|b l IH]; [reflexivity|]. cbn [flat_map]. rewrite zlen_app, IH, zlen_cons. change (zlen (hex_byte b ++ [58])) with 3. lia. Qed.

Lemma take_snoc : forall (l : list Z) k, 0 <= k < zlen l -> take (k + 1) l = take k l ++ [byte_at l k].
Proof.
  intros l k Hk. unfold take, byte_at. replace (Z.to_nat (k + 1)) with (S (Z.to_nat k)) by lia.
  assert (Hn : (Z.to_nat k < List.length l)%nat) by (unfold zlen in Hk; lia).
  generalize dependent (Z.to_nat k). clear. intros n. revert n. induction l as [|a l IH]; intros n Hn; cbn in Hn; [lia|].
  destruct n; [reflexivity|]. change (a :: firstn (S n) l = a :: (firstn n l ++ [nth n l 0])). f_equal. apply IH. lia.
Qed.
Lemma fp_loop : forall hash mem k, bytes hash -> Z.of_nat k <= zlen hash -> 3 * Z.of_nat k <= zlen mem ->
  fold_left (fingerprint_step hash) (map Z.of_nat (seq 0 k)) (Ok mem) =
  Ok (flat_map (fun b => hex_byte b ++ [58]) (take (Z.of_nat k) hash) ++ drop (3 * Z.of_nat k) mem).
Proof.
  intros hash mem k Hb Hh Hm. induction k as [|k IH].
  - cbn [seq map fold_left]. rewrite (take_le0 _ 0) by lia. rewrite (drop_le0 _ (3 * Z.of_nat 0)) by lia. reflexivity.
  - rewrite seq_S, map_app, fold_left_app, IH by lia. cbn [map fold_left Nat.add]. unfold fingerprint_step. cbn [obind].
    set (b := byte_at hash (Z.of_nat k)).
    assert (Hby : is_byte b).
    { unfold b, byte_at. apply Forall_nth; auto. unfold zlen in Hh. lia. }
    set (F := flat_map _ (take (Z.of_nat k) hash)).
    assert (HF : zlen F = 3 * Z.of_nat k) by (unfold F; rewrite zlen_flat, zlen_take; lia).
    replace (Z.of_nat k * 3) with (zlen F) by lia.
    rewrite store_at by (rewrite zlen_drop; lia). cbn [obind].
    rewrite app_assoc. replace (zlen F + 1) with (zlen (F ++ [byte_at hexchars (Z.land (Z.shiftr b 4) 15)])) by (rewrite zlen_app, zlen_cons, zlen_nil; lia).
    rewrite store_at by (rewrite !zlen_drop; lia). cbn [obind]. rewrite app_assoc.
    match goal with |- store (?a ++ _) _ _ = _ => replace (zlen F + 2) with (zlen a) by (rewrite !zlen_app, !zlen_cons, zlen_nil; lia) end.
    rewrite store_at by (rewrite !zlen_drop; lia). f_equal.
    rewrite <- !app_assoc. replace (Z.of_nat (S k)) with (Z.of_nat k + 1) by lia.
    rewrite take_snoc by lia. fold b. rewrite flat_map_app. fold F. rewrite <- app_assoc. f_equal.
    cbn [flat_map]. rewrite app_nil_r. unfold hex_byte. cbn [app].
    rewrite !hexchars_digit.
    2:{ change 15 with (Z.ones 4). rewrite Z.land_ones by lia. apply Z.mod_pos_bound. lia. }
    2:{ change 15 with (Z.ones 4). rewrite Z.land_ones by lia. apply Z.mod_pos_bound. lia. }
    change 15 with (Z.ones 4). rewrite !Z.land_ones by lia. rewrite Z.shiftr_div_pow2 by lia. change (2^4) with 16.
    unfold is_byte in Hby. rewrite (Z.mod_small (b / 16)) by (split; [apply Z.div_pos; lia|apply Z.div_lt_upper_bound; lia]).
    rewrite !drop_drop by lia.
    replace (3 * (Z.of_nat k + 1)) with (1 + 1 + 1 + 3 * Z.of_nat k) by lia. reflexivity.
Qed.
Lemma flat_colon : forall l, l <> [] -> flat_map (fun b => hex_byte b ++ [58]) l = colon_hex l ++ [58].
Proof.
  induction l as [|b l IH]; intros Hn; [congruence|]. destruct l as [|c l]; [reflexivity|].
  change (flat_map (fun b => hex_byte b ++ [58]) (b :: c :: l)) with (hex_byte b ++ [58] ++ flat_map (fun b => hex_byte b ++ [58]) (c :: l)).
  rewrite IH by discriminate. change (colon_hex (b :: c :: l)) with (hex_byte b ++ [58] ++ colon_hex (c :: l)).
  now rewrite !app_assoc.
Qed.
Lemma zlen_colon : forall l, l <> [] -> zlen (colon_hex l) = 3 * zlen l - 1.
Proof. intros l Hl. pose proof (flat_colon l Hl) as E. pose proof (zlen_flat l) as Z1. rewrite E, zlen_app, zlen_cons, zlen_nil in Z1. lia. Qed.

Lemma sha256_direct : forall key, bytes key -> zlen key < 2^61 ->
  snd (sha256_finish (sha256_update (sha256_reset sha256_new) key)) = SHA256 key.
Proof.
  intros key Hk Hl. destruct (library_law _ _ _ _ _ lib_sha256) as (_ & _ & _ & H' & Hlaw & Hag).
  pose proof (law_stream _ _ Hlaw sha256_new [key] eq_refl) as E. cbn [fold_left concat] in E. rewrite app_nil_r in E.
  rewrite <- (Hag key Hk Hl). exact E.
Qed.
Lemma sha256_len : forall key, bytes key -> zlen key < 2^61 -> zlen (SHA256 key) = 32 /\ bytes (SHA256 key).
Proof.
  intros key Hk Hl. destruct (library_law _ _ _ _ _ lib_sha256) as (_ & HL & _ & H' & Hlaw & Hag).
  rewrite <- (Hag key Hk Hl). split; [rewrite (law_len _ _ Hlaw); auto|apply (law_bytes _ _ Hlaw)].
Qed.

(** The number of digest bytes of a fingerprint type. *)
Definition fingerprint_bytes (t : Z) : option Z :=
  if t =? FINGERPRINT_BASIC then Some 16 else if t =? FINGERPRINT_FULL then Some 32 else None.

(** For every key (of less than 2^61 bytes), buffer and length: the fingerprint
    is written with its NUL and nothing beyond it changes, or the documented
    error is returned with an empty string in the buffer. *)
Theorem C41_fingerprint_exact : forall t mem len key,
  bytes key -> zlen key < 2^61 -> 0 < len <= zlen mem ->
  exists e mem', noise_format_fingerprint t (Some mem) len (Some key) (zlen key) = Ok (e, Some mem') /\
    zlen mem' = zlen mem /\ drop len mem' = drop len mem /\
    match fingerprint_bytes t with
    | None => e = E_INVALID_PARAM /\ holds_string mem' []
    | Some n =>
      if zlen (fingerprint n key) <? len
      then e = E_NONE /\ holds_string mem' (fingerprint n key) /\ c_string (fingerprint n key) /\
           drop (3 * n) mem' = drop (3 * n) mem
      else e = E_INVALID_LENGTH /\ holds_string mem' []
    end.
Proof.
  intros t mem len key Hk Hl Hlen. unfold noise_format_fingerprint.
  destruct (Z.eqb_spec len 0) as [|_]; [lia|].
  rewrite store_ok by (rewrite ?zlen_cons, ?zlen_nil; lia). cbn [obind]. set (mem1 := splice 0 [0] mem).
  assert (Hm1 : zlen mem1 = zlen mem) by (unfold mem1; rewrite splice_length; rewrite ?zlen_cons, ?zlen_nil; lia).
  assert (Hd1 : forall k, 1 <= k -> drop k mem1 = drop k mem).
  { intros k Hk1. unfold mem1. rewrite splice_0. rewrite zlen_cons, zlen_nil. rewrite drop_app_ge by (rewrite zlen_cons, zlen_nil; lia).
    rewrite zlen_cons, zlen_nil, drop_drop by lia. f_equal. lia. }
  assert (Hs1 : holds_string mem1 []) by (unfold mem1; rewrite splice_0; eexists; reflexivity).
  destruct (sha256_len key Hk Hl) as [Hsl Hsb].
  assert (Hgo : forall n, n = 16 \/ n = 32 ->
    exists e mem',
    (if len <? n * 3 then Ok (E_INVALID_LENGTH, Some mem1)
     else let! key0 := read_ptr (Some key) (zlen key) in
          let hash := snd (sha256_finish (sha256_update (sha256_reset sha256_new) key0)) in
          let! mem0 := fold_left (fingerprint_step hash) (map Z.of_nat (seq 0 (Z.to_nat n))) (Ok mem1) in
          let! mem2 := store mem0 (n * 3 - 1) [0] in Ok (E_NONE, Some mem2)) = Ok (e, Some mem') /\
    zlen mem' = zlen mem /\ drop len mem' = drop len mem /\
    (if zlen (fingerprint n key) <? len
      then e = E_NONE /\ holds_string mem' (fingerprint n key) /\ c_string (fingerprint n key) /\
           drop (3 * n) mem' = drop (3 * n) mem
      else e = E_INVALID_LENGTH /\ holds_string mem' [])).
  { intros n Hn.
    assert (Htl : zlen (take n (SHA256 key)) = n) by (rewrite zlen_take; lia).
    assert (Hfl : zlen (fingerprint n key) = 3 * n - 1).
    { unfold fingerprint. rewrite zlen_colon, Htl; [lia|]. intros E. rewrite E, zlen_nil in Htl. lia. }
    rewrite Hfl. destruct (Z.ltb_spec len (n * 3)).
    - exists E_INVALID_LENGTH, mem1. destruct (Z.ltb_spec (3 * n - 1) len); [lia|]. rewrite Hd1 by lia. auto.
    - destruct (Z.ltb_spec (3 * n - 1) len); [|lia].
      unfold read_ptr. rewrite Z.leb_refl. rewrite take_all by lia. cbn [obind]. cbv zeta.
      rewrite sha256_direct by auto. rewrite fp_loop by (auto; lia). cbn [obind].
      rewrite Z2Nat.id by lia. rewrite flat_colon by (intros E; rewrite E, zlen_nil in Htl; lia).
      fold (fingerprint n key). rewrite <- app_assoc. replace (n * 3 - 1) with (zlen (fingerprint n key)) by lia.
      rewrite store_at by (rewrite zlen_app, zlen_cons, zlen_nil, zlen_drop; lia). cbn [obind].
      exists E_NONE. eexists. split; [reflexivity|].
      assert (Ed : drop 1 ([58] ++ drop (3 * n) mem1) = drop (3 * n) mem) by (rewrite drop_app_ge by (rewrite zlen_cons, zlen_nil; lia); rewrite zlen_cons, zlen_nil, drop_le0 by lia; apply Hd1; lia).
      rewrite Ed. assert (Eq : forall k, 3 * n <= k -> drop k (fingerprint n key ++ [0] ++ drop (3 * n) mem) = drop k mem).
      { intros k Hk'. rewrite app_assoc, drop_app_ge by (rewrite zlen_app, zlen_cons, zlen_nil; lia).
        rewrite zlen_app, zlen_cons, zlen_nil, drop_drop by lia. f_equal. lia. }
      repeat split; auto.
      + rewrite !zlen_app, zlen_cons, zlen_nil, zlen_drop. lia.
      + apply Eq; lia.
      + eexists; reflexivity.
      + unfold c_string, fingerprint. apply Forall_forall. intros x Hx.
        assert (Hb : bytes (take n (SHA256 key))) by (now apply bytes_take). revert Hb Hx. generalize (take n (SHA256 key)).
        assert (Hh : forall v, 0 <= v < 16 -> 1 <= hex_digit v < 256) by (intros v Hv; unfold hex_digit; destruct (Z.ltb_spec v 10); lia).
        induction l as [|b l IH]; intros Hb Hx; [destruct Hx|]. inversion Hb; subst.
        assert (H1' : forall z, In z (hex_byte b) -> 1 <= z < 256).
        { intros z [<-|[<-|[]]]; apply Hh; unfold is_byte in *; [split; [apply Z.div_pos|apply Z.div_lt_upper_bound]; lia|apply Z.mod_pos_bound; lia]. }
        destruct l as [|c l]; [now apply H1'|].
        change (colon_hex (b :: c :: l)) with (hex_byte b ++ [58] ++ colon_hex (c :: l)) in Hx.
        apply in_app_or in Hx as [Hx|[<-|Hx]]; [now apply H1'|lia|]. now apply IH.
      + apply Eq; lia. }
  unfold fingerprint_bytes. destruct (t =? FINGERPRINT_BASIC); [apply Hgo; auto|].
  destruct (t =? FINGERPRINT_FULL); [apply Hgo; auto|].
  exists E_INVALID_PARAM, mem1. rewrite Hd1 by lia. auto.
Qed.
Print Assumptions C41_fingerprint_exact.

(** Null or empty buffers and a null key. *)
Theorem C41_fingerprint_null : forall t buffer len key klen,
  (buffer = None -> noise_format_fingerprint t buffer len key klen = Ok (E_INVALID_PARAM, None)) /\
  (forall mem, buffer = Some mem -> len = 0 -> noise_format_fingerprint t buffer len key klen = Ok (E_INVALID_LENGTH, Some mem)) /\
  (forall mem, buffer = Some mem -> 0 < len <= zlen mem -> key = None ->
     noise_format_fingerprint t buffer len key klen = Ok (E_INVALID_PARAM, Some (0 :: drop 1 mem))).
Proof.
  intros t buffer len key klen. split; [intros ->; reflexivity|]. split.
  - intros mem -> ->. reflexivity.
  - intros mem -> Hl ->. unfold noise_format_fingerprint. destruct (Z.eqb_spec len 0); [lia|].
    rewrite store_ok by (rewrite ?zlen_cons, ?zlen_nil; lia). cbn [obind]. rewrite splice_0. reflexivity.
Qed.
Print Assumptions C41_fingerprint_null.

Lemma hex_digit_inj : forall a b, 0 <= a < 16 -> 0 <= b < 16 -> hex_digit a = hex_digit b -> a = b.
Proof. intros a b Ha Hb. unfold hex_digit. destruct (Z.ltb_spec a 10), (Z.ltb_spec b 10); lia. Qed.
Lemma hex_byte_inj : forall a b, is_byte a -> is_byte b -> hex_byte a = hex_byte b -> a = b.
Proof.
  unfold is_byte. intros a b Ha Hb E. inversion E as [[E1 E2]].
  apply hex_digit_inj in E1; try (split; [apply Z.div_pos|apply Z.div_lt_upper_bound]; lia).
  apply hex_digit_inj in E2; try (apply Z.mod_pos_bound; lia).
  rewrite (Z.div_mod a 16), (Z.div_mod b 16); lia.
Qed.
Lemma colon_hex_inj : forall l m, bytes l -> bytes m -> colon_hex l = colon_hex m -> l = m.
Proof.
  intros l m Hl. revert m. induction Hl as [|a l Ha Hl IH]; intros m Hm E.
  - destruct Hm as [|b m Hb Hm]; auto. destruct m; discriminate E.
  - destruct Hm as [|b m Hb Hm]; [destruct l; discriminate E|].
    assert (Hx : forall x r, colon_hex (x :: r) = hex_byte x ++ match r with [] => [] | _ => [58] ++ colon_hex r end) by (intros x [|y r]; [reflexivity|reflexivity]).
    rewrite !Hx in E. unfold hex_byte at 1 2 in E. cbn [app] in E. inversion E as [[E1 E2 E3]].
    assert (a = b) by (apply hex_byte_inj; auto; unfold hex_byte; now rewrite E1, E2). subst b. f_equal.
    destruct l as [|x l], m as [|y m]; auto; try discriminate E3. apply IH; auto. now inversion E3.
Qed.
(** Different digests (of the shown length) give different fingerprints. *)
Theorem C41_fingerprint_injective : forall n k1 k2,
  bytes k1 -> bytes k2 -> zlen k1 < 2^61 -> zlen k2 < 2^61 ->
  fingerprint n k1 = fingerprint n k2 -> take n (SHA256 k1) = take n (SHA256 k2).
Proof.
  intros n k1 k2 H1 H2 L1 L2 E. apply colon_hex_inj; auto; apply bytes_take; apply sha256_len; auto.
Qed.
Print Assumptions C41_fingerprint_injective.

(** A 47 byte fingerprint in a 48 byte buffer fits, in a 47 byte one does not. *)
Example C41_example : exists m1 m2,
  noise_format_fingerprint FINGERPRINT_BASIC (Some (zeros 60)) 48 (Some [1; 2; 3]) 3 = Ok (E_NONE, Some m1) /\
  holds_string m1 (fingerprint 16 [1; 2; 3]) /\
  noise_format_fingerprint FINGERPRINT_BASIC (Some (zeros 60)) 47 (Some [1; 2; 3]) 3 = Ok (E_INVALID_LENGTH, Some m2).
Proof.
  assert (Hb : bytes [1; 2; 3]) by (repeat constructor; unfold is_byte; lia).
  assert (H3 : zlen [1; 2; 3] = 3) by reflexivity.
  revert Hb H3. generalize [1; 2; 3]. intros key Hb H3.
  assert (Hz : zlen (fingerprint 16 key) = 47).
  { unfold fingerprint. destruct (sha256_len key Hb) as [Hl _]; [lia|].
    rewrite zlen_colon; rewrite ?zlen_take; rewrite ?Hl; [reflexivity|]. intros E. apply (f_equal zlen) in E. rewrite zlen_take, zlen_nil, Hl in E. discriminate E. }
  destruct (C41_fingerprint_exact FINGERPRINT_BASIC (zeros 60) 48 key) as (e & m1 & E1 & _ & _ & R1);
    [auto|lia|rewrite zlen_zeros; lia|].
  destruct (C41_fingerprint_exact FINGERPRINT_BASIC (zeros 60) 47 key) as (e2 & m2 & E2 & _ & _ & R2);
    [auto|lia|rewrite zlen_zeros; lia|].
  assert (F : fingerprint_bytes FINGERPRINT_BASIC = Some 16) by reflexivity.
  rewrite F, Hz in R1, R2. rewrite H3 in E1, E2.
  destruct (Z.ltb_spec 47 48); [|lia]. destruct (Z.ltb_spec 47 47); [lia|].
  destruct R1 as (-> & R1 & _). destruct R2 as (-> & _). exists m1, m2. split; [exact E1|]. split; [exact R1|exact E2].
Qed.

(** ** C65 *)
Lemma errstr_text : forall code, - 2^31 <= code < 2^31 -> noise_errstr code = error_text code.
Proof.
  intros code Hc. unfold noise_errstr, error_text.
  change (NOISE_ID 69 1) with 17665. change (NOISE_ID 69 num_error_strings) with 17682. change (NOISE_ID 69 0) with 17664. change (69 * 256) with 17664.
  destruct (Z.eqb_spec code 0) as [->|Hn]; [reflexivity|].
  destruct (Z.ltb_spec code 17665); cbn [orb].
  - destruct (code - 17664) eqn:E; auto. lia.
  - destruct (Z.leb_spec 17682 code).
    + assert (18 <= code - 17664) by lia. destruct (code - 17664) as [|p|p] eqn:E; auto; try lia.
      do 5 (destruct p as [p|p|]; auto; try lia).
    + assert (Hr : exists k, (k < 17)%nat /\ code = 17665 + Z.of_nat k) by (exists (Z.to_nat (code - 17665)); lia).
      destruct Hr as (k & Hk & ->). do 17 (destruct k as [|k]; [reflexivity|]). lia.
Qed.

Lemma hex_digits_ok : forall fuel v, 0 <= v < 16 ^ Z.of_nat fuel -> (0 < fuel)%nat ->
  hex_digits fuel v <> [] /\ Forall (fun c => 48 <= c <= 57 \/ 97 <= c <= 102) (hex_digits fuel v) /\
  hex_number (hex_digits fuel v) = v /\ (v <> 0 -> hd 48 (hex_digits fuel v) <> 48) /\
  (v < 16 -> zlen (hex_digits fuel v) = 1) .
Proof.
  induction fuel as [|f IH]; intros v Hv Hf; [lia|]. cbn [hex_digits].
  assert (Hm : 0 <= v mod 16 < 16) by (apply Z.mod_pos_bound; lia).
  rewrite hexchars_digit by auto.
  assert (Hd : 48 <= hex_digit (v mod 16) <= 57 \/ 97 <= hex_digit (v mod 16) <= 102) by (unfold hex_digit; destruct (Z.ltb_spec (v mod 16) 10); lia).
  assert (Hval : hex_value (hex_digit (v mod 16)) = v mod 16).
  { unfold hex_digit, hex_value. destruct (Z.ltb_spec (v mod 16) 10); [destruct (Z.ltb_spec (48 + v mod 16) 58)|destruct (Z.ltb_spec (97 + (v mod 16 - 10)) 58)]; lia. }
  assert (Hdm : v = 16 * (v / 16) + v mod 16) by (apply Z.div_mod; lia).
  assert (H0 : 0 <= v / 16) by (apply Z.div_pos; lia).
  destruct (Z.eqb_spec (v / 16) 0) as [E|E].
  - cbn [app]. repeat split; auto; try discriminate.
    + unfold hex_number. cbn. rewrite Hval. lia.
    + intros Hv0. cbn. unfold hex_digit. destruct (Z.ltb_spec (v mod 16) 10); lia.
  - assert (Hf' : (0 < f)%nat).
    { destruct f; [|lia]. change (16 ^ Z.of_nat 1) with 16 in Hv. exfalso. apply E. apply Z.div_small. lia. }
    destruct (IH (v / 16)) as (I1 & I2 & I3 & I4 & _); auto.
    { split; auto. apply Z.div_lt_upper_bound; [lia|]. rewrite Nat2Z.inj_succ, Z.pow_succ_r in Hv by lia. lia. }
    repeat split.
    + intros C. apply app_eq_nil in C as [_ C]. discriminate C.
    + apply Forall_app. auto.
    + unfold hex_number in *. rewrite fold_left_app, I3. cbn. rewrite Hval. lia.
    + intros _. destruct (hex_digits f (v / 16)); [congruence|]. cbn [hd app] in *. auto.
    + intros Hv'. exfalso. apply E. apply Z.div_small. lia.
Qed.

(** For every int and every buffer of size [size] > 0: zero is returned, the
    buffer holds the text cut off at size - 1 characters, NUL-terminated, and
    nothing beyond [size] changes.  NULL or size 0 give -1. *)
Theorem C65_strerror_total : forall code mem size, - 2^31 <= code < 2^31 -> 0 < size <= zlen mem ->
  exists mem' text, noise_strerror code (Some mem) size = Ok (0, Some mem') /\
    strerror_text code text /\ c_string text /\
    holds_string mem' (take (size - 1) text) /\
    zlen mem' = zlen mem /\ drop size mem' = drop size mem.
Proof.
  intros code mem size Hc Hs. unfold noise_strerror. destruct (Z.eqb_spec size 0); [lia|]. rewrite errstr_text by auto.
  destruct (error_text code) as [t|] eqn:Et.
  - assert (Hct : c_string t).
    { rewrite <- errstr_text in Et by auto. assert (Hin : In t error_strings).
      { unfold noise_errstr in Et. destruct (code =? 0); [now apply nth_error_In in Et|].
        destruct (_ || _); [discriminate Et|]. now apply nth_error_In in Et. }
      assert (All : forallb (forallb (fun c => (1 <=? c) && (c <? 256))) error_strings = true) by reflexivity.
      rewrite forallb_forall in All. specialize (All _ Hin). rewrite forallb_forall in All.
      apply Forall_forall. intros x Hx. specialize (All _ Hx). lia. }
    unfold strncpy_bytes. rewrite store_ok by (rewrite ?zlen_take, ?zlen_app, ?zlen_zeros by lia; pose proof (zlen_nonneg _ t); lia).
    cbn [obind]. set (out := take size (t ++ zeros size)).
    assert (Ho : zlen out = size) by (unfold out; rewrite zlen_take, zlen_app, zlen_zeros by lia; pose proof (zlen_nonneg _ t); lia).
    rewrite splice_0, Ho.
    rewrite <- (take_drop _ (size - 1) out), <- app_assoc.
    assert (Hlt : zlen (take (size - 1) out) = size - 1) by (rewrite zlen_take; lia).
    rewrite store_at' by (rewrite ?zlen_app, ?(zlen_drop _ _ out); pose proof (zlen_nonneg _ (drop size mem)); lia).
    cbn [obind]. do 2 eexists. split; [reflexivity|]. unfold strerror_text. rewrite Et. split; [reflexivity|]. split; auto.
    rewrite drop_app_le by (rewrite zlen_drop; lia). rewrite drop_drop by lia. replace (1 + (size - 1)) with size by lia.
    rewrite (drop_all _ size out) by lia. cbn [app]. split; [|split].
    + unfold out. rewrite take_take, Z.min_l by lia.
      destruct (Z.le_gt_cases (zlen t) (size - 1)).
      * rewrite take_app_ge by lia. rewrite (take_all _ (size - 1) t) by lia. exists (take (size - 1 - zlen t) (zeros size) ++ drop size mem).
        rewrite <- app_assoc. f_equal.
        assert (Hz : forall k, 0 <= k <= size -> take k (zeros size) = zeros k).
        { intros k Hk. unfold take, zeros. rewrite <- (firstn_all (repeat 0 (Z.to_nat k))), repeat_length.
          replace (Z.to_nat size) with (Z.to_nat k + (Z.to_nat (size - k)))%nat by lia. rewrite repeat_app, firstn_app, repeat_length, Nat.sub_diag. cbn. rewrite app_nil_r. reflexivity. }
        pose proof (zlen_nonneg _ t). rewrite Hz by lia. change (0 :: zeros (size - 1 - zlen t) ++ drop size mem) with ((0 :: zeros (size - 1 - zlen t)) ++ drop size mem).
        unfold zeros. rewrite repeat_cons, <- app_assoc. reflexivity.
      * rewrite take_app_le by lia. eexists. reflexivity.
    + rewrite !zlen_app, zlen_cons, Hlt, zlen_drop. lia.
    + change (0 :: drop size mem) with ([0] ++ drop size mem). rewrite app_assoc.
      rewrite drop_app_ge by (rewrite zlen_app, zlen_cons, zlen_nil; lia). rewrite zlen_app, Hlt, zlen_cons, zlen_nil. apply drop_le0. lia.
  - set (text := str "Unknown error 0x" ++ hex_digits 8 (code mod 2^32)).
    destruct (hex_digits_ok 8 (code mod 2^32)) as (I1 & I2 & I3 & I4 & I5); [apply Z.mod_pos_bound; lia|lia|].
    assert (Hct : c_string text).
    { apply Forall_app. split; [unfold str; repeat constructor; cbn; try lia|]. eapply Forall_impl; [|apply I2]. cbn. lia. }
    assert (Htx : strerror_text code text).
    { unfold strerror_text. rewrite Et. exists (hex_digits 8 (code mod 2^32)). repeat split; auto. intros H1. apply I4. intros E. rewrite E in H1. vm_compute in H1. discriminate. }
    unfold snprintf_unknown. fold text. set (out := take (size - 1) text ++ [0]).
    assert (Ho : zlen out = Z.min (size - 1) (zlen text) + 1) by (unfold out; rewrite zlen_app, zlen_take, zlen_cons, zlen_nil; pose proof (zlen_nonneg _ text); lia).
    rewrite store_ok by lia. cbn [obind]. rewrite splice_0.
    rewrite store_ok.
    2:lia. 2:{ rewrite zlen_cons, zlen_nil, zlen_app, zlen_drop. pose proof (zlen_nonneg _ out). lia. }
    cbn [obind]. do 2 eexists. split; [reflexivity|]. split; [exact Htx|]. split; [exact Hct|].
    assert (Hlen : zlen (out ++ drop (zlen out) mem) = zlen mem) by (rewrite zlen_app, zlen_drop; pose proof (zlen_nonneg _ out); lia).
    pose proof (zlen_nonneg _ text) as Hzt. split; [|split].
    + destruct (Z.le_gt_cases (size - 1) (zlen text)).
      * (* exact or truncated: the NUL is already at size - 1 *)
        unfold splice. assert (Hos : zlen out = size) by lia. rewrite take_app_le by lia. unfold out at 1.
        assert (Hlt : zlen (take (size - 1) text) = size - 1) by (rewrite zlen_take; lia).
        rewrite take_app_le by lia. rewrite take_all by lia. eexists. rewrite <- app_comm_cons. reflexivity.
      * assert (Ht : take (size - 1) text = text) by (apply take_all; lia). rewrite Ht.
        unfold splice. rewrite take_app_ge by lia. unfold out at 1. rewrite Ht. rewrite <- !app_assoc. cbn [app].
        eexists. reflexivity.
    + rewrite splice_length; rewrite ?zlen_cons, ?zlen_nil; lia.
    + rewrite splice_drop_after; rewrite ?zlen_cons, ?zlen_nil; try lia. rewrite drop_app_ge by lia. rewrite drop_drop by lia. f_equal. lia.
Qed.
Print Assumptions C65_strerror_total.

Theorem C65_strerror_unusable : forall code buf size, buf = None \/ size = 0 ->
  noise_strerror code buf size = Ok (-1, buf).
Proof. intros code buf size [->| ->]; [reflexivity|]. destruct buf; reflexivity. Qed.
Print Assumptions C65_strerror_unusable.

(** A known code, an unknown one, a truncated text. *)
Example C65_example :
  noise_strerror (NOISE_ID 69 4) (Some (repeat 255 13)) 13 = Ok (0, Some (str "MAC failure" ++ [0; 0])) /\
  noise_strerror (-1) (Some (repeat 255 26)) 25 = Ok (0, Some (str "Unknown error 0xffffffff" ++ [0; 255])) /\
  noise_strerror (NOISE_ID 69 4) (Some (repeat 255 5)) 4 = Ok (0, Some (str "MAC" ++ [0; 255])).
Proof. vm_compute. repeat split. Qed.
