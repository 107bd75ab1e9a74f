(** C67: key files of the echo example. *)
From Coq Require Import String.
From Verif Require Import Base Str MEcho SEcho PProto PGhash.

Lemma six_bits : forall P : Z -> bool, forallb P (map Z.of_nat (seq 0 64)) = true -> forall d, 0 <= d < 64 -> P d = true.
Proof.
  intros P H d Hd. rewrite forallb_forall in H. apply H, in_map_iff. exists (Z.to_nat d). split; [lia|]. apply in_seq. lia.
Qed.

(** ** One character *)
Inductive kind : Type := KDigit (d : Z) | KEnd | KBad | KSpace.
Definition kind_of (ch : Z) : kind :=
  if (65 <=? ch) && (ch <=? 90) then KDigit (ch - 65)
  else if (97 <=? ch) && (ch <=? 122) then KDigit (ch - 97 + 26)
  else if (48 <=? ch) && (ch <=? 57) then KDigit (ch - 48 + 52)
  else if ch =? 43 then KDigit 62
  else if ch =? 47 then KDigit 63
  else if ch =? 61 then KEnd
  else if negb (ch =? 32) && negb (ch =? 9) && negb (ch =? 13) && negb (ch =? 10) then KBad
  else KSpace.
Lemma kind_of_digit : forall d, 0 <= d < 64 -> kind_of (byte_at alphabet d) = KDigit d.
Proof.
  intros d Hd.
  assert (H : forallb (fun d => match kind_of (byte_at alphabet d) with KDigit e => e =? d | _ => false end) (map Z.of_nat (seq 0 64)) = true) by (vm_compute; reflexivity).
  pose proof (six_bits _ H d Hd) as E. cbv beta in E. destruct (kind_of (byte_at alphabet d)) as [e| | |]; try discriminate.
  apply Z.eqb_eq in E. now subst.
Qed.
Lemma digit_value_back : forall c d, kind_of c = KDigit d -> digit_value c d.
Proof.
  intros c d H.
  assert (A : 0 <= c < 123).
  { unfold kind_of in H. destruct (Z.leb_spec 65 c), (Z.leb_spec c 90), (Z.leb_spec 97 c), (Z.leb_spec c 122), (Z.leb_spec 48 c), (Z.leb_spec c 57),
      (Z.eqb_spec c 43), (Z.eqb_spec c 47); cbn in H; try lia; destruct (c =? 61), (negb (c =? 32) && negb (c =? 9) && negb (c =? 13) && negb (c =? 10)); discriminate. }
  assert (F : forallb (fun c => match kind_of c with KDigit d => (0 <=? d) && (d <? 64) && (byte_at alphabet d =? c) | _ => true end) (map Z.of_nat (seq 0 123)) = true) by (vm_compute; reflexivity).
  rewrite forallb_forall in F. specialize (F c). cbv beta in F. rewrite H in F. lapply F.
  - intros E. unfold digit_value. lia.
  - apply in_map_iff. exists (Z.to_nat c). split; [lia|]. apply in_seq. lia.
Qed.
Lemma kind_cases : forall c prev r ds, reads prev (c :: r) ds ->
  match kind_of c with
  | KDigit d => exists ds', reads d r ds' /\ ds = option_map (cons d) ds' /\ 0 <= d < 64
  | KEnd => ds = Some []
  | KBad => ds = None
  | KSpace => exists ds', reads prev r ds' /\ ds = option_map (cons prev) ds'
  end.
Proof.
  intros c prev r ds H. inversion H as [| |? d ? ds' [Hd Hc] Hr|? ? ds' Hs Hr|? ? Hne Hsp Hnd]; subst.
  - reflexivity.
  - rewrite kind_of_digit by assumption. exists ds'. auto.
  - destruct Hs as [<-|[<-|[<-|[<-|[]]]]]; cbn; exists ds'; auto.
  - destruct (kind_of c) as [d| | |] eqn:E.
    + exfalso. apply (Hnd d). now apply digit_value_back.
    + exfalso. apply Hne. unfold kind_of in E. destruct (_ && _); [discriminate|]. destruct (_ && _); [discriminate|]. destruct (_ && _); [discriminate|].
      destruct (c =? 43); [discriminate|]. destruct (c =? 47); [discriminate|]. destruct (Z.eqb_spec c 61); [assumption|]. destruct (_ && _); discriminate.
    + reflexivity.
    + exfalso. apply Hsp. unfold kind_of in E. destruct (_ && _); [discriminate|]. destruct (_ && _); [discriminate|]. destruct (_ && _); [discriminate|].
      destruct (c =? 43); [discriminate|]. destruct (c =? 47); [discriminate|]. destruct (Z.eqb_spec c 61); [discriminate|].
      destruct (Z.eqb_spec c 32), (Z.eqb_spec c 9), (Z.eqb_spec c 13), (Z.eqb_spec c 10); cbn in E; try discriminate; subst; cbn; tauto.
Qed.
Lemma reads_total : forall file prev, exists ds, reads prev file ds.
Proof.
  induction file as [|c r IH]; intros prev; [eexists; constructor|].
  destruct (kind_of c) as [d| | |] eqn:E.
  - destruct (IH d) as [ds H]. eexists. eapply rd_digit; [exact (digit_value_back _ _ E)|exact H].
  - exists (Some []). assert (c = 61) as ->; [|constructor].
    unfold kind_of in E. destruct (_ && _); [discriminate|]. destruct (_ && _); [discriminate|]. destruct (_ && _); [discriminate|].
    destruct (c =? 43); [discriminate|]. destruct (c =? 47); [discriminate|]. destruct (Z.eqb_spec c 61); [assumption|]. destruct (_ && _); discriminate.
  - exists None. apply rd_other.
    + intros ->. discriminate.
    + intros [<-|[<-|[<-|[<-|[]]]]]; discriminate.
    + intros d [Hd <-]. rewrite kind_of_digit in E by assumption. discriminate.
  - destruct (IH prev) as [ds H]. eexists. apply rd_space; [|eassumption].
    unfold kind_of in E. destruct (_ && _); [discriminate|]. destruct (_ && _); [discriminate|]. destruct (_ && _); [discriminate|].
    destruct (c =? 43); [discriminate|]. destruct (c =? 47); [discriminate|]. destruct (Z.eqb_spec c 61); [discriminate|].
    destruct (Z.eqb_spec c 32), (Z.eqb_spec c 9), (Z.eqb_spec c 13), (Z.eqb_spec c 10); cbn in E; try discriminate; subst; cbn; tauto.
Qed.
Lemma reads_fun : forall file prev ds ds', reads prev file ds -> reads prev file ds' -> ds = ds'.
Proof.
  induction file as [|c r IH]; intros prev ds ds' H H'.
  - inversion H; inversion H'; reflexivity.
  - apply kind_cases in H, H'. destruct (kind_of c).
    + destruct H as (x & Hx & -> & _), H' as (y & Hy & -> & _). now rewrite (IH _ _ _ Hx Hy).
    + congruence.
    + congruence.
    + destruct H as (x & Hx & ->), H' as (y & Hy & ->). now rewrite (IH _ _ _ Hx Hy).
Qed.

(** ** The bit arithmetic *)
Lemma lor_digit : forall g d, 0 <= g -> 0 <= d < 64 -> Z.lor (Z.shiftl g 6 mod 2^32) d = (g * 64) mod 2^32 + d.
Proof.
  intros g d Hg Hd. rewrite Z.shiftl_mul_pow2 by lia. change (2^6) with 64.
  assert (E : (g * 64) mod 2^32 = (g mod 2^26) * 2^6).
  { change (2^32) with (2^26 * 64). rewrite Z.mul_mod_distr_r by lia. reflexivity. }
  rewrite E, Z.lor_comm, lor_low by lia. lia.
Qed.
Definition val (p : list Z) : Z := fold_left (fun v d => v * 64 + d) p 0.
Definition six (d : Z) : Prop := 0 <= d < 64.
(** The accumulator holds the pending digits in its low bits. *)
Definition pending (g : Z) (p : list Z) : Prop := 0 <= g < 2^32 /\ Forall six p /\ exists h, g = h * 64^(zlen p) + val p /\ 0 <= h.
Lemma pending_add : forall g p d, pending g p -> zlen p <= 3 -> six d ->
  pending (Z.lor (Z.shiftl g 6 mod 2^32) d) (p ++ [d]).
Proof.
  intros g p d (Hg & Hp & h & Eg & Hh) Hl Hd. unfold six in Hd. rewrite lor_digit by lia.
  assert (Hm : 0 <= (g * 64) mod 2^32 < 2^32) by (apply Z.mod_pos_bound; lia).
  assert (Hm64 : (g * 64) mod 2^32 = 64 * (g mod 2^26)).
  { change (2^32) with (2^26 * 64). rewrite Z.mul_mod_distr_r by lia. lia. }
  assert (Hr : 0 <= g mod 2^26 < 2^26) by (apply Z.mod_pos_bound; lia).
  split; [lia|]. split; [apply Forall_app; split; [assumption|constructor; [exact Hd|constructor]]|].
  unfold val. rewrite fold_left_app. cbn [fold_left]. fold (val p). rewrite zlen_app, zlen_cons, zlen_nil.
  rewrite Hm64. pose proof (zlen_nonneg _ p) as Hp0.
  assert (Hv : exists h', g mod 2^26 = h' * 64^(zlen p) + val p /\ 0 <= h').
  { pose proof (Z.div_mod g (2^26) ltac:(lia)) as Hdm. assert (0 <= g / 2^26) by (apply Z.div_pos; lia).
    assert (Hq : zlen p = 0 \/ zlen p = 1 \/ zlen p = 2 \/ zlen p = 3) by lia.
    assert (Hv : 0 <= val p < 64 ^ zlen p).
    { clear - Hp. unfold val. assert (A : forall p v, Forall six p -> 0 <= v -> v * 64^(zlen p) <= fold_left (fun v d => v * 64 + d) p v < (v + 1) * 64 ^ zlen p).
      { clear. induction p as [|d p IH]; intros v H Hv; [cbn; change (64 ^ zlen []) with 1; lia|]. inversion H as [|? ? Hd Hr]; subst. unfold six in Hd.
        cbn [fold_left]. rewrite zlen_cons. pose proof (zlen_nonneg _ p). rewrite Z.pow_add_r, Z.pow_1_r by lia.
        specialize (IH (v * 64 + d) Hr ltac:(lia)). assert (0 < 64 ^ zlen p) by (apply Z.pow_pos_nonneg; lia). nia. }
      specialize (A p 0 Hp ltac:(lia)). lia. }
    exists (h - (g / 2^26) * (2^26 / 64^(zlen p))).
    destruct Hq as [E|[E|[E|E]]]; rewrite E in *;
      [change (64^0) with 1 in *; change (2^26/1) with (2^26)
      |change (64^1) with 64 in *; change (2^26/64) with (2^20)
      |change (64^2) with (2^12) in *; change (2^26/2^12) with (2^14)
      |change (64^3) with (2^18) in *; change (2^26/2^18) with (2^8)];
      clear - Hdm Eg Hv Hr Hh H; change (2^26) with 67108864 in *; change (2^20) with 1048576 in *; change (2^12) with 4096 in *;
      change (2^14) with 16384 in *; change (2^18) with 262144 in *; change (2^8) with 256 in *; split; lia. }
  destruct Hv as (h' & -> & Hh'). exists h'. split; [|assumption]. rewrite Z.pow_add_r by lia. change (64^1) with 64. unfold val. lia.
Qed.
Lemma four_bytes : forall g a b c d, pending g [a; b; c; d] ->
  Z.shiftr g 16 mod 256 = a * 4 + b / 16 /\ Z.shiftr g 8 mod 256 = (b mod 16) * 16 + c / 4 /\ g mod 256 = (c mod 4) * 64 + d.
Proof.
  intros g a b c d (Hg & Hp & h & Eg & Hh). inversion_clear Hp as [|? ? A Hp1]. inversion_clear Hp1 as [|? ? B Hp2].
  inversion_clear Hp2 as [|? ? C Hp3]. inversion_clear Hp3 as [|? ? D _]. unfold six in *.
  change (64 ^ zlen [a; b; c; d]) with 16777216 in Eg. unfold val in Eg. cbn [fold_left] in Eg.
  rewrite !Z.shiftr_div_pow2 by lia. change (2^16) with 65536. change (2^8) with 256. clear Hg. Z.div_mod_to_equations. lia.
Qed.
Lemma three_bytes : forall g a b c, pending g [a; b; c] ->
  Z.shiftr g 10 mod 256 = a * 4 + b / 16 /\ Z.shiftr g 2 mod 256 = (b mod 16) * 16 + c / 4.
Proof.
  intros g a b c (Hg & Hp & h & Eg & Hh). inversion_clear Hp as [|? ? A Hp1]. inversion_clear Hp1 as [|? ? B Hp2].
  inversion_clear Hp2 as [|? ? C _]. unfold six in *.
  change (64 ^ zlen [a; b; c]) with 262144 in Eg. unfold val in Eg. cbn [fold_left] in Eg.
  rewrite !Z.shiftr_div_pow2 by lia. change (2^10) with 1024. change (2^2) with 4. clear Hg. Z.div_mod_to_equations. lia.
Qed.
Lemma two_bytes : forall g a b, pending g [a; b] -> Z.shiftr g 4 mod 256 = a * 4 + b / 16.
Proof.
  intros g a b (Hg & Hp & h & Eg & Hh). inversion_clear Hp as [|? ? A Hp1]. inversion_clear Hp1 as [|? ? B _]. unfold six in *.
  change (64 ^ zlen [a; b]) with 4096 in Eg. unfold val in Eg. cbn [fold_left] in Eg.
  rewrite !Z.shiftr_div_pow2 by lia. change (2^4) with 16. clear Hg. Z.div_mod_to_equations. lia.
Qed.

(** ** The loop *)
Lemma bytes_cons4 : forall a b c d r,
  base64_bytes (a :: b :: c :: d :: r) = [a * 4 + b / 16; (b mod 16) * 16 + c / 4; (c mod 4) * 64 + d] ++ base64_bytes r.
Proof. reflexivity. Qed.
Lemma splice_then : forall (p : Z) (d1 d2 l : list Z), 0 <= p -> p + zlen d1 + zlen d2 <= zlen l ->
  splice (p + zlen d1) d2 (splice p d1 l) = splice p (d1 ++ d2) l.
Proof.
  intros p d1 d2 l Hp H. pose proof (zlen_nonneg _ d1). pose proof (zlen_nonneg _ d2).
  unfold splice at 1. rewrite splice_drop_after by lia.
  replace (take (p + zlen d1) (splice p d1 l)) with (take p l ++ d1).
  - unfold splice. rewrite zlen_app, <- !app_assoc. do 3 f_equal. f_equal. lia.
  - unfold splice. rewrite app_assoc. replace (p + zlen d1) with (zlen (take p l ++ d1)) by (rewrite zlen_app, zlen_take; lia).
    now rewrite take_app_exact.
Qed.
Lemma sub64 : forall len posn k, 0 <= posn <= len -> len < 2^64 -> ((len - posn) mod 2^64 <? k) = (len <? posn + k).
Proof. intros len posn k H H'. rewrite Z.mod_small by lia. destruct (Z.ltb_spec (len - posn) k), (Z.ltb_spec len (posn + k)); lia. Qed.

(** What may happen to the caller's storage *)
Definition framed (key key' : list Z) (len : Z) : Prop := zlen key' = zlen key /\ drop len key' = drop len key.
Definition answers (key : list Z) (len posn : Z) (bs : list Z) (r : outcome (bool * list Z)) : Prop :=
  exists ok key', r = Ok (ok, key') /\ framed key key' len /\
    if posn + zlen bs =? len then ok = true /\ key' = splice posn bs key else ok = false.

Lemma end_ok : forall key len g p posn, pending g p -> zlen p <= 3 -> 0 <= posn <= len -> len <= zlen key -> len < 2^64 ->
  answers key len posn (base64_bytes p) (load_public_end key len g (zlen p) posn).
Proof.
  intros key len g p posn Hp Hl Hpos Hk H64. unfold load_public_end.
  destruct p as [|a [|b [|c [|d p]]]]; [| | | |exfalso; rewrite !zlen_cons in Hl; pose proof (zlen_nonneg _ p); lia].
  - change (zlen [] =? 3) with false. change (zlen [] =? 2) with false. exists (negb (posn <? len)), key. split; [reflexivity|]. split; [now split|].
    cbn [base64_bytes]. rewrite zlen_nil, Z.add_0_r, splice_nil by lia.
    destruct (Z.ltb_spec posn len), (Z.eqb_spec posn len); try lia; auto.
  - change (zlen [a] =? 3) with false. change (zlen [a] =? 2) with false. exists (negb (posn <? len)), key. split; [reflexivity|]. split; [now split|].
    cbn [base64_bytes]. rewrite zlen_nil, Z.add_0_r, splice_nil by lia.
    destruct (Z.ltb_spec posn len), (Z.eqb_spec posn len); try lia; auto.
  - change (zlen [a; b] =? 3) with false. change (zlen [a; b] =? 2) with true. cbv iota. rewrite sub64 by lia.
    change (base64_bytes [a; b]) with [a * 4 + b / 16]. rewrite (two_bytes _ _ _ Hp). unfold answers. rewrite zlen_cons, zlen_nil.
    destruct (Z.ltb_spec len (posn + 1)).
    + exists false, key. split; [reflexivity|]. split; [now split|]. destruct (Z.eqb_spec (posn + (1 + 0)) len); [lia|reflexivity].
    + rewrite store_ok by (rewrite ?zlen_cons, ?zlen_nil; lia). cbn [obind]. eexists _, _. split; [reflexivity|]. split.
      * split; [apply splice_length; rewrite ?zlen_cons, ?zlen_nil; lia|apply splice_drop_after; rewrite ?zlen_cons, ?zlen_nil; lia].
      * destruct (Z.ltb_spec (posn + 1) len), (Z.eqb_spec (posn + (1 + 0)) len); try lia; auto.
  - change (zlen [a; b; c] =? 3) with true. cbv iota. rewrite sub64 by lia.
    change (base64_bytes [a; b; c]) with [a * 4 + b / 16; (b mod 16) * 16 + c / 4]. destruct (three_bytes _ _ _ _ Hp) as [-> ->].
    unfold answers. rewrite !zlen_cons, zlen_nil. destruct (Z.ltb_spec len (posn + 2)).
    + exists false, key. split; [reflexivity|]. split; [now split|]. destruct (Z.eqb_spec (posn + (1 + (1 + 0))) len); [lia|reflexivity].
    + rewrite store_ok by (rewrite ?zlen_cons, ?zlen_nil; lia). cbn [obind].
      rewrite store_ok by (rewrite ?splice_length; rewrite ?zlen_cons, ?zlen_nil; lia). cbn [obind].
      replace (posn + 1) with (posn + zlen [a * 4 + b / 16]) by (rewrite zlen_cons, zlen_nil; lia).
      rewrite splice_then by (rewrite ?zlen_cons, ?zlen_nil; lia). cbn [app].
      eexists _, _. split; [reflexivity|]. split.
      * split; [apply splice_length; rewrite ?zlen_cons, ?zlen_nil; lia|apply splice_drop_after; rewrite ?zlen_cons, ?zlen_nil; lia].
      * destruct (Z.ltb_spec (posn + 2) len), (Z.eqb_spec (posn + (1 + (1 + 0))) len); try lia; auto.
Qed.

Lemma framed_trans : forall a b c len, framed a b len -> framed b c len -> framed a c len.
Proof. intros a b c len [H1 H2] [H3 H4]. split; congruence. Qed.

Definition read_answers (key : list Z) (len posn : Z) (p : list Z) (ds : option (list Z)) (r : outcome (bool * list Z)) : Prop :=
  match ds with
  | Some ds => answers key len posn (base64_bytes (p ++ ds)) r
  | None => exists key', r = Ok (false, key') /\ framed key key' len
  end.
Lemma zlen_base64_bytes_nonneg : forall ds, 0 <= zlen (base64_bytes ds).
Proof. intros. apply zlen_nonneg. Qed.

Lemma loop_ok : forall file key len g p prev posn ds, reads prev file ds ->
  six prev -> pending g p -> zlen p <= 3 -> 0 <= posn <= len -> len <= zlen key -> len < 2^64 ->
  read_answers key len posn p ds (load_public_loop file key len g (zlen p) prev posn).
Proof.
  induction file as [|ch r IH]; intros key len g p prev posn ds Hr Hprev Hp Hl Hpos Hk H64.
  { inversion Hr; subst. cbn [load_public_loop read_answers]. rewrite app_nil_r. now apply end_ok. }
  assert (ADD : forall d ds', six d -> reads d r ds' ->
    read_answers key len posn p (option_map (cons d) ds')
      (let group := Z.lor (Z.shiftl g 6 mod 2^32) d in
       let group_size := zlen p + 1 in
       if 4 <=? group_size then
         if (len - posn) mod 2^64 <? 3 then Ok (false, key)
         else
           let! key := store key posn [Z.shiftr group 16 mod 256] in
           let! key := store key (posn + 1) [Z.shiftr group 8 mod 256] in
           let! key := store key (posn + 2) [group mod 256] in
           load_public_loop r key len group 0 d (posn + 3)
       else load_public_loop r key len group group_size d posn)).
  { intros d ds' Hd Hr'. cbv zeta. pose proof (pending_add g p d Hp Hl Hd) as Hp'. set (g' := Z.lor _ d) in *.
    destruct (Z.leb_spec 4 (zlen p + 1)) as [H4|H4].
    - destruct p as [|a [|b [|c [|x p]]]]; try (rewrite ?zlen_cons, ?zlen_nil in H4; lia);
        [|rewrite !zlen_cons in Hl; pose proof (zlen_nonneg _ p); lia].
      cbn [app] in Hp'. rewrite sub64 by lia. destruct (Z.ltb_spec len (posn + 3)) as [H3|H3].
      + destruct ds' as [ds'|]; cbn [option_map read_answers].
        * cbn [app]. rewrite bytes_cons4. exists false, key. split; [reflexivity|]. split; [now split|].
          rewrite zlen_app. change (zlen [_; _; _]) with 3. pose proof (zlen_nonneg _ (base64_bytes ds')).
          match goal with |- context [?x =? len] => destruct (Z.eqb_spec x len) end; [lia|reflexivity].
        * exists key. split; [reflexivity|now split].
      + destruct (four_bytes _ _ _ _ _ Hp') as (-> & -> & ->).
        set (x := a * 4 + b / 16). set (y := (b mod 16) * 16 + c / 4). set (z := (c mod 4) * 64 + d).
        rewrite store_ok by (rewrite ?zlen_cons, ?zlen_nil; lia). cbn [obind].
        rewrite store_ok by (rewrite ?splice_length; rewrite ?zlen_cons, ?zlen_nil; lia). cbn [obind].
        replace (posn + 1) with (posn + zlen [x]) by (rewrite zlen_cons, zlen_nil; lia).
        rewrite splice_then by (rewrite ?zlen_cons, ?zlen_nil; lia). cbn [app].
        rewrite store_ok by (rewrite ?splice_length; rewrite ?zlen_cons, ?zlen_nil; lia). cbn [obind].
        replace (posn + 2) with (posn + zlen [x; y]) by (rewrite !zlen_cons, zlen_nil; lia).
        rewrite splice_then by (rewrite ?zlen_cons, ?zlen_nil; lia). cbn [app].
        assert (F : framed key (splice posn [x; y; z] key) len).
        { split; [apply splice_length; rewrite ?zlen_cons, ?zlen_nil; lia|apply splice_drop_after; rewrite ?zlen_cons, ?zlen_nil; lia]. }
        assert (P0 : pending g' []).
        { destruct Hp' as (Hg' & _). split; [exact Hg'|]. split; [constructor|]. exists g'. split; [|lia]. change (64 ^ zlen []) with 1. change (val []) with 0. lia. }
        specialize (IH (splice posn [x; y; z] key) len g' [] d (posn + 3) ds' Hr' Hd P0 ltac:(rewrite zlen_nil; lia) ltac:(lia) ltac:(destruct F; lia) H64).
        change (zlen []) with 0 in IH.
        destruct ds' as [ds'|]; cbn [option_map read_answers app] in IH |- *.
        * rewrite bytes_cons4. fold x y z. destruct IH as (ok & key' & E & F' & H). exists ok, key'. split; [exact E|].
          split; [eapply framed_trans; eassumption|]. rewrite zlen_app. change (zlen [x; y; z]) with 3.
          replace (posn + (3 + zlen (base64_bytes ds'))) with (posn + 3 + zlen (base64_bytes ds')) by lia.
          destruct (Z.eqb_spec (posn + 3 + zlen (base64_bytes ds')) len); [|exact H]. destruct H as [H1 H2]. split; [exact H1|].
          rewrite H2. change 3 with (zlen [x; y; z]) at 1. apply splice_then; [lia|]. change (zlen [x; y; z]) with 3. lia.
        * destruct IH as (key' & E & F'). exists key'. split; [exact E|]. eapply framed_trans; eassumption.
    - assert (El : zlen p + 1 = zlen (p ++ [d])) by (rewrite zlen_app, zlen_cons, zlen_nil; lia). rewrite El.
      specialize (IH key len g' (p ++ [d]) d posn ds' Hr' Hd Hp' ltac:(lia) Hpos Hk H64).
      destruct ds' as [ds'|]; cbn [option_map read_answers] in IH |- *; [|exact IH].
      rewrite <- app_assoc in IH. exact IH. }
  apply kind_cases in Hr. cbn [load_public_loop]. unfold kind_of in Hr.
  destruct ((65 <=? ch) && (ch <=? 90)). { destruct Hr as (ds' & H1 & -> & H2). apply ADD; assumption. }
  destruct ((97 <=? ch) && (ch <=? 122)). { destruct Hr as (ds' & H1 & -> & H2). apply ADD; assumption. }
  destruct ((48 <=? ch) && (ch <=? 57)). { destruct Hr as (ds' & H1 & -> & H2). apply ADD; assumption. }
  destruct (ch =? 43). { destruct Hr as (ds' & H1 & -> & H2). apply ADD; assumption. }
  destruct (ch =? 47). { destruct Hr as (ds' & H1 & -> & H2). apply ADD; assumption. }
  destruct (ch =? 61). { subst ds. cbn [read_answers]. rewrite app_nil_r. now apply end_ok. }
  destruct (negb (ch =? 32) && negb (ch =? 9) && negb (ch =? 13) && negb (ch =? 10)).
  { subst ds. exists key. split; [reflexivity|now split]. }
  destruct Hr as (ds' & H1 & ->). apply ADD; assumption.
Qed.

(** For every file, buffer and length: the loader succeeds exactly when the
    digits it reads stand for [len] bytes, these are then in the buffer, and
    nothing beyond them is ever written. *)
Theorem C67_load_exact : forall file key len, 0 <= len <= zlen key -> len <= 2048 ->
  exists ok key', echo_load_public_key (Some file) key len = Ok (ok, key') /\
    zlen key' = zlen key /\ drop len key' = drop len key /\
    (ok = true <-> exists ds, reads 0 file (Some ds) /\ zlen (base64_bytes ds) = len) /\
    (forall ds, ok = true -> reads 0 file (Some ds) -> take len key' = base64_bytes ds).
Proof.
  intros file key len Hl Hm. unfold echo_load_public_key, MAX_DH_KEY_LEN. destruct (Z.ltb_spec 2048 len); [lia|].
  destruct (reads_total file 0) as [ds Hr].
  assert (P0 : pending 0 []). { split; [lia|]. split; [constructor|]. exists 0. split; [reflexivity|lia]. }
  pose proof (loop_ok file key len 0 [] 0 0 ds Hr ltac:(unfold six; lia) P0 ltac:(rewrite zlen_nil; lia) ltac:(lia) ltac:(lia) ltac:(lia)) as H'.
  change (zlen []) with 0 in H'. destruct ds as [ds|]; cbn [read_answers app] in H'.
  - destruct H' as (ok & key' & E & [F1 F2] & HH). exists ok, key'. split; [exact E|]. split; [exact F1|]. split; [exact F2|].
    rewrite Z.add_0_l in HH. destruct (Z.eqb_spec (zlen (base64_bytes ds)) len) as [El|El].
    + destruct HH as [-> ->]. split; [split; [intros _; eauto|reflexivity]|]. intros ds' _ Hr'.
      assert (Some ds = Some ds') as Es by (eapply reads_fun; eassumption). injection Es as <-.
      rewrite splice_0, <- El. apply take_app_exact.
    + subst ok. split; [split; [discriminate|]|discriminate]. intros (ds' & Hr' & Hl').
      assert (Some ds = Some ds') as Es by (eapply reads_fun; eassumption). injection Es as <-. contradiction.
  - destruct H' as (key' & E & F1 & F2). exists false, key'. split; [exact E|]. split; [exact F1|]. split; [exact F2|].
    split; [split; [discriminate|]|discriminate]. intros (ds' & Hr' & _).
    assert (None = Some ds') as Es by (eapply reads_fun; eassumption). discriminate.
Qed.

(** ** Encodings without white space *)
Lemma list3_ind : forall P : list Z -> Prop,
  P [] -> (forall a, P [a]) -> (forall a b, P [a; b]) -> (forall a b c r, P r -> P (a :: b :: c :: r)) -> forall l, P l.
Proof.
  intros P H0 H1 H2 H3. fix self 1. intros [|a [|b [|c r]]]; [exact H0|apply H1|apply H2|apply H3, self].
Qed.
Lemma digits_six : forall key, bytes key -> Forall six (base64_digits key).
Proof.
  unfold six. induction key as [|a|a b|a b c r IH] using list3_ind; intros H; cbn [base64_digits].
  - constructor.
  - inversion_clear H as [|? ? A _]. unfold is_byte in A. repeat apply Forall_cons; try apply Forall_nil; Z.div_mod_to_equations; lia.
  - inversion_clear H as [|? ? A H1]. inversion_clear H1 as [|? ? B _]. unfold is_byte in *.
    repeat apply Forall_cons; try apply Forall_nil; Z.div_mod_to_equations; lia.
  - inversion_clear H as [|? ? A H1]. inversion_clear H1 as [|? ? B H2]. inversion_clear H2 as [|? ? C H3]. unfold is_byte in *.
    repeat apply Forall_cons; [| | | |auto]; Z.div_mod_to_equations; lia.
Qed.
Lemma decode_encode : forall key, bytes key -> base64_bytes (base64_digits key) = key.
Proof.
  induction key as [|a|a b|a b c r IH] using list3_ind; intros H; cbn [base64_digits].
  - reflexivity.
  - inversion_clear H as [|? ? A _]. unfold is_byte in A. cbn [base64_bytes]. apply (f_equal (fun x => [x])). Z.div_mod_to_equations; lia.
  - inversion_clear H as [|? ? A H1]. inversion_clear H1 as [|? ? B _]. unfold is_byte in *. cbn [base64_bytes].
    match goal with |- [?x; ?y] = _ => assert (x = a) as -> by (Z.div_mod_to_equations; lia); assert (y = b) as -> by (Z.div_mod_to_equations; lia) end. reflexivity.
  - inversion_clear H as [|? ? A H1]. inversion_clear H1 as [|? ? B H2]. inversion_clear H2 as [|? ? C H3]. unfold is_byte in *. cbn [base64_bytes].
    match goal with |- ?x :: ?y :: ?z :: _ = _ => assert (x = a) as -> by (Z.div_mod_to_equations; lia);
      assert (y = b) as -> by (Z.div_mod_to_equations; lia); assert (z = c) as -> by (Z.div_mod_to_equations; lia) end.
    now rewrite IH.
Qed.
Lemma reads_digits : forall ds prev tail ts, Forall six ds ->
  (ds = [] -> reads prev tail (Some ts)) -> (forall d, last ds 0 = d -> ds <> [] -> reads d tail (Some ts)) ->
  reads prev (map (byte_at alphabet) ds ++ tail) (Some (ds ++ ts)).
Proof.
  induction ds as [|d ds IH]; intros prev tail ts H H0 H1.
  - now apply H0.
  - inversion_clear H as [|? ? Hd Hds]. cbn [map app]. change (Some (d :: ds ++ ts)) with (option_map (cons d) (Some (ds ++ ts))).
    apply rd_digit; [now split|]. apply IH; [assumption| |].
    + intros ->. apply (H1 d); [reflexivity|discriminate].
    + intros e He Hne. apply (H1 e); [|discriminate]. cbn [last]. destruct ds; [contradiction|exact He].
Qed.

(** The encoding of a key of up to 2048 bytes loads the key - provided no white
    space comes before its end; after the padding anything may follow, and
    where there is no padding one white space character (a line end). *)
Theorem C67_loads_partial : forall key mem tail, bytes key -> zlen key <= 2048 -> zlen key <= zlen mem ->
  (zlen key mod 3 <> 0 \/ tail = [] \/ exists c, space c /\ tail = [c]) ->
  echo_load_public_key (Some (base64 key ++ tail)) mem (zlen key) = Ok (true, key ++ drop (zlen key) mem).
Proof.
  intros key mem tail Hb Hl Hm Ht. pose proof (zlen_nonneg _ key) as Hn.
  assert (A : exists ts, reads 0 (base64 key ++ tail) (Some (base64_digits key ++ ts)) /\ base64_bytes (base64_digits key ++ ts) = key).
  { unfold base64. rewrite <- app_assoc. pose proof (digits_six key Hb) as Hs. unfold base64_padding.
    destruct (Z.eqb_spec (zlen key mod 3) 1) as [E1|E1]; [|destruct (Z.eqb_spec (zlen key mod 3) 2) as [E2|E2]].
    - exists []. split; [|rewrite app_nil_r; now apply decode_encode].
      apply reads_digits; [assumption|intros _|intros d _ _]; apply (rd_equals _ (61 :: tail)).
    - exists []. split; [|rewrite app_nil_r; now apply decode_encode].
      apply reads_digits; [assumption|intros _|intros d _ _]; apply (rd_equals _ tail).
    - assert (E0 : zlen key mod 3 = 0) by (pose proof (Z.mod_pos_bound (zlen key) 3); lia).
      destruct Ht as [Ht|[->|(c & Hc & ->)]]; [contradiction| |].
      + exists []. split; [|rewrite app_nil_r; now apply decode_encode].
        apply reads_digits; [assumption|intros _|intros d _ _]; constructor.
      + exists [last (base64_digits key) 0]. split.
        * cbn [app]. apply reads_digits; [assumption| |].
          -- intros ->. apply (rd_space 0 c [] (Some [])); [assumption|constructor].
          -- intros d <- _. apply (rd_space _ c [] (Some [])); [assumption|constructor].
        * clear - E0 Hb. revert E0 Hb. generalize (last (base64_digits key) 0) as e. intros e.
          induction key as [|a|a b|a b c r IH] using list3_ind; intros E0 Hb.
          -- reflexivity.
          -- discriminate.
          -- discriminate.
          -- pose proof (decode_encode _ Hb) as D. cbn [base64_digits app] in D |- *. rewrite bytes_cons4 in D |- *.
             change (a :: b :: c :: r) with ([a; b; c] ++ r) in D |- *. cbn [app] in D |- *. injection D as D1 D2 D3 D4.
             rewrite D1, D2, D3. do 3 f_equal. apply IH.
             ++ rewrite !zlen_cons in E0. replace (1 + (1 + (1 + zlen r))) with (zlen r + 1 * 3) in E0 by lia. now rewrite Z_mod_plus_full in E0.
             ++ inversion_clear Hb as [|? ? _ H1]. inversion_clear H1 as [|? ? _ H2]. now inversion_clear H2. }
  destruct A as (ts & Hr & Hd).
  destruct (C67_load_exact (base64 key ++ tail) mem (zlen key) ltac:(lia) Hl) as (ok & m & E & F1 & F2 & [_ H2] & H3).
  assert (ok = true) by (apply H2; eexists; split; [exact Hr|now rewrite Hd]). subst ok.
  specialize (H3 _ eq_refl Hr). rewrite Hd in H3. rewrite E. do 2 f_equal. rewrite <- (take_drop _ (zlen key) m), H3, F2. reflexivity.
Qed.

(** ** With white space *)
Lemma list4_ind : forall P : list Z -> Prop,
  P [] -> (forall a, P [a]) -> (forall a b, P [a; b]) -> (forall a b c, P [a; b; c]) ->
  (forall a b c d r, P r -> P (a :: b :: c :: d :: r)) -> forall l, P l.
Proof.
  intros P H0 H1 H2 H3 H4. fix self 1. intros [|a [|b [|c [|d r]]]]; [exact H0|apply H1|apply H2|apply H3|apply H4, self].
Qed.
Lemma zlen_base64_bytes : forall ds, zlen (base64_bytes ds) = 3 * zlen ds / 4.
Proof.
  induction ds as [|a|a b|a b c|a b c d r IH] using list4_ind; try reflexivity.
  cbn [base64_bytes]. rewrite !zlen_cons, IH. Z.div_mod_to_equations. lia.
Qed.
Lemma zlen_base64_digits : forall key, zlen (base64_digits key) = (4 * zlen key + 2) / 3.
Proof.
  induction key as [|a|a b|a b c r IH] using list3_ind; try reflexivity.
  cbn [base64_digits]. rewrite !zlen_cons, IH. Z.div_mod_to_equations. lia.
Qed.
Lemma reads_spaced : forall l body, spaced l body -> Forall (fun c => exists d, digit_value c d) l ->
  forall prev tail, exists ds, reads prev (body ++ 61 :: tail) (Some ds) /\ zlen ds = zlen body.
Proof.
  intros l body H. induction H as [|c l m H IH|c l m Hc H IH]; intros Hd prev tail.
  - exists []. split; [constructor|reflexivity].
  - inversion_clear Hd as [|? ? [d Hcd] Hl]. destruct (IH Hl d tail) as (ds & Hr & E). exists (d :: ds).
    split; [exact (rd_digit _ c d _ (Some ds) Hcd Hr)|rewrite !zlen_cons; lia].
  - destruct (IH Hd prev tail) as (ds & Hr & E). exists (prev :: ds).
    split; [exact (rd_space _ c _ (Some ds) Hc Hr)|rewrite !zlen_cons; lia].
Qed.
Lemma spaced_length : forall l m, spaced l m -> zlen l <= zlen m /\ (zlen l = zlen m -> l = m).
Proof.
  intros l m H. induction H as [|c l m H [IH1 IH2]|c l m Hc H [IH1 IH2]]; rewrite ?zlen_cons in *.
  - split; [lia|reflexivity].
  - split; [lia|]. intros E. f_equal. apply IH2. lia.
  - split; lia.
Qed.

(** The full statement, with white space anywhere, is false, and not by
    accident: for every key whose length is 2 modulo 3 - 32, 56 and 2048 bytes
    among them - any white space at all before the padding makes the loader
    refuse the file. *)
Theorem C67_loads_refuted : forall key mem body tail,
  bytes key -> zlen key mod 3 = 2 -> zlen key <= 2048 -> zlen key <= zlen mem ->
  spaced (map (byte_at alphabet) (base64_digits key)) body -> body <> map (byte_at alphabet) (base64_digits key) ->
  spaced (base64 key) (body ++ str "=") /\
  exists mem', echo_load_public_key (Some (body ++ str "=" ++ tail)) mem (zlen key) = Ok (false, mem').
Proof.
  intros key mem body tail Hb Hm Hl Hl2 Hs Hne. pose proof (zlen_nonneg _ key) as Hn. split.
  - unfold base64, base64_padding. rewrite Hm. cbv iota. change (2 =? 1) with false. change (2 =? 2) with true. cbv iota.
    revert Hs. generalize (map (byte_at alphabet) (base64_digits key)). clear. intros l H. change (str "=") with [61].
    induction H as [|c l m H IH|c l m Hc H IH]; cbn [app]; [repeat constructor|now constructor|now constructor].
  - assert (Hd : Forall (fun c => exists d, digit_value c d) (map (byte_at alphabet) (base64_digits key))).
    { apply Forall_map. eapply Forall_impl; [|apply digits_six, Hb]. intros d H. exists d. now split. }
    destruct (reads_spaced _ _ Hs Hd 0 tail) as (ds & Hr & El).
    destruct (C67_load_exact (body ++ str "=" ++ tail) mem (zlen key) ltac:(lia) Hl) as (ok & m & E & _ & _ & [H1 _] & _).
    exists m. rewrite E. destruct ok; [|reflexivity]. exfalso. destruct (H1 eq_refl) as (ds' & Hr' & Hz).
    assert (Some ds = Some ds') as Es by (eapply reads_fun; [exact Hr|exact Hr']). injection Es as <-.
    destruct (spaced_length _ _ Hs) as [L1 L2].
    assert (zlen (map (byte_at alphabet) (base64_digits key)) <> zlen body) by (intros Q; apply Hne; symmetry; auto).
    assert (EM : zlen (map (byte_at alphabet) (base64_digits key)) = zlen (base64_digits key)) by (unfold zlen; now rewrite map_length).
    rewrite zlen_base64_bytes in Hz. rewrite EM, zlen_base64_digits in *. clear - Hz H Hm El L1. Z.div_mod_to_equations. lia.
Qed.
(** Where the length is a multiple of 3 the loader may even report success with
    another key. *)
Theorem C67_wrong_key_refuted : exists key file key',
  bytes key /\ spaced (base64 key) file /\
  echo_load_public_key (Some file) (zeros (zlen key)) (zlen key) = Ok (true, key') /\ key' <> key.
Proof.
  exists [1; 2; 3], (str "A QID"), [0; 4; 8]. split; [|split; [|split; [vm_compute; reflexivity|discriminate]]].
  - unfold bytes. repeat apply Forall_cons; try apply Forall_nil; unfold is_byte; lia.
  - vm_compute. apply sp_char, sp_space; [vm_compute; tauto|]. repeat apply sp_char. apply sp_nil.
Qed.

(** A length above 2048 is refused, whatever the file, before anything is written *)
Theorem C67_limit : forall file key len, 2048 < len -> echo_load_public_key file key len = Ok (false, key).
Proof. intros file key len H. unfold echo_load_public_key, MAX_DH_KEY_LEN. now rewrite (proj2 (Z.ltb_lt _ _) H). Qed.
Print Assumptions C67_limit.
Example C67_limit_example : echo_load_public_key (Some (str "AAAA")) [] 2049 = Ok (false, []).
Proof. now apply C67_limit. Qed.

(** ** Binary private key files *)
Lemma load_private_ok : forall file key len posn, bytes file -> 0 <= posn <= len -> len <= zlen key ->
  exists ok key', load_private_loop file key len posn = Ok (ok, key') /\ framed key key' len /\
    if posn + zlen file =? len then ok = true /\ key' = splice posn file key else ok = false.
Proof.
  induction file as [|c r IH]; intros key len posn Hb Hp Hl; cbn [load_private_loop].
  - rewrite zlen_nil, Z.add_0_r, splice_nil by lia. eexists _, _. split; [reflexivity|]. split; [now split|].
    destruct (Z.ltb_spec posn len), (Z.eqb_spec posn len); try lia; auto.
  - rewrite zlen_cons. pose proof (zlen_nonneg _ r). destruct (Z.leb_spec len posn).
    + eexists _, _. split; [reflexivity|]. split; [now split|]. destruct (Z.eqb_spec (posn + (1 + zlen r)) len); [lia|reflexivity].
    + inversion_clear Hb as [|? ? Hc Hr]. rewrite store_ok by (rewrite ?zlen_cons, ?zlen_nil; lia). cbn [obind].
      assert (F : framed key (splice posn [c] key) len).
      { split; [apply splice_length; rewrite ?zlen_cons, ?zlen_nil; lia|apply splice_drop_after; rewrite ?zlen_cons, ?zlen_nil; lia]. }
      destruct (IH (splice posn [c] key) len (posn + 1) Hr ltac:(lia) ltac:(destruct F; lia)) as (ok & key' & E & F' & H').
      exists ok, key'. split; [exact E|]. split; [eapply framed_trans; eassumption|].
      replace (posn + (1 + zlen r)) with (posn + 1 + zlen r) by lia. destruct (Z.eqb_spec (posn + 1 + zlen r) len); [|exact H'].
      destruct H' as [-> ->]. split; [reflexivity|]. change 1 with (zlen [c]) at 1. apply (splice_then posn [c] r); [lia|]. rewrite zlen_cons, zlen_nil. lia.
Qed.
(** A private key file loads exactly when it has the length of the key, and then
    the key is its contents. *)
Theorem C75_load_private_exact : forall file key len, bytes file -> 0 <= len <= zlen key -> len <= 2048 ->
  exists ok key', echo_load_private_key (Some file) key len = Ok (ok, key') /\
    zlen key' = zlen key /\ drop len key' = drop len key /\
    (ok = true <-> zlen file = len) /\ (ok = true -> key' = file ++ drop len key).
Proof.
  intros file key len Hb Hl Hm. unfold echo_load_private_key, MAX_DH_KEY_LEN. destruct (Z.ltb_spec 2048 len); [lia|].
  destruct (load_private_ok file key len 0 Hb ltac:(lia) ltac:(lia)) as (ok & key' & E & [F1 F2] & H').
  exists ok, key'. split; [exact E|]. split; [exact F1|]. split; [exact F2|]. rewrite Z.add_0_l in H'.
  destruct (Z.eqb_spec (zlen file) len) as [<-|Hne].
  - destruct H' as [-> ->]. split; [tauto|]. intros _. now rewrite splice_0.
  - subst ok. split; [split; [discriminate|tauto]|discriminate].
Qed.

(** The key 1, 2, ..., 32: as encoded by any tool, with a line end after it; and
    with a line break inside. *)
Definition demo_key : list Z := map Z.of_nat (seq 1 32).
Example C67_example :
  base64 demo_key = str "AQIDBAUGBwgJCgsMDQ4PEBESExQVFhcYGRobHB0eHyA=" /\
  echo_load_public_key (Some (base64 demo_key ++ [10])) (zeros 33) 32 = Ok (true, demo_key ++ [0]) /\
  (exists m, echo_load_public_key (Some (str "AQIDBAUGBwgJCgsMDQ4PEBES" ++ [10] ++ str "ExQVFhcYGRobHB0eHyA=")) (zeros 32) 32 = Ok (false, m)) /\
  echo_load_private_key (Some demo_key) (zeros 33) 32 = Ok (true, demo_key ++ [0]) /\
  (exists m, echo_load_private_key (Some (demo_key ++ [10])) (zeros 33) 32 = Ok (false, m)).
Proof. repeat split; try (eexists; vm_compute; reflexivity); vm_compute; reflexivity. Qed.

Print Assumptions C67_load_exact.
Print Assumptions C67_loads_partial.
Print Assumptions C67_loads_refuted.
Print Assumptions C67_wrong_key_refuted.
Print Assumptions C75_load_private_exact.
