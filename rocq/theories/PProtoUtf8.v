(** Proofs about the UTF-8 check and about peeking. *)
From Coq Require Import ZifyBool ZifyNat.
From Verif Require Import Base MProto SProto PSha2 PProtoNum PProto PProtoRead.

(** What the check accepts: characters of one and two bytes, and at most one
    longer character, at the very end. *)
Definition accepted_shape (s : list Z) : Prop :=
  exists cs tail, Forall (fun c => scalar c /\ c < 2048) cs /\
    (tail = [] \/ exists c, scalar c /\ 2048 <= c /\ tail = utf8_char c) /\ s = flat_map utf8_char cs ++ tail.

Lemma continuation_iff : forall c, continuation c = true <-> 128 <= c <= 191.
Proof. intros c. unfold continuation. lia. Qed.
Lemma code3 : forall a b c, is_byte a -> is_byte b -> is_byte c ->
  Z.lor (Z.lor (Z.shiftl (Z.land a 15) 12) (Z.shiftl (Z.land b 63) 6)) (Z.land c 63) = a mod 16 * 4096 + b mod 64 * 64 + c mod 64.
Proof.
  intros a b c Ha Hb Hc. destruct (byte_facts a Ha) as (_ & _ & _ & _ & -> & _). destruct (byte_facts b Hb) as (_ & _ & _ & -> & _). destruct (byte_facts c Hc) as (_ & _ & _ & -> & _).
  pose proof (Z.mod_pos_bound b 64 ltac:(lia)). pose proof (Z.mod_pos_bound c 64 ltac:(lia)).
  rewrite (Z.shiftl_mul_pow2 (b mod 64)) by lia. change (2^6) with 64. rewrite lor_add by (cbn; lia). change (2^12) with 4096.
  replace (a mod 16 * 4096 + b mod 64 * 64) with ((a mod 16 * 64 + b mod 64) * 2^6) by (change (2^6) with 64; lia).
  rewrite Z.lor_comm, lor_add_low by (cbn; lia). lia.
Qed.
Lemma code4 : forall a b c d, is_byte a -> is_byte b -> is_byte c -> is_byte d ->
  Z.lor (Z.lor (Z.lor (Z.shiftl (Z.land a 7) 18) (Z.shiftl (Z.land b 63) 12)) (Z.shiftl (Z.land c 63) 6)) (Z.land d 63) =
  a mod 8 * 262144 + b mod 64 * 4096 + c mod 64 * 64 + d mod 64.
Proof.
  intros a b c d Ha Hb Hc Hd. destruct (byte_facts a Ha) as (_ & _ & _ & _ & _ & ->). destruct (byte_facts b Hb) as (_ & _ & _ & -> & _).
  destruct (byte_facts c Hc) as (_ & _ & _ & -> & _). destruct (byte_facts d Hd) as (_ & _ & _ & -> & _).
  pose proof (Z.mod_pos_bound b 64 ltac:(lia)). pose proof (Z.mod_pos_bound c 64 ltac:(lia)). pose proof (Z.mod_pos_bound d 64 ltac:(lia)).
  rewrite (Z.shiftl_mul_pow2 (b mod 64)) by lia. change (2^12) with 4096. rewrite lor_add by (cbn; lia). change (2^18) with 262144.
  replace (a mod 8 * 262144 + b mod 64 * 4096) with ((a mod 8 * 64 + b mod 64) * 2^12) by (change (2^12) with 4096; lia).
  rewrite (Z.shiftl_mul_pow2 (c mod 64)) by lia. change (2^6) with 64. rewrite (Z.lor_comm (_ * 2^12)), lor_add_low by (cbn; lia). rewrite (Z.add_comm (c mod 64 * 64)).
  replace ((a mod 8 * 64 + b mod 64) * 2^12 + c mod 64 * 64) with (((a mod 8 * 64 + b mod 64) * 64 + c mod 64) * 2^6) by (change (2^6) with 64; change (2^12) with 4096; lia).
  rewrite Z.lor_comm, lor_add_low by (cbn; lia). lia.
Qed.
(* after a character of three or four bytes nothing more may follow *)
Lemma utf8_stray : forall fuel c s n, 128 <= c <= 191 -> is_utf8 fuel (c :: s) n = Ok true -> n <= 0.
Proof.
  intros fuel c s n Hc H. destruct fuel; cbn [is_utf8] in H; destruct (Z.leb_spec n 0); auto; [discriminate|exfalso].
  destruct (Z.eqb_spec c 0); [lia|]. destruct (Z.ltb_spec c 128); [lia|].
  destruct (Z.leb_spec 194 c); [lia|]. destruct (Z.leb_spec 224 c); [lia|]. destruct (Z.leb_spec 240 c); [lia|]. cbn [andb] in H. discriminate.
Qed.
Lemma accepted_forward : forall fuel s, bytes s -> is_utf8 fuel s (zlen s) = Ok true -> accepted_shape s.
Proof.
  induction fuel; intros s Hs H; cbn [is_utf8] in H; (destruct (Z.leb_spec (zlen s) 0); [exists [], []; assert (s = []) by (apply zlen_0_nil; lia); subst; repeat split; auto|]); [discriminate|].
  assert (Cons : forall c r, scalar c /\ c < 2048 -> accepted_shape r -> accepted_shape (utf8_char c ++ r)).
  { intros c r Hc (cs & tail & F & T & ->). exists (c :: cs), tail. split; [constructor; auto|]. split; [auto|]. cbn [flat_map]. apply app_assoc. }
  destruct s as [|ch s]; [discriminate|]. rewrite zlen_cons in H. replace (1 + zlen s - 1) with (zlen s) in H by lia.
  inversion Hs as [|? ? Hch Hs']; subst. unfold is_byte in Hch.
  destruct (Z.eqb_spec ch 0); [discriminate|].
  destruct (Z.ltb_spec ch 128).
  { specialize (Cons ch s). unfold utf8_char in Cons. destruct (Z.ltb_spec ch 128); [|lia]. apply Cons; [unfold scalar; lia|]. now apply IHfuel. }
  destruct (Z.leb_spec 194 ch); [destruct (Z.leb_spec ch 223)|]; cbn [andb] in H.
  { destruct (Z.ltb_spec (zlen s) 1); [discriminate|]. destruct s as [|c1 s]; [discriminate|]. inversion Hs' as [|? ? Hc1 Hs'']; subst. unfold is_byte in Hc1.
    destruct (continuation c1) eqn:K; [|discriminate]. apply continuation_iff in K. cbn [negb] in H. rewrite zlen_cons in H.
    replace (1 + zlen s - 1) with (zlen s) in H by lia. apply IHfuel in H; auto.
    set (code := (ch - 192) * 64 + (c1 - 128)). specialize (Cons code s).
    assert (E : utf8_char code = [ch; c1]).
    { unfold utf8_char. destruct (Z.ltb_spec code 128); [unfold code in *; lia|]. destruct (Z.ltb_spec code 2048); [|unfold code in *; lia].
      assert (D : code / 64 = ch - 192) by (symmetry; apply (Z.div_unique _ _ _ (c1 - 128)); unfold code; lia).
      assert (M : code mod 64 = c1 - 128) by (symmetry; apply (Z.mod_unique _ _ (ch - 192)); unfold code; lia).
      rewrite D, M. f_equal; [lia|f_equal; lia]. }
    rewrite E in Cons. apply Cons; auto. unfold scalar, code. lia. }
  2:{ destruct (Z.leb_spec 224 ch); [lia|]. destruct (Z.leb_spec 240 ch); [lia|]. discriminate. }
  destruct (Z.leb_spec 224 ch); [|lia]. destruct (Z.leb_spec ch 239); cbn [andb] in H.
  { destruct (Z.ltb_spec (zlen s) 2); [discriminate|]. destruct s as [|c1 [|c2 s]]; try discriminate.
    inversion Hs' as [|? ? Hc1 Hs'']; subst. inversion Hs'' as [|? ? Hc2 Hs3]; subst.
    destruct (continuation c1) eqn:K1; [|discriminate]. destruct (continuation c2) eqn:K2; [|discriminate]. apply continuation_iff in K1, K2. cbn [negb] in H.
    rewrite code3 in H by auto. cbv zeta in H. unfold is_byte in *.
    assert (Hc : ch mod 16 = ch - 224) by (symmetry; apply (Z.mod_unique _ _ 14); lia).
    assert (H1c : c1 mod 64 = c1 - 128) by (symmetry; apply (Z.mod_unique _ _ 2); lia).
    assert (H2c : c2 mod 64 = c2 - 128) by (symmetry; apply (Z.mod_unique _ _ 2); lia).
    rewrite Hc, H1c, H2c in H. set (code := (ch - 224) * 4096 + (c1 - 128) * 64 + (c2 - 128)) in *.
    destruct ((55296 <=? code) && (code <=? 57343)) eqn:Sg; [discriminate|]. destruct (Z.ltb_spec code 2048); [discriminate|].
    apply utf8_stray in H; [|lia]. rewrite !zlen_cons in H. pose proof (zlen_nonneg _ s). assert (s = []) by (apply zlen_0_nil; lia). subst s.
    exists [], (utf8_char code). split; [constructor|]. split; [right; exists code; split; [unfold scalar, code in *; lia|]; split; [unfold code in *; lia|reflexivity]|].
    cbn [flat_map app]. unfold utf8_char. destruct (Z.ltb_spec code 128); [lia|]. destruct (Z.ltb_spec code 2048); [lia|]. destruct (Z.ltb_spec code 65536); [|unfold code in *; lia].
    assert (D0 : code / 4096 = ch - 224) by (symmetry; apply (Z.div_unique _ _ _ ((c1 - 128) * 64 + (c2 - 128))); unfold code; lia).
    assert (D1 : code / 64 = (ch - 224) * 64 + (c1 - 128)) by (symmetry; apply (Z.div_unique _ _ _ (c2 - 128)); unfold code; lia).
    assert (M1 : (code / 64) mod 64 = c1 - 128) by (rewrite D1; symmetry; apply (Z.mod_unique _ _ (ch - 224)); lia).
    assert (M2 : code mod 64 = c2 - 128) by (symmetry; apply (Z.mod_unique _ _ ((ch - 224) * 64 + (c1 - 128))); unfold code; lia).
    rewrite D0, M1, M2. repeat (f_equal; [lia|]). f_equal. lia. }
  destruct (Z.leb_spec 240 ch); [|lia]. destruct (Z.leb_spec ch 244); cbn [andb] in H; [|discriminate].
  destruct (Z.ltb_spec (zlen s) 3); [discriminate|]. destruct s as [|c1 [|c2 [|c3 s]]]; try discriminate.
  inversion Hs' as [|? ? Hc1 Hs'']; subst. inversion Hs'' as [|? ? Hc2 Hs3]; subst. inversion Hs3 as [|? ? Hc3 Hs4]; subst.
  destruct (continuation c1) eqn:K1; [|discriminate]. destruct (continuation c2) eqn:K2; [|discriminate]. destruct (continuation c3) eqn:K3; [|discriminate].
  apply continuation_iff in K1, K2, K3. cbn [negb] in H.
  rewrite code4 in H by auto. cbv zeta in H. unfold is_byte in *.
  assert (Hc : ch mod 8 = ch - 240) by (symmetry; apply (Z.mod_unique _ _ 30); lia).
  assert (H1c : c1 mod 64 = c1 - 128) by (symmetry; apply (Z.mod_unique _ _ 2); lia).
  assert (H2c : c2 mod 64 = c2 - 128) by (symmetry; apply (Z.mod_unique _ _ 2); lia).
  assert (H3c : c3 mod 64 = c3 - 128) by (symmetry; apply (Z.mod_unique _ _ 2); lia).
  rewrite Hc, H1c, H2c, H3c in H. set (code := (ch - 240) * 262144 + (c1 - 128) * 4096 + (c2 - 128) * 64 + (c3 - 128)) in *.
  destruct (Z.ltb_spec 1114111 code); [discriminate|]. destruct (Z.ltb_spec code 65536); [discriminate|].
  apply utf8_stray in H; [|lia]. rewrite !zlen_cons in H. pose proof (zlen_nonneg _ s). assert (s = []) by (apply zlen_0_nil; lia). subst s.
  exists [], (utf8_char code). split; [constructor|]. split; [right; exists code; split; [unfold scalar, code in *; lia|]; split; [unfold code in *; lia|reflexivity]|].
  cbn [flat_map app]. unfold utf8_char. destruct (Z.ltb_spec code 128); [lia|]. destruct (Z.ltb_spec code 2048); [lia|]. destruct (Z.ltb_spec code 65536); [lia|].
  assert (D0 : code / 262144 = ch - 240) by (symmetry; apply (Z.div_unique _ _ _ ((c1 - 128) * 4096 + (c2 - 128) * 64 + (c3 - 128))); unfold code; lia).
  assert (D1 : code / 4096 = (ch - 240) * 64 + (c1 - 128)) by (symmetry; apply (Z.div_unique _ _ _ ((c2 - 128) * 64 + (c3 - 128))); unfold code; lia).
  assert (D2 : code / 64 = (ch - 240) * 4096 + (c1 - 128) * 64 + (c2 - 128)) by (symmetry; apply (Z.div_unique _ _ _ (c3 - 128)); unfold code; lia).
  assert (M1 : (code / 4096) mod 64 = c1 - 128) by (rewrite D1; symmetry; apply (Z.mod_unique _ _ (ch - 240)); lia).
  assert (M2 : (code / 64) mod 64 = c2 - 128) by (rewrite D2; symmetry; apply (Z.mod_unique _ _ ((ch - 240) * 64 + (c1 - 128))); lia).
  assert (M3 : code mod 64 = c3 - 128) by (symmetry; apply (Z.mod_unique _ _ ((ch - 240) * 4096 + (c1 - 128) * 64 + (c2 - 128))); unfold code; lia).
  rewrite D0, M1, M2, M3. repeat (f_equal; [lia|]). f_equal. lia.
Qed.

Lemma utf8_char_bytes : forall c, 0 <= c <= 1114111 -> bytes (utf8_char c).
Proof.
  intros c Hc. unfold utf8_char.
  destruct (Z.ltb_spec c 128); [|destruct (Z.ltb_spec c 2048); [|destruct (Z.ltb_spec c 65536)]];
    repeat (constructor; [unfold is_byte; Z.div_mod_to_equations; lia|]); constructor.
Qed.
Lemma utf8_nil : forall fuel s, is_utf8 fuel s 0 = Ok true.
Proof. destruct fuel; reflexivity. Qed.
Lemma utf8_tail : forall fuel c, scalar c -> 2048 <= c -> (0 < fuel)%nat -> is_utf8 fuel (utf8_char c) (zlen (utf8_char c)) = Ok true.
Proof.
  intros fuel c [Hc Hs] H2 Hf. destruct fuel; [lia|]. pose proof (utf8_char_bytes c ltac:(lia)) as B. unfold utf8_char in *.
  destruct (Z.ltb_spec c 128); [lia|]. destruct (Z.ltb_spec c 2048); [lia|]. destruct (Z.ltb_spec c 65536).
  - pose proof (Z.mod_pos_bound (c / 64) 64 ltac:(lia)). pose proof (Z.mod_pos_bound c 64 ltac:(lia)).
    pose proof (Z.div_mod c 64 ltac:(lia)) as DM1. pose proof (Z.div_mod (c / 64) 64 ltac:(lia)) as DM2. rewrite Z.div_div in DM2 by lia. change (64 * 64) with 4096 in DM2.
    set (x := c / 4096) in *. set (y := (c / 64) mod 64) in *. set (z := c mod 64) in *. 
    inversion B as [|? ? B1 B']; subst. inversion B' as [|? ? B2 B'']; subst. inversion B'' as [|? ? B3 _]; subst.
    change (zlen [224 + x; 128 + y; 128 + z]) with 3. cbn [is_utf8 Z.leb Z.compare].
    destruct (Z.eqb_spec (224 + x) 0); [lia|]. destruct (Z.ltb_spec (224 + x) 128); [lia|]. destruct (Z.leb_spec 194 (224 + x)); [|lia]. destruct (Z.leb_spec (224 + x) 223); [lia|]. cbn [andb].
    destruct (Z.leb_spec 224 (224 + x)); [|lia]. destruct (Z.leb_spec (224 + x) 239); [|lia]. cbn [andb].
    change (3 - 1 <? 2) with false. cbv iota. rewrite code3 by auto.
    assert (K : forall k, 0 <= k < 64 -> continuation (128 + k) = true) by (intros; apply continuation_iff; lia). rewrite !K by lia. cbn [negb].
    assert (E0 : (224 + x) mod 16 = x) by (symmetry; apply (Z.mod_unique _ _ 14); lia).
    assert (E1 : (128 + y) mod 64 = y) by (symmetry; apply (Z.mod_unique _ _ 2); lia).
    assert (E2 : (128 + z) mod 64 = z) by (symmetry; apply (Z.mod_unique _ _ 2); lia).
    rewrite E0, E1, E2. replace (x * 4096 + y * 64 + z) with c by lia.
    destruct ((55296 <=? c) && (c <=? 57343)) eqn:Sg; [lia|]. destruct (Z.ltb_spec c 2048); [lia|]. apply utf8_nil.
  - pose proof (Z.mod_pos_bound (c / 4096) 64 ltac:(lia)). pose proof (Z.mod_pos_bound (c / 64) 64 ltac:(lia)). pose proof (Z.mod_pos_bound c 64 ltac:(lia)).
    pose proof (Z.div_mod c 64 ltac:(lia)) as DM1. pose proof (Z.div_mod (c / 64) 64 ltac:(lia)) as DM2. rewrite Z.div_div in DM2 by lia. change (64 * 64) with 4096 in DM2.
    pose proof (Z.div_mod (c / 4096) 64 ltac:(lia)) as DM3. rewrite Z.div_div in DM3 by lia. change (4096 * 64) with 262144 in DM3.
    set (w := c / 262144) in *. set (x := (c / 4096) mod 64) in *. set (y := (c / 64) mod 64) in *. set (z := c mod 64) in *.
    inversion B as [|? ? B1 B']; subst. inversion B' as [|? ? B2 B'']; subst. inversion B'' as [|? ? B3 B4']; subst. inversion B4' as [|? ? B4 _]; subst.
    change (zlen [240 + w; 128 + x; 128 + y; 128 + z]) with 4. cbn [is_utf8 Z.leb Z.compare].
    destruct (Z.eqb_spec (240 + w) 0); [lia|]. destruct (Z.ltb_spec (240 + w) 128); [lia|]. destruct (Z.leb_spec 194 (240 + w)); [|lia]. destruct (Z.leb_spec (240 + w) 223); [lia|]. cbn [andb].
    destruct (Z.leb_spec 224 (240 + w)); [|lia]. destruct (Z.leb_spec (240 + w) 239); [lia|]. cbn [andb].
    destruct (Z.leb_spec 240 (240 + w)); [|lia]. destruct (Z.leb_spec (240 + w) 244); [|lia]. cbn [andb].
    change (4 - 1 <? 3) with false. cbv iota. rewrite code4 by auto.
    assert (K : forall k, 0 <= k < 64 -> continuation (128 + k) = true) by (intros; apply continuation_iff; lia). rewrite !K by lia. cbn [negb].
    assert (E0 : (240 + w) mod 8 = w) by (symmetry; apply (Z.mod_unique _ _ 30); lia).
    assert (E1 : (128 + x) mod 64 = x) by (symmetry; apply (Z.mod_unique _ _ 2); lia).
    assert (E2 : (128 + y) mod 64 = y) by (symmetry; apply (Z.mod_unique _ _ 2); lia).
    assert (E3 : (128 + z) mod 64 = z) by (symmetry; apply (Z.mod_unique _ _ 2); lia).
    rewrite E0, E1, E2, E3. replace (w * 262144 + x * 4096 + y * 64 + z) with c by lia.
    destruct (Z.ltb_spec 1114111 c); [lia|]. destruct (Z.ltb_spec c 65536); [lia|]. apply utf8_nil.
Qed.
Lemma utf8_short : forall fuel c s, scalar c -> c < 2048 -> is_utf8 (S fuel) (utf8_char c ++ s) (zlen (utf8_char c ++ s)) = is_utf8 fuel s (zlen s).
Proof.
  intros fuel c s [Hc Hs] H2. pose proof (zlen_nonneg _ s). unfold utf8_char. destruct (Z.ltb_spec c 128).
  - cbn [app]. rewrite zlen_cons. cbn [is_utf8]. destruct (Z.leb_spec (1 + zlen s) 0); [lia|]. destruct (Z.eqb_spec c 0); [lia|]. destruct (Z.ltb_spec c 128); [|lia].
    f_equal. lia.
  - destruct (Z.ltb_spec c 2048); [|lia]. pose proof (Z.mod_pos_bound c 64 ltac:(lia)). pose proof (Z.div_mod c 64 ltac:(lia)).
    set (x := c / 64) in *. set (y := c mod 64) in *. cbn [app]. rewrite !zlen_cons. cbn [is_utf8]. destruct (Z.leb_spec (1 + (1 + zlen s)) 0); [lia|].
    destruct (Z.eqb_spec (192 + x) 0); [lia|]. destruct (Z.ltb_spec (192 + x) 128); [lia|]. destruct (Z.leb_spec 194 (192 + x)); [|lia]. destruct (Z.leb_spec (192 + x) 223); [|lia]. cbn [andb].
    destruct (Z.ltb_spec (1 + (1 + zlen s) - 1) 1); [lia|]. assert (K : continuation (128 + y) = true) by (apply continuation_iff; lia). rewrite K. cbn [negb]. f_equal. lia.
Qed.
Lemma accepted_backward : forall s, accepted_shape s -> accepted s.
Proof.
  intros s (cs & tail & F & T & ->). unfold accepted, protobuf_is_utf8.
  assert (G : forall cs fuel, Forall (fun c => scalar c /\ c < 2048) cs -> zlen (flat_map utf8_char cs ++ tail) <= Z.of_nat fuel ->
     is_utf8 fuel (flat_map utf8_char cs ++ tail) (zlen (flat_map utf8_char cs ++ tail)) = Ok true).
  { clear F cs. induction cs as [|c cs IH]; intros fuel F L.
    - cbn [flat_map app] in *. destruct T as [-> | (c & T1 & T2 & ->)]; [apply utf8_nil|].
      destruct fuel; [|apply utf8_tail; auto; lia].
      unfold utf8_char in L. destruct (Z.ltb_spec c 128); [lia|]. destruct (Z.ltb_spec c 2048); [lia|]. destruct (Z.ltb_spec c 65536); rewrite !zlen_cons in L; rewrite zlen_nil in L; lia.
    - inversion F as [|? ? [F1 F2] F3]; subst. cbn [flat_map] in *. rewrite <- app_assoc in *.
      assert (1 <= zlen (utf8_char c)). { unfold utf8_char. destruct (c <? 128); [|destruct (c <? 2048); [|destruct (c <? 65536)]]; rewrite !zlen_cons, zlen_nil; lia. }
      rewrite zlen_app in L. pose proof (zlen_nonneg _ (flat_map utf8_char cs ++ tail)). destruct fuel; [lia|].
      rewrite utf8_short by auto. apply IH; auto. lia. }
  apply G; auto. lia.
Qed.
Lemma accepted_iff : forall s, bytes s -> (accepted s <-> accepted_shape s).
Proof. intros s Hs. split; [intros H; eapply accepted_forward; eauto | apply accepted_backward]. Qed.
Lemma shape_strict : forall s, accepted_shape s -> strict_utf8 s.
Proof.
  intros s (cs & tail & F & T & ->). destruct T as [-> | (c & T1 & T2 & ->)].
  - exists cs. split; [|apply app_nil_r]. revert F. apply Forall_impl. intros a [X _]; exact X.
  - exists (cs ++ [c]). split; [apply Forall_app; split; [revert F; apply Forall_impl; intros a [X _]; exact X | auto]|]. rewrite flat_map_app. cbn. now rewrite app_nil_r.
Qed.

(** ** Peeking at one byte *)
Lemma peek_varint_one : forall b len c l, pb_ok b -> 0 <= len -> pb_error b = E_NONE -> next_bytes (advanced len b) (c :: l) -> 0 <= c < 128 ->
  pb_posn b + len < pb_size b -> peek_varint (Some b) len = Ok (E_NONE, c, len + 1).
Proof.
  intros b len c l Hb Hl He Hn Hc Hp. assert (B := Hb). destruct B as (B0 & B1 & B2).
  assert (Hb1 : pb_ok (advanced len b)) by (split; [cbn; lia|auto]).
  assert (N := Hn). destruct N as (_ & mem & Em & _). cbn in Em.
  destruct (fetch_next _ mem _ _ Hb1 Em Hn) as (F & _). cbn in F. unfold peek_varint. rewrite Em, He. cbn [is_none err_eqb negb].
  unfold usize. rewrite Z.mod_small by lia. destruct (Z.leb_spec (pb_size b) (pb_posn b + len)); [lia|]. rewrite F. cbn [obind].
  destruct (byte_facts c ltac:(unfold is_byte; lia)) as (_ & _ & -> & _). destruct (Z.ltb_spec c 128); [reflexivity|lia].
Qed.
Lemma varint_one : forall v, 0 <= v < 128 -> varint v = [v].
Proof. intros v H. unfold varint. cbn [varint_groups]. destruct (Z.ltb_spec v 128); [reflexivity|lia]. Qed.
