(** Proofs about the CipherState model. *)
From Verif Require Import Base MCipher SCipher.
From Coq Require Import Sorted ZifyBool.

(** Invariant of reachable states. *)
Record cs_wf (s : cipherstate) : Prop := {
  wf_n : 0 <= cs_n s < 2^64;
  wf_key : cs_has_key s = true -> bytes (cs_key s) /\ zlen (cs_key s) = ca_key_len (cs_alg s)
}.

Definition set_n (s : cipherstate) (n : Z) : cipherstate :=
  CipherState (cs_alg s) (cs_has_key s) (cs_key s) n.

Lemma read_ptr_ok : forall p n, ptr_ok p n ->
  (match p with None => negb (n =? 0) | Some _ => false end) = false ->
  read_ptr p n = Ok (ptr_bytes p n).
Proof.
  intros [l|] n [H0 H] He; unfold read_ptr, ptr_bytes.
  - destruct (Z.leb_spec n (zlen l)); auto; lia.
  - destruct (n =? 0); auto; discriminate.
Qed.

Lemma ptr_bytes_bytes : forall p n, ptr_ok p n -> bytes (ptr_bytes p n).
Proof. intros [l|] n [H0 H]; cbn; [apply bytes_take; tauto | constructor]. Qed.

Lemma contents_bytes : forall b, buf_ok b -> bytes (contents b).
Proof.
  intros [[m|] sz mx] (H0 & H1 & H2); cbn in *; unfold contents; cbn.
  - apply bytes_take; tauto.
  - constructor.
Qed.

(** Exactly when encryption under a key reaches the cipher. *)
Definition enc_accepts (s : cipherstate) (ad : cptr) (n : Z) (b : nbuf) : Prop :=
  b_data b <> None /\ (ad = None -> n = 0) /\ b_size b <= b_max b /\
  b_size b <= MAX_PAYLOAD_LEN - ca_mac_len (cs_alg s) /\
  ca_mac_len (cs_alg s) <= b_max b - b_size b /\ cs_n s <> 2^64 - 1.

Inductive enc_result (s : cipherstate) (ad : cptr) (n : Z) (b : nbuf)
  : err -> cipherstate -> nbuf -> Prop :=
| er_clear : cs_has_key s = false -> b_data b <> None -> (ad = None -> n = 0) ->
    b_size b <= b_max b -> b_size b <= MAX_PAYLOAD_LEN -> enc_result s ad n b E_NONE s b
| er_clear_refused : forall e, cs_has_key s = false ->
    (b_data b = None \/ (ad = None /\ n <> 0) /\ e = E_INVALID_PARAM \/
     (b_data b <> None /\ (ad = None -> n = 0) /\
     (b_max b < b_size b \/ MAX_PAYLOAD_LEN < b_size b) /\ e = E_INVALID_LENGTH)) ->
     e <> E_NONE -> enc_result s ad n b e s b
| er_refused : forall e, cs_has_key s = true -> ~ enc_accepts s ad n b -> e <> E_NONE ->
    (cs_n s = 2^64 - 1 -> b_data b <> None -> (ad = None -> n = 0) -> b_size b <= b_max b ->
     b_size b <= MAX_PAYLOAD_LEN - ca_mac_len (cs_alg s) ->
     ca_mac_len (cs_alg s) <= b_max b - b_size b -> e = E_INVALID_NONCE) ->
    enc_result s ad n b e s b
| er_used : forall mem e out,
    cs_has_key s = true -> enc_accepts s ad n b -> b_data b = Some mem ->
    ca_encrypt (cs_alg s) (cs_key s) (cs_n s) (ptr_bytes ad n) (contents b) = (e, out) ->
    enc_result s ad n b e (set_n s (cs_n s + 1))
      (NBuf (Some (splice 0 out mem))
            (if is_none e then b_size b + ca_mac_len (cs_alg s) else b_size b) (b_max b)).

Lemma encrypt_char : forall s ad n b,
  cipher_shape (cs_alg s) -> cs_wf s -> ptr_ok ad n -> buf_ok b ->
  exists e s' b', cipherstate_encrypt_with_ad s ad n b = Ok (e, s', b') /\
    enc_result s ad n b e s' b'.
Proof.
  intros s ad n b Hsh Hwf Hp Hb. unfold cipherstate_encrypt_with_ad.
  pose proof (shape_mac _ Hsh) as Hmac. pose proof (wf_n _ Hwf) as Hn.
  destruct (b_data b) as [mem|] eqn:Hd.
  2:{ exists E_INVALID_PARAM, s, b. split; [destruct ad; reflexivity|].
      destruct (cs_has_key s) eqn:Hk.
      - apply er_refused; auto; try congruence. unfold enc_accepts. rewrite Hd. tauto.
      - apply er_clear_refused; auto; congruence. }
  replace (match ad with Some _ | None => _ end) with
   (if match ad with None => negb (n =? 0) | Some _ => false end
    then Ok (E_INVALID_PARAM, s, b)
    else if b_max b <? b_size b then Ok (E_INVALID_LENGTH, s, b)
    else if negb (cs_has_key s) then
      if MAX_PAYLOAD_LEN <? b_size b then Ok (E_INVALID_LENGTH, s, b)
      else Ok (E_NONE, s, b)
    else if MAX_PAYLOAD_LEN - ca_mac_len (cs_alg s) <? b_size b
    then Ok (E_INVALID_LENGTH, s, b)
    else if b_max b - b_size b <? ca_mac_len (cs_alg s)
    then Ok (E_INVALID_LENGTH, s, b)
    else if cs_n s =? 2^64 - 1 then Ok (E_INVALID_NONCE, s, b)
    else
      let! adb := read_ptr ad n in
      let! pt := load mem 0 (b_size b) in
      let '(e, out) := ca_encrypt (cs_alg s) (cs_key s) (cs_n s) adb pt in
      let! mem' := store mem 0 out in
      let s' := CipherState (cs_alg s) (cs_has_key s) (cs_key s)
                            ((cs_n s + 1) mod 2^64) in
      if negb (is_none e) then Ok (e, s', NBuf (Some mem') (b_size b) (b_max b))
      else Ok (E_NONE, s',
               NBuf (Some mem') (b_size b + ca_mac_len (cs_alg s)) (b_max b)))
    by (destruct ad; reflexivity).
  destruct (match ad with None => negb (n =? 0) | Some _ => false end) eqn:Had.
  { exists E_INVALID_PARAM, s, b. split; auto.
    assert (ad = None /\ n <> 0) by (destruct ad; [discriminate | split; auto; lia]).
    destruct (cs_has_key s) eqn:Hk.
    - apply er_refused; auto; try congruence; try (unfold enc_accepts; intuition congruence); try (intros; exfalso; intuition congruence).
    - apply er_clear_refused; auto; congruence. }
  assert (Hadn : ad = None -> n = 0) by (intros ->; lia).
  destruct (Z.ltb_spec (b_max b) (b_size b)).
  { exists E_INVALID_LENGTH, s, b. split; auto. destruct (cs_has_key s) eqn:Hk.
    - apply er_refused; auto; try congruence; try (unfold enc_accepts; lia); try (intros; exfalso; lia).
    - apply er_clear_refused; auto; try congruence. right. right. rewrite Hd. intuition congruence. }
  destruct (cs_has_key s) eqn:Hk; cbn [negb].
  2:{ destruct (Z.ltb_spec MAX_PAYLOAD_LEN (b_size b)).
      - exists E_INVALID_LENGTH, s, b. split; auto. apply er_clear_refused; auto; try congruence.
        right. right. rewrite Hd. intuition congruence.
      - exists E_NONE, s, b. split; auto. apply er_clear; auto. congruence. }
  destruct (Z.ltb_spec (MAX_PAYLOAD_LEN - ca_mac_len (cs_alg s)) (b_size b)).
  { exists E_INVALID_LENGTH, s, b. split; auto.
    apply er_refused; auto; try congruence; try (unfold enc_accepts; lia); try (intros; exfalso; lia). }
  destruct (Z.ltb_spec (b_max b - b_size b) (ca_mac_len (cs_alg s))).
  { exists E_INVALID_LENGTH, s, b. split; auto.
    apply er_refused; auto; try congruence; try (unfold enc_accepts; lia); try (intros; exfalso; lia). }
  destruct (Z.eqb_spec (cs_n s) (2^64 - 1)) as [He|He].
  { exists E_INVALID_NONCE, s, b. split; auto.
    apply er_refused; auto; try congruence; try (unfold enc_accepts; lia). }
  rewrite read_ptr_ok by auto. cbn [obind].
  destruct Hb as (Hs0 & Hm0 & Hst). rewrite Hd in Hst. destruct Hst as [Hst Hby].
  rewrite load_ok by lia. cbn [obind].
  assert (Hc : sub 0 (b_size b) mem = contents b).
  { unfold sub, contents. rewrite Hd, drop_le0 by lia. reflexivity. }
  rewrite Hc.
  destruct (ca_encrypt (cs_alg s) (cs_key s) (cs_n s) (ptr_bytes ad n) (contents b)) as [e out] eqn:Hen.
  assert (Hlo : zlen out = b_size b + ca_mac_len (cs_alg s)).
  { pose proof (shape_enc _ Hsh (cs_key s) (cs_n s) (ptr_bytes ad n) (contents b)) as Hl.
    rewrite Hen in Hl. cbn in Hl. rewrite Hl. rewrite <- Hc. rewrite zlen_sub; lia. }
  rewrite store_ok by lia. cbn [obind].
  rewrite Z.mod_small by lia.
  assert (Ha : enc_accepts s ad n b) by (unfold enc_accepts; rewrite Hd; intuition (congruence || lia)).
  pose proof (er_used s ad n b mem e out Hk Ha Hd Hen) as HR.
  unfold set_n in HR. rewrite Hk in HR.
  destruct (is_none e) eqn:Hie; cbn [negb].
  - apply is_none_true in Hie; subst e. do 3 eexists; split; [reflexivity|]. exact HR.
  - do 3 eexists; split; [reflexivity|]. exact HR.
Qed.

(** Exactly when decryption under a key reaches the cipher. *)
Definition dec_accepts (s : cipherstate) (ad : cptr) (n : Z) (b : nbuf) : Prop :=
  b_data b <> None /\ (ad = None -> n = 0) /\ b_size b <= b_max b /\
  b_size b <= MAX_PAYLOAD_LEN /\ ca_mac_len (cs_alg s) <= b_size b /\ cs_n s <> 2^64 - 1.

Inductive dec_result (s : cipherstate) (ad : cptr) (n : Z) (b : nbuf)
  : err -> cipherstate -> nbuf -> Prop :=
| dr_clear : cs_has_key s = false -> b_data b <> None -> (ad = None -> n = 0) ->
    b_size b <= b_max b -> b_size b <= MAX_PAYLOAD_LEN -> dec_result s ad n b E_NONE s b
| dr_clear_refused : forall e, cs_has_key s = false -> e <> E_NONE ->
    (b_data b = None \/ (ad = None /\ n <> 0) \/ b_max b < b_size b \/ MAX_PAYLOAD_LEN < b_size b) ->
    dec_result s ad n b e s b
| dr_refused : forall e, cs_has_key s = true -> ~ dec_accepts s ad n b -> e <> E_NONE ->
    (cs_n s = 2^64 - 1 -> b_data b <> None -> (ad = None -> n = 0) -> b_size b <= b_max b ->
     b_size b <= MAX_PAYLOAD_LEN -> ca_mac_len (cs_alg s) <= b_size b -> e = E_INVALID_NONCE) ->
    dec_result s ad n b e s b
| dr_used : forall mem e out,
    cs_has_key s = true -> dec_accepts s ad n b -> b_data b = Some mem ->
    ca_decrypt (cs_alg s) (cs_key s) (cs_n s) (ptr_bytes ad n) (contents b) = (e, out) ->
    dec_result s ad n b e (if is_none e then set_n s (cs_n s + 1) else s)
      (NBuf (Some (splice 0 out mem))
            (if is_none e then b_size b - ca_mac_len (cs_alg s) else b_size b) (b_max b)).

Lemma decrypt_char : forall s ad n b,
  cipher_shape (cs_alg s) -> cs_wf s -> ptr_ok ad n -> buf_ok b ->
  exists e s' b', cipherstate_decrypt_with_ad s ad n b = Ok (e, s', b') /\
    dec_result s ad n b e s' b'.
Proof.
  intros s ad n b Hsh Hwf Hp Hb. unfold cipherstate_decrypt_with_ad.
  pose proof (shape_mac _ Hsh) as Hmac. pose proof (wf_n _ Hwf) as Hn.
  destruct (b_data b) as [mem|] eqn:Hd.
  2:{ exists E_INVALID_PARAM, s, b. split; [destruct ad; reflexivity|].
      destruct (cs_has_key s) eqn:Hk.
      - apply dr_refused; auto; try congruence. unfold dec_accepts. rewrite Hd. tauto.
      - apply dr_clear_refused; auto; congruence. }
  replace (match ad with Some _ | None => _ end) with
   (if match ad with None => negb (n =? 0) | Some _ => false end
    then Ok (E_INVALID_PARAM, s, b)
    else if (b_max b <? b_size b) || (MAX_PAYLOAD_LEN <? b_size b)
    then Ok (E_INVALID_LENGTH, s, b)
    else if negb (cs_has_key s) then Ok (E_NONE, s, b)
    else if b_size b <? ca_mac_len (cs_alg s) then Ok (E_INVALID_LENGTH, s, b)
    else if cs_n s =? 2^64 - 1 then Ok (E_INVALID_NONCE, s, b)
    else
      let! adb := read_ptr ad n in
      let! ct := load mem 0 (b_size b) in
      let '(e, out) := ca_decrypt (cs_alg s) (cs_key s) (cs_n s) adb ct in
      let! mem' := store mem 0 out in
      if negb (is_none e) then Ok (e, s, NBuf (Some mem') (b_size b) (b_max b))
      else
        let s' := CipherState (cs_alg s) (cs_has_key s) (cs_key s)
                              ((cs_n s + 1) mod 2^64) in
        Ok (E_NONE, s',
            NBuf (Some mem') (b_size b - ca_mac_len (cs_alg s)) (b_max b)))
    by (destruct ad; reflexivity).
  destruct (match ad with None => negb (n =? 0) | Some _ => false end) eqn:Had.
  { exists E_INVALID_PARAM, s, b. split; auto.
    assert (ad = None /\ n <> 0) by (destruct ad; [discriminate | split; auto; lia]).
    destruct (cs_has_key s) eqn:Hk.
    - apply dr_refused; auto; try congruence; try (unfold dec_accepts; intuition congruence); try (intros; exfalso; intuition congruence).
    - apply dr_clear_refused; auto; congruence. }
  assert (Hadn : ad = None -> n = 0) by (intros ->; lia).
  destruct ((b_max b <? b_size b) || (MAX_PAYLOAD_LEN <? b_size b)) eqn:Hbig.
  { exists E_INVALID_LENGTH, s, b. split; auto. destruct (cs_has_key s) eqn:Hk.
    - apply dr_refused; auto; try congruence; try (unfold dec_accepts; lia); try (intros; exfalso; lia).
    - apply dr_clear_refused; auto; try congruence. right. right. lia. }
  assert (b_size b <= b_max b /\ b_size b <= MAX_PAYLOAD_LEN) as [Hb1 Hb2] by lia.
  destruct (cs_has_key s) eqn:Hk; cbn [negb].
  2:{ exists E_NONE, s, b. split; auto. apply dr_clear; auto. congruence. }
  destruct (Z.ltb_spec (b_size b) (ca_mac_len (cs_alg s))).
  { exists E_INVALID_LENGTH, s, b. split; auto.
    apply dr_refused; auto; try congruence; try (unfold dec_accepts; lia); try (intros; exfalso; lia). }
  destruct (Z.eqb_spec (cs_n s) (2^64 - 1)) as [He|He].
  { exists E_INVALID_NONCE, s, b. split; auto.
    apply dr_refused; auto; try congruence; try (unfold dec_accepts; lia). }
  rewrite read_ptr_ok by auto. cbn [obind].
  destruct Hb as (Hs0 & Hm0 & Hst). rewrite Hd in Hst. destruct Hst as [Hst Hby].
  rewrite load_ok by lia. cbn [obind].
  assert (Hc : sub 0 (b_size b) mem = contents b).
  { unfold sub, contents. rewrite Hd, drop_le0 by lia. reflexivity. }
  rewrite Hc.
  assert (Hlc : zlen (contents b) = b_size b) by (rewrite <- Hc; rewrite zlen_sub; lia).
  destruct (ca_decrypt (cs_alg s) (cs_key s) (cs_n s) (ptr_bytes ad n) (contents b)) as [e out] eqn:Hen.
  assert (Hlo : zlen out = b_size b).
  { pose proof (shape_dec _ Hsh (cs_key s) (cs_n s) (ptr_bytes ad n) (contents b)) as Hl.
    rewrite Hen in Hl. cbn in Hl. rewrite Hl; lia. }
  rewrite store_ok by lia. cbn [obind].
  rewrite Z.mod_small by lia.
  assert (Ha : dec_accepts s ad n b) by (unfold dec_accepts; rewrite Hd; intuition (congruence || lia)).
  pose proof (dr_used s ad n b mem e out Hk Ha Hd Hen) as HR.
  unfold set_n in HR. rewrite Hk in HR.
  destruct (is_none e) eqn:Hie; cbn [negb].
  - apply is_none_true in Hie; subst e. do 3 eexists; split; [reflexivity|]. exact HR.
  - do 3 eexists; split; [reflexivity|]. exact HR.
Qed.

Lemma init_char : forall s k n, 0 <= ca_key_len (cs_alg s) -> ptr_ok k n ->
  exists e s', cipherstate_init_key s k n = Ok (e, s') /\
   ((e <> E_NONE /\ s' = s /\ (k = None \/ n <> ca_key_len (cs_alg s))) \/
    (e = E_NONE /\ k <> None /\ n = ca_key_len (cs_alg s) /\
     s' = CipherState (cs_alg s) true (ptr_bytes k n) 0)).
Proof.
  intros s k n Hk Hp. unfold cipherstate_init_key. destruct k as [l|].
  2:{ do 2 eexists; split; eauto. left; split; [congruence|auto]. }
  destruct (Z.eqb_spec n (ca_key_len (cs_alg s))); cbn [negb].
  - destruct Hp as [H0 [H1 H2]]. cbn [read_ptr]. destruct (Z.leb_spec n (zlen l)); [|lia].
    cbn. do 2 eexists; split; eauto. right. repeat split; auto. congruence.
  - do 2 eexists; split; eauto. left; split; [congruence|auto].
Qed.

Lemma cs_step_char : forall s op, cipher_shape (cs_alg s) -> cs_wf s -> op_ok op ->
  exists e s' b', cs_step s op = Ok (e, s', b') /\ cs_wf s' /\ cs_alg s' = cs_alg s.
Proof.
  intros s op Hsh Hwf Hop. destruct op as [k n|ad n b|ad n b|n]; cbn [cs_step].
  - destruct (init_char s k n (shape_key _ Hsh) Hop) as (e & s' & -> & H). cbn.
    do 3 eexists; split; eauto. destruct H as [(He & -> & _)|(He & Hk & Hn & ->)]; auto.
    split; auto. constructor; cbn; [lia|]. intros _. destruct k as [l|]; [|congruence].
    destruct Hop as [H0 [H1 H2]]. cbn. rewrite zlen_take. split; [apply bytes_take; auto|lia].
  - destruct Hop as [Hp Hb].
    destruct (encrypt_char s ad n b Hsh Hwf Hp Hb) as (e & s' & b' & -> & H). cbn.
    do 3 eexists; split; eauto. destruct H; auto. split; auto.
    destruct Hwf as [Hn Hk]. constructor; cbn; auto. destruct H0 as (?&?&?&?&?&?). lia.
  - destruct Hop as [Hp Hb].
    destruct (decrypt_char s ad n b Hsh Hwf Hp Hb) as (e & s' & b' & -> & H). cbn.
    do 3 eexists; split; eauto. destruct H; auto. destruct (is_none e); [|auto]. split; auto.
    destruct Hwf as [Hn Hk]. constructor; cbn; auto. destruct H0 as (?&?&?&?&?&?). lia.
  - unfold cipherstate_set_nonce. destruct (cs_has_key s) eqn:Hk; cbn [negb].
    + destruct (Z.ltb_spec n (cs_n s)); do 3 eexists; split; eauto. split; auto.
      destruct Hwf as [Hn Hkk]. constructor; cbn; auto.
    + do 3 eexists; split; eauto.
Qed.

Definition cs_cur_key (s : cipherstate) : option (list Z) :=
  if cs_has_key s then Some (cs_key s) else None.

Lemma take_splice_0 : forall (d l : list Z), take (zlen d) (splice 0 d l) = d.
Proof. intros; rewrite splice_0, take_app_exact; auto. Qed.

(** C01 core *)
Lemma nonce_history : forall ops s ep,
  cipher_shape (cs_alg s) -> cs_wf s -> Forall op_ok ops ->
  exists hist s' used,
    cs_run s ops = Ok (hist, s') /\
    map o_op hist = ops /\
    explained (cs_alg s) (cs_cur_key s) ep hist used /\
    StronglySorted nonce_lt used /\
    Forall (fun u => 0 <= snd u < 2^64 - 1 /\ (ep <= fst u)%nat /\
                     (fst u = ep -> cs_n s <= snd u)) used.
Proof.
  induction ops as [|op ops IH]; intros s ep Hsh Hwf Hops; cbn [cs_run].
  { exists [], s, []. repeat split; constructor. }
  inversion Hops as [|? ? Hop Hops']; subst.
  pose proof (wf_n _ Hwf) as Hn.
  destruct op as [k n|ad n b|ad n b|n]; cbn [cs_step].
  - destruct (init_char s k n (shape_key _ Hsh) Hop) as (e & s1 & Hrun & H).
    destruct (cs_step_char s (OpInit k n) Hsh Hwf Hop) as (e' & s1' & b1' & Hst & Hwf1 & Ha1).
    cbn in Hst. rewrite Hrun in Hst. cbn in Hst. inversion Hst; subst e' s1' b1'. clear Hst.
    rewrite Hrun. cbn [obind].
    destruct H as [(He & -> & _)|(-> & Hk & Hlen & Hs1)].
    + destruct (IH s ep Hsh Hwf Hops') as (h & s' & u & Hr & Hm & Hex & Hso & Hfo).
      rewrite Hr. cbn. do 3 eexists; split; [reflexivity|]. cbn. rewrite Hm. repeat split; eauto.
      apply ex_init_fail; auto.
    + assert (Hsh1 : cipher_shape (cs_alg s1)) by (rewrite Ha1; auto).
      destruct (IH s1 (S ep) Hsh1 Hwf1 Hops') as (h & s' & u & Hr & Hm & Hex & Hso & Hfo).
      rewrite Hr. cbn. do 3 eexists; split; [reflexivity|]. cbn. rewrite Hm. repeat split; eauto.
      * apply ex_init_ok. rewrite Ha1 in Hex. rewrite Hs1 in Hex. exact Hex.
      * eapply Forall_impl; [|exact Hfo]. cbn. intros a (H1 & H2 & H3). repeat split; try lia.
  - destruct Hop as [Hp Hb].
    destruct (encrypt_char s ad n b Hsh Hwf Hp Hb) as (e & s1 & b1 & Hrun & H).
    destruct (cs_step_char s (OpEnc ad n b) Hsh Hwf (conj Hp Hb)) as (e' & s1' & b1' & Hst & Hwf1 & Ha1).
    cbn in Hst. rewrite Hrun in Hst. cbn in Hst. inversion Hst; subst e' s1' b1'. clear Hst.
    rewrite Hrun. cbn [obind].
    assert (Hsh1 : cipher_shape (cs_alg s1)) by (rewrite Ha1; auto).
    destruct (IH s1 ep Hsh1 Hwf1 Hops') as (h & s' & u & Hr & Hm & Hex & Hso & Hfo).
    rewrite Hr. cbn.
    inversion H; subst.
    + do 3 eexists; split; [reflexivity|]. cbn.  repeat split; eauto.
      unfold cs_cur_key in *. rewrite H0 in *. apply ex_enc_clear; auto.
    + do 3 eexists; split; [reflexivity|]. cbn.  repeat split; eauto.
      unfold cs_cur_key in *. rewrite H0 in *. apply ex_enc_clear; auto.
    + do 3 eexists; split; [reflexivity|]. cbn.  repeat split; eauto.
      unfold cs_cur_key in *. rewrite H0 in *. apply ex_enc_refused; auto.
    + exists (Obs (OpEnc ad n b) e (Some (NBuf (Some (splice 0 out mem))
              (if is_none e then b_size b + ca_mac_len (cs_alg s) else b_size b) (b_max b))) :: h),
        s', ((ep, cs_n s) :: u).
      split; [reflexivity|]. cbn [map o_op].  split; [reflexivity|].
      cbn in Hfo. split; [|split].
      * unfold cs_cur_key in *. cbn in Hex. rewrite H0 in *. apply ex_enc_used; auto. cbn.
        rewrite H3. f_equal.
        pose proof (shape_enc _ Hsh (cs_key s) (cs_n s) (ptr_bytes ad n) (contents b)) as Hl.
        rewrite H3 in Hl. cbn in Hl.
        replace (b_size b + ca_mac_len (cs_alg s)) with (zlen out).
        apply take_splice_0. rewrite Hl. f_equal.
        unfold contents. rewrite H2. rewrite zlen_take.
        destruct Hb as (Hs0 & Hm0 & Hst). rewrite H2 in Hst. unfold enc_accepts in H1. lia.
      * constructor; auto. eapply Forall_impl; [|exact Hfo]. cbn. intros [e1 n1]; cbn.
        unfold nonce_lt; cbn. intros (Hx & Hy & Hz).
        destruct (Nat.eq_dec e1 ep); [right|left]; [split; auto|]; lia.
      * unfold enc_accepts in H1. constructor.
        -- cbn. repeat split; try lia.
        -- eapply Forall_impl; [|exact Hfo]. cbn. intros a (Hx & Hy & Hz). repeat split; try lia.
  - destruct Hop as [Hp Hb].
    destruct (decrypt_char s ad n b Hsh Hwf Hp Hb) as (e & s1 & b1 & Hrun & H).
    destruct (cs_step_char s (OpDec ad n b) Hsh Hwf (conj Hp Hb)) as (e' & s1' & b1' & Hst & Hwf1 & Ha1).
    cbn in Hst. rewrite Hrun in Hst. cbn in Hst. inversion Hst; subst e' s1' b1'. clear Hst.
    rewrite Hrun. cbn [obind].
    assert (Hsh1 : cipher_shape (cs_alg s1)) by (rewrite Ha1; auto).
    destruct (IH s1 ep Hsh1 Hwf1 Hops') as (h & s' & u & Hr & Hm & Hex & Hso & Hfo).
    rewrite Hr. cbn.
    assert (Hck : cs_cur_key s1 = cs_cur_key s /\ cs_n s <= cs_n s1).
    { inversion H; subst; split; auto; try lia; destruct (is_none e); auto; cbn; lia. }
    destruct Hck as [Hck Hnn]. rewrite Hck, Ha1 in Hex.
    do 3 eexists; split; [reflexivity|]. cbn. rewrite Hm. repeat split; eauto.
    + apply ex_dec; auto.
    + eapply Forall_impl; [|exact Hfo]. cbn. intros a (Hx & Hy & Hz). repeat split; try lia.
  - destruct (cs_step_char s (OpSetNonce n) Hsh Hwf Hop) as (e' & s1' & b1' & Hst & Hwf1 & Ha1).
    cbn in Hst. destruct (cipherstate_set_nonce s n) as [e s1] eqn:Hset.
    inversion Hst; subst e' s1' b1'. clear Hst.
    cbn [obind].
    assert (Hsh1 : cipher_shape (cs_alg s1)) by (rewrite Ha1; auto).
    destruct (IH s1 ep Hsh1 Hwf1 Hops') as (h & s' & u & Hr & Hm & Hex & Hso & Hfo).
    rewrite Hr. cbn.
    assert (Hck : cs_cur_key s1 = cs_cur_key s /\ cs_n s <= cs_n s1).
    { unfold cipherstate_set_nonce in Hset. destruct (cs_has_key s) eqn:Hk; cbn in Hset.
      - destruct (Z.ltb_spec n (cs_n s)); inversion Hset; subst; cbn; unfold cs_cur_key; cbn; rewrite ?Hk; auto; split; auto; lia.
      - inversion Hset; subst; split; auto; lia. }
    destruct Hck as [Hck Hnn]. rewrite Hck, Ha1 in Hex.
    do 3 eexists; split; [reflexivity|]. cbn. rewrite Hm. repeat split; eauto.
    + apply ex_set; auto.
    + eapply Forall_impl; [|exact Hfo]. cbn. intros a (Hx & Hy & Hz). repeat split; try lia.
Qed.

(** Reachable states satisfy the invariant. *)
Lemma cs_new_wf : forall alg, cs_wf (cipherstate_new alg).
Proof. intros; constructor; cbn; [lia|discriminate]. Qed.

Lemma cs_run_wf : forall ops s hist s',
  cipher_shape (cs_alg s) -> cs_wf s -> Forall op_ok ops ->
  cs_run s ops = Ok (hist, s') -> cs_wf s' /\ cs_alg s' = cs_alg s.
Proof.
  induction ops as [|op ops IH]; intros s hist s' Hsh Hwf Hops Hr; cbn in Hr.
  - inversion Hr; subst; auto.
  - inversion Hops; subst.
    destruct (cs_step_char s op Hsh Hwf H1) as (e & s1 & b & Hst & Hwf1 & Ha).
    rewrite Hst in Hr. cbn in Hr. destruct (cs_run s1 ops) as [[h s2]|] eqn:Hr1; [|discriminate].
    cbn in Hr. inversion Hr; subst.
    rewrite <- Ha in *. eapply IH; eauto.
Qed.

Lemma sorted_nodup : forall l, StronglySorted nonce_lt l -> NoDup l.
Proof.
  induction 1; constructor; auto. intros Hin. rewrite Forall_forall in H0.
  specialize (H0 _ Hin). unfold nonce_lt in H0. lia.
Qed.

(** ** Streams *)
Lemma contents_mk : forall m, contents (NBuf (Some m) (zlen m) (zlen m)) = m.
Proof. intros; unfold contents; cbn. apply take_all; lia. Qed.

Lemma ptr_bytes_all : forall l, ptr_bytes (Some l) (zlen l) = l.
Proof. intros; cbn; apply take_all; lia. Qed.

Lemma ptr_ok_all : forall l, bytes l -> ptr_ok (Some l) (zlen l).
Proof. intros; split; [apply zlen_nonneg|]; split; auto; lia. Qed.

Lemma buf_ok_all : forall m, bytes m -> buf_ok (NBuf (Some m) (zlen m) (zlen m)).
Proof. intros; repeat split; cbn; try apply zlen_nonneg; auto; lia. Qed.

Definition keyed (alg : cipher_alg) (k : list Z) (n : Z) : cipherstate :=
  CipherState alg true k n.

Lemma init_key_keyed : forall s k, zlen k = ca_key_len (cs_alg s) ->
  cipherstate_init_key s (Some k) (zlen k) = Ok (E_NONE, keyed (cs_alg s) k 0).
Proof.
  intros s k H; unfold cipherstate_init_key. rewrite H, Z.eqb_refl. cbn [negb read_ptr].
  rewrite <- H. destruct (Z.leb_spec (zlen k) (zlen k)); [|lia]. cbn. rewrite take_all by lia. reflexivity.
Qed.

Lemma receive_stream : forall alg k i ms ps,
  cipher_correct alg -> zlen k = ca_key_len alg -> bytes k ->
  stream alg k i ms ps ->
  0 <= i -> i + zlen ms <= 2^64 - 1 ->
  Forall (fun m => bytes (fst m) /\ bytes (snd m) /\
                   zlen (snd m) + ca_mac_len alg <= MAX_PAYLOAD_LEN) ms ->
  Forall (fun p => bytes (snd (fst p)) /\ bytes (snd p)) ps ->
  exists outs,
    receive_all (keyed alg k i) ps = Ok (outs, keyed alg k (i + zlen ms)) /\
    map (fun o => is_none (fst o)) outs = map (fun p => fst (fst p)) ps /\
    map snd (filter (fun o => is_none (fst o)) outs) = map snd ms /\
    Forall2 (fun p o => fst (fst p) = false -> zlen (snd o) = zlen (snd p)) ps outs.
Proof.
  intros alg k i ms ps Hc Hkl Hkb Hst. pose proof (correct_shape _ Hc) as Hsh.
  pose proof (shape_mac _ Hsh) as Hmac.
  induction Hst as [i|i ad pt ms ps Hst IH|i ad p ms ps Hj Hst IH];
    intros Hi0 Hi Hms Hps; cbn [receive_all].
  - exists []. rewrite zlen_nil, Z.add_0_r. repeat split; constructor.
  - inversion Hms as [|? ? (Hb1 & Hb2 & Hl) Hms']; subst. cbn in Hb1, Hb2, Hl.
    inversion Hps as [|? ? (Hb3 & Hb4) Hps']; subst. cbn in Hb3, Hb4.
    rewrite zlen_cons in Hi. pose proof (zlen_nonneg _ ms).
    assert (Hin : 0 <= i < 2^64 - 1) by lia.
    pose proof (correct_enc _ Hc k i ad pt Hkl Hkb Hb1 Hb2 Hin Hl) as He.
    destruct (correct_dec _ Hc k i ad pt Hkl Hkb Hb1 Hb2 Hin Hl) as [rest Hd].
    destruct (ca_encrypt alg k i ad pt) as [e ct] eqn:Hen. cbn in He, Hd, Hb4. subst e.
    pose proof (shape_enc _ Hsh k i ad pt) as Hlen. rewrite Hen in Hlen. cbn in Hlen.
    pose proof (shape_dec _ Hsh k i ad ct) as Hlen2. rewrite Hd in Hlen2. cbn in Hlen2.
    rewrite zlen_app in Hlen2. pose proof (zlen_nonneg _ pt).
    assert (Hwf : cs_wf (keyed alg k i)) by (constructor; cbn; auto; lia).
    destruct (decrypt_char (keyed alg k i) (Some ad) (zlen ad) (NBuf (Some ct) (zlen ct) (zlen ct))
       Hsh Hwf (ptr_ok_all _ Hb1) (buf_ok_all _ Hb4)) as (e & s1 & b1 & Hrun & H1).
    cbn [snd]. rewrite Hrun. cbn [obind].
    assert (Hacc : dec_accepts (keyed alg k i) (Some ad) (zlen ad) (NBuf (Some ct) (zlen ct) (zlen ct))).
    { unfold dec_accepts; cbn. repeat split; (congruence || lia). }
    destruct IH as (outs & Hr & Hf & Hm & Hz); auto; try lia.
    inversion H1 as [?|?|?|mem e0 out Hk Hac Hbd Hdec]; subst; try (cbn in *; discriminate); try tauto.
    rewrite contents_mk, ptr_bytes_all in Hdec. cbn in Hdec. rewrite Hd in Hdec.
    inversion Hdec; subst. cbn in Hbd. inversion Hbd; subst mem. clear Hdec Hbd H1.
    change (is_none E_NONE) with true in *. cbv iota.
    change (set_n (keyed alg k i) (cs_n (keyed alg k i) + 1)) with (keyed alg k (i+1)).
    rewrite Hr. cbn [obind fst snd].
    replace (i + 1 + zlen ms) with (i + zlen ((ad, pt) :: ms)) by (rewrite zlen_cons; lia).
    eexists; split; [reflexivity|]. cbn [map filter fst snd]. cbn [is_none err_eqb].
    rewrite Hf. split; [reflexivity|]. cbn [map fst snd]. rewrite Hm. split.
    + f_equal. unfold contents; cbn [b_data b_size cs_alg keyed].
      rewrite splice_0. rewrite Hlen. rewrite take_app_le by (rewrite zlen_app; lia).
      rewrite take_app_le by lia. apply take_all; lia.
    + constructor; auto. cbn. discriminate.
  - inversion Hps as [|? ? (Hb3 & Hb4) Hps']; subst. cbn in Hb3, Hb4.
    pose proof (zlen_nonneg _ ms). pose proof (zlen_nonneg _ p).
    assert (Hwf : cs_wf (keyed alg k i)) by (constructor; cbn; auto; lia).
    destruct (decrypt_char (keyed alg k i) (Some ad) (zlen ad) (NBuf (Some p) (zlen p) (zlen p))
       Hsh Hwf (ptr_ok_all _ Hb3) (buf_ok_all _ Hb4)) as (e & s1 & b1 & Hrun & H1).
    rewrite Hrun. cbn [obind].
    destruct IH as (outs & Hr & Hf & Hm & Hz); auto.
    assert (He : e <> E_NONE /\ s1 = keyed alg k i /\ b_size b1 = zlen p /\
                 exists mm, b_data b1 = Some mm /\ zlen mm = zlen p).
    { inversion H1 as [?|?|?|mem e0 out Hk Hac Hbd Hdec]; subst; try (cbn in *; discriminate).
      - repeat split; auto. cbn. eauto.
      - rewrite contents_mk, ptr_bytes_all in Hdec. cbn in Hdec, Hbd. inversion Hbd; subst mem.
        unfold dec_accepts in Hac. cbn in Hac.
        destruct Hj as [Hj|[Hj|Hj]]; try lia.
        pose proof (shape_dec _ Hsh k i ad p) as Hls.
        rewrite Hdec in Hj, Hls. cbn in Hj, Hls.
        destruct (is_none e) eqn:Hie; [apply is_none_true in Hie; congruence|].
        repeat split; auto. cbn. eexists; split; eauto. apply splice_length; lia. }
    destruct He as (He & -> & Hbs & mm & Hbm & Hlm).
    rewrite Hr. cbn [obind fst snd].
    eexists; split; [reflexivity|]. cbn [map filter fst snd].
    apply is_none_false in He. rewrite He. rewrite Hf, Hm. repeat split; auto.
    constructor; auto. cbn. intros _. unfold contents. rewrite Hbm, Hbs, zlen_take. lia.
Qed.

Lemma send_stream : forall alg k spare ms i,
  cipher_correct alg -> zlen k = ca_key_len alg -> bytes k -> bytes spare ->
  ca_mac_len alg <= zlen spare ->
  0 <= i -> i + zlen ms <= 2^64 - 1 ->
  Forall (fun m => bytes (fst m) /\ bytes (snd m) /\
                   zlen (snd m) + ca_mac_len alg <= MAX_PAYLOAD_LEN) ms ->
  exists ps,
    send_all (keyed alg k i) spare ms =
      Ok (map (fun p => (E_NONE, p)) ps, keyed alg k (i + zlen ms)) /\
    length ps = length ms /\ Forall bytes ps /\
    stream alg k i ms (map (fun x => (true, fst (fst x), snd x)) (combine ms ps)).
Proof.
  intros alg k spare ms. induction ms as [|[ad pt] ms IH];
    intros i Hc Hkl Hkb Hsb Hspare Hi0 Hi Hms; cbn [send_all].
  - exists []. rewrite zlen_nil, Z.add_0_r. repeat split; constructor.
  - pose proof (correct_shape _ Hc) as Hsh. pose proof (shape_mac _ Hsh) as Hmac.
    inversion Hms as [|? ? (Hb1 & Hb2 & Hl) Hms']; subst. cbn in Hb1, Hb2, Hl.
    rewrite zlen_cons in Hi. pose proof (zlen_nonneg _ ms). pose proof (zlen_nonneg _ pt).
    assert (Hin : 0 <= i < 2^64 - 1) by lia.
    pose proof (correct_enc _ Hc k i ad pt Hkl Hkb Hb1 Hb2 Hin Hl) as He.
    destruct (ca_encrypt alg k i ad pt) as [e ct] eqn:Hen. cbn in He. subst e.
    pose proof (shape_enc _ Hsh k i ad pt) as Hlen. rewrite Hen in Hlen. cbn in Hlen.
    pose proof (shape_enc_bytes _ Hsh k i ad pt Hkb Hb1 Hb2) as Hctb. rewrite Hen in Hctb. cbn in Hctb.
    assert (Hwf : cs_wf (keyed alg k i)) by (constructor; cbn; auto; lia).
    set (b := NBuf (Some (pt ++ spare)) (zlen pt) (zlen pt + zlen spare)).
    assert (Hb : buf_ok b).
    { subst b; repeat split; cbn; try lia. rewrite zlen_app; lia. apply bytes_app; auto. }
    destruct (encrypt_char (keyed alg k i) (Some ad) (zlen ad) b
       Hsh Hwf (ptr_ok_all _ Hb1) Hb) as (e & s1 & b1 & Hrun & H1).
    rewrite Hrun. cbn [obind].
    assert (Hacc : enc_accepts (keyed alg k i) (Some ad) (zlen ad) b).
    { unfold enc_accepts; subst b; cbn. repeat split; (congruence || lia). }
    assert (Hcb : contents b = pt) by (subst b; unfold contents; cbn; apply take_app_exact).
    inversion H1 as [?|?|?|mem e0 out Hk Hac Hbd Henc]; try subst e0; subst s1 b1;
      try (cbn in *; discriminate); try tauto.
    rewrite Hcb, ptr_bytes_all in Henc. cbn in Henc. rewrite Hen in Henc.
    inversion Henc; subst e out. cbn in Hbd. inversion Hbd; subst mem.
    change (is_none E_NONE) with true in *. cbv iota.
    change (set_n (keyed alg k i) (cs_n (keyed alg k i) + 1)) with (keyed alg k (i+1)).
    destruct (IH (i+1)) as (ps & Hr & Hl1 & Hbp & Hst); auto; try lia.
    rewrite Hr. cbn [obind fst snd].
    exists (ct :: ps).
    replace (i + 1 + zlen ms) with (i + zlen ((ad, pt) :: ms)) by (rewrite zlen_cons; lia).
    split.
    + cbn [map]. do 4 f_equal. unfold contents; cbn [b_data b_size].
      subst b; cbn [b_size cs_alg keyed]. rewrite <- Hlen.
      rewrite splice_0. apply take_app_exact.
    + split; [cbn; f_equal; auto|]. split; [constructor; auto|].
      cbn [combine map fst snd]. pose proof (st_genuine alg k i ad pt ms _ Hst) as G.
      rewrite Hen in G. exact G.
Qed.
