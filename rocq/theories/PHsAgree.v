(** Proofs about HandshakeState: two parties following the Noise specification agree. *)
From Coq Require Import ZifyBool ZifyNat.
From Verif Require Import Base MUtil MCipher SCipher PCipher MHash SHash PHash MSymm SSymm PSymm MPatterns SPatterns MDh SDh PDh
  MHandshake SHandshake SHsApi PHandshake PHsTok PHsMsg SNoise SAgree PHsSize.

Section P.
Variable N : suite.
Variable id : protocol_id.
Local Notation ca := (n_cipher N).
Local Notation alg := (n_hash N).
Local Notation H := (n_H N).
Local Notation D := (n_dh N).
Local Notation E := (n_hyb N).
Local Notation psk := (psk_mode id).
Hypothesis Cok : cipher_correct ca.
Hypothesis Law : hash_law alg H.
Hypothesis Klen : ca_key_len ca <= ha_hash_len alg.
Hypothesis Mac : ca_mac_len ca <= 16.
Hypothesis Sd : dh_suite (n_dh_alg N) D.
Hypothesis Sh : dh_suite (n_hyb_alg N) E.
Variable static : KP D -> Prop.
Variable good : list Z -> Prop.
Hypothesis Ad : dh_agrees D static good.
Hypothesis Ah : dh_agrees E (fun _ => False) good.

Local Notation BL := (ha_block_len alg).
Local Notation KL := (ca_key_len ca).
Local Notation party := (party D E).
Local Notation EncryptAndHash := (EncryptAndHash H (aead_encrypt ca)).
Local Notation DecryptAndHash := (DecryptAndHash H (aead_decrypt ca)).
Local Notation DHToken := (DHToken H BL KL D E).
Local Notation MixDH := (MixDH H BL KL D E).
Local Notation WriteToken := (WriteToken H BL KL (aead_encrypt ca) D E psk).
Local Notation WriteTokens := (WriteTokens H BL KL (aead_encrypt ca) D E psk).
Local Notation ReadToken := (ReadToken H BL KL (ca_mac_len ca) (aead_decrypt ca) D E psk).
Local Notation ReadTokens := (ReadTokens H BL KL (ca_mac_len ca) (aead_decrypt ca) D E psk).
Local Notation know_of := (know_of D E).
Local Notation MixKey := (MixKey H BL KL).
Local Notation MixHash := (MixHash H).

(** ** The symmetric state *)
Record sym_ok (v : noise_sym) : Prop := {
  so_h : bytes (ns_h v);
  so_k : forall k, ns_k v = Some k -> sized KL k;
  so_n : 0 <= ns_n v
}.
Lemma mix_hash_ok : forall v d, sym_ok v -> sym_ok (MixHash v d).
Proof. intros v d []. constructor; cbn [SSymm.MixHash ns_h ns_k ns_n]; try assumption. apply (law_bytes _ _ Law). Qed.
Lemma mix_key_ok : forall v z, sym_ok v -> sym_ok (MixKey v z) /\ ns_n (MixKey v z) = 0.
Proof.
  intros v z [A B C]. unfold SSymm.MixKey. destruct (HKDF H BL (ns_ck v) z) as [ck t] eqn:Eh. destruct (zlen_hkdf N _ _ _ _ Law Eh) as (Z1 & Z2 & B1 & B2).
  split; [|reflexivity]. constructor; cbn [ns_h ns_k ns_n]; [exact A| |lia]. intros k Ek. injection Ek as <-.
  pose proof (shape_key _ (correct_shape _ Cok)). split; [rewrite zlen_take; lia|now apply bytes_take].
Qed.
Lemma mix_eph_ok : forall v q, sym_ok v -> sym_ok (MixEphemeral H BL KL psk v q) /\ 0 <= ns_n (MixEphemeral H BL KL psk v q) <= ns_n v + 1.
Proof.
  intros v q S. unfold MixEphemeral. pose proof (mix_hash_ok v q S) as M. destruct psk.
  - destruct (mix_key_ok _ q M) as [A B]. split; [exact A|]. rewrite B. pose proof (so_n _ S). lia.
  - split; [exact M|]. cbn [SSymm.MixHash ns_n]. pose proof (so_n _ S). lia.
Qed.
Lemma enc_dec : forall v pt, sym_ok v -> ns_n v < 2^64 - 1 -> bytes pt -> zlen pt + tag N (known (ns_k v)) <= MAX_PAYLOAD_LEN ->
  exists c v', EncryptAndHash v pt = Some (c, v') /\ DecryptAndHash v c = Some (pt, v') /\ bytes c /\ sym_ok v' /\ 0 <= ns_n v' <= ns_n v + 1.
Proof.
  intros v pt [A B C] Hn Hp Hl. unfold SSymm.EncryptAndHash, SSymm.DecryptAndHash. destruct (ns_k v) as [k|] eqn:Ek; cbn [known tag] in Hl.
  - destruct (Z.eqb_spec (ns_n v) max_nonce) as [X|X]; [unfold max_nonce in X; lia|]. destruct (B k eq_refl) as [Zk Bk].
    do 2 eexists. split; [reflexivity|]. unfold aead_encrypt, aead_decrypt.
    destruct (correct_dec _ Cok k (ns_n v) (ns_h v) pt Zk Bk A Hp (conj C Hn) Hl) as (rest & Ed). rewrite Ed. cbn [fst snd is_none].
    pose proof (shape_mac _ (correct_shape _ Cok)). pose proof (zlen_nonneg _ pt). rewrite (shape_enc _ (correct_shape _ Cok)).
    destruct (Z.ltb_spec (zlen pt + ca_mac_len ca) (ca_mac_len ca)); [lia|]. change (is_none E_NONE) with true. cbv iota.
    replace (zlen pt + ca_mac_len ca - ca_mac_len ca) with (zlen pt) by lia. rewrite take_app_exact. split; [reflexivity|].
    split; [now apply (shape_enc_bytes _ (correct_shape _ Cok))|]. cbn [SSymm.MixHash ns_n]. split; [|lia].
    apply (mix_hash_ok (NSym _ _ _ _)). constructor; cbn [ns_h ns_k ns_n]; [exact A| |lia]. intros k' Ek'. apply B. congruence.
  - do 2 eexists. split; [reflexivity|]. split; [reflexivity|]. split; [exact Hp|]. split; [|cbn [SSymm.MixHash ns_n]; lia].
    apply mix_hash_ok. constructor; auto. intros k' Ek'. apply B. congruence.
Qed.

(** ** Two parties in corresponding states *)
Definition made (F : dh_functions) (second : bool) (e : option (KP F)) (re : option (list Z)) : Prop :=
  forall k, e = Some k -> exists r, (sized (RANDLEN F second) r /\ good r) /\ GENERATE F second r (if second then re else None) = Some k.
Record half (A B : party) : Prop := {
  hf_re : p_re B = option_map (PUB D) (p_e A);
  hf_rf : p_rf B = option_map (PUB E) (p_f A);
  hf_rs : forall q, p_rs B = Some q -> exists k, p_s A = Some k /\ q = PUB D k;
  hf_s : forall k, p_s A = Some k -> static k;
  hf_e : made D (p_second A) (p_e A) (p_re A);
  hf_f : made E (p_second A) (p_f A) (p_rf A)
}.
Record linked (A B : party) : Prop := {
  li_sym : p_sym B = p_sym A;
  li_initiator : p_initiator B = negb (p_initiator A);
  li_second : p_second B = negb (p_second A);
  li_writing : p_writing B = negb (p_writing A);
  li_messages : p_messages B = p_messages A;
  li_ab : half A B;
  li_ba : half B A
}.
Lemma linked_sym : forall A B, linked A B -> linked B A.
Proof.
  intros A B [L1 L2 L3 L4 L5 L6 L7]. constructor; try (symmetry; assumption); try assumption; [rewrite L2|rewrite L3|rewrite L4]; now rewrite Bool.negb_involutive.
Qed.
Lemma linked_with : forall A B v, linked A B -> linked (with_sym A v) (with_sym B v).
Proof. intros A B v [? ? ? ? ? [] []]. constructor; try reflexivity; try assumption; constructor; assumption. Qed.

(** DH between the two *)
Lemma dh_eph : forall F st (Ag : dh_agrees F st good) second a b ra rb, made F second (Some a) (Some rb) -> made F (negb second) (Some b) (Some ra) ->
  ra = PUB F a -> rb = PUB F b -> exists z, DH F a rb = Some z /\ DH F b ra = Some z.
Proof.
  intros F st Ag second a b ra rb Ma Mb -> ->. destruct (Ma _ eq_refl) as (r1 & [S1 T1] & G1). destruct (Mb _ eq_refl) as (r2 & [S2 T2] & G2). destruct second; cbn [negb] in *.
  - destruct (ag_ephemeral _ _ _ Ag _ _ _ _ S2 T2 S1 T1 G2 G1) as (z & X & Y). exists z. auto.
  - exact (ag_ephemeral _ _ _ Ag _ _ _ _ S1 T1 S2 T2 G1 G2).
Qed.
Lemma dh_mixed : forall second e re s, made D second (Some e) re -> static s ->
  exists z, DH D s (PUB D e) = Some z /\ DH D e (PUB D s) = Some z.
Proof. intros second e re s M Hs. destruct (M _ eq_refl) as (r & [S T] & G). exact (ag_mixed _ _ _ Ad _ _ _ _ _ Hs S T G). Qed.
Lemma dh_pair : forall A B t, linked A B -> sane_dh (p_initiator A) (know_of A) t = true -> sane_dh (p_initiator B) (know_of B) t = true ->
  exists z, DHToken A t = Some (with_sym A (MixKey (p_sym A) z)) /\ DHToken B t = Some (with_sym B (MixKey (p_sym A) z)).
Proof.
  assert (W : forall A B t, linked A B -> p_initiator A = true -> sane_dh (p_initiator A) (know_of A) t = true -> sane_dh (p_initiator B) (know_of B) t = true ->
    exists z, DHToken A t = Some (with_sym A (MixKey (p_sym A) z)) /\ DHToken B t = Some (with_sym B (MixKey (p_sym A) z))).
  { intros A B t L Ia Sa Sb. pose proof (li_initiator _ _ L) as Ib. rewrite Ia in *. cbn [negb] in Ib. rewrite Ib in *.
    destruct L as [Y _ S2 _ _ [A1 A2 A3 A4 A5 A6] [B1 B2 B3 B4 B5 B6]].
    unfold sane_dh, PHsTok.know_of in *. cbn [w_s w_e w_f w_rs w_re w_rf] in *.
    destruct t; try discriminate; unfold SHandshake.DHToken; rewrite ?Ia, ?Ib; unfold SHandshake.MixDH; rewrite Y;
      apply andb_prop in Sa; destruct Sa as [Sa1 Sa2]; apply andb_prop in Sb; destruct Sb as [Sb1 Sb2].
    - destruct (p_e A) as [a|] eqn:Ea; [|discriminate]. destruct (p_e B) as [b|] eqn:Eb; [|discriminate]. cbn [option_map] in *. rewrite A1, B1 in *. rewrite S2 in B5.
      destruct (dh_eph D static Ad (p_second A) a b _ _ A5 B5 eq_refl eq_refl) as (z & -> & ->). exists z. split; reflexivity.
    - destruct (p_e A) as [a|] eqn:Ea; [|discriminate]. destruct (p_s B) as [b|] eqn:Eb; [|discriminate]. cbn [option_map] in *. rewrite A1 in *.
      destruct (p_rs A) as [q|] eqn:Eq; [|discriminate]. destruct (B3 _ eq_refl) as (k & Ek & ->). injection Ek as <-.
      destruct (dh_mixed _ _ _ b A5 (B4 _ eq_refl)) as (z & -> & ->). exists z. split; reflexivity.
    - destruct (p_s A) as [a|] eqn:Ea; [|discriminate]. destruct (p_e B) as [b|] eqn:Eb; [|discriminate]. cbn [option_map] in *. rewrite B1 in *.
      destruct (p_rs B) as [q|] eqn:Eq; [|discriminate]. destruct (A3 _ eq_refl) as (k & Ek & ->). injection Ek as <-.
      destruct (dh_mixed _ _ _ a B5 (A4 _ eq_refl)) as (z & -> & ->). exists z. split; reflexivity.
    - destruct (p_s A) as [a|] eqn:Ea; [|discriminate]. destruct (p_s B) as [b|] eqn:Eb; [|discriminate].
      destruct (p_rs B) as [q|] eqn:Eq; [|discriminate]. destruct (A3 _ eq_refl) as (k & Ek & ->). injection Ek as <-.
      destruct (p_rs A) as [q'|] eqn:Eq'; [|discriminate]. destruct (B3 _ eq_refl) as (k & Ek & ->). injection Ek as <-.
      destruct (ag_static _ _ _ Ad _ _ (A4 _ eq_refl) (B4 _ eq_refl)) as (z & -> & ->). exists z. split; reflexivity.
    - destruct (p_f A) as [a|] eqn:Ea; [|discriminate]. destruct (p_f B) as [b|] eqn:Eb; [|discriminate]. cbn [option_map] in *. rewrite A2, B2 in *. rewrite S2 in B6.
      destruct (dh_eph E _ Ah (p_second A) a b _ _ A6 B6 eq_refl eq_refl) as (z & -> & ->). exists z. split; reflexivity. }
  intros A B t L Sa Sb. destruct (p_initiator A) eqn:Ia; [apply (W A B t L Ia); [rewrite Ia; exact Sa|exact Sb]|].
  destruct (W B A t (linked_sym _ _ L)) as (z & X & Y); [rewrite (li_initiator _ _ L), Ia; reflexivity|exact Sb|rewrite Ia; exact Sa|].
  exists z. rewrite (li_sym _ _ L) in *. auto.
Qed.

(** ** One token *)
Lemma dh_token_spec : forall x i sec w t, (match t with E_ | S_ | F_ => False | _ => True end) -> sane_write x i sec w t = sane_dh i w t /\ sane_read x i sec w t = sane_dh i w t /\
  learn_write w t = w /\ learn_read w t = w.
Proof. intros x i sec w []; cbn; tauto. Qed.
Lemma made_new : forall F (second : bool) r re k, sized (RANDLEN F second) r -> good r -> GENERATE F second r re = Some k -> (second = false -> re = None) -> made F second (Some k) re.
Proof. intros F second r re k S T G Hn k' Ek. injection Ek as <-. exists r. split; [split; [exact S|exact T]|]. destruct second; [exact G|]. now rewrite <- Hn. Qed.
Lemma generates : forall a F st, dh_suite a F -> dh_agrees F st good -> forall second r e re, sized (RANDLEN F second) r -> good r ->
  Bool.eqb (known re) second = true -> made F (negb second) e None -> re = option_map (PUB F) e ->
  exists k, GENERATE F second r re = Some k /\ sized (DHLEN F second) (PUB F k).
Proof.
  intros a F st Sf Ag second r e re Hr Tr Hk M ->. destruct second, e as [e|]; cbn [option_map known Bool.eqb negb] in *; try discriminate.
  - destruct (M _ eq_refl) as (r' & [S' T'] & G'). pose proof (generate_sized _ _ Sf _ _ _ _ S' (fun X => False_ind _ (Bool.diff_false_true X)) G') as Sq.
    destruct (ag_second _ _ _ Ag r (PUB F e) Hr Tr Sq) as (k & Eg). exists k. split; [exact Eg|].
    apply (generate_sized _ _ Sf true r (Some (PUB F e)) k Hr); [|exact Eg]. intros _ q Eq. injection Eq as <-. exact Sq.
  - destruct (ag_first _ _ _ Ag r Hr Tr) as (k & Eg). exists k. split; [exact Eg|]. apply (generate_sized _ _ Sf false r None k Hr); [|exact Eg]. discriminate.
Qed.
Lemma made_none : forall F second e re, made F second e re -> second = false -> forall re', made F second e re'.
Proof. intros F second e re M -> re' k Ek. exact (M k Ek). Qed.
Lemma made_empty : forall F second re, made F second None re.
Proof. intros F second re k Ek. discriminate. Qed.

Lemma token_agrees : forall xa xb rand A B t, linked A B -> rand_ok rand -> (forall t n, good (rand t n)) -> sym_ok (p_sym A) -> ns_n (p_sym A) < 2^64 - 1 ->
  sane_write xa (p_initiator A) (p_second A) (know_of A) t = true -> sane_read xb (p_initiator B) (p_second B) (know_of B) t = true ->
  exists a A' B', WriteToken rand A t = Some (a, A') /\ (forall rest, ReadToken B t (a ++ rest) = Some (rest, B')) /\ bytes a /\ linked A' B' /\
    sym_ok (p_sym A') /\ 0 <= ns_n (p_sym A') <= ns_n (p_sym A) + 1 /\
    know_of A' = learn_write (know_of A) t /\ know_of B' = learn_read (know_of B) t.
Proof.
  intros xa xb rand A B t L Hr Hg So Hn Sa Sb.
  assert (Dh : (match t with E_ | S_ | F_ => False | _ => True end) ->
    exists a A' B', option_map (pair []) (DHToken A t) = Some (a, A') /\ (forall rest, option_map (pair (a ++ rest)) (DHToken B t) = Some (rest, B')) /\ bytes a /\ linked A' B' /\
    sym_ok (p_sym A') /\ 0 <= ns_n (p_sym A') <= ns_n (p_sym A) + 1 /\
    know_of A' = learn_write (know_of A) t /\ know_of B' = learn_read (know_of B) t).
  { intros Ht. destruct (dh_token_spec xa (p_initiator A) (p_second A) (know_of A) t Ht) as (E1 & _ & E3 & _).
    destruct (dh_token_spec xb (p_initiator B) (p_second B) (know_of B) t Ht) as (_ & E2 & _ & E4). rewrite E1 in Sa. rewrite E2 in Sb. rewrite E3, E4.
    destruct (dh_pair _ _ _ L Sa Sb) as (z & -> & ->). destruct (mix_key_ok _ z So) as [K1 K2]. exists [], (with_sym A (MixKey (p_sym A) z)), (with_sym B (MixKey (p_sym A) z)).
    split; [reflexivity|]. split; [intros rest; reflexivity|]. split; [constructor|]. split; [now apply linked_with|]. split; [exact K1|]. cbn [with_sym p_sym]. rewrite K2. pose proof (so_n _ So). split; [lia|]. split; reflexivity. }
  pose proof (li_second _ _ L) as L2. pose proof (li_sym _ _ L) as L1. pose proof (li_ab _ _ L) as Hab. pose proof (li_ba _ _ L) as Hba.
  assert (Nn : negb (p_second B) = p_second A) by (rewrite L2; apply Bool.negb_involutive).
  destruct t; try (apply Dh; exact I); clear Dh; cbn [SHandshake.WriteToken SHandshake.ReadToken sane_write sane_read] in *; cbv zeta; rewrite ?Nn, ?L1.
  - (* S *)
    apply andb_prop in Sa. destruct Sa as [_ Sa]. destruct (p_s A) as [k|] eqn:Es; [|unfold PHsTok.know_of in Sa; rewrite Es in Sa; discriminate Sa].
    destruct (ag_static_len _ _ _ Ad _ (p_second A) (hf_s _ _ Hab _ Es)) as [Zk Bk]. destruct (suite_lens _ _ Sd (p_second A)) as [_ Hl].
    destruct (enc_dec (p_sym A) (PUB D k) So Hn Bk) as (c & v & E1 & E2 & Bc & S2 & N2); [change MAX_PAYLOAD_LEN with 65535; pose proof (shape_mac _ (correct_shape _ Cok)); unfold tag; destruct (known _); lia|]. rewrite E1.
    destruct (keyed_enc N Cok _ _ _ _ E1) as [_ Zc]. exists c, (with_sym A v), (with_sym (with_rs B (PUB D k)) v). split; [reflexivity|].
    assert (Zn : DHLEN D (p_second A) + mac_overhead (ca_mac_len ca) (p_sym A) = zlen c) by (rewrite Zc; unfold mac_overhead, tag; destruct (ns_k (p_sym A)); cbn; lia).
    split; [intros rest; rewrite Zn, zlen_app; pose proof (zlen_nonneg _ rest); destruct (Z.ltb_spec (zlen c + zlen rest) (zlen c)); [lia|]; rewrite take_app_exact, drop_app_exact, E2; reflexivity|]. split; [exact Bc|]. split.
    { destruct L as [? ? ? ? ? [] []]. constructor; try reflexivity; try assumption; constructor; try assumption. intros q Eq. cbn in Eq. injection Eq as <-. exists k. auto. }
    split; [exact S2|]. split; [exact N2|]. split; reflexivity.
  - (* E *)
    apply andb_prop in Sa. destruct Sa as [_ Sa]. apply andb_prop in Sb. destruct Sb as [_ Sb].
    destruct (suite_lens _ _ Sd (p_second A)) as [Hl0 Hl]. pose proof (Hr E_ _ Hl0) as Hrs. pose proof (Hg E_ (RANDLEN D (p_second A))) as Hgs.
    assert (Mb : made D (negb (p_second A)) (p_e B) None).
    { rewrite <- L2. unfold PHsTok.know_of in Sa. cbn [w_re] in Sa. destruct (p_second A) eqn:Esa.
      - apply (made_none D _ _ _ (hf_e _ _ Hba)). now rewrite L2.
      - rewrite (hf_re _ _ Hba) in Sa. destruct (p_e B); [discriminate Sa|]. apply made_empty. }
    destruct (generates _ D _ Sd Ad (p_second A) _ (p_e B) (p_re A) Hrs Hgs Sa Mb (hf_re _ _ Hba)) as (k & Eg & Zk & Bk). rewrite Eg.
    exists (PUB D k), (with_sym (with_e A k) (MixEphemeral H BL KL psk (p_sym A) (PUB D k))), (with_sym (with_re B (PUB D k)) (MixEphemeral H BL KL psk (p_sym A) (PUB D k))).
    split; [reflexivity|].
    split; [intros rest; rewrite <- Zk, zlen_app; pose proof (zlen_nonneg _ rest); destruct (Z.ltb_spec (zlen (PUB D k) + zlen rest) (zlen (PUB D k))); [lia|]; rewrite take_app_exact, drop_app_exact;
      replace (REJECTS_NULL D && all_zerob (PUB D k)) with false by (destruct (REJECTS_NULL D) eqn:Er; [rewrite (ag_null _ _ _ Ad _ _ _ _ Hrs Hgs Eg Er)|]; reflexivity); reflexivity|]. split; [exact Bk|]. split.
    { destruct L as [? ? ? ? ? [] []]. constructor; try reflexivity; try assumption; constructor; try assumption; try reflexivity; cbn [with_sym with_e with_re p_e p_re p_second].
      - apply (made_new D _ _ _ _ Hrs Hgs Eg). intros X. unfold PHsTok.know_of in Sa. cbn [w_re] in Sa. rewrite X in Sa. destruct (p_re A); [discriminate Sa|reflexivity].
      - destruct (p_second B) eqn:Esb; [|apply (made_none D _ _ _ hf_e1 eq_refl)]. unfold PHsTok.know_of in Sb. cbn [w_e negb] in Sb.
        destruct (p_e B); [discriminate Sb|]. apply made_empty. }
    destruct (mix_eph_ok _ (PUB D k) So) as [M1 M2]. split; [exact M1|]. split; [exact M2|]. split; reflexivity.
  - (* F *)
    apply andb_prop in Sa. destruct Sa as [_ Sa]. apply andb_prop in Sb. destruct Sb as [_ Sb].
    destruct (suite_lens _ _ Sh (p_second A)) as [Hl0 Hl]. pose proof (Hr F_ _ Hl0) as Hrs. pose proof (Hg F_ (RANDLEN E (p_second A))) as Hgs.
    assert (Mb : made E (negb (p_second A)) (p_f B) None).
    { rewrite <- L2. unfold PHsTok.know_of in Sa. cbn [w_rf] in Sa. destruct (p_second A) eqn:Esa.
      - apply (made_none E _ _ _ (hf_f _ _ Hba)). now rewrite L2.
      - rewrite (hf_rf _ _ Hba) in Sa. destruct (p_f B); [discriminate Sa|]. apply made_empty. }
    destruct (generates _ E _ Sh Ah (p_second A) _ (p_f B) (p_rf A) Hrs Hgs Sa Mb (hf_rf _ _ Hba)) as (k & Eg & Zk & Bk). rewrite Eg.
    destruct (enc_dec (p_sym A) (PUB E k) So Hn Bk) as (c & v & E1 & E2 & Bc & S2 & N2); [change MAX_PAYLOAD_LEN with 65535; pose proof (shape_mac _ (correct_shape _ Cok)); unfold tag; destruct (known _); lia|]. rewrite E1.
    destruct (keyed_enc N Cok _ _ _ _ E1) as [_ Zc]. exists c, (with_sym (with_f A k) v), (with_sym (with_rf B (PUB E k)) v). split; [reflexivity|].
    assert (Zn : DHLEN E (p_second A) + mac_overhead (ca_mac_len ca) (p_sym A) = zlen c) by (rewrite Zc; unfold mac_overhead, tag; destruct (ns_k (p_sym A)); cbn; lia).
    split; [intros rest; rewrite Zn, zlen_app; pose proof (zlen_nonneg _ rest); destruct (Z.ltb_spec (zlen c + zlen rest) (zlen c)); [lia|]; rewrite take_app_exact, drop_app_exact, E2;
      replace (REJECTS_NULL E && all_zerob (PUB E k)) with false by (destruct (REJECTS_NULL E) eqn:Er; [rewrite (ag_null _ _ _ Ah _ _ _ _ Hrs Hgs Eg Er)|]; reflexivity); reflexivity|]. split; [exact Bc|]. split.
    { destruct L as [? ? ? ? ? [] []]. constructor; try reflexivity; try assumption; constructor; try assumption; try reflexivity; cbn [with_sym with_f with_rf p_f p_rf p_second].
      - apply (made_new E _ _ _ _ Hrs Hgs Eg). intros X. unfold PHsTok.know_of in Sa. cbn [w_rf] in Sa. rewrite X in Sa. destruct (p_rf A); [discriminate Sa|reflexivity].
      - destruct (p_second B) eqn:Esb; [|apply (made_none E _ _ _ hf_f1 eq_refl)]. unfold PHsTok.know_of in Sb. cbn [w_f negb] in Sb.
        destruct (p_f B); [discriminate Sb|]. apply made_empty. }
    split; [exact S2|]. split; [exact N2|]. split; reflexivity.
Qed.

Lemma tokens_agree : forall xa xb rand ts A B, linked A B -> rand_ok rand -> (forall t n, good (rand t n)) -> sym_ok (p_sym A) -> ns_n (p_sym A) + zlen ts <= 2^64 - 1 ->
  sane_tokens xa (p_initiator A) (p_second A) true (know_of A) ts = true -> sane_tokens xb (p_initiator B) (p_second B) false (know_of B) ts = true ->
  exists a A' B', WriteTokens rand A ts = Some (a, A') /\ (forall rest, ReadTokens B ts (a ++ rest) = Some (rest, B')) /\ bytes a /\ linked A' B' /\
    sym_ok (p_sym A') /\ 0 <= ns_n (p_sym A') <= ns_n (p_sym A) + zlen ts /\
    know_of A' = learn_tokens true (know_of A) ts /\ know_of B' = learn_tokens false (know_of B) ts /\
    fixed D E A A' /\ fixed D E B B'.
Proof.
  intros xa xb rand. induction ts as [|t ts IH]; intros A B L Hr Hg So Hn Sa Sb.
  - exists [], A, B. cbn [SHandshake.WriteTokens SHandshake.ReadTokens app]. pose proof (so_n _ So). rewrite zlen_nil in *.
    split; [reflexivity|]. split; [reflexivity|]. split; [constructor|]. split; [exact L|]. split; [exact So|]. split; [qlia|]. split; [reflexivity|]. split; [reflexivity|]. split; apply fixed_refl.
  - cbn [sane_tokens] in Sa, Sb. apply andb_prop in Sa. destruct Sa as [Sa1 Sa2]. apply andb_prop in Sb. destruct Sb as [Sb1 Sb2].
    rewrite zlen_cons in *. pose proof (zlen_nonneg _ ts) as Zts.
    destruct (token_agrees xa xb rand A B t L Hr Hg So ltac:(qlia) Sa1 Sb1) as (a & A1 & B1 & W1 & R1 & Ba & L1 & So1 & Hn1 & Ka1 & Kb1).
    destruct (WriteToken_fixed ca alg H D E psk _ _ _ _ _ W1) as (Fa & _). destruct (ReadToken_fixed ca alg H D E psk _ _ _ _ _ (R1 [])) as (Fb & _).
    pose proof Fa as (Fa1 & Fa2 & _). pose proof Fb as (Fb1 & Fb2 & _).
    destruct (IH A1 B1 L1 Hr Hg So1) as (b & A2 & B2 & W2 & R2 & Bb & L2 & So2 & Hn2 & Ka2 & Kb2 & Fa3 & Fb3);
      [qlia|rewrite Fa1, Fa2, Ka1; exact Sa2|rewrite Fb1, Fb2, Kb1; exact Sb2|].
    exists (a ++ b), A2, B2. cbn [SHandshake.WriteTokens SHandshake.ReadTokens]. rewrite W1, W2.
    split; [reflexivity|]. split; [intros rest; rewrite <- app_assoc, R1; apply R2|]. split; [apply bytes_app; auto|]. split; [exact L2|]. split; [exact So2|]. split; [qlia|].
    unfold learn_tokens in *. cbn [fold_left]. rewrite <- Ka1, <- Kb1. split; [exact Ka2|]. split; [exact Kb2|]. split; eapply fixed_trans; eauto.
Qed.

(** ** One message *)
Fixpoint budget (ms : list (list tok)) : Z := match ms with [] => 0 | ts :: ms => zlen ts + 1 + budget ms end.
Lemma budget_nonneg : forall ms, 0 <= budget ms.
Proof. induction ms as [|m ms IH]; cbn; [qlia|]. pose proof (zlen_nonneg _ m). qlia. Qed.
Record joint (xa xb : shape) (A B : party) : Prop := {
  jo_linked : linked A B;
  jo_sym : sym_ok (p_sym A);
  jo_nonce : ns_n (p_sym A) + budget (p_messages A) <= 1000;
  jo_sane : sane_messages xa (p_initiator A) (p_second A) (p_writing A) (know_of A) (p_messages A) = true;
  jo_sane' : sane_messages xb (p_initiator B) (p_second B) (p_writing B) (know_of B) (p_messages B) = true
}.
Lemma joint_sym : forall xa xb A B, joint xa xb A B -> joint xb xa B A.
Proof. intros xa xb A B [L S Hn Sa Sb]. pose proof (li_sym _ _ L) as E1. pose proof (li_messages _ _ L) as E2. constructor; rewrite ?E1, ?E2; try assumption; [now apply linked_sym|now rewrite <- E2]. Qed.

Lemma made_sized : forall a F, dh_suite a F -> forall second e re e', made F second e re -> re = option_map (PUB F) e' ->
  made F (negb second) e' (option_map (PUB F) e) -> forall q, option_map (PUB F) e = Some q -> sized (DHLEN F second) q.
Proof.
  intros a F Sf second e re e' M -> M' q Eq. destruct e as [k|]; [|discriminate]. injection Eq as <-. destruct (M _ eq_refl) as (r & [Sr _] & G).
  apply (generate_sized _ _ Sf second r _ k Sr) in G; [exact G|]. intros -> q Eq. destruct e' as [k'|]; [|discriminate]. injection Eq as <-.
  destruct (M' _ eq_refl) as (r' & [Sr' _] & G'). apply (generate_sized _ _ Sf false r' _ k' Sr') in G'; [exact G'|discriminate].
Qed.
Lemma linked_sized : forall A B, linked A B -> keys_sized N A.
Proof.
  intros A B [L1 L2 L3 L4 L5 [A1 A2 A3 A4 A5 A6] [B1 B2 B3 B4 B5 B6]]. constructor.
  - intros k Ek. apply (ag_static_len _ _ _ Ad). auto.
  - intros q Eq. rewrite B1 in Eq, A5. rewrite L3 in B5. apply (made_sized _ _ Sd (negb (p_second A)) (p_e B) (p_re B) (p_e A)); auto. now rewrite Bool.negb_involutive.
  - intros q Eq. rewrite B2 in Eq, A6. rewrite L3 in B6. apply (made_sized _ _ Sh (negb (p_second A)) (p_f B) (p_rf B) (p_f A)); auto. now rewrite Bool.negb_involutive.
Qed.

Lemma message_agrees : forall xa xb rand A B ts ms pl, joint xa xb A B -> rand_ok rand -> (forall t n, good (rand t n)) -> p_writing A = true -> p_messages A = ts :: ms ->
  bytes pl -> overhead_of N id (p_second A) (known (ns_k (p_sym A))) ts + zlen pl <= MAX_PAYLOAD_LEN ->
  exists m A' B', nWriteMessage N id rand A pl = Some (m, A') /\ nReadMessage N id B m = Some (pl, B') /\ bytes m /\ joint xa xb A' B' /\
    p_writing A' = false /\ p_messages A' = ms /\ p_second A' = p_second A /\ p_initiator A' = p_initiator A.
Proof.
  intros xa xb rand A B ts ms pl [L So Hn Sa Sb] Hr Hg Wa Em Bp Lp.
  pose proof (li_messages _ _ L) as Emb. rewrite Em in Emb. pose proof (li_writing _ _ L) as Wb. rewrite Wa in Wb. cbn [negb] in Wb.
  rewrite Wa, Em in Sa. rewrite Wb, Emb in Sb. cbn [sane_messages negb] in Sa, Sb. apply andb_prop in Sa. destruct Sa as [Sa1 Sa2]. apply andb_prop in Sb. destruct Sb as [Sb1 Sb2].
  rewrite Em in Hn. cbn [budget] in Hn. pose proof (budget_nonneg ms) as Zms.
  destruct (tokens_agree xa xb rand ts A B L Hr Hg So ltac:(qlia) Sa1 Sb1) as (a & A1 & B1 & W1 & R1 & Ba & L1 & So1 & Hn1 & Ka & Kb & Fa & Fb).
  destruct (write_tokens_size N id Cok Sd Sh _ _ _ _ _ Hr (linked_sized _ _ L) W1) as (Sz & _). pose proof (zlen_nonneg _ a) as Za.
  destruct (enc_dec (p_sym A1) pl So1 ltac:(qlia) Bp ltac:(qlia)) as (c & v & E1 & E2 & Bc & S2 & N2).
  exists (a ++ c), (next_message (with_sym A1 v)), (next_message (with_sym B1 v)). unfold nWriteMessage, nReadMessage, WriteMessage, ReadMessage.
  rewrite Em, Emb, W1, E1, R1, (li_sym _ _ L1), E2. split; [reflexivity|]. split; [reflexivity|]. split; [apply bytes_app; auto|].
  destruct Fa as (Fa1 & Fa2 & Fa3 & Fa4 & Fa5). destruct Fb as (Fb1 & Fb2 & Fb3 & Fb4 & Fb5).
  split.
  - constructor; cbn [next_message with_sym p_sym p_messages p_initiator p_second p_writing].
    + destruct L1 as [Q1 Q2 Q3 Q4 Q5 [] []]. constructor; try reflexivity; try assumption; cbn [next_message with_sym p_sym p_messages p_initiator p_second p_writing]; [now rewrite Q4|now rewrite Q5|constructor; assumption|constructor; assumption].
    + exact S2.
    + rewrite Fa5, Em. cbn [tl]. qlia.
    + rewrite Fa1, Fa2, Fa4, Fa5, Wa, Em. cbn [tl negb]. change (know_of (next_message (with_sym A1 v))) with (know_of A1). rewrite Ka. exact Sa2.
    + rewrite Fb1, Fb2, Fb4, Fb5, Wb, Emb. cbn [tl negb]. change (know_of (next_message (with_sym B1 v))) with (know_of B1). rewrite Kb. exact Sb2.
  - cbn [next_message with_sym p_writing p_messages p_second p_initiator]. rewrite Fa4, Fa5, Em, Wa, Fa2, Fa1. auto.
Qed.
End P.
