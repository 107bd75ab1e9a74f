(** Proofs about the key loader: loading a private key. *)
From Coq Require Import String ZifyBool ZifyNat.
From Verif Require Import Base Str MCipher SCipher PCipher MHash SHash SHashLib PHash PHash2 THash MNames SNames PNames TNames
  MProto SProto PProtoNum PProto PProtoRead MCert SCert PCert TCert MLoader SLoader PLoader PLoaderSave.
Local Opaque derived protected_key.

Section Loading.
Variable cipher_of : Z -> option cipher_alg.
Variable hash_of : Z -> option (hash_alg * hctx).
Variables (name : list Z) (ca : cipher_alg) (H : list Z -> list Z) (B lim : Z).
Variables (pw salt data : list Z) (it : Z) (b : pbuf) (fuel : nat).
Hypothesis Hpr : protection cipher_of hash_of name ca H B lim.
Hypothesis Hpw : bytes pw.
Hypothesis Hpl : zlen pw < lim.
Hypothesis Hsalt : bytes salt.
Hypothesis Hsl : zlen salt + 4 + B < lim.
Hypothesis Hit : 1 <= it < 2^32.
Hypothesis Hdata : bytes data.
Notation file := (message 0 EncryptedPrivateKey (enc_object name salt data it)).
Hypothesis Hb : pb_ok b.
Hypothesis Hnext : next_bytes b file.
Hypothesis Hall : pb_posn b + zlen file = pb_size b.
Hypothesis Hfuel : zlen file <= Z.of_nat fuel.

Lemma load_open : exists n, load_private_key_from_buffer cipher_of hash_of fuel enough_memory (Some b) (Some pw) (zlen pw) =
  let! r := cipherstate_decrypt_with_ad (keyed ca (fst (derived H B pw salt it)) (snd (derived H B pw salt it))) None 0 (NBuf (Some data) (zlen data) (zlen data)) in
  let '(e, _, buf) := r in
  if negb (is_none e) then Ok (Some (e, None))
  else
    match b_data buf with
    | None => UB
    | Some d =>
      let! r := cert_read fuel enough_memory PrivateKey (Some (prepare_input d (b_size buf))) 0 n in
      match r with
      | None => Ok None
      | Some (e, key, _, _) => Ok (Some (e, key))
      end
    end.
Proof.
  destruct Hpr as (cid & hid & ha & hc & L & Hn & Hc & Cc & Kc & Hh & Lh & Ch).
  destruct (name_facts _ _ _ Hn) as (N1 & N2 & N3 & N4).
  assert (Lim : lim <= 2^125) by (destruct Lh; lia).
  pose proof (zlen_nonneg _ salt). pose proof (zlen_nonneg _ data). assert (HBp : 0 < B) by (destruct Lh; lia).
  destruct Hb as (Q1 & Q2 & _). pose proof (enc_object_len name salt data it) as Le.
  assert (Sl : zlen salt <= zlen file).
  { unfold message. cbn [encoding]. change (0 =? 0) with true. cbv iota. unfold object_fields, enc_object. cbn [schema flat2]. rewrite !flat_map_app, !zlen_app.
    change (flat_map encoding (member_fields (VBlock (Some salt)) (12, KBytes))) with (field_bytes 12 (Delimited salt) ++ []).
    rewrite app_nil_r. pose proof (field_bytes_delim_len 12 salt).
    repeat match goal with |- context [zlen (flat_map encoding ?x)] => pose proof (zlen_nonneg _ (flat_map encoding x)); generalize dependent (zlen (flat_map encoding x)); intros end.
    lia. }
  assert (Oe : object_ok EncryptedPrivateKey (enc_object name salt data it)) by (apply enc_object_ok; auto; lia).
  destruct (C54_read_back EncryptedPrivateKey 0 (enc_object name salt data it) b 0 fuel Oe ltac:(unfold is_tag; lia) Hb Hnext) as (n & R); [intros _; exact Hall|exact Hfuel|].
  exists n. unfold load_private_key_from_buffer. rewrite R. cbn [obind is_none err_eqb negb]. unfold enc_object at 1. cbv iota.
  unfold KEY_VERSION. change (1 =? 1) with true. replace (it =? 0) with false by lia. cbn [negb orb].
  rewrite (parse_ok _ _ _ [] Hn). cbn [obind is_none err_eqb negb]. rewrite Hc.
  unfold cipherstate_get_key_length. cbn [cipherstate_new cs_alg]. rewrite Kc. cbn [Z.eqb Pos.eqb negb]. rewrite Hh.
  destruct (set_up_ok ha H B L lim hc (cipherstate_new ca) pw salt it Lh Ch Kc Hpw Hsalt Hpl Hsl ltac:(lia)) as (hc' & _ & ->). cbn [obind cs_alg]. reflexivity.
Qed.

Lemma key_facts : bytes (fst (derived H B pw salt it)) /\ zlen (fst (derived H B pw salt it)) = ca_key_len ca /\ 0 <= snd (derived H B pw salt it) < 2^64.
Proof.
  destruct Hpr as (cid & hid & ha & hc & L & Hn & Hc & Cc & Kc & Hh & Lh & Ch).
  destruct (derived_ok ha H B L lim pw salt it Lh Hpw Hsalt Hpl Hsl ltac:(lia)) as (D1 & D2 & D3). rewrite Kc. auto.
Qed.

(** A file with a key protected by this pass phrase *)
Lemma load_good : forall o, object_ok PrivateKey o -> zlen (message 0 PrivateKey o) + ca_mac_len ca <= MAX_PAYLOAD_LEN ->
  snd (derived H B pw salt it) <> 2^64 - 1 -> data = protected_key ca H B pw salt it o ->
  load_private_key_from_buffer cipher_of hash_of fuel enough_memory (Some b) (Some pw) (zlen pw) = Ok (Some (E_NONE, Some o)).
Proof.
  intros o Ho Hl Hn Ed. destruct load_open as (n & ->). destruct key_facts as (K1 & K2 & K3).
  destruct Hpr as (_ & _ & _ & _ & _ & _ & _ & Cc & _). clear Hpr.
  assert (Ec : data = snd (ca_encrypt ca (fst (derived H B pw salt it)) (snd (derived H B pw salt it)) [] (message 0 PrivateKey o))).
  { Local Transparent protected_key. rewrite Ed. unfold protected_key. destruct (derived H B pw salt it). reflexivity. }
  Local Opaque protected_key. clear Ed.
  generalize dependent (derived H B pw salt it). intros [k nn]. cbn [fst snd]. intros Hn K1 K2 K3 Ec.
  pose proof (zlen_nonneg _ (message 0 PrivateKey o)). pose proof (shape_mac _ (correct_shape _ Cc)).
  assert (Bp : bytes (message 0 PrivateKey o)) by (apply message_bytes; [exact Ho|unfold MAX_PAYLOAD_LEN in *; lia]).
  pose proof (shape_enc _ (correct_shape _ Cc) k nn [] (message 0 PrivateKey o)) as Zd. rewrite <- Ec in Zd.
  destruct (correct_dec _ Cc k nn [] (message 0 PrivateKey o)) as (junk & Dc); auto; [apply Forall_nil|lia|]. rewrite <- Ec in Dc.
  pose proof (shape_dec _ (correct_shape _ Cc) k nn [] data ltac:(lia)) as Zo. rewrite Dc in Zo. cbn [snd] in Zo.
  assert (Bo : bytes (message 0 PrivateKey o ++ junk)).
  { pose proof (shape_dec_bytes _ (correct_shape _ Cc) k nn [] data K1 (Forall_nil _) Hdata) as X. now rewrite Dc in X. }
  unfold cipherstate_decrypt_with_ad. cbn [b_data b_size b_max keyed cs_has_key cs_alg cs_n cs_key negb]. change (negb (0 =? 0)) with false. cbv iota.
  rewrite Z.ltb_irrefl. replace (MAX_PAYLOAD_LEN <? zlen data) with false by lia. cbn [orb]. replace (zlen data <? ca_mac_len ca) with false by lia.
  replace (nn =? 2 ^ 64 - 1) with false by lia. cbn [read_ptr]. change (0 =? 0) with true. cbn [obind]. rewrite load_ok by lia. cbn [obind].
  assert (Es : sub 0 (zlen data) data = data) by (unfold sub; rewrite drop_le0 by lia; apply take_all; lia). rewrite Es, Dc.
  rewrite store_ok by lia. rewrite splice_0, drop_all, app_nil_r by lia. cbn [obind is_none err_eqb negb b_data b_size].
  replace (zlen data - ca_mac_len ca) with (zlen (message 0 PrivateKey o)) by lia.
  set (b2 := prepare_input (message 0 PrivateKey o ++ junk) (zlen (message 0 PrivateKey o))).
  assert (Zj : zlen (message 0 PrivateKey o) <= zlen (message 0 PrivateKey o ++ junk)) by (rewrite zlen_app; pose proof (zlen_nonneg _ junk); lia).
  unfold MAX_PAYLOAD_LEN in *.
  destruct (C54_read_back PrivateKey 0 o b2 n fuel Ho ltac:(unfold is_tag; lia)) as (n' & ->).
  - unfold b2, pb_ok. cbn [prepare_input pb_posn pb_data pb_size]. split; [lia|]. split; [lia|]. split; [lia|exact Bo].
  - split; [reflexivity|]. exists (message 0 PrivateKey o ++ junk). split; [reflexivity|]. unfold b2. cbn [prepare_input pb_posn pb_size]. split; [lia|].
    unfold sub. rewrite drop_le0 by lia. apply take_app_exact.
  - intros _. unfold b2. cbn [prepare_input pb_posn pb_size]. lia.
  - pose proof (enc_object_len name salt data it). lia.
  - reflexivity.
Qed.

(** Only encryptions under the key derived from the pass phrase are accepted. *)
Lemma load_genuine : cipher_genuine ca ->
  exists e x, load_private_key_from_buffer cipher_of hash_of fuel enough_memory (Some b) (Some pw) (zlen pw) = Ok (Some (e, x)) /\
    (e <> E_NONE -> x = None) /\
    (e = E_NONE -> exists o plain, x = Some o /\ object_ok PrivateKey o /\
       data = snd (ca_encrypt ca (fst (derived H B pw salt it)) (snd (derived H B pw salt it)) [] plain) /\
       exists mem p n1 n2, take (zlen plain) mem = plain /\
         cert_read fuel enough_memory PrivateKey (Some (prepare_input mem (zlen plain))) 0 n1 = Ok (Some (E_NONE, Some o, p, n2))).
Proof.
  intros Hg. destruct load_open as (n & ->). destruct key_facts as (K1 & K2 & K3).
  pose proof (enc_object_len name salt data it) as Le. destruct Hb as (Q1 & Q2 & _).
  destruct Hpr as (_ & _ & _ & _ & _ & _ & _ & Cc & _). clear Hpr.
  generalize dependent (derived H B pw salt it). intros [k nn]. cbn [fst snd]. intros K1 K2 K3.
  pose proof (zlen_nonneg _ data). pose proof (shape_mac _ (correct_shape _ Cc)).
  unfold cipherstate_decrypt_with_ad. cbn [b_data b_size b_max keyed cs_has_key cs_alg cs_n cs_key negb]. change (negb (0 =? 0)) with false. cbv iota.
  rewrite Z.ltb_irrefl. cbn [orb].
  destruct (Z.ltb_spec MAX_PAYLOAD_LEN (zlen data)); [exists E_INVALID_LENGTH, None; split; [reflexivity|]; split; [auto|discriminate]|].
  destruct (Z.ltb_spec (zlen data) (ca_mac_len ca)); [exists E_INVALID_LENGTH, None; split; [reflexivity|]; split; [auto|discriminate]|].
  destruct (Z.eqb_spec nn (2 ^ 64 - 1)); [exists E_INVALID_NONCE, None; split; [reflexivity|]; split; [auto|discriminate]|].
  cbn [read_ptr]. change (0 =? 0) with true. cbn [obind]. rewrite load_ok by lia. cbn [obind].
  assert (Es : sub 0 (zlen data) data = data) by (unfold sub; rewrite drop_le0 by lia; apply take_all; lia). rewrite Es.
  pose proof (shape_dec _ (correct_shape _ Cc) k nn [] data ltac:(lia)) as Zo.
  pose proof (shape_dec_bytes _ (correct_shape _ Cc) k nn [] data K1 (Forall_nil _) Hdata) as Bo.
  pose proof (Hg k nn [] data K2 K1 (Forall_nil _) Hdata ltac:(lia) ltac:(lia) ltac:(lia)) as G.
  destruct (ca_decrypt ca k nn [] data) as [e out] eqn:Dc. cbn [fst snd] in *. rewrite store_ok by lia. rewrite splice_0, drop_all, app_nil_r by lia. cbn [obind].
  destruct (is_none e) eqn:Ee; cbn [negb obind].
  2:{ rewrite Ee. cbn [negb]. exists e, None. split; [reflexivity|]. split; [auto|]. intros ->. discriminate. }
  apply is_none_true in Ee. specialize (G Ee). cbn [b_data b_size is_none err_eqb negb].
  set (plain := take (zlen data - ca_mac_len ca) out) in *.
  assert (Zp : zlen plain = zlen data - ca_mac_len ca) by (unfold plain; rewrite zlen_take; lia).
  assert (Hb3 : pb_ok (prepare_input out (zlen plain))) by (split; [cbn; lia|]; split; [unfold MAX_PAYLOAD_LEN in *; cbn; lia|]; cbn; split; [lia|exact Bo]).
  rewrite <- Zp. destruct (C70_any_input_ends PrivateKey 0 _ out n fuel ltac:(lia) Hb3 eq_refl eq_refl) as (e2 & x & b' & n' & R & Cases); [cbn; lia|].
  rewrite R. cbn [obind]. exists e2, x. split; [reflexivity|]. destruct Cases as [(-> & o & -> & Ok_) | (Ne & -> & _)]; [|split; [auto|contradiction]].
  split; [congruence|]. intros _. exists o, plain. split; [reflexivity|]. split; [exact Ok_|]. split; [exact G|].
  exists out, (Some b'), n, n'. split; [|exact R]. rewrite Zp. reflexivity.
Qed.
End Loading.
