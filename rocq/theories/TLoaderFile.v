(** Properties of loading certificates and chains (C72) and of key files (C73). *)
From Coq Require Import String ZifyBool ZifyNat.
From Verif Require Import Base Str MCipher SCipher MHash SHash SHashLib MNames SNames TNames MProto SProto PProtoNum PProto MCert SCert TCert MLoader SLoader
  PLoader PLoaderSave PLoaderLoad PLoaderCert TLoader.
Local Opaque derived protected_key.

(** C72.  Where a certificate is expected and a chain is given, the first
    certificate of the chain is loaded; where a chain is expected and a
    certificate is given, the chain that has just this certificate is loaded. *)
Theorem C72_certificate_given : forall c b fuel, object_ok Certificate c -> pb_ok b -> next_bytes b (message 0 Certificate c) ->
  pb_posn b + zlen (message 0 Certificate c) = pb_size b -> zlen (message 0 Certificate c) <= Z.of_nat fuel ->
  load_certificate_from_buffer fuel enough_memory (Some b) = Ok (Some (E_NONE, Some c)) /\
  load_certificate_chain_from_buffer fuel enough_memory (Some b) = Ok (Some (E_NONE, Some [VArray [Some c]])).
Proof. exact certificate_alone. Qed.
Print Assumptions C72_certificate_given.
Theorem C72_chain_given : forall c l b fuel, let chain := [VArray (Some c :: l)] in object_ok CertificateChain chain -> pb_ok b ->
  next_bytes b (message 0 CertificateChain chain) -> pb_posn b + zlen (message 0 CertificateChain chain) = pb_size b ->
  zlen (message 0 CertificateChain chain) <= Z.of_nat fuel ->
  load_certificate_from_buffer fuel enough_memory (Some b) = Ok (Some (E_NONE, Some c)) /\
  load_certificate_chain_from_buffer fuel enough_memory (Some b) = Ok (Some (E_NONE, Some chain)).
Proof. exact chain_loads. Qed.
Print Assumptions C72_chain_given.
(** C72 (refuted for chains with no certificate): such a chain is saved as no bytes
    at all, and loading them gives a chain with one empty certificate. *)
Theorem C72_empty_chain_refuted : exists chain, object_ok CertificateChain chain /\
  load_certificate_chain_from_buffer 1 enough_memory (Some (input (message 0 CertificateChain chain))) =
    Ok (Some (E_NONE, Some [VArray [Some (empty_object Certificate)]])) /\
  chain <> [VArray [Some (empty_object Certificate)]].
Proof. exists [VArray []]. split; [split; exact I|]. split; [vm_compute; reflexivity|discriminate]. Qed.
Print Assumptions C72_empty_chain_refuted.
(** Two small certificates in a chain *)
Definition ex_cert1 : obj := [VInt 1; VObject (Some [VBlock (Some (str "a")); VBlock None; VBlock None; VArray []; VArray []]); VArray []].
Definition ex_cert2 : obj := [VInt 2; VObject None; VArray []].
Example chain_of_two : let chain := [VArray [Some ex_cert1; Some ex_cert2]] in
  load_certificate_from_buffer 20 enough_memory (Some (input (message 0 CertificateChain chain))) = Ok (Some (E_NONE, Some ex_cert1)) /\
  load_certificate_chain_from_buffer 20 enough_memory (Some (input (message 0 CertificateChain chain))) = Ok (Some (E_NONE, Some chain)).
Proof.
  intros chain. assert (Bs : forall l, forallb (fun x => (0 <=? x) && (x <? 256)) l = true -> bytes l).
  { intros l E. rewrite forallb_forall in E. apply Forall_forall. intros x Hx. specialize (E x Hx). unfold is_byte. lia. }
  assert (Ho : object_ok CertificateChain chain).
  { unfold chain, ex_cert1, ex_cert2, object_ok. cbn [schema all2 member_ok snd all].
    assert (bytes (str "a")) by (apply Bs; reflexivity). assert (zlen (str "a") < 2^64) by (vm_compute; reflexivity). assert (accepted (str "a")) by (vm_compute; reflexivity).
    repeat split; auto; lia. }
  apply chain_loads; [exact Ho| | | |].
  - split; [vm_compute; split; discriminate|]. split; [now vm_compute|]. cbn [input pb_data pb_size]. split; [vm_compute; discriminate|apply Bs; vm_compute; reflexivity].
  - split; [reflexivity|]. eexists. split; [reflexivity|]. split; [vm_compute; discriminate|vm_compute; reflexivity].
  - reflexivity.
  - vm_compute. discriminate.
Qed.

(** C73.  An object is saved to a file as exactly its message if that has at most
    65535 bytes, otherwise there is an error and no file. *)
Theorem C73_file_contents : forall m o new_memory, object_ok m o -> memory_ok new_memory ->
  if zlen (message 0 m o) <=? 65535 then save_to_file m o new_memory = Ok (E_NONE, Some (message 0 m o))
  else exists e, save_to_file m o new_memory = Ok (e, None) /\ e <> E_NONE.
Proof. exact save_file_ok. Qed.
Print Assumptions C73_file_contents.
(** A saved certificate or chain that is not empty is loaded back from its file. *)
Theorem C73_certificate_file : forall c new_memory contents fuel, object_ok Certificate c -> memory_ok new_memory ->
  save_to_file Certificate c new_memory = Ok (E_NONE, Some contents) -> 0 < zlen contents -> 65535 <= Z.of_nat fuel ->
  exists b, load_file contents = (E_NONE, b) /\
    load_certificate_from_buffer fuel enough_memory (Some b) = Ok (Some (E_NONE, Some c)) /\
    load_certificate_chain_from_buffer fuel enough_memory (Some b) = Ok (Some (E_NONE, Some [VArray [Some c]])).
Proof.
  intros c mem contents fuel Hc Hm Hs H0 Hf. pose proof (C73_file_contents Certificate c mem Hc Hm) as S. rewrite Hs in S.
  destruct (Z.leb_spec (zlen (message 0 Certificate c)) 65535); [|destruct S as (e & S & He); congruence]. injection S as ->.
  exists (PBuf (Some (message 0 Certificate c)) (zlen (message 0 Certificate c)) 0 E_NONE). split.
  - unfold load_file, MAX_PAYLOAD_LEN. replace ((zlen (message 0 Certificate c) <=? 0) || (65535 <? zlen (message 0 Certificate c))) with false by lia. reflexivity.
  - apply C72_certificate_given; [exact Hc| | |reflexivity|lia].
    + split; [cbn [pb_posn pb_size]; lia|]. split; [cbn [pb_size]; lia|]. cbn [pb_data pb_size]. split; [lia|]. apply message_bytes; [exact Hc|lia].
    + split; [reflexivity|]. eexists. split; [reflexivity|]. cbn [pb_posn pb_size]. split; [lia|]. unfold sub. rewrite drop_le0 by lia. apply take_all. lia.
Qed.
Print Assumptions C73_certificate_file.
Theorem C73_chain_file : forall c l new_memory contents fuel, let chain := [VArray (Some c :: l)] in object_ok CertificateChain chain -> memory_ok new_memory ->
  save_to_file CertificateChain chain new_memory = Ok (E_NONE, Some contents) -> 65535 <= Z.of_nat fuel ->
  exists b, load_file contents = (E_NONE, b) /\
    load_certificate_from_buffer fuel enough_memory (Some b) = Ok (Some (E_NONE, Some c)) /\
    load_certificate_chain_from_buffer fuel enough_memory (Some b) = Ok (Some (E_NONE, Some chain)).
Proof.
  intros c l mem contents fuel chain Hc Hm Hs Hf. pose proof (C73_file_contents CertificateChain chain mem Hc Hm) as S. rewrite Hs in S.
  assert (H0 : 0 < zlen (message 0 CertificateChain chain)).
  { unfold chain. rewrite chain_message. cbn [flat_map]. rewrite zlen_app. pose proof (certificate_pos c ltac:(apply Hc)) as P.
    match goal with |- 0 < _ + zlen ?x => pose proof (zlen_nonneg _ x) end. lia. }
  destruct (Z.leb_spec (zlen (message 0 CertificateChain chain)) 65535); [|destruct S as (e & S & He); congruence]. injection S as ->.
  exists (PBuf (Some (message 0 CertificateChain chain)) (zlen (message 0 CertificateChain chain)) 0 E_NONE). split.
  - unfold load_file, MAX_PAYLOAD_LEN. replace ((zlen (message 0 CertificateChain chain) <=? 0) || (65535 <? zlen (message 0 CertificateChain chain))) with false by lia. reflexivity.
  - apply C72_chain_given; [exact Hc| | |reflexivity|fold chain; lia].
    + split; [cbn [pb_posn pb_size]; fold chain; lia|]. split; [cbn [pb_size]; fold chain; lia|]. cbn [pb_data pb_size]. fold chain. split; [lia|]. apply message_bytes; [exact Hc|lia].
    + split; [reflexivity|]. eexists. split; [reflexivity|]. cbn [pb_posn pb_size]. fold chain. split; [lia|]. unfold sub. rewrite drop_le0 by lia. apply take_all. lia.
Qed.
Print Assumptions C73_chain_file.
Example certificate_file : exists contents, save_to_file Certificate ex_cert1 zeros = Ok (E_NONE, Some contents) /\ memory_ok zeros /\ contents = [8; 1; 18; 3; 10; 1; 97].
Proof.
  eexists. split; [vm_compute; reflexivity|]. split; [|reflexivity]. intros n Hn. split; [apply bytes_zeros|rewrite zlen_zeros; lia].
Qed.
(** (Refuted for empty objects) the file of an empty certificate has no bytes, and
    such a file is not loaded. *)
Theorem C73_empty_object_refuted : exists c, object_ok Certificate c /\ forall new_memory, memory_ok new_memory ->
  exists contents, save_to_file Certificate c new_memory = Ok (E_NONE, Some contents) /\ fst (load_file contents) = E_INVALID_FORMAT.
Proof.
  assert (Ho : object_ok Certificate (empty_object Certificate)) by (vm_compute; intuition discriminate).
  exists (empty_object Certificate). split; [exact Ho|]. intros mem Hm. exists []. split; [|reflexivity]. exact (C73_file_contents Certificate _ mem Ho Hm).
Qed.
Print Assumptions C73_empty_object_refuted.

(** The size of a saved key *)
Lemma saved_len : forall ca H B name pw salt o, zlen salt = 16 -> zlen name < 100 ->
  zlen (saved_key ca H B name pw salt o) <= zlen (protected_key ca H B pw salt 20000 o) + zlen name + 46.
Proof.
  intros ca H B name pw salt o Hs Hn. unfold saved_key. generalize (protected_key ca H B pw salt 20000 o). intros d.
  replace (message 0 EncryptedPrivateKey [VInt 1; VBlock (Some name); VBlock (Some salt); VInt 20000; VBlock (Some d)]) with
    (field_bytes 10 (number_wire UInt32 1) ++ field_bytes 11 (Delimited name) ++ field_bytes 12 (Delimited salt) ++
     field_bytes 13 (number_wire UInt32 20000) ++ field_bytes 15 (Delimited d) ++ []) by reflexivity.
  assert (F : forall tag x, 0 < tag -> zlen (field_bytes tag (Delimited x)) = zlen (varint (tag * 8 + 2)) + zlen (varint (zlen x)) + zlen x).
  { intros tag x Ht. unfold field_bytes. replace (tag =? 0) with false by lia. cbn [wire_type wire_bytes]. rewrite !zlen_app. lia. }
  rewrite !zlen_app, !F by lia. rewrite Hs, zlen_nil. pose proof (zlen_nonneg _ name). pose proof (varint_len (zlen d) (zlen_nonneg _ d)).
  pose proof (varint_len (zlen name) ltac:(lia)). 
  change (zlen (varint (11 * 8 + 2))) with 1. change (zlen (varint (12 * 8 + 2))) with 1. change (zlen (varint 16)) with 1. change (zlen (varint (15 * 8 + 2))) with 1.
  change (zlen (field_bytes 10 (number_wire UInt32 1))) with 2. change (zlen (field_bytes 13 (number_wire UInt32 20000))) with 4. lia.
Qed.
Lemma saved_pos : forall ca H B name pw salt o, 0 < zlen (saved_key ca H B name pw salt o).
Proof.
  intros ca H B name pw salt o. unfold saved_key. generalize (protected_key ca H B pw salt 20000 o). intros d.
  replace (message 0 EncryptedPrivateKey [VInt 1; VBlock (Some name); VBlock (Some salt); VInt 20000; VBlock (Some d)]) with
    (field_bytes 10 (number_wire UInt32 1) ++ field_bytes 11 (Delimited name) ++ field_bytes 12 (Delimited salt) ++
     field_bytes 13 (number_wire UInt32 20000) ++ field_bytes 15 (Delimited d) ++ []) by reflexivity.
  rewrite zlen_app. change (zlen (field_bytes 10 (number_wire UInt32 1))) with 2. match goal with |- context [zlen (?a ++ ?b)] => pose proof (zlen_nonneg _ (a ++ b)) end. lia.
Qed.
(** C73.  A private key whose file has at most 65535 bytes is saved to it: the
    memory that noise_save_private_key_to_file estimates is enough for every key.
    Too long files are not written. *)
Theorem C73_private_key_file : forall cipher_of hash_of name ca H B lim pw salts o rest new_memory i fuel,
  protection cipher_of hash_of name ca H B lim -> ca_mac_len ca <= 64 -> bytes pw -> zlen pw < lim -> salts_ok salts -> memory_ok new_memory ->
  object_ok PrivateKey o -> zlen (message 0 PrivateKey o) + ca_mac_len ca <= 65535 -> salt_used H B pw salts i -> (i < fuel)%nat ->
  let file := saved_key ca H B name pw (salts i) o in
  save_private_key_to_file cipher_of hash_of fuel salts o (Some pw) (zlen pw) (name ++ 0 :: rest) new_memory =
    if zlen file <=? 65535 then Ok (Some (E_NONE, Some file)) else Ok (Some (E_INVALID_LENGTH, None)).
Proof.
  intros cipher_of hash_of name ca H B lim pw salts o rest mem i fuel Hpr Hmac Hpw Hpl Hs Hm Ho Hl Hu Hi file.
  pose proof (salt_facts cipher_of hash_of name ca H B lim salts Hpr Hs i) as (_ & _ & Nn & _ & Zs).
  assert (Zf : zlen file <= zlen (message 0 PrivateKey o) + ca_mac_len ca + zlen name + 46).
  { assert (Zc : zlen (protected_key ca H B pw (salts i) 20000 o) = zlen (message 0 PrivateKey o) + ca_mac_len ca).
    { destruct Hpr as (_ & _ & _ & _ & _ & _ & _ & Cc & _). Local Transparent protected_key. unfold protected_key. destruct (derived H B pw (salts i) 20000).
      apply (shape_enc _ (correct_shape _ Cc)). }
    Local Opaque protected_key. rewrite <- Zc. unfold file. apply saved_len; [exact Zs|]. clear Hu. lia. }
  pose proof Hpr as (cid & hid & _ & _ & _ & Hn & _). pose proof (mac_nonneg cipher_of hash_of name ca H B lim Hpr) as M0.
  unfold save_private_key_to_file. rewrite (parse_ok _ _ _ rest Hn). cbn [obind is_none err_eqb negb].
  pose proof (measure_ok PrivateKey o Ho) as M. replace (zlen (message 0 PrivateKey o) <=? MAX_PAYLOAD_LEN) with true in M by (unfold MAX_PAYLOAD_LEN; clear Hu; lia).
  destruct M as (p & -> & F). cbn [obind is_none err_eqb negb]. rewrite F. cbn [is_none err_eqb negb].
  assert (Sl : c_strlen (name ++ 0 :: rest) = zlen name).
  { destruct (name_facts _ _ _ Hn) as (_ & _ & _ & Z0). unfold c_strlen. apply PNames.scan_app; [eapply Forall_impl; [|exact Z0]; cbn; intros; lia|reflexivity]. }
  rewrite Sl. pose proof (zlen_nonneg _ name). pose proof (zlen_nonneg _ (message 0 PrivateKey o)). pose proof (zlen_nonneg _ file).
  set (size := usize _). assert (Es : size = zlen (message 0 PrivateKey o) + zlen name + 128).
  { unfold size, usize, ENC_KEY_OVERHEAD. rewrite Z.mod_small; clear Hu; lia. }
  clearbody size. destruct (Hm size) as [Bm Zm]; [clear Hu; lia|].
  assert (Hb : pb_ok (PBuf (Some (mem size)) size size E_NONE)).
  { split; [cbn [pb_posn pb_size]; clear Hu; lia|]. split; [cbn [pb_size]; clear Hu; lia|]. cbn [pb_data pb_size]. auto. }
  pose proof (save_final cipher_of hash_of name ca H B lim pw salts o _ (mem size) rest Hpr Hpw Hpl Hs Ho Hb eq_refl eq_refl) as S.
  cbn [pb_posn pb_size] in S. specialize (S ltac:(clear Hu; lia) ltac:(exact Hl) i fuel Hu Hi). fold file in S.
  replace (zlen file <=? size) with true in S by (clear Hu; lia). rewrite S. cbn [obind is_none err_eqb negb pb_size pb_posn pb_data].
  replace (size - (size - zlen file)) with (zlen file) by (clear; lia). unfold MAX_PAYLOAD_LEN.
  destruct (Z.leb_spec (zlen file) 65535); [replace (65535 <? zlen file) with false by (clear Hu S; lia)|replace (65535 <? zlen file) with true by (clear Hu S; lia); reflexivity].
  rewrite load_ok by (rewrite ?splice_length; clear Hu S; lia). cbn [obind]. rewrite splice_sub_same by (clear Hu S; lia). reflexivity.
Qed.
Print Assumptions C73_private_key_file.
(** ... and loaded from it. *)
Theorem C73_private_key_loaded : forall cipher_of hash_of name ca H B lim pw salts o rest new_memory i fuel contents fuel',
  protection cipher_of hash_of name ca H B lim -> ca_mac_len ca <= 64 -> bytes pw -> zlen pw < lim -> salts_ok salts -> memory_ok new_memory ->
  object_ok PrivateKey o -> zlen (message 0 PrivateKey o) + ca_mac_len ca <= 65535 -> salt_used H B pw salts i -> (i < fuel)%nat ->
  save_private_key_to_file cipher_of hash_of fuel salts o (Some pw) (zlen pw) (name ++ 0 :: rest) new_memory = Ok (Some (E_NONE, Some contents)) ->
  65535 <= Z.of_nat fuel' ->
  exists b, load_file contents = (E_NONE, b) /\
    load_private_key_from_buffer cipher_of hash_of fuel' enough_memory (Some b) (Some pw) (zlen pw) = Ok (Some (E_NONE, Some o)).
Proof.
  intros cipher_of hash_of name ca H B lim pw salts o rest mem i fuel contents fuel' Hpr Hmac Hpw Hpl Hs Hm Ho Hl Hu Hi E Hf.
  rewrite (C73_private_key_file cipher_of hash_of name ca H B lim pw salts o rest mem i fuel Hpr Hmac Hpw Hpl Hs Hm Ho Hl Hu Hi) in E.
  set (file := saved_key ca H B name pw (salts i) o) in *.
  destruct (Z.leb_spec (zlen file) 65535) as [Hle|Hle]; [|discriminate E]. assert (contents = file) by congruence. subst contents. clear E.
  assert (Hb : pb_ok (prepare_output (zeros 65535) 65535)).
  { split; [cbn [prepare_output pb_posn pb_size]; clear; lia|]. split; [cbn [prepare_output pb_size]; clear; lia|]. cbn [prepare_output pb_data pb_size].
    split; [rewrite zlen_zeros; clear; lia|apply bytes_zeros]. }
  destruct (C55_saved_and_loaded cipher_of hash_of name ca H B lim pw salts o (prepare_output (zeros 65535) 65535) (zeros 65535) rest i fuel fuel' Hpr Hpw Hpl Hs Ho Hl Hb eq_refl eq_refl Hu Hi) as [_ L].
  { exact Hle. } { fold file. clear Hu. lia. }
  fold file in L.
  assert (P : 0 < zlen file).
  { apply saved_pos. }
  exists (PBuf (Some file) (zlen file) 0 E_NONE). split; [|exact L].
  unfold load_file, MAX_PAYLOAD_LEN. replace ((zlen file <=? 0) || (65535 <? zlen file)) with false by (clear Hu L; lia). reflexivity.
Qed.
Print Assumptions C73_private_key_loaded.
(** (Refuted for keys of nearly the largest size) such a key is neither saved nor
    refused: noise_save_private_key_to_file does not return. *)
Definition near_limit_key : obj := [VBlock None; VBlock None; VBlock None; VArray [Some [VBlock None; VBlock (Some (zeros 65525))]]; VArray []].
Lemma near_limit_len : zlen (message 0 PrivateKey near_limit_key) = 65533.
Proof.
  unfold message, object_fields, near_limit_key. cbn [schema flat2 encoding]. change (0 =? 0) with true. cbv iota.
  cbn [member_fields flat_map app fst snd schema flat2 encoding]. change (4 =? 0) with false. cbv iota. rewrite !app_nil_r.
  assert (F : forall tag d, 0 < tag -> zlen (field_bytes tag (Delimited d)) = zlen (varint (tag * 8 + 2)) + zlen (varint (zlen d)) + zlen d).
  { intros tag d Ht. unfold field_bytes. replace (tag =? 0) with false by lia. cbn [wire_type wire_bytes]. rewrite !zlen_app. lia. }
  rewrite !F by lia. rewrite zlen_zeros by lia. vm_compute. reflexivity.
Qed.
Theorem C73_never_returns_refuted : exists o, object_ok PrivateKey o /\ zlen (message 0 PrivateKey o) <= 65535 /\
  forall cipher_of hash_of name ca H B lim pw salts rest new_memory fuel,
  protection cipher_of hash_of name ca H B lim -> 3 <= ca_mac_len ca <= 64 -> bytes pw -> zlen pw < lim -> salts_ok salts -> memory_ok new_memory ->
  save_private_key_to_file cipher_of hash_of fuel salts o (Some pw) (zlen pw) (name ++ 0 :: rest) new_memory = Ok None.
Proof.
  assert (Ho : object_ok PrivateKey near_limit_key).
  { unfold object_ok, near_limit_key. cbn [schema all2]. cbn [member_ok snd all]. split; [exact I|]. split; [exact I|]. split; [exact I|]. split; [|split; exact I].
    split; [|exact I]. cbn [schema all2]. split; [exact I|]. split; [|exact I]. cbn [member_ok snd]. split; [apply bytes_zeros|]. rewrite zlen_zeros; lia. }
  exists near_limit_key. split; [exact Ho|]. pose proof near_limit_len as L. split; [lia|].
  intros cipher_of hash_of name ca H B lim pw salts rest mem fuel Hpr Hmac Hpw Hpl Hs Hm.
  pose proof Hpr as (cid & hid & _ & _ & _ & Hn & _).
  unfold save_private_key_to_file. rewrite (parse_ok _ _ _ rest Hn). cbn [obind is_none err_eqb negb].
  pose proof (measure_ok PrivateKey near_limit_key Ho) as M. rewrite L in M. change (65533 <=? MAX_PAYLOAD_LEN) with true in M. cbv iota in M.
  destruct M as (p & -> & F). cbn [obind is_none err_eqb negb]. rewrite F. cbn [is_none err_eqb negb].
  assert (Sl : c_strlen (name ++ 0 :: rest) = zlen name).
  { destruct (name_facts _ _ _ Hn) as (_ & _ & _ & Z0). unfold c_strlen. apply PNames.scan_app; [eapply Forall_impl; [|exact Z0]; cbn; intros; lia|reflexivity]. }
  rewrite Sl. pose proof (zlen_nonneg _ name). destruct (name_facts _ _ _ Hn) as (_ & Nn & _).
  set (size := usize _). assert (Es : size = 65533 + zlen name + 128) by (unfold size, usize, ENC_KEY_OVERHEAD; rewrite Z.mod_small; lia).
  clearbody size. destruct (Hm size) as [Bm Zm]; [lia|].
  assert (Hb : pb_ok (PBuf (Some (mem size)) size size E_NONE)) by (split; [cbn [pb_posn pb_size]; lia|]; split; [cbn [pb_size]; lia|]; cbn [pb_data pb_size]; auto).
  rewrite (save_long cipher_of hash_of name ca H B lim pw salts near_limit_key _ (mem size) rest Hpr Hpw Hpl Hs Ho Hb eq_refl eq_refl); [reflexivity| |].
  - cbn [pb_posn]. rewrite L. lia.
  - rewrite L. unfold MAX_PAYLOAD_LEN. lia.
Qed.
Print Assumptions C73_never_returns_refuted.
