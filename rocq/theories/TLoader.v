(** Properties of saved private keys (C55, C56). *)
From Coq Require Import String ZifyBool ZifyNat.
From Verif Require Import Base Str MCipher SCipher MHash SHash SHashLib MSha2 SSha2 MNames SNames MProto SProto PProto MCert SCert MLoader SLoader
  PLoader PLoaderSave PLoaderLoad Toy.
Local Opaque derived protected_key.

(** The search for a usable salt *)
Lemma search : forall (f : nat -> Z) v n,
  (exists i, (i < n)%nat /\ f i <> v /\ forall j, (j < i)%nat -> f j = v) \/ (forall i, (i < n)%nat -> f i = v).
Proof.
  intros f v. induction n as [|n IH]; [right; intros i Hi; lia|]. destruct IH as [(i & H1 & H2)|IH]; [left; exists i; split; [lia|exact H2]|].
  destruct (Z.eq_dec (f n) v) as [E|E]; [right; intros i Hi; destruct (Nat.eq_dec i n); [congruence|apply IH; lia]|].
  left. exists n. split; [lia|]. split; [exact E|exact IH].
Qed.
Lemma salt_search : forall H B pw salts n,
  (exists i, (i < n)%nat /\ salt_used H B pw salts i) \/ (forall i, (i < n)%nat -> snd (derived H B pw (salts i) 20000) = 2^64 - 1).
Proof. intros H B pw salts n. exact (search (fun i => snd (derived H B pw (salts i) 20000)) (2^64 - 1) n). Qed.

(** C55.  A private key that fits is written before the position of the buffer as
    an EncryptedPrivateKey message, and noise_load_private_key_from_buffer with
    the same pass phrase returns the same object from it. *)
Theorem C55_saved_and_loaded : forall cipher_of hash_of name ca H B lim pw salts o b mem rest i fuel fuel',
  protection cipher_of hash_of name ca H B lim -> bytes pw -> zlen pw < lim -> salts_ok salts ->
  object_ok PrivateKey o -> zlen (message 0 PrivateKey o) + ca_mac_len ca <= MAX_PAYLOAD_LEN ->
  pb_ok b -> pb_data b = Some mem -> pb_error b = E_NONE ->
  salt_used H B pw salts i -> (i < fuel)%nat ->
  let file := saved_key ca H B name pw (salts i) o in
  zlen file <= pb_posn b -> zlen file <= Z.of_nat fuel' ->
  save_private_key_to_buffer cipher_of hash_of fuel salts (Some o) (Some b) (Some pw) (zlen pw) (Some (name ++ 0 :: rest)) =
    Ok (Some (E_NONE, Some (PBuf (Some (splice (pb_posn b - zlen file) file mem)) (pb_size b) (pb_posn b - zlen file) E_NONE))) /\
  load_private_key_from_buffer cipher_of hash_of fuel' enough_memory (Some (prepare_input file (zlen file))) (Some pw) (zlen pw) =
    Ok (Some (E_NONE, Some o)).
Proof.
  intros cipher_of hash_of name ca H B lim pw salts o b mem rest i fuel fuel' Hpr Hpw Hpl Hs Ho Hl Hb Hm He Hu Hi file Hf Hf'.
  assert (Hc : zlen (protected_key ca H B pw (salts i) 20000 o) = zlen (message 0 PrivateKey o) + ca_mac_len ca).
  { destruct Hpr as (_ & _ & _ & _ & _ & _ & _ & Cc & _). Local Transparent protected_key. unfold protected_key. destruct (derived H B pw (salts i) 20000).
    apply (shape_enc _ (correct_shape _ Cc)). }
  Local Opaque protected_key.
  assert (Hr : zlen (message 0 PrivateKey o) + ca_mac_len ca <= pb_posn b).
  { unfold file in Hf. rewrite file_message in Hf. pose proof (enc_object_len name (salts i) (protected_key ca H B pw (salts i) 20000 o) KEY_ITERATIONS) as Le.
    clear Hu. lia. }
  pose proof (save_final cipher_of hash_of name ca H B lim pw salts o b mem rest Hpr Hpw Hpl Hs Ho Hb Hm He Hr Hl i fuel Hu Hi) as S.
  fold file in S. replace (zlen file <=? pb_posn b) with true in S by (clear Hu; lia). split; [exact S|].
  destruct (save_short cipher_of hash_of name ca H B lim pw salts o b mem rest Hpr Hpw Hpl Hs Ho Hb Hm He Hr Hl i fuel Hu Hi) as (_ & Bc & _).
  destruct (Hs i) as [Bs Zs]. assert (Fb : bytes file).
  { unfold file. rewrite file_message. apply message_bytes.
    - apply (file_object cipher_of hash_of name ca H B lim pw salts o Hpr Hs); [|exact Bc]. unfold MAX_PAYLOAD_LEN in Hl. clear Hu. lia.
    - unfold file in Hf. rewrite file_message in Hf. destruct Hb as (? & ? & _). clear Hu. lia. }
  assert (Bl : zlen (salts i) + 4 + B < lim).
  { rewrite Zs. destruct Hpr as (_ & _ & ha & _ & L & _ & _ & _ & _ & _ & Lh & _). revert Lh. clear. intros Lh. destruct Lh; lia. }
  pose proof (zlen_nonneg _ file).
  apply (load_good cipher_of hash_of name ca H B lim pw (salts i) (protected_key ca H B pw (salts i) 20000 o) 20000) with (o := o);
    try assumption; try reflexivity; try (clear Hu; lia).
  - destruct Hb as (? & ? & _). unfold pb_ok. cbn [prepare_input pb_posn pb_size pb_data]. split; [clear Hu; lia|]. split; [clear Hu; lia|]. split; [clear Hu; lia|exact Fb].
  - split; [reflexivity|]. exists file. split; [reflexivity|]. split; [apply Z.le_refl|]. unfold sub. rewrite drop_le0 by (clear; cbn; lia). apply take_all. apply Z.le_refl.
  - apply Hu.
Qed.
Print Assumptions C55_saved_and_loaded.

(** C55.  Every EncryptedPrivateKey message made by these rules is loaded, with
    any salt and number of iterations, at any place in a buffer. *)
Theorem C55_any_protected_key_loads : forall cipher_of hash_of name ca H B lim pw salt iterations o b fuel,
  protection cipher_of hash_of name ca H B lim -> bytes pw -> zlen pw < lim -> bytes salt -> zlen salt + 4 + B < lim -> 1 <= iterations < 2^32 ->
  object_ok PrivateKey o -> zlen (message 0 PrivateKey o) + ca_mac_len ca <= MAX_PAYLOAD_LEN ->
  snd (derived H B pw salt iterations) <> 2^64 - 1 ->
  let data := protected_key ca H B pw salt iterations o in
  let file := message 0 EncryptedPrivateKey [VInt 1; VBlock (Some name); VBlock (Some salt); VInt iterations; VBlock (Some data)] in
  bytes data -> pb_ok b -> next_bytes b file -> pb_posn b + zlen file = pb_size b -> zlen file <= Z.of_nat fuel ->
  load_private_key_from_buffer cipher_of hash_of fuel enough_memory (Some b) (Some pw) (zlen pw) = Ok (Some (E_NONE, Some o)).
Proof.
  intros cipher_of hash_of name ca H B lim pw salt iterations o b fuel H1 H2 H3 H4 H5 H6 H7 H8 H9 data file H10 H11 H12 H13 H14.
  apply (load_good cipher_of hash_of name ca H B lim pw salt data iterations b fuel H1 H2 H3 H4 H5 H6 H10 H11 H12 H13 H14 o H7 H8 H9 eq_refl).
Qed.
Print Assumptions C55_any_protected_key_loads.

(** C55.  With a cipher that accepts only its own packets, a key object is
    returned only if the encrypted data was made with the key derived from the
    pass phrase; otherwise there is an error code and no object. *)
Theorem C55_only_with_the_key : forall cipher_of hash_of name ca H B lim pw salt iterations data b fuel,
  protection cipher_of hash_of name ca H B lim -> cipher_genuine ca ->
  bytes pw -> zlen pw < lim -> bytes salt -> zlen salt + 4 + B < lim -> 1 <= iterations < 2^32 -> bytes data ->
  let file := message 0 EncryptedPrivateKey [VInt 1; VBlock (Some name); VBlock (Some salt); VInt iterations; VBlock (Some data)] in
  pb_ok b -> next_bytes b file -> pb_posn b + zlen file = pb_size b -> zlen file <= Z.of_nat fuel ->
  exists e key, load_private_key_from_buffer cipher_of hash_of fuel enough_memory (Some b) (Some pw) (zlen pw) = Ok (Some (e, key)) /\
    (e <> E_NONE -> key = None) /\
    (e = E_NONE -> exists o plain, key = Some o /\ object_ok PrivateKey o /\
       data = snd (ca_encrypt ca (fst (derived H B pw salt iterations)) (snd (derived H B pw salt iterations)) [] plain) /\
       exists mem p n1 n2, take (zlen plain) mem = plain /\
         cert_read fuel enough_memory PrivateKey (Some (prepare_input mem (zlen plain))) 0 n1 = Ok (Some (E_NONE, Some o, p, n2))).
Proof.
  intros cipher_of hash_of name ca H B lim pw salt iterations data b fuel H1 Hg H2 H3 H4 H5 H6 H7 file H8 H9 H10 H11.
  apply (load_genuine cipher_of hash_of name ca H B lim pw salt data iterations b fuel); assumption.
Qed.
Print Assumptions C55_only_with_the_key.

(** C55.  The names of protection algorithms: exactly cipher_hash_PBKDF2. *)
Theorem C55_protection_names : forall s rest cipher hash, Forall (fun x => x <> 0) s ->
  (parse_protect_name (s ++ 0 :: rest) = Ok (E_NONE, cipher, hash) <-> protect_text cipher hash s).
Proof.
  intros s rest cipher hash Hs. split; [|apply parse_ok]. intros E. destruct (parse_defined s rest Hs) as (e & c & h & E' & _ & K). rewrite E in E'.
  injection E' as <- <- <-. now apply K.
Qed.
Print Assumptions C55_protection_names.

(** C55.  If the key does not fit, the part that was written is wiped: the storage
    differs from what it was only by zeros. *)
Theorem C55_no_plaintext_left : forall cipher_of hash_of name ca H B lim pw salts o b mem rest,
  protection cipher_of hash_of name ca H B lim -> bytes pw -> zlen pw < lim -> salts_ok salts ->
  object_ok PrivateKey o -> pb_ok b -> pb_data b = Some mem -> pb_error b = E_NONE ->
  pb_posn b < zlen (message 0 PrivateKey o) + ca_mac_len ca ->
  exists e p, e <> E_NONE /\ 0 <= p <= pb_posn b /\ forall fuel,
    save_private_key_to_buffer cipher_of hash_of fuel salts (Some o) (Some b) (Some pw) (zlen pw) (Some (name ++ 0 :: rest)) =
      Ok (Some (e, Some (PBuf (Some (splice p (zeros (pb_posn b - p)) mem)) (pb_size b) (pb_posn b) E_NONE))).
Proof.
  intros cipher_of hash_of name ca H B lim pw salts o b mem rest Hpr Hpw Hpl Hs Ho Hb Hm He Hr.
  destruct (Z.ltb_spec (pb_posn b) (ca_mac_len ca)) as [Hm'|Hm'].
  - exists E_INVALID_LENGTH, (pb_posn b). destruct Hb as (? & ? & ?) eqn:Eb. split; [discriminate|]. split; [lia|]. intros fuel.
    rewrite (save_no_mac cipher_of hash_of name ca H B lim pw salts o b mem rest); auto. rewrite Z.sub_diag. change (zeros 0) with (@nil Z). rewrite splice_nil by lia.
    rewrite <- Hm, <- He. destruct b; reflexivity.
  - apply (save_no_room cipher_of hash_of name ca H B lim pw salts o b mem rest); auto.
Qed.
Print Assumptions C55_no_plaintext_left.

(** C56 (refuted).  An object that is larger than a packet is encrypted again and
    again, for ever: noise_save_private_key_to_buffer does not return, for any
    protection algorithm, pass phrase and random numbers. *)
Definition long_key : obj := [VBlock None; VBlock None; VBlock None; VArray [Some [VBlock None; VBlock (Some (zeros 70000))]]; VArray []].
Lemma zeros_len : forall n, 0 <= n -> zlen (zeros n) = n.
Proof. exact zlen_zeros. Qed.
Lemma long_key_ok : object_ok PrivateKey long_key.
Proof.
  unfold object_ok, long_key. cbn [schema all2]. cbn [member_ok snd all]. split; [exact I|]. split; [exact I|]. split; [exact I|]. split; [|split; exact I].
  split; [|exact I]. cbn [schema all2]. split; [exact I|]. split; [|exact I]. cbn [member_ok snd]. split; [apply bytes_zeros|]. rewrite zlen_zeros; lia.
Qed.
Lemma long_key_message : message 0 PrivateKey long_key = field_bytes 4 (Delimited (field_bytes 2 (Delimited (zeros 70000)))).
Proof.
  unfold message, object_fields, long_key. cbn [schema flat2 encoding]. change (0 =? 0) with true. cbv iota.
  cbn [member_fields flat_map app fst snd schema flat2 encoding]. change (4 =? 0) with false. cbv iota. now rewrite !app_nil_r.
Qed.
Lemma long_key_len : 70000 <= zlen (message 0 PrivateKey long_key) <= 70022.
Proof.
  rewrite long_key_message. 
  assert (F : forall tag d, 0 < tag -> zlen d < 2^64 -> zlen (field_bytes tag (Delimited d)) = zlen (varint (tag * 8 + 2)) + zlen (varint (zlen d)) + zlen d).
  { intros tag d Ht Hd. unfold field_bytes. replace (tag =? 0) with false by lia. cbn [wire_type wire_bytes]. rewrite !zlen_app. lia. }
  assert (V : forall v, 0 <= v -> 1 <= zlen (varint v) <= 10) by apply PProtoNum.varint_len.
  pose proof (F 2 (zeros 70000) ltac:(lia)) as F2. rewrite zlen_zeros in F2 by lia. specialize (F2 ltac:(lia)).
  pose proof (V 70000 ltac:(lia)). change (zlen (varint (2 * 8 + 2))) with 1 in F2.
  pose proof (F 4 (field_bytes 2 (Delimited (zeros 70000))) ltac:(lia) ltac:(lia)) as F4. change (zlen (varint (4 * 8 + 2))) with 1 in F4.
  pose proof (V (zlen (field_bytes 2 (Delimited (zeros 70000)))) ltac:(lia)). lia.
Qed.
Theorem C56_never_returns_refuted : exists o, object_ok PrivateKey o /\ zlen (message 0 PrivateKey o) < 71000 /\
  forall cipher_of hash_of name ca H B lim pw salts b mem rest fuel,
  protection cipher_of hash_of name ca H B lim -> bytes pw -> zlen pw < lim -> salts_ok salts ->
  pb_ok b -> pb_data b = Some mem -> pb_error b = E_NONE -> zlen (message 0 PrivateKey o) + ca_mac_len ca <= pb_posn b ->
  save_private_key_to_buffer cipher_of hash_of fuel salts (Some o) (Some b) (Some pw) (zlen pw) (Some (name ++ 0 :: rest)) = Ok None.
Proof.
  exists long_key. split; [exact long_key_ok|]. pose proof long_key_len. split; [lia|]. intros.
  assert (0 <= ca_mac_len ca) by (eapply mac_nonneg; eauto).
  eapply save_long; eauto; [exact long_key_ok|]. unfold MAX_PAYLOAD_LEN. lia.
Qed.
Print Assumptions C56_never_returns_refuted.

(** C56, the part that holds: with an object that fits in a packet, it returns for
    every buffer as soon as a salt does not give the reserved nonce; until then
    it draws another salt.  (Missing: larger objects, see above.) *)
Theorem C56_returns_partial : forall cipher_of hash_of name ca H B lim pw salts o b mem rest fuel,
  protection cipher_of hash_of name ca H B lim -> bytes pw -> zlen pw < lim -> salts_ok salts ->
  object_ok PrivateKey o -> zlen (message 0 PrivateKey o) + ca_mac_len ca <= MAX_PAYLOAD_LEN ->
  pb_ok b -> pb_data b = Some mem -> pb_error b = E_NONE ->
  (exists e b', save_private_key_to_buffer cipher_of hash_of fuel salts (Some o) (Some b) (Some pw) (zlen pw) (Some (name ++ 0 :: rest)) = Ok (Some (e, Some b'))) \/
  (forall i, (i < fuel)%nat -> snd (derived H B pw (salts i) 20000) = 2^64 - 1).
Proof.
  intros cipher_of hash_of name ca H B lim pw salts o b mem rest fuel Hpr Hpw Hpl Hs Ho Hl Hb Hm He.
  destruct (Z.ltb_spec (pb_posn b) (zlen (message 0 PrivateKey o) + ca_mac_len ca)) as [Hr|Hr].
  - left. destruct (C55_no_plaintext_left cipher_of hash_of name ca H B lim pw salts o b mem rest) as (e & p & _ & _ & E); auto. rewrite E. eauto.
  - destruct (salt_search H B pw salts fuel) as [(i & Hi & Hu)|R]; [left|right; exact R].
    pose proof (save_final cipher_of hash_of name ca H B lim pw salts o b mem rest Hpr Hpw Hpl Hs Ho Hb Hm He Hr Hl i fuel Hu Hi) as S.
    destruct (zlen _ <=? pb_posn b); [rewrite S; eauto|]. destruct S as (e & b' & -> & _). eauto.
Qed.
Print Assumptions C56_returns_partial.
(** Names that are not of this form are refused at once, whatever the object. *)
Theorem C56_unknown_names_refused : forall cipher_of hash_of fuel salts o b pw n s rest, Forall (fun x => x <> 0) s ->
  (forall cipher hash, ~ protect_text cipher hash s) ->
  save_private_key_to_buffer cipher_of hash_of fuel salts (Some o) (Some b) (Some pw) n (Some (s ++ 0 :: rest)) = Ok (Some (E_UNKNOWN_NAME, Some b)).
Proof.
  intros cipher_of hash_of fuel salts o b pw n s rest Hs Hn. destruct (parse_defined s rest Hs) as (e & c & h & E & [->| ->] & K); [destruct (Hn c h); now apply K|].
  unfold save_private_key_to_buffer. rewrite E. reflexivity.
Qed.
Print Assumptions C56_unknown_names_refused.

(** ** A concrete case: SHA-256 and the toy cipher with a longer key *)
Definition toy32 : cipher_alg := CipherAlg (NOISE_ID 67 1) 32 1 (ca_encrypt toy_cipher) (ca_decrypt toy_cipher).
Lemma toy32_correct : cipher_correct toy32.
Proof.
  destruct toy_correct as [[S1 S2 S3 S4 S5 S6] C1 C2]. constructor; [constructor; [exact S1|cbn; lia|exact S3|exact S4|exact S5|exact S6]| |].
  - intros k n ad pt _ Hk Had Hpt Hn Hl. reflexivity.
  - intros k n ad pt _ Hk Had Hpt Hn Hl. cbn [toy32 ca_decrypt ca_encrypt toy_cipher snd].
    set (ct := map (toy_mask k n) pt).
    assert (Hz : zlen (ct ++ [toy_tag k n ad ct]) - 1 = zlen ct) by (rewrite zlen_app, zlen_cons, zlen_nil; lia).
    rewrite Hz, take_app_exact.
    replace (nth (Z.to_nat (zlen ct)) (ct ++ [toy_tag k n ad ct]) 0) with (toy_tag k n ad ct).
    + rewrite Z.eqb_refl. subst ct. rewrite toy_map_map by auto. eauto.
    + rewrite app_nth2 by (unfold zlen; lia). replace (Z.to_nat (zlen ct) - length ct)%nat with O by (unfold zlen; lia). reflexivity.
Qed.
Definition ex_name : list Z := str "ChaChaPoly_SHA256_PBKDF2".
Lemma ex_protection : protection (fun i => if i =? NOISE_ID 67 1 then Some toy32 else None) (fun i => if i =? NOISE_ID 72 3 then Some (sha256_alg, sha256_new) else None)
  ex_name toy32 SHA256 64 (2^61).
Proof.
  exists (NOISE_ID 67 1), (NOISE_ID 72 3), sha256_alg, sha256_new, 32. split.
  - exists (str "ChaChaPoly"), (str "SHA256"). split; [split; [vm_compute; tauto|right; reflexivity]|]. split; [split; [vm_compute; tauto|right; reflexivity]|]. reflexivity.
  - split; [reflexivity|]. split; [exact toy32_correct|]. split; [reflexivity|]. split; [reflexivity|]. split; [constructor|reflexivity].
Qed.
(** A small key: saved and loaded, unless the first salt gives the reserved nonce. *)
Definition ex_private : obj := [VBlock (Some (str "me")); VBlock None; VBlock None; VArray [Some [VBlock (Some (str "25519")); VBlock (Some [1; 2; 3])]]; VArray []].
Definition ex_salts : nat -> list Z := fun i => repeat (Z.of_nat i mod 256) 16.
Example key_saved_and_loaded :
  snd (derived SHA256 64 [112; 119] (ex_salts 0) 20000) = 2^64 - 1 \/
  exists b', save_private_key_to_buffer (fun i => if i =? NOISE_ID 67 1 then Some toy32 else None)
      (fun i => if i =? NOISE_ID 72 3 then Some (sha256_alg, sha256_new) else None) 1 ex_salts (Some ex_private)
      (Some (prepare_output (zeros 200) 200)) (Some [112; 119]) (zlen [112; 119]) (Some (ex_name ++ [0])) = Ok (Some (E_NONE, Some b')).
Proof.
  destruct (salt_search SHA256 64 [112; 119] ex_salts 1) as [(i & Hi & Hu)|R]; [right|left; apply R; lia].
  assert (i = O) by (clear Hu; lia). subst i. clear Hi.
  assert (Bp : bytes [112; 119]) by (repeat (apply Forall_cons; [unfold is_byte; lia|]); apply Forall_nil).
  assert (Hs : salts_ok ex_salts).
  { intros j. unfold ex_salts. split; [|unfold zlen; now rewrite repeat_length]. apply Forall_forall. intros x Hx. apply repeat_spec in Hx. subst x.
    unfold is_byte. apply Z.mod_pos_bound. lia. }
  assert (Ho : object_ok PrivateKey ex_private).
  { assert (Bs : forall l, forallb (fun x => (0 <=? x) && (x <? 256)) l = true -> bytes l) by (intros l E; rewrite forallb_forall in E; apply Forall_forall; intros x Hx; specialize (E x Hx); unfold is_byte; lia).
    unfold object_ok, ex_private. cbn [schema all2]. split; [cbn [member_ok snd]; split; [now apply Bs|]; split; [now vm_compute|reflexivity]|]. split; [exact I|]. split; [exact I|].
    split; [|split; exact I]. cbn [member_ok snd all schema all2]. split; [|exact I]. split; [split; [now apply Bs|]; split; [now vm_compute|reflexivity]|]. split; [|exact I]. split; [now apply Bs|now vm_compute]. }
  destruct (C55_saved_and_loaded _ _ _ _ _ _ _ [112; 119] ex_salts ex_private (prepare_output (zeros 200) 200) (zeros 200) [] O 1 200 ex_protection Bp) as [E _];
    [now vm_compute|exact Hs|exact Ho|vm_compute; discriminate| |reflexivity|reflexivity|exact Hu|clear; lia| | |].
  - split; [cbn; clear; lia|]. split; [cbn; clear; lia|]. cbn [prepare_output pb_size pb_data]. split; [vm_compute; discriminate|apply bytes_zeros].
  - assert (G : forall k n, zlen (message 0 EncryptedPrivateKey [VInt 1; VBlock (Some ex_name); VBlock (Some (ex_salts 0)); VInt 20000; VBlock (Some (snd (ca_encrypt toy32 k n [] (message 0 PrivateKey ex_private))))]) <= 200).
    { intros k n. cbn [toy32 ca_encrypt toy_cipher snd]. set (x := toy_tag _ _ _ _). set (f := toy_mask k n). vm_compute. discriminate. }
    Local Transparent protected_key. unfold saved_key, protected_key. destruct (derived SHA256 64 [112; 119] (ex_salts 0) 20000) as [k n]. apply G.
  - assert (G : forall k n, zlen (message 0 EncryptedPrivateKey [VInt 1; VBlock (Some ex_name); VBlock (Some (ex_salts 0)); VInt 20000; VBlock (Some (snd (ca_encrypt toy32 k n [] (message 0 PrivateKey ex_private))))]) <= 200).
    { intros k n. cbn [toy32 ca_encrypt toy_cipher snd]. set (x := toy_tag _ _ _ _). set (f := toy_mask k n). vm_compute. discriminate. }
    unfold saved_key, protected_key. destruct (derived SHA256 64 [112; 119] (ex_salts 0) 20000) as [k n]. apply G.
  - eexists; exact E.
Qed.
