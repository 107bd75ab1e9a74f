(** C62: the AESGCM backend is GCM with AES-256 and the Noise nonce. *)
From Verif Require Import Base MCipher SCipher MHash MUtil SSha2 MAes SAes PAes MGhash SGhash PGhash MAesGcm SAesGcm PAesGcm.

(** Any sequence of calls on one backend object: new keys, encryptions and
    decryptions.  Packets of the library are at most 65535 bytes long; the 16-bit
    counter suffices for 65534 blocks, which is what is assumed. *)
Inductive ag_op : Type :=
| AgKey (key : list Z)
| AgEncrypt (n : Z) (ad mem : list Z) (len : Z)
| AgDecrypt (n : Z) (ad mem : list Z) (len : Z).
Definition ag_op_ok (op : ag_op) : Prop :=
  match op with
  | AgKey key => bytes key /\ zlen key = 32
  | AgEncrypt n ad mem len | AgDecrypt n ad mem len =>
    bytes ad /\ bytes mem /\ 0 <= len /\ len + 16 <= zlen mem /\ len <= 16 * 65534
  end.
(** What a call leaves in the caller's memory, and its error code *)
Definition ag_step (b : gh_build) (st : ag_state) (op : ag_op) : outcome (ag_state * (err * list Z)) :=
  match op with
  | AgKey key => let! st := aesgcm_init_key b st key in Ok (st, (E_NONE, []))
  | AgEncrypt n ad mem len =>
    let! r := aesgcm_encrypt b st n ad mem len in
    let '(e, st, mem) := r in Ok (st, (e, mem))
  | AgDecrypt n ad mem len =>
    let! r := aesgcm_decrypt b st n ad mem len in
    let '(e, st, mem) := r in Ok (st, (e, mem))
  end.
Fixpoint ag_run (b : gh_build) (st : ag_state) (ops : list ag_op) : outcome (list (err * list Z)) :=
  match ops with
  | [] => Ok []
  | op :: ops' =>
    let! r := ag_step b st op in
    let! rs := ag_run b (fst r) ops' in
    Ok (snd r :: rs)
  end.
(** The answers SP 800-38D gives, with the key set last *)
Fixpoint ag_answers (key : list Z) (ops : list ag_op) : list (err * list Z) :=
  match ops with
  | [] => []
  | AgKey k :: ops' => (E_NONE, []) :: ag_answers k ops'
  | AgEncrypt n ad mem len :: ops' =>
    let '(c, tag) := gcm_encrypt key (gcm_nonce n) ad (take len mem) in
    (E_NONE, c ++ tag ++ drop (len + 16) mem) :: ag_answers key ops'
  | AgDecrypt n ad mem len :: ops' =>
    match gcm_decrypt key (gcm_nonce n) ad (take len mem) (sub len 16 mem) with
    | Some p => (E_NONE, p ++ drop len mem)
    | None => (E_MAC_FAILURE, mem)
    end :: ag_answers key ops'
  end.

(** Every call answers as SP 800-38D says for the current key, whatever calls came
    before, with 32-bit and 64-bit GHASH code on both byte orders. *)
Theorem C62_is_sp800_38d : forall b key ops, bytes key -> zlen key = 32 -> Forall ag_op_ok ops ->
  ag_run b (ag_zeroed b) (AgKey key :: ops) = Ok (ag_answers key (AgKey key :: ops)).
Proof.
  intros b key ops Hk Lk Ho.
  assert (forall ops key st, Forall ag_op_ok ops -> bytes key -> zlen key = 32 -> ag_keyed b key st ->
    ag_run b st ops = Ok (ag_answers key ops)) as G.
  { clear key ops Hk Lk Ho. intros ops. induction ops as [|op ops IH]; intros key st Ho Hk Lk Hs; [reflexivity|].
    inversion Ho as [|? ? H1 H2]; subst. destruct op as [k|n ad mem len|n ad mem len]; cbn [ag_run ag_step ag_answers].
    - destruct H1 as [Hk' Lk']. destruct Hs as (_ & L60 & _).
      destruct (init_keyed b k Hk' Lk' st L60) as (st' & -> & Hs'). cbn [obind fst snd].
      rewrite (IH k) by assumption. reflexivity.
    - destruct H1 as (Y1 & Y2 & Y3 & Y4 & Y5).
      destruct (encrypt_spec b key Hk Lk st n ad mem len Hs Y1 Y2 Y3 Y4 Y5) as (st' & Hs' & ->). cbn [obind fst snd].
      rewrite (IH key) by assumption. reflexivity.
    - destruct H1 as (Y1 & Y2 & Y3 & Y4 & Y5).
      destruct (decrypt_spec b key Hk Lk st n ad mem len Hs Y1 Y2 Y3 Y4 Y5) as (st' & Hs' & ->). cbn [obind].
      destruct (gcm_decrypt _ _ _ _ _); cbn [fst snd obind]; rewrite (IH key) by assumption; reflexivity. }
  cbn [ag_run ag_step]. destruct (init_keyed b key Hk Lk (ag_zeroed b) eq_refl) as (st' & -> & Hs'). cbn [obind fst snd].
  rewrite (G ops key) by assumption. reflexivity.
Qed.
Print Assumptions C62_is_sp800_38d.

Lemma enc_alg : forall b k n ad pt, bytes k -> zlen k = 32 -> bytes ad -> bytes pt -> zlen pt <= 16 * 65534 ->
  ca_encrypt (aesgcm b) k n ad pt =
  (E_NONE, let '(c, tag) := gcm_encrypt k (gcm_nonce n) ad pt in c ++ tag).
Proof.
  intros b k n ad pt Hk Lk Ha Hp Lp. cbn [aesgcm ca_encrypt]. pose proof (zlen_nonneg Z pt) as Np.
  destruct (init_keyed b k Hk Lk (ag_zeroed b) eq_refl) as (st & -> & Hs). cbn [obind].
  destruct (encrypt_spec b k Hk Lk st n ad (pt ++ zeros 16) (zlen pt) Hs Ha) as (st' & _ & E);
    [apply bytes_app; split; [exact Hp|apply bytes_zeros]|exact Np|rewrite zlen_app, zlen_zeros; lia|exact Lp|].
  rewrite E. cbn [ag_result]. rewrite take_app_exact. unfold gcm_encrypt. cbv zeta iota.
  rewrite drop_all by (rewrite zlen_app, zlen_zeros; lia). rewrite app_nil_r. reflexivity.
Qed.
Lemma dec_alg : forall b k n ad ct, bytes k -> zlen k = 32 -> bytes ad -> bytes ct ->
  16 <= zlen ct -> zlen ct <= 16 * 65534 ->
  ca_decrypt (aesgcm b) k n ad ct =
  match gcm_decrypt k (gcm_nonce n) ad (take (zlen ct - 16) ct) (drop (zlen ct - 16) ct) with
  | Some p => (E_NONE, p ++ drop (zlen ct - 16) ct)
  | None => (E_MAC_FAILURE, ct)
  end.
Proof.
  intros b k n ad ct Hk Lk Ha Hp L16 Lp. cbn [aesgcm ca_decrypt].
  destruct (init_keyed b k Hk Lk (ag_zeroed b) eq_refl) as (st & -> & Hs). cbn [obind].
  destruct (decrypt_spec b k Hk Lk st n ad ct (zlen ct - 16) Hs Ha Hp ltac:(lia) ltac:(lia) ltac:(lia)) as (st' & _ & E).
  rewrite E. clear E. unfold sub. rewrite (take_all _ 16) by (rewrite zlen_drop; lia).
  destruct (gcm_decrypt _ _ _ _ _); reflexivity.
Qed.

(** The backend meets what the theorems about CipherState and the handshake
    assume of a cipher. *)
Theorem C62_correct : forall b, cipher_correct (aesgcm b).
Proof.
  intros b. constructor; [apply aesgcm_shape|..]; intros k n ad pt Lk Hk Ha Hp Hn Lp;
    cbn [aesgcm ca_key_len ca_mac_len] in Lk, Lp; unfold MAX_PAYLOAD_LEN in Lp; fold (aesgcm b) in *.
  - rewrite enc_alg by (first [assumption | lia]). reflexivity.
  - rewrite enc_alg by (first [assumption | lia]). cbn [snd]. unfold gcm_encrypt. cbv zeta iota.
    destruct (GCTR_shape k Hk Lk n pt Hp ltac:(lia)) as [Lc Hc].
    assert (GCTR k (inc32 (J0 (gcm_nonce n))) (GCTR k (inc32 (J0 (gcm_nonce n))) pt) = pt) as TW by (apply GCTR_twice; first [assumption | lia]).
    unfold gcm_decrypt.
    generalize dependent (GCTR k (inc32 (J0 (gcm_nonce n))) pt). intros c Lc Hc TW.
    destruct (tag_shape k Hk Lk n ad c) as [Lt Ht]. pose proof (zlen_nonneg Z pt).
    assert (bytes (c ++ gcm_tag k (gcm_nonce n) ad c)) as Hct by (apply bytes_app; split; assumption).
    rewrite dec_alg by (first [assumption | rewrite zlen_app; lia]).
    replace (zlen (c ++ gcm_tag k (gcm_nonce n) ad c) - 16) with (zlen c) by (rewrite zlen_app; lia).
    rewrite take_app_exact, drop_app_exact. unfold gcm_decrypt.
    destruct (list_eq_dec Z.eq_dec (gcm_tag k (gcm_nonce n) ad c) (gcm_tag k (gcm_nonce n) ad c)) as [_|X]; [|contradiction X; reflexivity].
    rewrite TW. eexists. reflexivity.
Qed.
Print Assumptions C62_correct.

Theorem C62_genuine : forall b, cipher_genuine (aesgcm b).
Proof.
  intros b k n ad ct Lk Hk Ha Hc Hn L16 Lc. change (ca_mac_len (aesgcm b)) with 16 in *. change (ca_key_len (aesgcm b)) with 32 in *.
  unfold MAX_PAYLOAD_LEN in Lc. rewrite dec_alg by (first [assumption | lia]). unfold gcm_decrypt.
  destruct (list_eq_dec Z.eq_dec _ _) as [E|E]; [|discriminate]. intros _. cbn [snd].
  set (c := take (zlen ct - 16) ct) in *.
  assert (bytes c) as Bc by (now apply bytes_take).
  assert (zlen c = zlen ct - 16) as Lcc by (unfold c; rewrite zlen_take; lia).
  destruct (GCTR_shape k Hk Lk n c Bc ltac:(lia)) as [Lg Hg].
  assert (GCTR k (inc32 (J0 (gcm_nonce n))) (GCTR k (inc32 (J0 (gcm_nonce n))) c) = c) as TW by (apply GCTR_twice; first [assumption | lia]).
  rewrite Lcc in Lg. rewrite <- Lg at 1. rewrite take_app_exact.
  rewrite enc_alg by (first [assumption | lia]). unfold gcm_encrypt. cbv zeta iota. rewrite TW. cbn [snd]. rewrite <- E.
  unfold c. symmetry. apply take_drop.
Qed.
Print Assumptions C62_genuine.

(** McGrew and Viega, test cases 14 and 16; a packet with one bit changed *)
Definition gcm14 : list Z := [206; 167; 64; 61; 77; 96; 107; 110; 7; 78; 197; 211; 186; 243; 157; 24; 208; 209; 200; 167; 153; 153; 107; 240; 38; 91; 152; 181; 212; 138; 185; 25].
Example C62_vector :
  ca_decrypt (aesgcm (GhBuild true false)) (zeros 32) 0 [] gcm14 = (E_NONE, zeros 16 ++ drop 16 gcm14) /\
  fst (ca_decrypt (aesgcm (GhBuild false true)) (zeros 32) 0 [] (splice 3 [62] gcm14)) = E_MAC_FAILURE.
Proof. vm_compute. auto. Qed.
Example C62_spec_vector :
  gcm_encrypt [254; 255; 233; 146; 134; 101; 115; 28; 109; 106; 143; 148; 103; 48; 131; 8; 254; 255; 233; 146; 134; 101; 115; 28; 109; 106; 143; 148; 103; 48; 131; 8] [202; 254; 186; 190; 250; 206; 219; 173; 222; 202; 248; 136] [254; 237; 250; 206; 222; 173; 190; 239; 254; 237; 250; 206; 222; 173; 190; 239; 171; 173; 218; 210]
    [217; 49; 50; 37; 248; 132; 6; 229; 165; 89; 9; 197; 175; 245; 38; 154; 134; 167; 169; 83; 21; 52; 247; 218; 46; 76; 48; 61; 138; 49; 138; 114; 28; 60; 12; 149; 149; 104; 9; 83; 47; 207; 14; 36; 73; 166; 181; 37; 177; 106; 237; 245; 170; 13; 230; 87; 186; 99; 123; 57] =
  ([82; 45; 193; 240; 153; 86; 125; 7; 244; 127; 55; 163; 42; 132; 66; 125; 100; 58; 140; 220; 191; 229; 192; 201; 117; 152; 162; 189; 37; 85; 209; 170; 140; 176; 142; 72; 89; 13; 187; 61; 167; 176; 139; 16; 86; 130; 136; 56; 197; 246; 30; 99; 147; 186; 122; 10; 188; 201; 246; 98],
   [118; 252; 110; 206; 15; 78; 23; 104; 205; 223; 136; 83; 187; 45; 85; 27]).
Proof. vm_compute. reflexivity. Qed.
Example C62_ok : Forall ag_op_ok [AgEncrypt 5 [1; 2] (zeros 40) 24; AgKey (zeros 32); AgDecrypt 5 [1] (zeros 40) 24].
Proof.
  assert (bytes [1; 2] /\ bytes [1]) as (B1 & B2).
  { split; unfold bytes; repeat apply Forall_cons; try apply Forall_nil; unfold is_byte; lia. }
  repeat apply Forall_cons; try apply Forall_nil; cbn [ag_op_ok]; repeat split; auto; try apply bytes_zeros; try lia;
    rewrite zlen_zeros; lia.
Qed.
