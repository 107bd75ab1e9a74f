(** C60: the ChaChaPoly backend is the AEAD of RFC 7539 with the Noise nonce. *)
From Coq Require Import String.
From Verif Require Import Base MCipher SCipher PCipher MHash MSha2 MBlake2 MUtil TUtil SSha2 SBlake2.
From Verif Require Import MChaCha SChaCha PChaCha TChaCha MPoly1305 SPoly1305 MChaChaPoly SChaChaPoly PChaChaPoly.

(** Any sequence of calls on one backend object: new keys, encryptions and
    decryptions, with whatever the local arrays contained. *)
Inductive cp_op : Type :=
| CpKey (key : list Z)
| CpEncrypt (temp temp' : list Z) (n : Z) (ad mem : list Z) (len : Z)
| CpDecrypt (temp temp' : list Z) (n : Z) (ad mem : list Z) (len : Z).
Definition cp_op_ok (op : cp_op) : Prop :=
  match op with
  | CpKey key => bytes key /\ zlen key = 32
  | CpEncrypt temp temp' n ad mem len | CpDecrypt temp temp' n ad mem len =>
    bytes temp /\ zlen temp = 64 /\ bytes temp' /\ zlen temp' = 64 /\
    bytes ad /\ bytes mem /\ 0 <= len /\ len + 16 <= zlen mem /\ len < 2 ^ 32
  end.
(** What a call leaves in the caller's memory, and its error code *)
Definition cp_step (b : cc_build) (st : cp_state) (op : cp_op) : outcome (cp_state * (err * list Z)) :=
  match op with
  | CpKey key => Ok (chachapoly_init_key b st key, (E_NONE, []))
  | CpEncrypt temp temp' n ad mem len =>
    let! r := chachapoly_encrypt b temp temp' st n ad mem len in
    let '(e, st, mem) := r in Ok (st, (e, mem))
  | CpDecrypt temp temp' n ad mem len =>
    let! r := chachapoly_decrypt b temp temp' st n ad mem len in
    let '(e, st, mem) := r in Ok (st, (e, mem))
  end.
Fixpoint cp_run (b : cc_build) (st : cp_state) (ops : list cp_op) : outcome (list (err * list Z)) :=
  match ops with
  | [] => Ok []
  | op :: ops' =>
    let! r := cp_step b st op in
    let! rs := cp_run b (fst r) ops' in
    Ok (snd r :: rs)
  end.
(** The answers RFC 7539 gives, with the key set last *)
Fixpoint cp_answers (key : list Z) (ops : list cp_op) : list (err * list Z) :=
  match ops with
  | [] => []
  | CpKey k :: ops' => (E_NONE, []) :: cp_answers k ops'
  | CpEncrypt _ _ n ad mem len :: ops' =>
    let '(c, tag) := aead_encrypt key (noise_nonce n) ad (take len mem) in
    (E_NONE, c ++ tag ++ drop (len + 16) mem) :: cp_answers key ops'
  | CpDecrypt _ _ n ad mem len :: ops' =>
    match aead_decrypt key (noise_nonce n) ad (take len mem) (sub len 16 mem) with
    | Some p => (E_NONE, p ++ drop len mem)
    | None => (E_MAC_FAILURE, mem)
    end :: cp_answers key ops'
  end.

(** Every call answers as RFC 7539 says for the current key, whatever calls came
    before. *)
Theorem C60_is_rfc7539 : forall b key ops, b <> CC_ScalarBE -> bytes key -> zlen key = 32 -> Forall cp_op_ok ops ->
  cp_run b cp_zeroed (CpKey key :: ops) = Ok (cp_answers key (CpKey key :: ops)).
Proof.
  intros b key ops Hb Hk Lk Ho. cbn [cp_run cp_step obind fst snd cp_answers].
  assert (forall ops key st, Forall cp_op_ok ops -> bytes key -> keyed key st -> cp_run b st ops = Ok (cp_answers key ops)) as G.
  { clear key ops Hk Lk Ho. intros ops. induction ops as [|op ops IH]; intros key st Ho Hk Hs; [reflexivity|].
    inversion Ho as [|? ? H1 H2]; subst. destruct op as [k|temp temp' n ad mem len|temp temp' n ad mem len];
      cbn [cp_run cp_step obind fst snd cp_answers].
    - destruct H1 as [Hk' Lk']. destruct Hs as (_ & X1 & X2 & X3 & X4).
      rewrite (IH k); [reflexivity|auto..|]. apply keyed_init; auto.
    - destruct H1 as (Y1 & Y2 & Y3 & Y4 & Y5 & Y6 & Y7 & Y8 & Y9).
      destruct (encrypt_spec b temp temp' key st n ad mem len) as (st' & Hs' & ->); auto. cbn [obind fst snd].
      rewrite (IH key); auto.
    - destruct H1 as (Y1 & Y2 & Y3 & Y4 & Y5 & Y6 & Y7 & Y8 & Y9).
      destruct (decrypt_spec b temp temp' key st n ad mem len) as (st' & Hs' & ->); auto. cbn [obind].
      destruct (aead_decrypt _ _ _ _ _); cbn [fst snd obind]; rewrite (IH key); auto. }
  rewrite (G ops key); auto. apply keyed_zeroed; auto.
Qed.
Print Assumptions C60_is_rfc7539.

Lemma enc_alg : forall b k n ad pt, b <> CC_ScalarBE -> bytes k -> zlen k = 32 -> bytes ad -> bytes pt -> zlen pt < 2 ^ 32 ->
  ca_encrypt (chachapoly b) k n ad pt =
  (E_NONE, chacha20_encrypt k 1 (noise_nonce n) pt ++ aead_tag k (noise_nonce n) ad (chacha20_encrypt k 1 (noise_nonce n) pt)).
Proof.
  intros b k n ad pt Hb Hk Lk Ha Hp Lp. cbn [chachapoly ca_encrypt]. pose proof (zlen_nonneg Z pt) as Np.
  destruct (encrypt_spec b (zeros 64) (zeros 64) k (chachapoly_init_key b cp_zeroed k) n ad (pt ++ zeros 16) (zlen pt))
    as (st' & _ & E); auto; try apply bytes_zeros; try reflexivity; try (now apply keyed_zeroed);
    [apply bytes_app; split; [exact Hp|apply bytes_zeros]|rewrite zlen_app, zlen_zeros; lia|].
  rewrite E. cbn [cp_result]. rewrite take_app_exact. unfold aead_encrypt. cbv zeta iota.
  rewrite drop_all by (rewrite zlen_app, zlen_zeros; lia). rewrite app_nil_r. reflexivity.
Qed.
Lemma dec_alg : forall b k n ad ct, b <> CC_ScalarBE -> bytes k -> zlen k = 32 -> bytes ad -> bytes ct ->
  16 <= zlen ct -> zlen ct < 2 ^ 32 ->
  ca_decrypt (chachapoly b) k n ad ct =
  match aead_decrypt k (noise_nonce n) ad (take (zlen ct - 16) ct) (drop (zlen ct - 16) ct) with
  | Some p => (E_NONE, p ++ drop (zlen ct - 16) ct)
  | None => (E_MAC_FAILURE, ct)
  end.
Proof.
  intros b k n ad ct Hb Hk Lk Ha Hp L16 Lp. cbn [chachapoly ca_decrypt].
  destruct (decrypt_spec b (zeros 64) (zeros 64) k (chachapoly_init_key b cp_zeroed k) n ad ct (zlen ct - 16))
    as (st' & _ & E); auto; try apply bytes_zeros; try reflexivity; try (now apply keyed_zeroed); try lia.
  rewrite E. clear E. unfold sub. rewrite (take_all _ 16) by (rewrite zlen_drop; lia).
  destruct (aead_decrypt _ _ _ _ _); reflexivity.
Qed.

(** The backend meets what the theorems about CipherState and the handshake
    assume of a cipher. *)
Theorem C60_correct : forall b, b <> CC_ScalarBE -> cipher_correct (chachapoly b).
Proof.
  intros b Hb. constructor; [apply chachapoly_shape|..]; intros k n ad pt Lk Hk Ha Hp Hn Lp;
    cbn [chachapoly ca_key_len ca_mac_len] in Lk, Lp; unfold MAX_PAYLOAD_LEN in Lp; fold (chachapoly b) in *.
  - rewrite enc_alg by (auto; lia). reflexivity.
  - rewrite enc_alg by (auto; lia). cbn [snd]. set (c := chacha20_encrypt k 1 (noise_nonce n) pt).
    set (tag := aead_tag k (noise_nonce n) ad c).
    assert (zlen c = zlen pt) as Lc by apply zlen_encrypt.
    assert (zlen tag = 16) as Lt by (unfold tag, aead_tag, poly1305_mac; apply zlen_le_bytes).
    assert (bytes c) as Hc by (now apply bytes_encrypt).
    assert (bytes tag) as Ht by (unfold tag, aead_tag, poly1305_mac; apply bytes_le_bytes).
    pose proof (zlen_nonneg Z pt).
    assert (bytes (c ++ tag)) as Hct by (apply bytes_app; split; assumption).
    rewrite dec_alg by (first [assumption | rewrite zlen_app; lia]).
    replace (zlen (c ++ tag) - 16) with (zlen c) by (rewrite zlen_app; lia).
    rewrite take_app_exact, drop_app_exact. unfold aead_decrypt.
    destruct (list_eq_dec Z.eq_dec tag (aead_tag k (noise_nonce n) ad c)) as [_|X]; [|contradiction X; reflexivity].
    unfold c at 1. rewrite encrypt_twice. exists tag. reflexivity.
Qed.
Print Assumptions C60_correct.

Theorem C60_genuine : forall b, b <> CC_ScalarBE -> cipher_genuine (chachapoly b).
Proof.
  intros b Hb k n ad ct Lk Hk Ha Hc Hn L16 Lc. change (ca_mac_len (chachapoly b)) with 16 in *. change (ca_key_len (chachapoly b)) with 32 in *.
  unfold MAX_PAYLOAD_LEN in Lc. rewrite dec_alg by (auto; lia). unfold aead_decrypt.
  destruct (list_eq_dec Z.eq_dec _ _) as [E|E]; [|discriminate]. intros _. cbn [snd].
  set (c := take (zlen ct - 16) ct) in *.
  assert (bytes c) as Bc by (now apply bytes_take).
  assert (zlen c = zlen ct - 16) as Lcc by (unfold c; rewrite zlen_take; lia).
  assert (zlen (chacha20_encrypt k 1 (noise_nonce n) c) = zlen ct - 16) as Lp by (rewrite zlen_encrypt; exact Lcc).
  rewrite <- Lp at 1. rewrite take_app_exact.
  rewrite enc_alg by (first [assumption | now apply bytes_encrypt | rewrite zlen_encrypt; lia]).
  rewrite encrypt_twice. cbn [snd]. rewrite <- E. unfold c. symmetry. apply take_drop.
Qed.
Print Assumptions C60_genuine.

(** RFC 7539, appendix A.5, and the same packet with one bit changed *)
Definition a5_key : list Z := [28; 146; 64; 165; 235; 85; 211; 138; 243; 51; 136; 134; 4; 246; 181; 240; 71; 57; 23; 193; 64; 43; 128; 9; 157; 202; 92; 188; 32; 112; 117; 192].
Definition a5_ad : list Z := [243; 51; 136; 134; 0; 0; 0; 0; 0; 0; 78; 145].
Definition a5_packet : list Z := [100; 160; 134; 21; 117; 134; 26; 244; 96; 240; 98; 199; 155; 230; 67; 189; 94; 128; 92; 253; 52; 92; 243; 137; 241; 8; 103; 10; 199; 108; 140; 178; 76; 108; 252; 24; 117; 93; 67; 238; 160; 158; 233; 78; 56; 45; 38; 176; 189; 183; 183; 60; 50; 27; 1; 0; 212; 240; 59; 127; 53; 88; 148; 207; 51; 47; 131; 14; 113; 11; 151; 206; 152; 200; 168; 74; 189; 11; 148; 129; 20; 173; 23; 110; 0; 141; 51; 189; 96; 249; 130; 177; 255; 55; 200; 85; 151; 151; 160; 110; 244; 240; 239; 97; 193; 134; 50; 78; 43; 53; 6; 56; 54; 6; 144; 123; 106; 124; 2; 176; 249; 246; 21; 123; 83; 200; 103; 228; 185; 22; 108; 118; 123; 128; 77; 70; 165; 155; 82; 22; 205; 231; 164; 233; 144; 64; 197; 164; 4; 51; 34; 94; 226; 130; 161; 176; 160; 108; 82; 62; 175; 69; 52; 215; 248; 63; 161; 21; 91; 0; 71; 113; 140; 188; 84; 106; 13; 7; 43; 4; 179; 86; 78; 234; 27; 66; 34; 115; 245; 72; 39; 26; 11; 178; 49; 96; 83; 250; 118; 153; 25; 85; 235; 214; 49; 89; 67; 78; 206; 187; 78; 70; 109; 174; 90; 16; 115; 166; 114; 118; 39; 9; 122; 16; 73; 230; 23; 217; 29; 54; 16; 148; 250; 104; 240; 255; 119; 152; 113; 48; 48; 91; 234; 186; 46; 218; 4; 223; 153; 123; 113; 77; 108; 111; 44; 41; 166; 173; 92; 180; 2; 43; 2; 112; 155; 238; 173; 157; 103; 137; 12; 187; 34; 57; 35; 54; 254; 161; 133; 31; 56].
Example C60_vector :
  let '(e, mem) := ca_decrypt (chachapoly CC_Vector) a5_key 0x0807060504030201 a5_ad a5_packet in
  e = E_NONE /\ take 22 mem = Str.str "Internet-Drafts are dr"%string /\
  fst (ca_decrypt (chachapoly CC_Vector) a5_key 0x0807060504030201 (splice 11 [0x90] a5_ad) a5_packet) = E_MAC_FAILURE.
Proof. vm_compute. auto. Qed.
Example C60_ok : Forall cp_op_ok
  [CpEncrypt (zeros 64) (zeros 64) 5 [1; 2] (zeros 40) 24; CpKey a5_key; CpDecrypt (zeros 64) (zeros 64) 5 [1] (zeros 40) 24].
Proof.
  assert (bytes [1; 2] /\ bytes [1] /\ bytes a5_key) as (B1 & B2 & B3).
  { split; [|split]; unfold a5_key, bytes; repeat apply Forall_cons; try apply Forall_nil; unfold is_byte; lia. }
  repeat apply Forall_cons; try apply Forall_nil; cbn [cp_op_ok]; repeat split; auto; try apply bytes_zeros; try lia;
    rewrite zlen_zeros; lia.
Qed.
