(** C80 and C81: which Ed25519 signatures are accepted. *)
From Verif Require Import Base MUtil MDh MSign SCipher SDh SUtil SSign PSign MHash SHash SBlake2 MSha2 MBlake2 PSha2b PBlake2 PChaCha PX25519f SX25519 SEd25519 MPoly1305 PPoly1305 MEdTable MEd25519 MEdSlide MEdSign PEdSpec PEdSign PEdVerify TEdSign.

(** ** C80 *)
(** For every key, message and signature: no number overflows unless it is meant to
    wrap, the result is 0 or -1, and it is 0 exactly for what [ed_accepts] describes. *)
Theorem C80_verdict : forall junk m pk sig, hctx_ok sha512_alg junk -> bytes pk -> zlen pk = 32 -> bytes sig -> zlen sig = 64 ->
  bytes m -> zlen m < 2 ^ 61 - 64 ->
  exists r, ed25519_sign_open strict junk m pk sig = Ok r /\ ed25519_sign_open wrap junk m pk sig = Ok r /\
  (r = 0 \/ r = -1) /\ (r = 0 <-> ed_accepts pk m sig).
Proof.
  intros junk m pk sig Hj Bp Lp Bs Ls Bm Lm. assert (L : 8 * (64 + zlen m) < 2 ^ 64) by lia.
  destruct (sign_open_ok strict strict_exact junk m pk sig Hj Bp Lp Bs Ls Bm L) as (r & E & C & A).
  destruct (sign_open_ok wrap wrap_exact junk m pk sig Hj Bp Lp Bs Ls Bm L) as (r' & E' & C' & A').
  exists r. split; [exact E|]. split; [|split; [exact C|exact A]]. rewrite E'. f_equal. destruct C as [->| ->], C' as [->| ->]; try reflexivity; exfalso; assert (X : -1 = 0) by tauto; discriminate.
Qed.
Print Assumptions C80_verdict.
(** For the keys of RFC 8032, multiples of B, every signature of RFC 8032 is accepted,
    and what is accepted with S < L is a signature of RFC 8032. *)
Theorem C80_rfc_8032 : forall junk m pk sig, hctx_ok sha512_alg junk -> ed_key pk -> bytes sig -> zlen sig = 64 -> bytes m -> zlen m < 2 ^ 61 - 64 ->
  (ed_verifies pk m sig <-> ed25519_sign_open wrap junk m pk sig = Ok 0 /\ le_val (drop 32 sig) < ed_L).
Proof.
  intros junk m pk sig Hj K Bs Ls Bm Lm. assert (S : bytes pk /\ zlen pk = 32) by (destruct K as (a & _ & ->); apply encode_sized, mult_reduced). destruct S as [Bp Lp].
  destruct (C80_verdict junk m pk sig Hj Bp Lp Bs Ls Bm Lm) as (r & _ & -> & _ & A). rewrite (accepts_verifies pk m sig Bp Bm Bs) by (try exact K; rewrite !zlen_app, zlen_take; lia).
  rewrite <- A. split; intros [H1 H2]; (split; [|exact H2]); [now rewrite H1|now injection H1].
Qed.
Print Assumptions C80_rfc_8032.
(** What ed25519_sign makes with a key pair, ed25519_sign_open accepts *)
Theorem C80_own_signatures : forall junk junk' junk'' m sk, hctx_ok sha512_alg junk -> hctx_ok sha512_alg junk' -> hctx_ok sha512_alg junk'' ->
  bytes sk -> zlen sk = 32 -> bytes m -> zlen m < 2 ^ 61 - 64 ->
  exists pk sig, ed25519_publickey wrap junk sk = Ok pk /\ ed25519_sign wrap junk' m sk pk = Ok sig /\ ed25519_sign_open wrap junk'' m pk sig = Ok 0.
Proof.
  intros junk junk' junk'' m sk Hj Hj' Hj'' B L Bm Lm. exists (ed_public sk), (ed_signature sk (ed_public sk) m). split; [now apply C79_public_key|].
  destruct (encode_sized (ed_mult (ed_scalar sk) ed_B) (mult_reduced _ _)) as [BP LP]. fold (ed_public sk) in BP, LP.
  split; [now apply C79_signature|]. destruct (signature_parts sk (ed_public sk) m _ eq_refl) as (_ & _ & Ls & Bs).
  apply (C80_rfc_8032 junk'' m (ed_public sk) (ed_signature sk (ed_public sk) m)); auto; [now apply public_key|]. apply own_signature; auto. lia.
Qed.
Print Assumptions C80_own_signatures.

(** The same for SignState objects, with the functions of the library for the three
    parameters of MSign.v.  Messages of 2^61 - 64 bytes or more are left out of the
    model: for them the signature is given as zeros. *)
Definition valued (r : outcome (list Z)) : list Z := match r with Ok l => l | UB => [] end.
Definition lib_publickey (junk : hctx) (k : list Z) : list Z := valued (ed25519_publickey wrap junk k).
Definition lib_sign (junk : hctx) (m k q : list Z) : list Z :=
  if zlen m <? 2 ^ 61 - 64 then valued (ed25519_sign wrap junk m k q) else zeros 64.
Definition lib_open (junk : hctx) (m q g : list Z) : bool :=
  match ed25519_sign_open wrap junk m q g with Ok r => r =? 0 | UB => false end.
Lemma lib_shape : forall junk, hctx_ok sha512_alg junk -> ed25519_shape (lib_publickey junk) (lib_sign junk).
Proof.
  intros junk Hj. split.
  - intros k [L B]. unfold lib_publickey. rewrite (proj2 (C79_public_key junk k Hj B L)). cbn [valued]. destruct (encode_sized (ed_mult (ed_scalar k) ed_B) (mult_reduced _ _)). now split.
  - intros m k q Bm [Lk Bk] [Lq Bq]. unfold lib_sign. destruct (Z.ltb_spec (zlen m) (2 ^ 61 - 64)) as [L|L]; [|split; [reflexivity|apply bytes_zeros]].
    rewrite (proj2 (C79_signature junk m k q Hj Bk Lk Bq Lq Bm L)). cbn [valued]. destruct (signature_parts k q m _ eq_refl) as (_ & _ & ? & ?). now split.
Qed.
(** After every program: what an object with a key pair signs, every object that holds
    the same public key verifies. *)
Theorem C80_objects : forall junk ops seens pool i j si sj m ml g q,
  hctx_ok sha512_alg junk -> Forall sg_op_ok ops ->
  sg_run (lib_publickey junk) (lib_sign junk) (lib_open junk) [] ops = Ok (seens, pool) ->
  nth_error pool i = Some si -> nth_error pool j = Some sj ->
  signstate_has_keypair (Some si) = true ->
  signstate_get_public_key (Some si) (Some (zeros 32)) 32 = Ok (E_NONE, Some q) ->
  signstate_get_public_key (Some sj) (Some (zeros 32)) 32 = Ok (E_NONE, Some q) ->
  ptr_ok (Some m) ml -> ml < 2 ^ 61 - 64 -> ptr_ok (Some g) 64 ->
  exists g', signstate_sign (lib_sign junk) (Some si) (Some m) ml (Some g) 64 = Ok (E_NONE, Some g') /\
    signstate_verify (lib_open junk) (Some sj) (Some m) ml (Some g') 64 = Ok E_NONE.
Proof.
  intros junk ops seens pool i j si sj m ml g q Hj Hops E Hi Hjj Hk Qi Qj Hm Hml Hg.
  pose proof (lib_shape junk Hj) as Hs.
  destruct (run_good (lib_publickey junk) (lib_sign junk) (lib_open junk) Hs ops [] [] (Forall2_nil _) Hops) as (seens' & pool' & hs & E' & _ & HR).
  rewrite E in E'. injection E' as <- <-. destruct Hm as [Hm0 [Hm1 Hm2]], Hg as [_ [Hg1 Hg2]].
  pose proof (forall2_nth _ _ _ _ _ HR i) as Ri. rewrite Hi in Ri. destruct (nth_error hs i) as [hi|]; [|easy].
  pose proof (forall2_nth _ _ _ _ _ HR j) as Rj. rewrite Hjj in Rj. destruct (nth_error hs j) as [hj|]; [|easy].
  assert (G : forall s, signstate_get_public_key (Some s) (Some (zeros 32)) 32 = Ok (E_NONE, Some q) -> sized 32 (ss_public s) -> key_type_eqb (ss_type s) NO_KEY = false /\ ss_public s = q).
  { intros s Hq Sq. unfold signstate_get_public_key, ss_public_len in Hq. cbn [Z.eqb Pos.eqb negb] in Hq. destruct (key_type_eqb (ss_type s) NO_KEY); [discriminate|]. split; [reflexivity|].
    rewrite take_sized in Hq by assumption. destruct Sq as [Lq _]. rewrite store_front in Hq by (rewrite Lq, zlen_zeros by lia; lia). cbn [obind] in Hq.
    rewrite Lq, drop_all, app_nil_r in Hq by (rewrite zlen_zeros by lia; lia). now injection Hq. }
  destruct (rep_types _ _ _ Ri) as [[_ Ht]|(k & q' & _ & Ht & Hkk & Hq & Sk & Sq & Hkq)].
  { unfold signstate_has_keypair in Hk. rewrite Ht in Hk. discriminate. }
  assert (Eq : q' = q) by (rewrite <- Hq; apply (G si Qi); rewrite Hq; exact Sq). rewrite Eq in *. clear Eq q'.
  unfold signstate_sign, ss_signature_len. cbn [Z.eqb Pos.eqb negb]. rewrite Ht. cbn [negb]. rewrite read_some by assumption. cbn [obind]. unfold ed25519_sign_with. rewrite Hkk, Hq.
  assert (Bm : bytes (take ml m)) by now apply bytes_take. assert (Lm : zlen (take ml m) < 2 ^ 61 - 64) by (rewrite zlen_take by lia; lia).
  destruct Hs as [_ Hsg]. pose proof (Hsg (take ml m) k q Bm Sk Sq) as [Sg Bg].
  rewrite store_front by lia. cbn [obind]. eexists. split; [reflexivity|]. rewrite Sg.
  destruct (rep_public (lib_publickey junk) (lib_open junk) _ _ Rj) as [[_ Htj]|(qj & _ & Htj & Hqj & Sqj)].
  { unfold signstate_get_public_key, ss_public_len in Qj. cbn [Z.eqb Pos.eqb negb] in Qj. rewrite Htj in Qj. discriminate. }
  assert (Eq : qj = q) by (rewrite <- Hqj; apply (G sj Qj); rewrite Hqj; exact Sqj). rewrite Eq in *. clear Eq qj.
  unfold signstate_verify, ss_signature_len. cbn [Z.eqb Pos.eqb negb]. rewrite Htj. rewrite !read_some by (try assumption; try (rewrite zlen_app; pose proof (zlen_nonneg Z (drop 64 g)); lia)). cbn [obind].
  f_equal. unfold ed25519_verify_with. rewrite Hqj. assert (T : take 64 (lib_sign junk (take ml m) k q ++ drop 64 g) = lib_sign junk (take ml m) k q) by (rewrite <- Sg at 1; apply take_app_exact).
  rewrite T. destruct Sk as [Lk Bk]. destruct Sq as [Lq Bq].
  destruct (C80_own_signatures junk junk junk (take ml m) k Hj Hj Hj Bk Lk Bm Lm) as (pk & sig & Ep & Es & Eo).
  unfold lib_publickey in Hkq. rewrite Ep in Hkq. cbn [valued] in Hkq. subst pk. unfold lib_open, lib_sign. rewrite (proj2 (Z.ltb_lt _ _) Lm), Es. cbn [valued]. rewrite Eo. reflexivity.
Qed.
Print Assumptions C80_objects.

(** Test 1 of RFC 8032 (a test only: prints true twice) *)
Definition verdict_is (o : outcome Z) (r : Z) : bool := match o with Ok x => x =? r | UB => false end.
Eval vm_compute in verdict_is (ed25519_sign_open wrap stack [] rfc_pk rfc_sig) 0.
Eval vm_compute in verdict_is (ed25519_sign_open wrap stack [] rfc_pk (take 63 rfc_sig ++ [0x2b])) (-1).
(** The key of the secret number 1 meets the hypotheses, with a signature by the nonce 0 *)
Example C80_example : hctx_ok sha512_alg stack /\ ed_key (ed_encode ed_B) /\
  ed_accepts (ed_encode ed_B) [] (ed_encode ed_neutral ++ le_bytes 32 one_hash) /\
  ed25519_sign_open wrap stack [] (ed_encode ed_B) (ed_encode ed_neutral ++ le_bytes 32 one_hash) = Ok 0.
Proof.
  split; [repeat split; reflexivity|]. split; [exists 1; split; [discriminate|]; now rewrite mult_one|]. split; [exact one_signature|].
  destruct (encode_sized ed_B B_reduced) as [BB LB]. destruct (encode_sized ed_neutral neutral_reduced) as [BN LN].
  destruct (C80_verdict stack [] (ed_encode ed_B) (ed_encode ed_neutral ++ le_bytes 32 one_hash)) as (r & _ & -> & _ & A); auto.
  - repeat split; reflexivity.
  - apply bytes_app. split; [exact BN|apply bytes_le_bytes].
  - constructor.
  - reflexivity.
  - f_equal. apply A, one_signature.
Qed.
(** A program after which two objects hold the same key *)
Definition lib_ops : list sg_op := [SNew SIGN_ED25519; SNew SIGN_ED25519; SSetPrivate 0 (Some rfc_sk) 32; SCopy 1 0].
Lemma lib_run : forall publickey sign sign_open, exists seens, let s := SignState SIGN_ED25519 KEYPAIR rfc_sk (publickey rfc_sk) in
  sg_run publickey sign sign_open [] lib_ops = Ok (seens, [s; s]).
Proof. intros. eexists. reflexivity. Qed.
Example C80_objects_example : Forall sg_op_ok lib_ops /\ exists seens pool s q,
  sg_run (lib_publickey stack) (lib_sign stack) (lib_open stack) [] lib_ops = Ok (seens, pool) /\
  nth_error pool 0 = Some s /\ nth_error pool 1 = Some s /\ signstate_has_keypair (Some s) = true /\
  signstate_get_public_key (Some s) (Some (zeros 32)) 32 = Ok (E_NONE, Some q).
Proof.
  destruct C79_example as (Hj & B & L & _). split.
  - unfold lib_ops. repeat (apply Forall_cons || apply Forall_nil); cbn [sg_op_ok]; try exact Logic.I. split; [discriminate|]. split; [rewrite L; discriminate|assumption].
  - destruct (lib_shape stack Hj) as [Sh _]. destruct (Sh rfc_sk (conj L B)) as [Lq Bq]. destruct (lib_run (lib_publickey stack) (lib_sign stack) (lib_open stack)) as [seens E].
    set (q := lib_publickey stack rfc_sk) in *. clearbody q. eexists seens, _, _, q. split; [exact E|]. split; [reflexivity|]. split; [reflexivity|]. split; [reflexivity|].
    unfold signstate_get_public_key, ss_public_len. cbn [Z.eqb Pos.eqb negb ss_public ss_type key_type_eqb].
    rewrite take_all by lia. rewrite store_front by (rewrite Lq, zlen_zeros by lia; lia). cbn [obind]. now rewrite Lq, drop_all, app_nil_r by (rewrite zlen_zeros by lia; lia).
Qed.

(** ** C81 *)
(** The signature (R, S) of a message is not the only one: where there is room below
    2^253, (R, S + L) is accepted too, which RFC 8032 refuses. *)
Theorem C81_second_signature : forall junk m pk R s, hctx_ok sha512_alg junk -> bytes pk -> zlen pk = 32 -> bytes R -> zlen R = 32 -> bytes s -> zlen s = 32 ->
  bytes m -> zlen m < 2 ^ 61 - 64 ->
  ed25519_sign_open wrap junk m pk (R ++ s) = Ok 0 -> le_val s + ed_L < 2 ^ 253 ->
  let s' := le_bytes 32 (le_val s + ed_L) in
  ed25519_sign_open wrap junk m pk (R ++ s') = Ok 0 /\ R ++ s' <> R ++ s /\ ~ ed_verifies pk m (R ++ s').
Proof.
  intros junk m pk R s Hj Bp Lp BR LR Bs Ls Bm Lm H Hf. cbv zeta. pose proof (mem_word_range s Bs) as [S0 _]. change (mem_word s) with (le_val s) in S0.
  assert (V : le_val (le_bytes 32 (le_val s + ed_L)) = le_val s + ed_L).
  { rewrite le_val_le_bytes. apply Z.mod_small. unfold ed_L in *. change (256 ^ Z.of_nat 32) with (2 ^ 256). lia. }
  assert (LT : le_val s < le_val s + ed_L) by (clear; unfold ed_L; lia). assert (GE : ed_L <= le_val s + ed_L) by (clear - S0; lia).
  split; [|split].
  - destruct (C80_verdict junk m pk (R ++ s)) as (r & _ & E & _ & A); auto; [apply bytes_app; now split|rewrite zlen_app; lia|].
    destruct (C80_verdict junk m pk (R ++ le_bytes 32 (le_val s + ed_L))) as (r' & _ & E' & _ & A'); auto; [apply bytes_app; split; [exact BR|apply bytes_le_bytes]|rewrite zlen_app, zlen_le_bytes, LR; reflexivity|].
    rewrite E' in *. rewrite E in H. f_equal. apply A'. apply accepts_shifted; auto. apply A. now injection H.
  - intros X. apply app_inv_head in X. apply (f_equal le_val) in X. rewrite V in X. clear - X LT. lia.
  - intros (_ & X & _). cbv zeta in X. rewrite drop_32, V in X by exact LR. clear - X GE. lia.
Qed.
Print Assumptions C81_second_signature.
(** So this is false: "for every key of RFC 8032 and every message, two signatures
    that are accepted and begin with the same 32 bytes are the same" *)
Theorem C81_one_signature_refuted : ~ (forall junk m pk R s s', hctx_ok sha512_alg junk -> ed_key pk -> bytes R -> zlen R = 32 -> bytes s -> zlen s = 32 -> bytes s' -> zlen s' = 32 ->
  bytes m -> zlen m < 2 ^ 61 - 64 ->
  ed25519_sign_open wrap junk m pk (R ++ s) = Ok 0 -> ed25519_sign_open wrap junk m pk (R ++ s') = Ok 0 -> s = s').
Proof.
  intros G. destruct C80_example as (Hj & K & _ & H). destruct (encode_sized ed_B B_reduced) as [BB LB]. destruct (encode_sized ed_neutral neutral_reduced) as [BN LN].
  assert (V : le_val (le_bytes 32 one_hash) = one_hash) by (rewrite le_val_le_bytes; apply Z.mod_small; split; [discriminate|reflexivity]).
  set (s := le_bytes 32 one_hash) in *. assert (Bs : bytes s) by apply bytes_le_bytes. assert (Ls : zlen s = 32) by apply (zlen_le_bytes 32).
  assert (F : le_val s + ed_L < 2 ^ 253) by (rewrite V; reflexivity). clearbody s. assert (B0 : bytes []) by constructor. assert (L0 : zlen (@nil Z) < 2 ^ 61 - 64) by reflexivity.
  destruct (C81_second_signature stack [] (ed_encode ed_B) (ed_encode ed_neutral) s Hj BB LB BN LN Bs Ls B0 L0 H F) as (H' & N & _).
  apply N. f_equal. symmetry. exact (G stack [] _ _ _ _ Hj K BN LN Bs Ls (bytes_le_bytes _ _) (zlen_le_bytes 32 _) B0 L0 H H').
Qed.
Print Assumptions C81_one_signature_refuted.
(** And so is this: "a key with which a signature is accepted is one that section 5.1.3
    of RFC 8032 decodes".  Two 32-byte strings that denote no point, y = p + 1 and
    x = -0, are taken for the neutral point, and with them the signature of 64 bytes
    1, 0, 0, ... is accepted for every message. *)
Theorem C81_keys_refuted : forall junk m, hctx_ok sha512_alg junk -> bytes m -> zlen m < 2 ^ 61 - 64 ->
  forall pk, In pk [le_bytes 32 (p25519 + 1); le_bytes 32 (1 + 2 ^ 255)] ->
  (forall P, ~ ed_denotes pk P) /\ ed25519_sign_open wrap junk m pk (1 :: zeros 63) = Ok 0.
Proof.
  intros junk m Hj Bm Lm pk Hpk.
  assert (H : (forall P, ~ ed_denotes pk P) /\ ed_opens pk ed_neutral /\ bytes pk /\ zlen pk = 32).
  { destruct Hpk as [<-|[<-|[]]]; (split; [first [exact large_y_none|exact minus_zero_none]|]); (split; [first [exact large_y_opens|exact minus_zero_opens]|]); (split; [apply bytes_le_bytes|apply zlen_le_bytes]). }
  destruct H as (H & O & Bp & Lp). split; [exact H|]. clear Hpk H.
  assert (E : 1 :: zeros 63 = ed_encode ed_neutral ++ zeros 32) by reflexivity.
  destruct (C80_verdict junk m pk (1 :: zeros 63)) as (r & _ & -> & _ & A); auto.
  - constructor; [unfold is_byte; lia|apply bytes_zeros].
  - f_equal. apply A. rewrite E. now apply weak_key.
Qed.
Print Assumptions C81_keys_refuted.
(** There is room for a second signature in test 1 of RFC 8032 *)
Example C81_example : le_val (drop 32 rfc_sig) + ed_L < 2 ^ 253. Proof. reflexivity. Qed.
