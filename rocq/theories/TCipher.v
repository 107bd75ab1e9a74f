(** Theorems C01-C08: CipherState. *)
From Verif Require Import Base MCipher SCipher PCipher Toy.
From Coq Require Import Sorted ZifyBool.

(** C01.  Over any sequence of calls on a CipherState, every encryption that
    reached the cipher used its own nonce: the (epoch, nonce) pairs, where the
    epoch counts init_key calls, are strictly increasing, hence distinct. *)
Theorem C01_nonce_never_reused : forall alg ops,
  cipher_shape alg -> Forall op_ok ops ->
  exists hist s' used,
    cs_run (cipherstate_new alg) ops = Ok (hist, s') /\
    map o_op hist = ops /\
    explained alg None 0 hist used /\
    StronglySorted nonce_lt used /\ NoDup used.
Proof.
  intros alg ops Hsh Hops.
  destruct (nonce_history ops (cipherstate_new alg) 0 Hsh (cs_new_wf alg) Hops)
    as (h & s' & u & Hr & Hm & Hex & Hso & _).
  exists h, s', u. repeat split; auto. apply sorted_nodup; auto.
Qed.
Print Assumptions C01_nonce_never_reused.

Definition ex_key : cptr := Some [1; 2; 3; 4].
Definition ex_buf (pt : list Z) : nbuf := NBuf (Some (pt ++ [0; 0])) (zlen pt) (zlen pt + 2).
Definition ex_ops : list cs_op :=
  [OpEnc None 0 (ex_buf [7; 8]); OpInit ex_key 4; OpEnc None 0 (ex_buf [7; 8]);
   OpSetNonce 5; OpEnc (Some [9]) 1 (ex_buf [7; 8]); OpDec None 0 (ex_buf [3; 3]);
   OpSetNonce 2; OpEnc None 0 (ex_buf []); OpInit ex_key 4; OpEnc None 0 (ex_buf [1])].

Ltac bytes_tac := repeat constructor; unfold is_byte; lia.

(** What the caller sees of a run: error codes, and key presence and counter at
    the end. *)
Definition ex_view (r : outcome (list obs * cipherstate)) : list err * bool * Z :=
  match r with
  | Ok (hist, s) => (map o_err hist, cs_has_key s, cs_n s)
  | UB => ([], false, -1)
  end.

Lemma ex_ops_ok : Forall op_ok ex_ops.
Proof.
  repeat (constructor; [cbn; repeat split; try (vm_compute; congruence); try lia; try bytes_tac|]).
  constructor.
Qed.

(** The example history really uses five different nonces in two epochs. *)
Example C01_example : cipher_shape toy_cipher /\ Forall op_ok ex_ops /\
  ex_view (cs_run (cipherstate_new toy_cipher) ex_ops) =
    ([E_NONE; E_NONE; E_NONE; E_NONE; E_NONE; E_MAC_FAILURE;
      E_INVALID_NONCE; E_NONE; E_NONE; E_NONE], true, 1).
Proof.
  split; [apply toy_shape|]. split; [apply ex_ops_ok|]. vm_compute; reflexivity.
Qed.

(** C02.  No encryption ever uses the nonce 2^64-1 ... *)
Theorem C02_reserved_nonce_never_used : forall alg ops,
  cipher_shape alg -> Forall op_ok ops ->
  exists hist s' used,
    cs_run (cipherstate_new alg) ops = Ok (hist, s') /\
    explained alg None 0 hist used /\
    Forall (fun u => 0 <= snd u < 2^64 - 1) used.
Proof.
  intros alg ops Hsh Hops.
  destruct (nonce_history ops (cipherstate_new alg) 0 Hsh (cs_new_wf alg) Hops)
    as (h & s' & u & Hr & Hm & Hex & Hso & Hf).
  exists h, s', u. repeat split; auto. eapply Forall_impl; [|exact Hf]. cbn. tauto.
Qed.
Print Assumptions C02_reserved_nonce_never_used.

(** ... and once the counter is there, both directions refuse every otherwise
    legal buffer with INVALID_NONCE and change nothing. *)
Theorem C02_reserved_nonce_refused : forall alg ops hist s ad n b,
  cipher_shape alg -> Forall op_ok ops ->
  cs_run (cipherstate_new alg) ops = Ok (hist, s) ->
  cs_has_key s = true -> cs_n s = 2^64 - 1 ->
  ptr_ok ad n -> (ad = None -> n = 0) -> buf_ok b -> b_data b <> None ->
  (b_size b + ca_mac_len alg <= b_max b -> b_size b + ca_mac_len alg <= MAX_PAYLOAD_LEN ->
   cipherstate_encrypt_with_ad s ad n b = Ok (E_INVALID_NONCE, s, b)) /\
  (ca_mac_len alg <= b_size b <= b_max b -> b_size b <= MAX_PAYLOAD_LEN ->
   cipherstate_decrypt_with_ad s ad n b = Ok (E_INVALID_NONCE, s, b)).
Proof.
  intros alg ops hist s ad n b Hsh Hops Hr Hk Hn Hp Had Hb Hd.
  destruct (cs_run_wf ops (cipherstate_new alg) hist s Hsh (cs_new_wf alg) Hops Hr) as [Hwf Ha].
  cbn in Ha. subst alg. pose proof (shape_mac _ Hsh). split; intros.
  - destruct (encrypt_char s ad n b Hsh Hwf Hp Hb) as (e & s' & b' & -> & H2).
    inversion H2; subst; try congruence.
    + rewrite H6; auto; lia.
    + unfold enc_accepts in H4. tauto.
  - destruct (decrypt_char s ad n b Hsh Hwf Hp Hb) as (e & s' & b' & -> & H2).
    inversion H2; subst; try congruence.
    + rewrite H6; auto; lia.
    + unfold dec_accepts in H4. tauto.
Qed.
Print Assumptions C02_reserved_nonce_refused.

Example C02_example :
  ex_view (cs_run (cipherstate_new toy_cipher) [OpInit ex_key 4; OpSetNonce (2^64 - 2);
     OpEnc None 0 (ex_buf [7])]) = ([E_NONE; E_NONE; E_NONE], true, 2^64 - 1) /\
  buf_ok (ex_buf [7]).
Proof. split; [vm_compute; reflexivity|]. repeat split; try (vm_compute; congruence); bytes_tac. Qed.

(** C03.  Any sequence of messages sent through one CipherState and received
    through another with the same key arrives unchanged. *)
Theorem C03_channel_round_trip : forall alg k ms spare s0 r0,
  cipher_correct alg -> zlen k = ca_key_len alg -> bytes k ->
  bytes spare -> ca_mac_len alg <= zlen spare ->
  zlen ms <= 2^64 - 1 ->
  Forall (fun m => bytes (fst m) /\ bytes (snd m) /\
                   zlen (snd m) + ca_mac_len alg <= MAX_PAYLOAD_LEN) ms ->
  cs_alg s0 = alg -> cs_alg r0 = alg ->
  exists s r s' r' ps,
    cipherstate_init_key s0 (Some k) (zlen k) = Ok (E_NONE, s) /\
    cipherstate_init_key r0 (Some k) (zlen k) = Ok (E_NONE, r) /\
    send_all s spare ms = Ok (map (fun p => (E_NONE, p)) ps, s') /\
    receive_all r (map (fun x => (true, fst (fst x), snd x)) (combine ms ps))
      = Ok (map (fun m => (E_NONE, snd m)) ms, r') /\
    cs_n s' = zlen ms /\ cs_n r' = zlen ms.
Proof.
  intros alg k ms spare s0 r0 Hc Hkl Hkb Hsb Hsp Hlen Hms Hs Hr.
  destruct (send_stream alg k spare ms 0 Hc Hkl Hkb Hsb Hsp) as (ps & Hsend & Hlps & Hbps & Hst); auto; try lia.
  destruct (receive_stream alg k 0 ms _ Hc Hkl Hkb Hst) as (outs & Hrecv & Hf & Hm & _); auto; try lia.
  { clear - Hms Hbps. revert ps Hbps. induction ms as [|[a m] ms IH]; intros [|p ps] Hb; cbn; constructor; cbn.
    - inversion Hms; subst; inversion Hb; subst; cbn in *; tauto.
    - inversion Hms; inversion Hb; subst; auto. }
  exists (keyed alg k 0), (keyed alg k 0), (keyed alg k (0 + zlen ms)), (keyed alg k (0 + zlen ms)), ps.
  subst alg. rewrite !init_key_keyed by congruence. rewrite Hr. repeat split; auto.
  rewrite Hrecv. do 2 f_equal.
  assert (Hall : forallb (fun o => is_none (fst o)) outs = true).
  { clear - Hf. rewrite map_map in Hf. cbn in Hf. apply forallb_forall. intros x Hx.
    apply (in_map (fun o => is_none (fst o))) in Hx. rewrite Hf in Hx. apply in_map_iff in Hx.
    destruct Hx as (? & Hx & _). symmetry; auto. }
  clear Hf Hrecv. revert ms Hm Hlen Hms Hsend Hlps Hst. clear Hbps.
  assert (G : forall outs (l : list (list Z)), forallb (fun o : err * list Z => is_none (fst o)) outs = true ->
     map snd (filter (fun o : err * list Z => is_none (fst o)) outs) = l -> outs = map (fun p => (E_NONE, p)) l).
  { clear. induction outs as [|[e p] outs IH]; intros l Ha Hl; cbn in *; [subst; auto|].
    apply andb_prop in Ha. destruct Ha as [Ha Hb]. rewrite Ha in Hl. subst l. cbn.
    apply is_none_true in Ha. subst e. f_equal. apply IH; auto. }
  intros ms Hm _ _ _ _ _. rewrite (G _ _ Hall Hm). now rewrite map_map.
Qed.
Print Assumptions C03_channel_round_trip.

Example C03_example : exists s r s' r' ps,
    cipherstate_init_key (cipherstate_new toy_cipher) ex_key 4 = Ok (E_NONE, s) /\
    cipherstate_init_key (cipherstate_new toy_cipher) ex_key 4 = Ok (E_NONE, r) /\
    send_all s [0;0;0] [([], [1;2;3]); ([5], []); ([1;2], [255;0])]
      = Ok (map (fun p => (E_NONE, p)) ps, s') /\
    receive_all r (map (fun x => (true, fst (fst x), snd x))
       (combine [([], [1;2;3]); ([5], []); ([1;2], [255;0])] ps))
      = Ok ([(E_NONE, [1;2;3]); (E_NONE, []); (E_NONE, [255;0])], r') /\
    cs_n s' = 3 /\ cs_n r' = 3.
Proof.
  apply (C03_channel_round_trip toy_cipher [1;2;3;4]
          [([], [1;2;3]); ([5], []); ([1;2], [255;0])] [0;0;0]
          (cipherstate_new toy_cipher) (cipherstate_new toy_cipher) toy_correct);
    try reflexivity; try bytes_tac; try (vm_compute; congruence).
  repeat (constructor; [cbn; repeat split; try bytes_tac; vm_compute; congruence|]). constructor.
Qed.

(** C04.  A failed decryption changes neither the CipherState nor the size. *)
Theorem C04_rejected_packet_changes_nothing : forall alg ops hist s ad n b e s' b',
  cipher_shape alg -> Forall op_ok ops ->
  cs_run (cipherstate_new alg) ops = Ok (hist, s) ->
  ptr_ok ad n -> buf_ok b ->
  cipherstate_decrypt_with_ad s ad n b = Ok (e, s', b') -> e <> E_NONE ->
  s' = s /\ b_size b' = b_size b.
Proof.
  intros alg ops hist s ad n b e s' b' Hsh Hops Hr Hp Hb Hd He.
  destruct (cs_run_wf ops (cipherstate_new alg) hist s Hsh (cs_new_wf alg) Hops Hr) as [Hwf Ha].
  cbn in Ha. subst alg.
  destruct (decrypt_char s ad n b Hsh Hwf Hp Hb) as (e1 & s1 & b1 & Hd1 & H2).
  rewrite Hd in Hd1. inversion Hd1; subst. apply is_none_false in He.
  inversion H2; subst; auto. rewrite He. auto.
Qed.
Print Assumptions C04_rejected_packet_changes_nothing.

(** C04, stream form: packets that the cipher does not accept, mixed into a genuine
    stream at any place and in any number, are reported as errors and every genuine message
    is still delivered unchanged. *)
Theorem C04_junk_does_not_disturb_stream : forall alg k ms ps r0,
  cipher_correct alg -> zlen k = ca_key_len alg -> bytes k ->
  zlen ms <= 2^64 - 1 ->
  Forall (fun m => bytes (fst m) /\ bytes (snd m) /\
                   zlen (snd m) + ca_mac_len alg <= MAX_PAYLOAD_LEN) ms ->
  Forall (fun p => bytes (snd (fst p)) /\ bytes (snd p)) ps ->
  stream alg k 0 ms ps -> cs_alg r0 = alg ->
  exists r outs r',
    cipherstate_init_key r0 (Some k) (zlen k) = Ok (E_NONE, r) /\
    receive_all r ps = Ok (outs, r') /\
    map (fun o => is_none (fst o)) outs = map (fun p => fst (fst p)) ps /\
    map snd (filter (fun o => is_none (fst o)) outs) = map snd ms.
Proof.
  intros alg k ms ps r0 Hc Hkl Hkb Hlen Hms Hps Hst Hr.
  destruct (receive_stream alg k 0 ms ps Hc Hkl Hkb Hst) as (outs & Hrecv & Hf & Hm & _); auto; try lia.
  exists (keyed alg k 0), outs, (keyed alg k (0 + zlen ms)).
  subst alg. rewrite init_key_keyed by congruence. repeat split; auto.
Qed.
Print Assumptions C04_junk_does_not_disturb_stream.

Example C04_example : stream toy_cipher [1;2;3;4] 0 [([], [7;8]); ([], [9])]
  [(false, [], [1;1;1]); (true, [], snd (ca_encrypt toy_cipher [1;2;3;4] 0 [] [7;8]));
   (false, [], []); (false, [], snd (ca_encrypt toy_cipher [1;2;3;4] 0 [] [7;8]));
   (true, [], snd (ca_encrypt toy_cipher [1;2;3;4] 1 [] [9]))].
Proof.
  apply st_junk; [right; right; vm_compute; congruence|].
  apply st_genuine. apply st_junk; [left; vm_compute; reflexivity|].
  apply st_junk; [right; right; vm_compute; congruence|].
  apply st_genuine. apply st_nil.
Qed.

(** C05.  Exact acceptance condition and result size of encryption (for a
    cipher whose encryption does not fail), and bounds for decryption. *)
Theorem C05_encrypt_size_limits : forall alg ops hist s ad n b,
  cipher_correct alg -> Forall op_ok ops ->
  cs_run (cipherstate_new alg) ops = Ok (hist, s) ->
  cs_has_key s = true -> cs_n s < 2^64 - 1 ->
  ptr_ok ad n -> (ad = None -> n = 0) -> buf_ok b -> b_data b <> None ->
  exists e s' b',
    cipherstate_encrypt_with_ad s ad n b = Ok (e, s', b') /\
    (e = E_NONE <-> b_size b <= b_max b /\ b_size b <= MAX_PAYLOAD_LEN - ca_mac_len alg /\
                    ca_mac_len alg <= b_max b - b_size b) /\
    (e = E_NONE -> b_size b' = b_size b + ca_mac_len alg /\
                   b_size b' <= MAX_PAYLOAD_LEN /\ b_size b' <= b_max b') /\
    (e <> E_NONE -> e = E_INVALID_LENGTH /\ s' = s /\ b' = b).
Proof.
  intros alg ops hist s ad n b Hc Hops Hr Hk Hn Hp Had Hb Hd.
  pose proof (correct_shape _ Hc) as Hsh.
  destruct (cs_run_wf ops (cipherstate_new alg) hist s Hsh (cs_new_wf alg) Hops Hr) as [Hwf Ha].
  cbn in Ha. subst alg. pose proof (shape_mac _ Hsh).
  assert (HX : forall e, cipherstate_encrypt_with_ad s ad n b = Ok (e, s, b) -> e <> E_NONE -> e = E_INVALID_LENGTH).
  { intros e He Hne. unfold cipherstate_encrypt_with_ad in He. destruct (b_data b) as [mem|]; [|congruence].
    assert (Hmm : match ad with None => negb (n =? 0) | Some _ => false end = false)
      by (destruct ad; auto; specialize (Had eq_refl); subst; reflexivity).
    rewrite Hk in He. cbn [negb] in He.
    replace (cs_n s =? 2^64-1) with false in He by lia.
    destruct ad; rewrite ?Hmm in He;
    repeat match type of He with
    | (if ?c then _ else _) = _ => destruct c; [inversion He; subst; auto; congruence|]
    | obind ?x _ = _ => destruct x; cbn [obind] in He; [|discriminate]
    | (let '(_, _) := ?x in _) = _ => destruct x
    | (if ?c then _ else _) = _ => destruct c
    end; inversion He; subst; try congruence; exfalso;
    match goal with H : CipherState _ _ _ _ = s |- _ => apply (f_equal cs_n) in H; cbn in H end;
    pose proof (wf_n _ Hwf); rewrite Z.mod_small in * by lia; lia. }
  destruct (encrypt_char s ad n b Hsh Hwf Hp Hb) as (e & s' & b' & He & H2).
  exists e, s', b'. split; auto.
  inversion H2; subst; try congruence.
  - unfold enc_accepts in H1. split; [|split; [congruence|]].
    + split; [congruence|]. intros. exfalso. apply H1. intuition (congruence || lia).
    + intros. split; auto.
  - assert (Hee : e = E_NONE).
    { unfold enc_accepts in H1. destruct (wf_key _ Hwf Hk) as [Hkb Hkl].
      pose proof (wf_n _ Hwf). destruct Hb as (? & ? & Hst). rewrite H3 in Hst.
      pose proof (correct_enc _ Hc (cs_key s) (cs_n s) (ptr_bytes ad n) (contents b) Hkl Hkb) as G.
      rewrite H4 in G. cbn in G. apply G; try lia.
      - apply ptr_bytes_bytes; auto.
      - unfold contents; rewrite H3; apply bytes_take; tauto.
      - unfold contents; rewrite H3, zlen_take. lia. }
    subst e. cbn [is_none err_eqb]. unfold enc_accepts in H1. cbn [b_size b_max].
    unfold is_none, err_eqb in *. split; [|split; [|congruence]]; intuition lia.
Qed.
Print Assumptions C05_encrypt_size_limits.

Theorem C05_decrypt_size_limits : forall alg ops hist s ad n b e s' b',
  cipher_shape alg -> Forall op_ok ops ->
  cs_run (cipherstate_new alg) ops = Ok (hist, s) ->
  cs_has_key s = true ->
  ptr_ok ad n -> buf_ok b ->
  cipherstate_decrypt_with_ad s ad n b = Ok (e, s', b') -> e = E_NONE ->
  ca_mac_len alg <= b_size b <= MAX_PAYLOAD_LEN /\ b_size b <= b_max b /\
  b_size b' = b_size b - ca_mac_len alg.
Proof.
  intros alg ops hist s ad n b e s' b' Hsh Hops Hr Hk Hp Hb Hd ->.
  destruct (cs_run_wf ops (cipherstate_new alg) hist s Hsh (cs_new_wf alg) Hops Hr) as [Hwf Ha].
  cbn in Ha. subst alg.
  destruct (decrypt_char s ad n b Hsh Hwf Hp Hb) as (e1 & s1 & b1 & Hd1 & H2).
  rewrite Hd in Hd1. inversion Hd1; subst.
  inversion H2; subst; try congruence. unfold dec_accepts in *. cbn. lia.
Qed.
Print Assumptions C05_decrypt_size_limits.

Example C05_example :
  let b := NBuf (Some [1;2;3;4;5]) 3 4 in
  ex_view (cs_run (cipherstate_new toy_cipher) [OpInit ex_key 4; OpEnc None 0 b])
    = ([E_NONE; E_NONE], true, 1) /\
  ex_view (cs_run (cipherstate_new toy_cipher) [OpInit ex_key 4; OpEnc None 0 (NBuf (Some [1;2;3;4;5]) 3 3)])
    = ([E_NONE; E_INVALID_LENGTH], true, 0) /\
  buf_ok b.
Proof.
  split; [vm_compute; reflexivity|]. split; [vm_compute; reflexivity|].
  repeat split; try (vm_compute; congruence); bytes_tac.
Qed.

(** C06.  Before any successful init_key, encryption and decryption pass every
    legal buffer through unchanged, and set_nonce is refused. *)
Theorem C06_transparent_without_key : forall alg ops hist s ad n b nonce,
  cipher_shape alg -> Forall op_ok ops ->
  cs_run (cipherstate_new alg) ops = Ok (hist, s) ->
  Forall (fun o => match o_op o with OpInit _ _ => o_err o <> E_NONE | _ => True end) hist ->
  ptr_ok ad n -> (ad = None -> n = 0) -> buf_ok b -> b_data b <> None ->
  b_size b <= b_max b -> b_size b <= MAX_PAYLOAD_LEN ->
  s = cipherstate_new alg /\
  cipherstate_encrypt_with_ad s ad n b = Ok (E_NONE, s, b) /\
  cipherstate_decrypt_with_ad s ad n b = Ok (E_NONE, s, b) /\
  cipherstate_set_nonce s nonce = (E_INVALID_STATE, s).
Proof.
  intros alg ops hist s ad n b nonce Hsh Hops Hr Hno Hp Had Hb Hd Hs1 Hs2.
  assert (Hs : s = cipherstate_new alg).
  { revert hist Hr Hno. induction ops as [|op ops IH]; intros hist Hr Hno; cbn in Hr.
    - inversion Hr; auto.
    - inversion Hops as [|? ? Hop Hops']; subst.
      destruct (cs_step (cipherstate_new alg) op) as [[[e s1] b1]|] eqn:Hst; [|discriminate].
      cbn in Hr. destruct (cs_run s1 ops) as [[h s2]|] eqn:Hr1; [|discriminate].
      cbn in Hr. inversion Hr; subst. inversion Hno as [|? ? Ho Hno']; subst. cbn in Ho.
      assert (s1 = cipherstate_new alg).
      { destruct op as [k m|a m bb|a m bb|m]; cbn [cs_step] in Hst.
        - destruct (init_char (cipherstate_new alg) k m (shape_key _ Hsh) Hop) as (e2 & s3 & Hi & H).
          rewrite Hi in Hst. cbn in Hst. inversion Hst; subst.
          destruct H as [(_ & -> & _)|(-> & _)]; congruence.
        - destruct Hop as [Hp1 Hb1].
          destruct (encrypt_char (cipherstate_new alg) a m bb Hsh (cs_new_wf alg) Hp1 Hb1) as (e2 & s3 & b3 & Hi & H).
          rewrite Hi in Hst. cbn in Hst. inversion Hst; subst.
          inversion H; subst; auto; cbn in *; discriminate.
        - destruct Hop as [Hp1 Hb1].
          destruct (decrypt_char (cipherstate_new alg) a m bb Hsh (cs_new_wf alg) Hp1 Hb1) as (e2 & s3 & b3 & Hi & H).
          rewrite Hi in Hst. cbn in Hst. inversion Hst; subst.
          inversion H; subst; auto; cbn in *; discriminate.
        - cbn in Hst. inversion Hst; auto. }
      subst s1. eapply IH; eauto. }
  subst s. split; auto.
  destruct (encrypt_char (cipherstate_new alg) ad n b Hsh (cs_new_wf alg) Hp Hb) as (e1 & s1 & b1 & H1 & HE).
  destruct (decrypt_char (cipherstate_new alg) ad n b Hsh (cs_new_wf alg) Hp Hb) as (e2 & s2 & b2 & H2 & HD).
  rewrite H1, H2. repeat split.
  - inversion HE as [Hk|e0 Hk Hc Hne|e0 Hk|mem e0 out Hk]; subst; auto; try discriminate Hk. exfalso.
    destruct Hc as [Hc|[[[Hc1 Hc2] _]|(_ & _ & [Hc|Hc] & _)]]; [tauto|tauto|lia|lia].
  - inversion HD as [Hk|e0 Hk Hne Hc|e0 Hk|mem e0 out Hk]; subst; auto; try discriminate Hk. exfalso.
    destruct Hc as [Hc|[[Hc1 Hc2]|[Hc|Hc]]]; [tauto|tauto|lia|lia].
Qed.
Print Assumptions C06_transparent_without_key.

Example C06_example :
  ex_view (cs_run (cipherstate_new toy_cipher)
    [OpInit ex_key 3; OpEnc None 0 (ex_buf [7]); OpDec None 0 (ex_buf [7]); OpSetNonce 3])
   = ([E_INVALID_LENGTH; E_NONE; E_NONE; E_INVALID_STATE], false, 0).
Proof. vm_compute; reflexivity. Qed.

(** C07.  For every buffer (even one whose size exceeds its capacity), the
    calls never touch memory outside the storage of max_size bytes, keep its extent, and leave
    everything behind the packet untouched. *)
Theorem C07_encrypt_stays_in_buffer : forall alg ops hist s ad n b mem,
  cipher_shape alg -> Forall op_ok ops ->
  cs_run (cipherstate_new alg) ops = Ok (hist, s) ->
  ptr_ok ad n -> buf_ok b -> b_data b = Some mem ->
  exists e s' b' mem',
    cipherstate_encrypt_with_ad s ad n b = Ok (e, s', b') /\
    b_data b' = Some mem' /\ b_max b' = b_max b /\ zlen mem' = zlen mem /\
    (b_size b <= b_max b -> b_size b' <= b_max b') /\
    (mem' = mem \/
     b_size b + ca_mac_len alg <= b_max b /\
     drop (b_size b + ca_mac_len alg) mem' = drop (b_size b + ca_mac_len alg) mem).
Proof.
  intros alg ops hist s ad n b mem Hsh Hops Hr Hp Hb Hd.
  destruct (cs_run_wf ops (cipherstate_new alg) hist s Hsh (cs_new_wf alg) Hops Hr) as [Hwf Ha].
  cbn in Ha. subst alg. pose proof (shape_mac _ Hsh).
  destruct (encrypt_char s ad n b Hsh Hwf Hp Hb) as (e & s' & b' & -> & H2).
  destruct Hb as (? & ? & Hst). rewrite Hd in Hst. destruct Hst as [Hst Hby].
  inversion H2; subst; try (do 4 eexists; split; [reflexivity|]; repeat split; eauto; fail).
  do 4 eexists; split; [reflexivity|]. cbn [b_data b_size b_max].
  rewrite Hd in H5. inversion H5; subst mem0. unfold enc_accepts in H4.
  assert (Hlo : zlen out = b_size b + ca_mac_len (cs_alg s)).
  { pose proof (shape_enc _ Hsh (cs_key s) (cs_n s) (ptr_bytes ad n) (contents b)) as Hl.
    rewrite H6 in Hl. cbn in Hl. rewrite Hl. unfold contents. rewrite Hd, zlen_take. lia. }
  repeat split; eauto.
  - apply splice_length; lia.
  - destruct (is_none e); lia.
  - right. split; [lia|]. rewrite <- Hlo. apply splice_drop_after; lia.
Qed.
Print Assumptions C07_encrypt_stays_in_buffer.

Theorem C07_decrypt_stays_in_buffer : forall alg ops hist s ad n b mem,
  cipher_shape alg -> Forall op_ok ops ->
  cs_run (cipherstate_new alg) ops = Ok (hist, s) ->
  ptr_ok ad n -> buf_ok b -> b_data b = Some mem ->
  exists e s' b' mem',
    cipherstate_decrypt_with_ad s ad n b = Ok (e, s', b') /\
    b_data b' = Some mem' /\ b_max b' = b_max b /\ zlen mem' = zlen mem /\
    0 <= b_size b' <= b_size b /\
    (mem' = mem \/
     b_size b <= b_max b /\ drop (b_size b) mem' = drop (b_size b) mem).
Proof.
  intros alg ops hist s ad n b mem Hsh Hops Hr Hp Hb Hd.
  destruct (cs_run_wf ops (cipherstate_new alg) hist s Hsh (cs_new_wf alg) Hops Hr) as [Hwf Ha].
  cbn in Ha. subst alg. pose proof (shape_mac _ Hsh).
  destruct (decrypt_char s ad n b Hsh Hwf Hp Hb) as (e & s' & b' & -> & H2).
  destruct Hb as (? & ? & Hst). rewrite Hd in Hst. destruct Hst as [Hst Hby].
  inversion H2; subst; try (do 4 eexists; split; [reflexivity|]; repeat split; eauto; lia).
  do 4 eexists; split; [reflexivity|]. cbn [b_data b_size b_max].
  rewrite Hd in H5. inversion H5; subst mem0. unfold dec_accepts in H4.
  assert (Hlc : zlen (contents b) = b_size b) by (unfold contents; rewrite Hd, zlen_take; lia).
  assert (Hlo : zlen out = b_size b).
  { pose proof (shape_dec _ Hsh (cs_key s) (cs_n s) (ptr_bytes ad n) (contents b)) as Hl.
    rewrite H6 in Hl. cbn in Hl. rewrite Hl; lia. }
  repeat split; eauto.
  - apply splice_length; lia.
  - destruct (is_none e); lia.
  - destruct (is_none e); lia.
  - right. split; [lia|]. rewrite <- Hlo. apply splice_drop_after; lia.
Qed.
Print Assumptions C07_decrypt_stays_in_buffer.

Example C07_example : buf_ok (NBuf (Some [1;2;3;4;5;6]) 2 4) /\ buf_ok (NBuf (Some [1]) 77 1).
Proof. split; repeat split; cbn; try (vm_compute; congruence); bytes_tac. Qed.

(** C08.  set_nonce moves the counter forward only; init_key alone resets it. *)
Theorem C08_set_nonce_forward_only : forall s nonce e s',
  cipherstate_set_nonce s nonce = (e, s') ->
  (e = E_NONE <-> cs_has_key s = true /\ cs_n s <= nonce) /\
  (e = E_NONE -> cs_n s' = nonce /\ cs_key s' = cs_key s /\ cs_has_key s' = true /\ cs_alg s' = cs_alg s) /\
  (e <> E_NONE -> s' = s).
Proof.
  intros s nonce e s' H. unfold cipherstate_set_nonce in H.
  destruct (cs_has_key s) eqn:Hk; cbn in H.
  - destruct (Z.ltb_spec nonce (cs_n s)); inversion H; subst; cbn; intuition (congruence || lia).
  - inversion H; subst; intuition congruence.
Qed.
Print Assumptions C08_set_nonce_forward_only.

Theorem C08_counter_monotone_without_init_key : forall alg ops hist s op e s' b',
  cipher_shape alg -> Forall op_ok ops ->
  cs_run (cipherstate_new alg) ops = Ok (hist, s) ->
  op_ok op -> cs_step s op = Ok (e, s', b') ->
  match op with OpInit _ _ => e = E_NONE -> cs_n s' = 0 | _ => cs_n s <= cs_n s' end.
Proof.
  intros alg ops hist s op e s' b' Hsh Hops Hr Hop Hst.
  destruct (cs_run_wf ops (cipherstate_new alg) hist s Hsh (cs_new_wf alg) Hops Hr) as [Hwf Ha].
  cbn in Ha. subst alg. destruct op as [k m|a m bb|a m bb|m]; cbn [cs_step] in Hst.
  - destruct (init_char s k m (shape_key _ Hsh) Hop) as (e2 & s3 & Hi & H).
    rewrite Hi in Hst. cbn in Hst. inversion Hst; subst.
    destruct H as [(He & _)|(_ & _ & _ & ->)]; auto; congruence.
  - destruct Hop as [Hp1 Hb1].
    destruct (encrypt_char s a m bb Hsh Hwf Hp1 Hb1) as (e2 & s3 & b3 & Hi & H).
    rewrite Hi in Hst. cbn in Hst. inversion Hst; subst. inversion H; subst; cbn; lia.
  - destruct Hop as [Hp1 Hb1].
    destruct (decrypt_char s a m bb Hsh Hwf Hp1 Hb1) as (e2 & s3 & b3 & Hi & H).
    rewrite Hi in Hst. cbn in Hst. inversion Hst; subst. inversion H; subst; try lia.
    destruct (is_none e); cbn; lia.
  - destruct (cipherstate_set_nonce s m) as [e2 s3] eqn:Hi. inversion Hst; subst.
    unfold cipherstate_set_nonce in Hi. destruct (cs_has_key s); cbn in Hi; [|inversion Hi; lia].
    destruct (Z.ltb_spec m (cs_n s)); inversion Hi; subst; cbn; lia.
Qed.
Print Assumptions C08_counter_monotone_without_init_key.

Example C08_example : cipherstate_set_nonce (CipherState toy_cipher true [1;2;3;4] 7) 9
  = (E_NONE, CipherState toy_cipher true [1;2;3;4] 9) /\
  cipherstate_set_nonce (CipherState toy_cipher true [1;2;3;4] 7) 6
  = (E_INVALID_NONCE, CipherState toy_cipher true [1;2;3;4] 7).
Proof. split; reflexivity. Qed.
