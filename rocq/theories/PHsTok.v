(** Proofs about HandshakeState: one token of a message. *)
From Coq Require Import ZifyBool ZifyNat.
From Verif Require Import Base MUtil MCipher SCipher PCipher MHash SHash PHash MSymm SSymm PSymm MPatterns SPatterns MDh SDh PDh MHandshake SHandshake PHandshake.

(** Which key objects exist *)
Record shape : Type := Shape { x_s : bool; x_e : bool; x_f : bool; x_rs : bool; x_re : bool; x_rf : bool }.
Definition shape_of (s : handshakestate) : shape :=
  Shape (known (ko_static (hs_local s))) (known (ko_ephemeral (hs_local s))) (known (ko_hybrid (hs_local s)))
        (known (ko_static (hs_remote s))) (known (ko_ephemeral (hs_remote s))) (known (ko_hybrid (hs_remote s))).
(** Which keys a party knows, and its place *)
Record knowledge : Type := Know { w_s : bool; w_e : bool; w_f : bool; w_rs : bool; w_re : bool; w_rf : bool }.

(** A token can be processed: the objects exist and the keys it needs are known. *)
Definition sane_dh (initiator : bool) (w : knowledge) (t : tok) : bool :=
  match t with
  | EE_ => w_e w && w_re w
  | ES_ => if initiator then w_e w && w_rs w else w_s w && w_re w
  | SE_ => if initiator then w_s w && w_re w else w_e w && w_rs w
  | SS_ => w_s w && w_rs w
  | FF_ => w_f w && w_rf w
  | _ => false
  end.
Definition sane_write (x : shape) (initiator second : bool) (w : knowledge) (t : tok) : bool :=
  match t with
  | E_ => x_e x && Bool.eqb (w_re w) second
  | S_ => x_s x && w_s w
  | F_ => x_f x && x_rf x && negb (w_f w) && Bool.eqb (w_rf w) second
  | t => sane_dh initiator w t
  end.
Definition sane_read (x : shape) (initiator second : bool) (w : knowledge) (t : tok) : bool :=
  match t with
  | E_ => x_re x && Bool.eqb (w_e w) (negb second)
  | S_ => x_rs x
  | F_ => x_f x && x_rf x && negb (w_rf w) && Bool.eqb (w_f w) (negb second)
  | t => sane_dh initiator w t
  end.
Definition learn_write (w : knowledge) (t : tok) : knowledge :=
  match t with
  | E_ => Know (w_s w) true (w_f w) (w_rs w) (w_re w) (w_rf w)
  | F_ => Know (w_s w) (w_e w) true (w_rs w) (w_re w) (w_rf w)
  | _ => w
  end.
Definition learn_read (w : knowledge) (t : tok) : knowledge :=
  match t with
  | E_ => Know (w_s w) (w_e w) (w_f w) (w_rs w) true (w_rf w)
  | S_ => Know (w_s w) (w_e w) (w_f w) true (w_re w) (w_rf w)
  | F_ => Know (w_s w) (w_e w) (w_f w) (w_rs w) (w_re w) true
  | _ => w
  end.
Fixpoint sane_tokens (x : shape) (initiator second writing : bool) (w : knowledge) (ts : list tok) : bool :=
  match ts with
  | [] => true
  | t :: ts => (if writing then sane_write x initiator second w t else sane_read x initiator second w t) &&
               sane_tokens x initiator second writing (if writing then learn_write w t else learn_read w t) ts
  end.
Definition learn_tokens (writing : bool) (w : knowledge) (ts : list tok) : knowledge :=
  fold_left (if writing then learn_write else learn_read) ts w.
Fixpoint sane_messages (x : shape) (initiator second writing : bool) (w : knowledge) (ms : list (list tok)) : bool :=
  match ms with
  | [] => true
  | m :: ms => sane_tokens x initiator second writing w m && sane_messages x initiator second (negb writing) (learn_tokens writing w m) ms
  end.

Lemma tok_code_range : forall t, 1 <= tok_code t <= 8.
Proof. intros []; cbn; lia. Qed.

(** lia on the arithmetic hypotheses only *)
Ltac arith_prop T :=
  lazymatch T with
  | (_ <= _)%Z => idtac | (_ < _)%Z => idtac | @eq Z _ _ => idtac
  | ?A /\ ?B => arith_prop A; arith_prop B
  | ?A \/ ?B => arith_prop A; arith_prop B
  | ~ ?A => arith_prop A
  end.
Ltac qlia := first [ solve [ repeat match goal with X : ?T |- _ => tryif arith_prop T then fail else clear X end; lia ] | lia ].

Section P.
Variable ca : cipher_alg.
Variable alg : hash_alg.
Variable H : list Z -> list Z.
Hypothesis Cok : cipher_correct ca.
Hypothesis Law : hash_law alg H.
Hypothesis Klen : ca_key_len ca <= ha_hash_len alg.
Hypothesis Mac : ca_mac_len ca <= 16.
Variables dalg halg : dh_alg.
Variables D E : dh_functions.
Variable dview : dh_data -> KP D.
Variable dready : dh_data -> Prop.
Variable hview : dh_data -> KP E.
Variable hready : dh_data -> Prop.
Hypothesis Ld : dh_link dalg D dview dready.
Hypothesis Lh : dh_link halg E hview hready.
Variable psk : bool.

Local Notation HL := (ha_hash_len alg).
Local Notation BL := (ha_block_len alg).
Local Notation KL := (ca_key_len ca).
Local Notation party := (party D E).
Local Notation MixKey := (MixKey H BL KL).
Local Notation MixHash := (MixHash H).
Local Notation EncryptAndHash := (EncryptAndHash H (aead_encrypt ca)).
Local Notation DecryptAndHash := (DecryptAndHash H (aead_decrypt ca)).
Local Notation MixEphemeral := (MixEphemeral H BL KL psk).
Local Notation DHToken := (DHToken H BL KL D E).
Local Notation WriteToken := (WriteToken H BL KL (aead_encrypt ca) D E psk).
Local Notation WriteTokens := (WriteTokens H BL KL (aead_encrypt ca) D E psk).
Local Notation ReadToken := (ReadToken H BL KL (ca_mac_len ca) (aead_decrypt ca) D E psk).
Local Notation ReadTokens := (ReadTokens H BL KL (ca_mac_len ca) (aead_decrypt ca) D E psk).

(** ** The relation between an object and a party of the specification *)
Definition local_rel (a : dh_alg) (F : dh_functions) (view : dh_data -> KP F) (ready : dh_data -> Prop) (always second : bool)
    (o : option dhstate) (k : option (KP F)) : Prop :=
  match o with
  | None => k = None
  | Some d => dh_wf a d /\ (always || known k = true -> second_role (ds_data d) = second) /\
    match k with
    | None => dh_key_type d = NO_KEY
    | Some k => dh_key_type d = KEYPAIR /\ ready (ds_data d) /\ view (ds_data d) = k
    end
  end.
Definition remote_rel (a : dh_alg) (always second : bool) (o : option dhstate) (q : option (list Z)) : Prop :=
  match o with
  | None => q = None
  | Some d => dh_wf a d /\ (always || known q = true -> second_role (ds_data d) = second) /\
    match q with
    | None => dh_key_type d = NO_KEY
    | Some q => dh_key_type d <> NO_KEY /\ public_key d = q
    end
  end.
Record keys_rel (s : handshakestate) (p : party) : Prop := {
  kr_role : hs_role s = if p_initiator p then ROLE_INITIATOR else ROLE_RESPONDER;
  kr_prefix : (prefix_of s =? PREFIX_PSK) = psk;
  kr_fixed : hs_fixed_ephemeral s = None /\ hs_fixed_hybrid s = None;
  kr_s : local_rel dalg D dview dready true (p_second p) (ko_static (hs_local s)) (p_s p);
  kr_e : local_rel dalg D dview dready true (p_second p) (ko_ephemeral (hs_local s)) (p_e p);
  kr_f : local_rel halg E hview hready false (p_second p) (ko_hybrid (hs_local s)) (p_f p);
  kr_rs : remote_rel dalg true (negb (p_second p)) (ko_static (hs_remote s)) (p_rs p);
  kr_re : remote_rel dalg true (negb (p_second p)) (ko_ephemeral (hs_remote s)) (p_re p);
  kr_rf : remote_rel halg false (negb (p_second p)) (ko_hybrid (hs_remote s)) (p_rf p)
}.
Record rel (s : handshakestate) (p : party) : Prop := {
  r_keys : keys_rel s p;
  r_wf : sym_wf ca alg (hs_symmetric s);
  r_view : sym_view (hs_symmetric s) = Some (p_sym p)
}.
(** What a token leaves alone *)
Record same_frame (s s' : handshakestate) : Prop := {
  sf_req : hs_requirements s' = hs_requirements s;
  sf_action : hs_action s' = hs_action s;
  sf_role : hs_role s' = hs_role s;
  sf_psk : hs_psk s' = hs_psk s;
  sf_prologue : hs_prologue s' = hs_prologue s;
  sf_id : ss_id (hs_symmetric s') = ss_id (hs_symmetric s);
  sf_shape : shape_of s' = shape_of s
}.
(** What remains true when a token fails: the keys are those of [p], the
    symmetric state is usable. *)
Record weak (s : handshakestate) (p : party) : Prop := {
  wk_keys : keys_rel s p;
  wk_wf : sym_wf ca alg (hs_symmetric s);
  wk_cipher : ss_cipher (hs_symmetric s) <> None
}.
Definition know_of (p : party) : knowledge :=
  Know (known (p_s p)) (known (p_e p)) (known (p_f p)) (known (p_rs p)) (known (p_re p)) (known (p_rf p)).

Lemma same_frame_refl : forall s, same_frame s s.
Proof. intros s; constructor; reflexivity. Qed.
Lemma same_frame_trans : forall a b c, same_frame a b -> same_frame b c -> same_frame a c.
Proof. intros a b c [] []; constructor; congruence. Qed.
Lemma view_cipher : forall y v, sym_view y = Some v -> ss_cipher y <> None.
Proof. intros y v Hv. unfold sym_view in Hv. destruct (ss_cipher y); discriminate. Qed.
Lemma rel_weak : forall s p, rel s p -> weak s p.
Proof. intros s p [K W V]. constructor; auto. now apply view_cipher in V. Qed.

Lemma mix_hash_ok : forall y v m n, sym_wf ca alg y -> sym_view y = Some v -> 0 <= n <= zlen m ->
  exists y', symmetricstate_mix_hash y (Some m) n = Ok (E_NONE, y') /\ sym_wf ca alg y' /\ ss_id y' = ss_id y /\
    sym_view y' = Some (MixHash v (take n m)).
Proof.
  intros y v m n Hw Hv Hn. unfold sym_view in Hv. destruct (ss_cipher y) as [cs|] eqn:Ec; [|discriminate].
  destruct (mix_hash_eq ca alg H Law y cs m n Hw Ec Hn) as (y' & E1 & W & I & v1 & V1 & V2).
  exists y'. repeat (split; [assumption|]). unfold sym_view in V1. rewrite Ec in V1. congruence.
Qed.
Lemma mix_key_ok : forall y v m n, sym_wf ca alg y -> sym_view y = Some v -> 0 <= n <= zlen m ->
  exists y', symmetricstate_mix_key y (Some m) n = Ok (E_NONE, y') /\ sym_wf ca alg y' /\ ss_id y' = ss_id y /\
    sym_view y' = Some (MixKey v (take n m)).
Proof.
  intros y v m n Hw Hv Hn. unfold sym_view in Hv. destruct (ss_cipher y) as [cs|] eqn:Ec; [|discriminate].
  destruct (mix_key_eq ca alg H Cok Law Klen y cs m n Hw Ec Hn) as (y' & E1 & W & I & v1 & V1 & V2).
  exists y'. repeat (split; [assumption|]). unfold sym_view in V1. rewrite Ec in V1. congruence.
Qed.

Lemma set_sym_rel : forall s p y v, keys_rel s p -> sym_wf ca alg y -> sym_view y = Some v -> ss_id y = ss_id (hs_symmetric s) ->
  rel (set_symmetric y s) (with_sym p v) /\ same_frame s (set_symmetric y s).
Proof.
  intros s p y v K W V I. split.
  - constructor; [|exact W|exact V]. destruct K as [K1 K2 K3 K4 K5 K6 K7 K8 K9].
    constructor; auto. unfold prefix_of in *. cbn [set_symmetric hs_symmetric]. rewrite I. exact K2.
  - constructor; try reflexivity. exact I.
Qed.
Lemma set_sym_weak : forall s p y, keys_rel s p -> sym_wf ca alg y -> ss_cipher y <> None -> ss_id y = ss_id (hs_symmetric s) ->
  weak (set_symmetric y s) p /\ same_frame s (set_symmetric y s).
Proof.
  intros s p y K W V I. split.
  - constructor; [|exact W|exact V]. destruct K as [K1 K2 K3 K4 K5 K6 K7 K8 K9].
    constructor; auto. unfold prefix_of in *. cbn [set_symmetric hs_symmetric]. rewrite I. exact K2.
  - constructor; try reflexivity. exact I.
Qed.

(** ** DH tokens *)
Lemma set_local_same : forall s w d, get_slot (hs_local s) w = Some d -> set_local w (Some d) s = s.
Proof. intros s w d G. destruct s as [? ? ? ? ? [] ? ? ? ? ?], w; cbn in *; subst; reflexivity. Qed.

Lemma mix_dh_ok : forall a F view ready env s p sl sr al ar second k q,
  dh_link a F view ready -> rel s p ->
  local_rel a F view ready al second (get_slot (hs_local s) sl) (Some k) ->
  remote_rel a ar (negb second) (get_slot (hs_remote s) sr) (Some q) ->
  exists e s', mix_dh env s sl sr = Ok (e, s') /\ same_frame s s' /\
  match DH F k q with
  | Some z => e = E_NONE /\ rel s' (with_sym p (MixKey (p_sym p) z))
  | None => e <> E_NONE /\ weak s' p
  end.
Proof.
  intros a F view ready env s p sl sr al ar second k q L R LL RR. unfold mix_dh.
  destruct (get_slot (hs_local s) sl) as [d|] eqn:Gl; [|discriminate LL]. destruct LL as ((A1 & B1) & S1 & T1 & Y1 & V1).
  destruct (get_slot (hs_remote s) sr) as [r|] eqn:Gr; [|discriminate RR]. destruct RR as ((A2 & B2) & S2 & T2 & V2).
  rewrite orb_true_r in S1, S2. specialize (S1 eq_refl). specialize (S2 eq_refl).
  assert (C := lk_calculate _ _ _ _ L d r B1 B2 A1 A2 T1 Y1 ltac:(congruence)).
  rewrite V1, V2 in C.
  assert (N : 0 <= shared_len d) by (unfold shared_len; rewrite A1; apply (sh_sizes _ (lk_shape _ _ _ _ L))).
  destruct (DH F k q) as [z|].
  - destruct C as [C Z1]. rewrite C. cbv zeta beta iota.
    destruct (mix_key_ok (hs_symmetric s) (p_sym p) z (shared_len d) (r_wf _ _ R) (r_view _ _ R) ltac:(qlia)) as (y' & E1 & W & I & V).
    rewrite E1. cbn [obind snd]. rewrite (set_local_same s sl d Gl). do 2 eexists. split; [reflexivity|].
    rewrite take_all in V by qlia. destruct (set_sym_rel s p y' _ (r_keys _ _ R) W V I) as [X1 X2]. split; [exact X2|]. split; [reflexivity|exact X1].
  - destruct C as (e & z & C & N1 & Z1). rewrite C. cbv zeta beta iota.
    destruct (mix_key_ok (hs_symmetric s) (p_sym p) z (shared_len d) (r_wf _ _ R) (r_view _ _ R) ltac:(qlia)) as (y' & E1 & W & I & V).
    rewrite E1. cbn [obind snd]. rewrite (set_local_same s sl d Gl). do 2 eexists. split; [reflexivity|].
    destruct (set_sym_weak s p y' (r_keys _ _ R) W (view_cipher _ _ V) I) as [X1 X2]. split; [exact X2|]. split; [exact N1|exact X1].
Qed.

Lemma dh_token_ok : forall env s p t, rel s p -> sane_dh (p_initiator p) (know_of p) t = true ->
  exists e s', dh_token env s (tok_code t) = Ok (e, s') /\ same_frame s s' /\
  match DHToken p t with
  | Some p' => e = E_NONE /\ rel s' p' /\ know_of p' = know_of p
  | None => e <> E_NONE /\ weak s' p
  end.
Proof.
  intros env s p t R Sn. pose proof (r_keys _ _ R) as K.
  assert (Ri : (hs_role s =? ROLE_INITIATOR) = p_initiator p) by (rewrite (kr_role _ _ K); destruct (p_initiator p); reflexivity).
  assert (X : forall a F view ready sl sr al ar k q, dh_link a F view ready ->
     local_rel a F view ready al (p_second p) (get_slot (hs_local s) sl) k ->
     remote_rel a ar (negb (p_second p)) (get_slot (hs_remote s) sr) q -> known k && known q = true ->
     exists e s', mix_dh env s sl sr = Ok (e, s') /\ same_frame s s' /\
     match MixDH H BL KL D E F p k q with
     | Some p' => e = E_NONE /\ rel s' p' /\ know_of p' = know_of p
     | None => e <> E_NONE /\ weak s' p
     end).
  { intros a F view ready sl sr al ar k q L A B C. destruct k as [k|]; [|discriminate C]. destruct q as [q|]; [|discriminate C].
    destruct (mix_dh_ok a F view ready env s p sl sr al ar _ k q L R A B) as (e & s' & E1 & F1 & G1). exists e, s'. split; [exact E1|]. split; [exact F1|].
    unfold MixDH. destruct (DH F k q); cbn [option_map]; [|exact G1]. destruct G1 as [G1 G2]. split; [exact G1|]. split; [exact G2|reflexivity]. }
  unfold dh_token. rewrite Ri. destruct t; try discriminate Sn; cbn [tok_code sane_dh know_of w_s w_e w_f w_rs w_re w_rf] in *; unfold DHToken.
  - change (3 =? TOKEN_EE) with true. cbv iota. eapply X; [exact Ld|apply (kr_e _ _ K)|apply (kr_re _ _ K)|exact Sn].
  - change (4 =? TOKEN_EE) with false. change (4 =? TOKEN_ES) with true. cbv iota. destruct (p_initiator p).
    + eapply X; [exact Ld|apply (kr_e _ _ K)|apply (kr_rs _ _ K)|exact Sn].
    + eapply X; [exact Ld|apply (kr_s _ _ K)|apply (kr_re _ _ K)|exact Sn].
  - change (5 =? TOKEN_EE) with false. change (5 =? TOKEN_ES) with false. change (5 =? TOKEN_SE) with true. cbv iota. destruct (p_initiator p).
    + eapply X; [exact Ld|apply (kr_s _ _ K)|apply (kr_re _ _ K)|exact Sn].
    + eapply X; [exact Ld|apply (kr_e _ _ K)|apply (kr_rs _ _ K)|exact Sn].
  - change (6 =? TOKEN_EE) with false. change (6 =? TOKEN_ES) with false. change (6 =? TOKEN_SE) with false. change (6 =? TOKEN_SS) with true. cbv iota.
    eapply X; [exact Ld|apply (kr_s _ _ K)|apply (kr_rs _ _ K)|exact Sn].
  - change (8 =? TOKEN_EE) with false. change (8 =? TOKEN_ES) with false. change (8 =? TOKEN_SE) with false. change (8 =? TOKEN_SS) with false.
    change (8 =? TOKEN_FF) with true. cbv iota. eapply X; [exact Lh|apply (kr_f _ _ K)|apply (kr_rf _ _ K)|exact Sn].
Qed.

(** ** Writing *)
Definition rand_of (env : environment) (t : tok) (n : Z) : list Z := env_rand env (tok_code t) n.
Definition env_ok (env : environment) : Prop := forall t, rng_ok (env_rand env t).

Lemma size_sub_ok : forall a b, 0 <= b <= a -> a < 2^64 -> size_sub a b = a - b.
Proof. intros. unfold size_sub. apply Z.mod_small. qlia. Qed.
Lemma link_len : forall a F view ready d, dh_link a F view ready -> dh_wf a d ->
  public_len d = DHLEN F (second_role (ds_data d)) /\ 0 <= public_len d <= zlen (dd_public (ds_data d)) /\ public_len d <= 2048 /\ bytes (dd_public (ds_data d)).
Proof.
  intros a F view ready d L [A (B1 & (B2 & B3) & B4)]. unfold public_len. rewrite A, B2. rewrite (lk_len _ _ _ _ L). pose proof (lk_small _ _ _ _ L (dd_role (ds_data d) =? ROLE_RESPONDER)).
  pose proof (sh_lens _ (lk_shape _ _ _ _ L) (dd_role (ds_data d))) as [_ X]. rewrite (lk_len _ _ _ _ L) in X. unfold second_role. repeat split; auto; qlia.
Qed.
(** The memory after a write inside [size..max) *)
Definition framed (size max : Z) (mem mem' : list Z) : Prop :=
  zlen mem' = zlen mem /\ bytes mem' /\ take size mem' = take size mem /\ drop max mem' = drop max mem.
Lemma framed_refl : forall a b m, bytes m -> framed a b m m.
Proof. intros; repeat split; auto. Qed.
Lemma framed_splice : forall size max d mem, bytes mem -> bytes d -> 0 <= size -> size + zlen d <= max -> max <= zlen mem ->
  framed size max mem (splice size d mem).
Proof.
  intros size max d mem Hm Hd H0 H1 H2. pose proof (zlen_nonneg _ d). repeat split.
  - apply splice_length; qlia.
  - now apply bytes_splice.
  - apply splice_take_before; qlia.
  - apply splice_drop_after; qlia.
Qed.
Lemma framed_trans : forall a b m m1 m2, framed a b m m1 -> framed a b m1 m2 -> framed a b m m2.
Proof. intros a b m m1 m2 (A1 & A2 & A3 & A4) (B1 & B2 & B3 & B4). repeat split; congruence. Qed.
Lemma framed_weaken : forall a a' b m m1, a' <= a -> framed a b m m1 -> framed a' b m m1.
Proof.
  intros a a' b m m1 L (A1 & A2 & A3 & A4). repeat split; auto.
  replace a' with (Z.min a' a) by qlia. rewrite <- !take_take. congruence.
Qed.
(** Writing [d] first and then [c], which covers it, is writing [c]. *)
Lemma splice_over : forall size (d c mem : list Z), 0 <= size -> zlen d <= zlen c -> size + zlen c <= zlen mem ->
  take size (splice size d mem) ++ splice 0 c (drop size (splice size d mem)) = splice size c mem.
Proof.
  intros size d c mem H0 H1 H2. pose proof (zlen_nonneg _ d). rewrite splice_take_before by qlia. rewrite splice_0. rewrite drop_drop by (try qlia; apply zlen_nonneg).
  rewrite splice_drop_after by qlia. unfold splice. rewrite (Z.add_comm size). reflexivity.
Qed.

(** The result of writing one token, [r]: the specification's result when it
    fits, an error otherwise. *)
Definition token_written (s : handshakestate) (p : party) (t : tok) (mem : list Z) (size max : Z) (spec : option (list Z * party))
    (e : err) (s' : handshakestate) (mem' : list Z) (n : Z) : Prop :=
  same_frame s s' /\
  (e = E_NONE /\ (exists a p', spec = Some (a, p') /\ n = zlen a /\ bytes a /\ size + n <= max /\ mem' = splice size a mem /\ rel s' p' /\
     know_of p' = learn_write (know_of p) t)
   \/
   e <> E_NONE /\ framed size max mem mem' /\
     (exists p1, weak s' p1 /\ (p1 = p \/ t = E_ /\ (exists k, p1 = with_e p k) \/ t = F_ /\ (exists k, p1 = with_f p k))) /\
     match spec with None => True | Some (a, _) => max < size + zlen a /\ e = E_INVALID_LENGTH end).

Lemma enc_len : forall v pt ct v', EncryptAndHash v pt = Some (ct, v') -> zlen ct = zlen pt + overhead ca v.
Proof.
  intros v pt ct v' E1. unfold EncryptAndHash, overhead in *. destruct (ns_k v).
  - destruct (_ =? _); [discriminate|]. injection E1 as <- _. apply (shape_enc _ (correct_shape _ Cok)).
  - injection E1 as <- _. qlia.
Qed.

(** The public key of a local object, encrypted: for the parties [p] *)
Lemma write_key_ok : forall a F view ready s p d mem size max k,
  dh_link a F view ready -> rel s p -> dh_wf a d -> ready (ds_data d) -> view (ds_data d) = k ->
  0 <= size <= max -> max <= zlen mem -> max < 2^64 -> bytes mem ->
  exists e s' mem' n, write_key s d mem size max = Ok (e, s', mem', n) /\ same_frame s s' /\
  (e = E_NONE /\ (exists c v, EncryptAndHash (p_sym p) (PUB F k) = Some (c, v) /\ n = zlen c /\ bytes c /\ size + n <= max /\ mem' = splice size c mem /\
      rel s' (with_sym p v))
   \/
   e <> E_NONE /\ framed size max mem mem' /\ weak s' p /\
   match EncryptAndHash (p_sym p) (PUB F k) with None => True | Some (c, _) => max < size + zlen c /\ e = E_INVALID_LENGTH end).
Proof.
  intros a F view ready s p d mem size max k L R Wd Rd Vd Hs Hm H64 Hb. unfold write_key.
  destruct (link_len _ _ _ _ _ L Wd) as (L1 & L2 & L3 & L4).
  assert (Pk : PUB F k = take (public_len d) (dd_public (ds_data d))).
  { rewrite <- Vd, (lk_pub _ _ _ _ L) by (try exact Rd; apply Wd). unfold public_len. now rewrite (proj1 Wd). }
  assert (Zk : zlen (PUB F k) = public_len d) by (rewrite Pk, zlen_take; qlia).
  assert (Bk : bytes (PUB F k)) by (rewrite Pk; now apply bytes_take).
  rewrite (sym_over_mac ca alg) by apply R. rewrite (sym_over_view ca alg _ _ (r_wf _ _ R) (r_view _ _ R)).
  pose proof (shape_mac _ (correct_shape _ Cok)) as Hmac.
  assert (Ho : 0 <= overhead ca (p_sym p) <= 16) by (unfold overhead; destruct (ns_k (p_sym p)); qlia).
  rewrite size_sub_ok by qlia. cbv zeta. destruct (Z.ltb_spec (max - size) (public_len d + overhead ca (p_sym p))).
  - do 4 eexists. split; [reflexivity|]. split; [apply same_frame_refl|]. right. split; [discriminate|]. split; [now apply framed_refl|]. split; [now apply rel_weak|].
    destruct (EncryptAndHash _ _) as [[c v]|] eqn:Ee; [|exact I]. apply enc_len in Ee. split; [qlia|reflexivity].
  - rewrite load_ok by qlia. unfold sub. rewrite (drop_le0 _ 0) by qlia. rewrite <- Pk. cbn [obind]. rewrite store_ok by qlia. cbn [obind].
    assert (Lm : zlen (splice size (PUB F k) mem) = zlen mem) by (apply splice_length; qlia).
    destruct (enc_hash_eq ca alg H Cok Law (hs_symmetric s) (p_sym p) (drop size (splice size (PUB F k) mem)) (public_len d) (max - size) (r_wf _ _ R) (r_view _ _ R))
      as [(X & Ee)|[(X1 & X2 & X3 & X4 & Ee)|(X1 & X2 & ct & v' & y' & Es & Ee & Zc & Bc & W' & V' & I')]];
      try qlia; try (rewrite zlen_drop, Lm; qlia); try (apply bytes_drop, bytes_splice; assumption).
    + exfalso. unfold MAX_PAYLOAD_LEN in X. qlia.
    + rewrite Ee. cbn [obind b_data b_size]. do 4 eexists. split; [reflexivity|].
      assert (Hsym : set_symmetric (hs_symmetric s) s = s) by (destruct s; reflexivity). rewrite Hsym.
      split; [apply same_frame_refl|]. right. split; [discriminate|]. split; [rewrite take_drop; apply framed_splice; auto; qlia|]. split; [now apply rel_weak|].
      unfold EncryptAndHash. destruct (ns_k (p_sym p)); [|congruence]. rewrite X4, Z.eqb_refl. exact I.
    + rewrite Ee. cbn [obind b_data b_size].
      assert (Tk : take (public_len d) (drop size (splice size (PUB F k) mem)) = PUB F k).
      { rewrite <- Zk. apply (splice_sub_same _ size (PUB F k) mem); qlia. }
      rewrite Tk in Es. destruct (set_sym_rel s p y' _ (r_keys _ _ R) W' V' I') as [R' F'].
      do 4 eexists. split; [reflexivity|]. split; [exact F'|]. left. split; [reflexivity|]. exists ct, v'.
      split; [exact Es|]. split; [qlia|]. split; [exact Bc|]. split; [qlia|]. split; [|exact R'].
      apply splice_over; qlia.
Qed.

Lemma MixEph_eq : forall v q, MixEphemeral v q = if psk then MixKey (MixHash v q) q else MixHash v q.
Proof. reflexivity. Qed.

Lemma set_e_rel : forall s p le k, keys_rel s p -> dh_wf dalg le -> second_role (ds_data le) = p_second p -> dh_key_type le = KEYPAIR ->
  dready (ds_data le) -> dview (ds_data le) = k -> keys_rel (set_local Ephemeral (Some le) s) (with_e p k).
Proof.
  intros s p le k K W S T R V. destruct K as [K1 K2 K3 K4 K5 K6 K7 K8 K9].
  constructor; auto. cbn. repeat split; auto; apply W.
Qed.
Lemma set_f_rel : forall s p lh k, keys_rel s p -> dh_wf halg lh -> second_role (ds_data lh) = p_second p -> dh_key_type lh = KEYPAIR ->
  hready (ds_data lh) -> hview (ds_data lh) = k -> keys_rel (set_local Hybrid (Some lh) s) (with_f p k).
Proof.
  intros s p lh k K W S T R V. destruct K as [K1 K2 K3 K4 K5 K6 K7 K8 K9].
  constructor; auto. cbn. repeat split; auto; apply W.
Qed.

(** Generating a key pair in an object *)
Lemma generate_ok : forall a F view ready rng d (o : option dhstate), dh_link a F view ready -> dh_wf a d -> rng_ok rng ->
  match o with Some x => dh_wf a x /\ (dh_key_type x <> NO_KEY -> second_role (ds_data x) = negb (second_role (ds_data d))) | None => True end ->
  match GENERATE F (second_role (ds_data d)) (rng (RANDLEN F (second_role (ds_data d))))
          (match o with Some x => held_public a (ds_data x) | None => None end) with
  | Some k => exists d', dhstate_generate_dependent_keypair rng d o = (E_NONE, d') /\ dh_wf a d' /\ view (ds_data d') = k /\ ready (ds_data d') /\
                dh_key_type d' = KEYPAIR /\ second_role (ds_data d') = second_role (ds_data d)
  | None => exists e, dhstate_generate_dependent_keypair rng d o = (e, d) /\ e <> E_NONE
  end.
Proof.
  intros a F view ready rng d o L [A B] Hr Ho. unfold dhstate_generate_dependent_keypair.
  replace (match o with Some x => negb (da_id (ds_alg d) =? da_id (ds_alg x)) | None => false end) with false
    by (destruct o as [x|]; [destruct Ho as [[Ax _] _]; rewrite A, Ax, Z.eqb_refl|]; reflexivity).
  assert (G := lk_generate _ _ _ _ L rng (ds_data d) (option_map ds_data o) B Hr).
  specialize (G ltac:(destruct o as [x|]; [destruct Ho as [[Ax Bx] Cx]; split; [exact Bx|exact Cx]|exact I])).
  replace (match option_map ds_data o with Some x => held_public a x | None => None end) with
    (match o with Some x => held_public a (ds_data x) | None => None end) in G by (destruct o; reflexivity).
  pose proof (sh_generate _ (lk_shape _ _ _ _ L)) as Sg.
  destruct (GENERATE _ _ _ _) as [k|].
  - destruct G as (d' & G1 & G2 & G3). rewrite A, G1. change (is_none E_NONE) with true. cbv iota. eexists. split; [reflexivity|].
    destruct (Sg rng (ds_data d) (option_map ds_data o) _ _ B ltac:(destruct o as [x|]; [apply Ho|exact I]) Hr G1) as (X1 & X2 & _).
    cbn [with_data ds_data ds_alg is_none]. destruct (lk_type _ _ _ _ L KEYPAIR d') as [T1 T2].
    split; [split; [exact A|exact X1]|]. split; [rewrite T1; exact G2|]. split; [now apply T2|]. split; [reflexivity|].
    unfold second_role. cbn [set_type dd_role]. now rewrite X2.
  - destruct G as (e & G1 & G2). rewrite A, G1. exists e. split; [|exact G2]. f_equal. destruct (is_none e) eqn:N; [apply is_none_true in N; congruence|apply with_data_same].
Qed.

Lemma remote_other : forall a always second o q d, remote_rel a always (negb second) o q -> second_role (ds_data d) = second ->
  match o with Some x => dh_wf a x /\ (dh_key_type x <> NO_KEY -> second_role (ds_data x) = negb (second_role (ds_data d))) | None => True end /\
  match o with Some x => held_public a (ds_data x) | None => None end = q.
Proof.
  intros a always second o q d R S. destruct o as [x|]; cbn in R; [|auto]. destruct R as ([A B] & C & T). split.
  - split; [split; assumption|]. intros N. rewrite S. apply C. destruct q; [apply orb_true_r|congruence].
  - unfold held_public. unfold dh_key_type in T. destruct q as [q|].
    + destruct T as [T1 T2]. destruct (dd_type (ds_data x)); try congruence; cbn [key_type_eqb]; f_equal; rewrite <- T2; unfold public_key, public_len; now rewrite A.
    + rewrite T. reflexivity.
Qed.

Lemma prefix_set_local : forall s w d, prefix_of (set_local w d s) = prefix_of s.
Proof. reflexivity. Qed.
Lemma sf_set_local : forall s w d, known (get_slot (hs_local s) w) = true -> same_frame s (set_local w (Some d) s).
Proof. intros s w d G. constructor; try reflexivity. unfold shape_of. destruct w; cbn in *; now rewrite G. Qed.
Lemma sf_set_remote : forall s w d, known (get_slot (hs_remote s) w) = true -> same_frame s (set_remote w (Some d) s).
Proof. intros s w d G. constructor; try reflexivity. unfold shape_of. destruct w; cbn in *; now rewrite G. Qed.
Lemma know_with_sym : forall (p : party) y, know_of (with_sym p y) = know_of p.
Proof. reflexivity. Qed.

Lemma write_e_ok : forall env s p mem size max, rel s p -> env_ok env ->
  sane_write (shape_of s) (p_initiator p) (p_second p) (know_of p) E_ = true ->
  0 <= size <= max -> max <= zlen mem -> max < 2^64 -> bytes mem ->
  exists e s' mem' n, write_e env s mem size max = Ok (e, s', mem', n) /\
  token_written s p E_ mem size max (WriteToken (rand_of env) p E_) e s' mem' n.
Proof.
  intros env s p mem size max R He Sn Hs Hm H64 Hb. pose proof (r_keys _ _ R) as K. unfold write_e.
  cbn [sane_write shape_of x_e] in Sn. pose proof (kr_e _ _ K) as Ke. destruct (ko_ephemeral (hs_local s)) as [le|] eqn:El; [|discriminate Sn].
  cbn [local_rel] in Ke. destruct Ke as (We & Se & _). specialize (Se eq_refl).
  rewrite (proj1 (kr_fixed _ _ K)).
  destruct (remote_other _ _ _ _ _ le (kr_re _ _ K) Se) as [O1 O2].
  pose proof (generate_ok dalg D dview dready (env_rand env TOKEN_E) le _ Ld We (He TOKEN_E) O1) as G. rewrite O2, Se in G.
  unfold token_written. unfold WriteToken. cbv iota. unfold rand_of. cbn [tok_code]. change (env_rand env 2) with (env_rand env TOKEN_E).
  assert (Gl : known (get_slot (hs_local s) Ephemeral) = true) by (cbn; now rewrite El).
  destruct (GENERATE _ _ _ _) as [k|].
  - destruct G as (le' & G1 & W' & V' & R' & T' & S'). rewrite G1. cbn [is_none negb]. cbv zeta.
    destruct (link_len _ _ _ _ _ Ld W') as (L1 & L2 & L3 & L4).
    assert (Pk : PUB D k = take (public_len le') (dd_public (ds_data le'))).
    { rewrite <- V', (lk_pub _ _ _ _ Ld) by (try exact R'; apply W'). unfold public_len. now rewrite (proj1 W'). }
    assert (Zk : zlen (PUB D k) = public_len le') by (rewrite Pk, zlen_take; qlia).
    assert (Bk : bytes (PUB D k)) by (rewrite Pk; now apply bytes_take).
    pose proof (set_e_rel s p le' k K W' ltac:(congruence) T' R' V') as K'.
    pose proof (sf_set_local s Ephemeral le' Gl) as F'.
    assert (Rl : rel (set_local Ephemeral (Some le') s) (with_e p k)) by (constructor; [exact K'|apply R|apply R]).
    rewrite size_sub_ok by qlia. destruct (Z.ltb_spec (max - size) (public_len le')).
    + do 4 eexists. split; [reflexivity|]. split; [exact F'|]. right. split; [discriminate|]. split; [now apply framed_refl|].
      split; [exists (with_e p k); split; [now apply rel_weak|right; left; split; [reflexivity|now exists k]]|]. split; [qlia|reflexivity].
    + rewrite load_ok by qlia. unfold sub. rewrite (drop_le0 _ 0) by qlia. rewrite <- Pk. cbn [obind]. rewrite store_ok by qlia. cbn [obind].
      assert (Lm : zlen (splice size (PUB D k) mem) = zlen mem) by (apply splice_length; qlia).
      destruct (mix_hash_ok (hs_symmetric s) (p_sym p) (drop size (splice size (PUB D k) mem)) (public_len le') (r_wf _ _ R) (r_view _ _ R))
        as (y1 & E1 & W1 & I1 & V1); [rewrite zlen_drop, Lm; qlia|].
      change (hs_symmetric (set_local Ephemeral (Some le') s)) with (hs_symmetric s). rewrite E1. cbn [obind snd fst].
      assert (Tk : take (public_len le') (drop size (splice size (PUB D k) mem)) = PUB D k).
      { rewrite <- Zk. apply (splice_sub_same _ size (PUB D k) mem); qlia. }
      rewrite Tk in V1.
      destruct (set_sym_rel _ _ y1 _ K' W1 V1 I1) as [Rm Fm].
      pose proof (kr_prefix _ _ (r_keys _ _ Rm)) as Px. rewrite Px. rewrite MixEph_eq. destruct psk.
      * cbn [hs_symmetric set_symmetric].
        destruct (mix_key_ok y1 _ (dd_public (ds_data le')) (public_len le') W1 V1 ltac:(qlia)) as (y2 & E2 & W2 & I2 & V2).
        rewrite E2. cbn [obind fst snd]. rewrite <- Pk in V2.
        destruct (set_sym_rel _ _ y2 _ (r_keys _ _ Rm) W2 V2 I2) as [Rk Fk].
        do 4 eexists. split; [reflexivity|]. split; [eapply same_frame_trans; [exact F'|eapply same_frame_trans; [exact Fm|exact Fk]]|].
        left. split; [reflexivity|]. do 2 eexists. split; [reflexivity|]. split; [qlia|]. split; [exact Bk|]. split; [qlia|]. split; [reflexivity|]. split; [exact Rk|reflexivity].
      * do 4 eexists. split; [reflexivity|]. split; [eapply same_frame_trans; [exact F'|exact Fm]|].
        left. split; [reflexivity|]. do 2 eexists. split; [reflexivity|]. split; [qlia|]. split; [exact Bk|]. split; [qlia|]. split; [reflexivity|]. split; [exact Rm|reflexivity].
  - destruct G as (e & G1 & G2). rewrite G1. cbv zeta. replace (is_none e) with false by (destruct e; try reflexivity; congruence). cbn [negb].
    rewrite (set_local_same s Ephemeral le El). do 4 eexists. split; [reflexivity|]. split; [apply same_frame_refl|]. right. split; [exact G2|]. split; [now apply framed_refl|].
    split; [|exact I]. exists p. split; [now apply rel_weak|now left].
Qed.

(** A change of role *)
Lemma set_role_ok : forall a d (b : bool), dh_wf a d -> exists d' : dhstate,
  match snd (dhstate_set_role (Some d) (if b then ROLE_INITIATOR else ROLE_RESPONDER)) with Some x => x | None => d end = d' /\
  dh_wf a d' /\ second_role (ds_data d') = negb b /\ dh_key_type d' = dh_key_type d.
Proof. intros a d b [A B]. destruct b; cbn; eexists; (split; [reflexivity|]); split; try (split; [exact A|exact B]); split; reflexivity. Qed.

Lemma write_f_ok : forall env s p mem size max, rel s p -> env_ok env ->
  sane_write (shape_of s) (p_initiator p) (p_second p) (know_of p) F_ = true ->
  0 <= size <= max -> max <= zlen mem -> max < 2^64 -> bytes mem ->
  exists e s' mem' n, write_f env s mem size max = Ok (e, s', mem', n) /\
  token_written s p F_ mem size max (WriteToken (rand_of env) p F_) e s' mem' n.
Proof.
  intros env s p mem size max R He Sn Hs Hm H64 Hb. pose proof (r_keys _ _ R) as K. unfold write_f.
  cbn [sane_write shape_of x_f x_rf know_of w_rf w_f] in Sn. pose proof (kr_f _ _ K) as Kf. pose proof (kr_rf _ _ K) as Krf.
  destruct (ko_hybrid (hs_local s)) as [lh|] eqn:El; [|discriminate Sn]. destruct (ko_hybrid (hs_remote s)) as [rh|] eqn:Er; [|discriminate Sn].
  cbn [known andb] in Sn. apply andb_prop in Sn. destruct Sn as [Nf Sn]. apply eqb_prop in Sn. cbn [local_rel] in Kf. destruct Kf as (Wf & _ & Tf).
  destruct (p_f p) as [f0|] eqn:Ef; [discriminate Nf|].
  rewrite (proj2 (kr_fixed _ _ K)).
  assert (Kn : key_type_eqb (dh_key_type rh) NO_KEY = negb (p_second p)).
  { rewrite <- Sn. cbn in Krf. destruct Krf as (_ & _ & T). destruct (p_rf p); [|rewrite T; reflexivity]. destruct T as [T _]. destruct (dh_key_type rh); try reflexivity. congruence. }
  rewrite Kn. destruct (set_role_ok halg lh (negb (p_second p)) Wf) as (lh0 & Q & W0 & S0 & T0). rewrite Q. rewrite negb_involutive in S0.
  destruct (remote_other _ _ _ _ _ lh0 Krf S0) as [O1 O2].
  pose proof (generate_ok halg E hview hready (env_rand env TOKEN_F) lh0 (Some rh) Lh W0 (He TOKEN_F) O1) as G. cbv beta iota in G. rewrite O2, S0 in G.
  unfold token_written. unfold WriteToken. cbv iota. unfold rand_of. cbn [tok_code]. change (env_rand env 7) with (env_rand env TOKEN_F).
  assert (Gl : known (get_slot (hs_local s) Hybrid) = true) by (cbn; now rewrite El).
  destruct (GENERATE _ _ _ _) as [k|].
  - destruct G as (lh' & G1 & W' & V' & R' & T' & S'). rewrite G1. cbn [is_none negb]. cbv zeta.
    pose proof (set_f_rel s p lh' k K W' ltac:(congruence) T' R' V') as K'.
    pose proof (sf_set_local s Hybrid lh' Gl) as F'.
    assert (Rl : rel (set_local Hybrid (Some lh') s) (with_f p k)) by (constructor; [exact K'|apply R|apply R]).
    destruct (write_key_ok halg E hview hready _ _ lh' mem size max k Lh Rl W' R' V' Hs Hm H64 Hb) as (e & s' & mem' & n & E1 & F1 & X).
    rewrite E1. do 4 eexists. split; [reflexivity|]. split; [eapply same_frame_trans; [exact F'|exact F1]|]. cbn [p_sym with_f] in X.
    destruct X as [(X1 & c & v & X2 & X3 & X4 & X5 & X6 & X7)|(X1 & X2 & X3 & X4)].
    + left. split; [exact X1|]. rewrite X2. do 2 eexists. split; [reflexivity|]. repeat (split; [assumption|]). reflexivity.
    + right. split; [exact X1|]. split; [exact X2|]. split; [exists (with_f p k); split; [exact X3|right; right; split; [reflexivity|now exists k]]|].
      destruct (EncryptAndHash _ _) as [[c v]|]; exact X4.
  - destruct G as (e & G1 & G2). rewrite G1. cbv zeta. replace (is_none e) with false by (destruct e; try reflexivity; congruence). cbn [negb].
    do 4 eexists. split; [reflexivity|]. split; [now apply sf_set_local|]. right. split; [exact G2|]. split; [now apply framed_refl|].
    split; [|exact I].
    exists p. split; [|now left]. constructor; [|apply R|apply rel_weak in R; apply R].
    destruct K as [K1 K2 K3 K4 K5 K6 K7 K8 K9]. constructor; auto. cbn [set_local hs_local put_slot ko_hybrid]. rewrite Ef. cbn [local_rel known orb].
    split; [exact W0|]. split; [discriminate|congruence].
Qed.

Lemma write_token_ok : forall env s p t mem size max, rel s p -> env_ok env ->
  sane_write (shape_of s) (p_initiator p) (p_second p) (know_of p) t = true ->
  0 <= size <= max -> max <= zlen mem -> max < 2^64 -> bytes mem ->
  exists e s' mem' n, write_token env s (tok_code t) mem size max = Ok (e, s', mem', n) /\
  token_written s p t mem size max (WriteToken (rand_of env) p t) e s' mem' n.
Proof.
  intros env s p t mem size max R He Sn Hs Hm H64 Hb.
  assert (X : match t with E_ | S_ | F_ => True | _ => exists e s' mem' n, (let! r := dh_token env s (tok_code t) in Ok (fst r, snd r, mem, 0)) = Ok (e, s', mem', n) /\
     token_written s p t mem size max (option_map (pair []) (DHToken p t)) e s' mem' n end).
  { destruct t; try exact I;
      (destruct (dh_token_ok env s p _ R Sn) as (e & s' & E1 & F1 & X); rewrite E1; cbn [obind fst snd]; do 4 eexists; (split; [reflexivity|]); split; [exact F1|];
       destruct (DHToken _ _) as [p'|]; cbn [option_map];
       [destruct X as (X1 & X2 & X3); left; split; [exact X1|]; exists [], p'; split; [reflexivity|]; split; [reflexivity|]; split; [constructor|];
         split; [qlia|]; split; [unfold splice; rewrite zlen_nil, Z.add_0_r; symmetry; apply take_drop|]; split; [exact X2|exact X3]
       |destruct X as (X1 & X2); right; split; [exact X1|]; split; [now apply framed_refl|]; split; [exists p; split; [exact X2|now left]|exact I]]). }
  destruct t; try exact X; [|apply write_e_ok; auto|].
  - clear X. unfold write_token. change (tok_code S_ =? TOKEN_E) with false. change (tok_code S_ =? TOKEN_S) with true. cbv iota.
    cbn [sane_write shape_of x_s know_of w_s] in Sn. pose proof (kr_s _ _ (r_keys _ _ R)) as Ks. destruct (ko_static (hs_local s)) as [ls|]; [|discriminate Sn].
    unfold WriteToken. destruct (p_s p) as [k|] eqn:Ep; [|discriminate Sn]. cbn [local_rel] in Ks. destruct Ks as (W & S & T & Y & V).
    destruct (write_key_ok dalg D dview dready s p ls mem size max k Ld R W Y V Hs Hm H64 Hb) as (e & s' & mem' & n & E1 & F1 & X).
    rewrite E1. do 4 eexists. split; [reflexivity|]. split; [exact F1|].
    destruct X as [(X1 & c & v & X2 & X3 & X4 & X5 & X6 & X7)|(X1 & X2 & X3 & X4)].
    + left. split; [exact X1|]. rewrite X2. do 2 eexists. split; [reflexivity|]. repeat (split; [assumption|]). reflexivity.
    + right. split; [exact X1|]. split; [exact X2|]. split; [exists p; split; [exact X3|now left]|].
      destruct (EncryptAndHash _ _) as [[c v]|]; exact X4.
  - apply write_f_ok; auto.
Qed.

(** ** Reading *)
Definition token_read (s : handshakestate) (p : party) (t : tok) (mem : list Z) (pos size max : Z) (spec : option (list Z * party))
    (e : err) (s' : handshakestate) (mem' : list Z) (pos' size' max' : Z) : Prop :=
  same_frame s s' /\ zlen mem' = zlen mem /\ drop (pos + size) mem' = drop (pos + size) mem /\
  (e = E_NONE /\ (exists rest p', spec = Some (rest, p') /\ size' = zlen rest /\ sub pos' size' mem' = rest /\ size' <= size /\
     pos' = pos + (size - size') /\ max' = max - (size - size') /\ bytes mem' /\ rel s' p' /\ know_of p' = learn_read (know_of p) t)
   \/
   e <> E_NONE /\ spec = None /\
   (exists p1, weak s' p1 /\ (p1 = p \/
      t = E_ /\ p1 = with_re p (take (DHLEN D (negb (p_second p))) (sub pos size mem)) /\ DHLEN D (negb (p_second p)) <= size \/
      t = F_ /\ exists q, p1 = with_rf p q))).

Lemma set_public_ok : forall a F view ready d q n, dh_link a F view ready -> dh_wf a d -> bytes q -> n = public_len d -> n <= zlen q ->
  exists d', dhstate_set_public_key d (Some q) n = Ok (E_NONE, d') /\ dh_wf a d' /\ second_role (ds_data d') = second_role (ds_data d) /\
    dh_key_type d' = PUBLIC /\ public_key d' = take n q /\ public_len d' = n.
Proof.
  intros a F view ready d q n L W Hq -> Hn. pose proof (link_len _ _ _ _ _ L W) as (_ & L2 & _ & _). destruct W as [A (B1 & [B2 B3] & B4)].
  unfold dhstate_set_public_key. rewrite Z.eqb_refl. cbn [negb]. rewrite read_ptr_take by qlia. cbn [obind]. rewrite A, (sh_validate _ (lk_shape _ _ _ _ L)).
  assert (P : 0 <= private_len d <= zlen (dd_private (ds_data d))).
  { unfold private_len. rewrite A, (proj1 B1). apply (sh_lens _ (lk_shape _ _ _ _ L)). }
  assert (Zq : zlen (take (public_len d) q) = public_len d) by (rewrite zlen_take; qlia).
  replace (if _ =? 1 then E_NONE else E_NONE) with E_NONE by (destruct (_ =? 1); reflexivity). cbn [is_none negb].
  eexists. split; [reflexivity|]. split; [split; [exact A|]|].
  - split; [|split; [|exact B4]].
    + split; [cbn; rewrite splice_length; [apply B1|qlia|rewrite zlen_zeros; qlia]|cbn; apply bytes_splice; [apply bytes_zeros|apply B1]].
    + split; [cbn; rewrite splice_length; [exact B2|qlia|qlia]|cbn; apply bytes_splice; [now apply bytes_take|exact B3]].
  - split; [reflexivity|]. split; [reflexivity|]. split; [|reflexivity].
    unfold public_key, public_len. cbn [ds_data with_data ds_alg dd_role dd_public]. rewrite A. fold (public_len d).
    replace (da_public_len a (dd_role (ds_data d))) with (public_len d) by (unfold public_len; now rewrite A).
    rewrite splice_0, <- Zq at 1. rewrite take_app_exact. reflexivity.
Qed.
Lemma is_null_ok : forall a F view ready d, dh_link a F view ready -> dh_wf a d -> dh_key_type d <> NO_KEY ->
  dhstate_is_null_public_key (Some d) = REJECTS_NULL F && all_zerob (public_key d).
Proof.
  intros a F view ready d L W T. pose proof (link_len _ _ _ _ _ L W) as (_ & _ & _ & L4). unfold dhstate_is_null_public_key.
  replace (key_type_eqb (dh_key_type d) NO_KEY) with false by (destruct (dh_key_type d); try reflexivity; congruence).
  rewrite (proj1 W), (lk_null _ _ _ _ L), zero_dec by (unfold public_key; now apply bytes_take). destruct (all_zerob _); reflexivity.
Qed.

Lemma set_re_rel : forall s p d q, keys_rel s p -> dh_wf dalg d -> second_role (ds_data d) = negb (p_second p) -> dh_key_type d <> NO_KEY ->
  public_key d = q -> keys_rel (set_remote Ephemeral (Some d) s) (with_re p q).
Proof.
  intros s p d q K W S T V. destruct K as [K1 K2 K3 K4 K5 K6 K7 K8 K9].
  constructor; auto. cbn. repeat split; auto; apply W.
Qed.
Lemma set_rs_rel : forall s p d q, keys_rel s p -> dh_wf dalg d -> second_role (ds_data d) = negb (p_second p) -> dh_key_type d <> NO_KEY ->
  public_key d = q -> keys_rel (set_remote Static (Some d) s) (with_rs p q).
Proof.
  intros s p d q K W S T V. destruct K as [K1 K2 K3 K4 K5 K6 K7 K8 K9].
  constructor; auto. cbn. repeat split; auto; apply W.
Qed.
Lemma set_rf_rel : forall s p d q, keys_rel s p -> dh_wf halg d -> second_role (ds_data d) = negb (p_second p) -> dh_key_type d <> NO_KEY ->
  public_key d = q -> keys_rel (set_remote Hybrid (Some d) s) (with_rf p q).
Proof.
  intros s p d q K W S T V. destruct K as [K1 K2 K3 K4 K5 K6 K7 K8 K9].
  constructor; auto. cbn. repeat split; auto; apply W.
Qed.

(** What is left of the message after its first [n] bytes *)
Lemma sub_rest : forall (mem : list Z) pos size n, 0 <= pos -> 0 <= n <= size -> pos + size <= zlen mem ->
  sub (pos + n) (size - n) mem = drop n (sub pos size mem).
Proof.
  intros mem pos size n Hp Hn Hs. unfold sub. rewrite (Z.add_comm pos n). rewrite <- drop_drop by qlia. rewrite take_drop_comm by qlia.
  f_equal. f_equal. qlia.
Qed.
Lemma take_sub : forall (mem : list Z) pos size n, 0 <= n <= size -> take n (sub pos size mem) = take n (drop pos mem).
Proof. intros. unfold sub. rewrite take_take. f_equal. qlia. Qed.

Lemma read_e_ok : forall s p mem pos size max, rel s p ->
  sane_read (shape_of s) (p_initiator p) (p_second p) (know_of p) E_ = true ->
  0 <= pos -> 0 <= size <= max -> pos + max <= zlen mem -> bytes mem ->
  exists e s' mem' pos' size' max', read_e s mem pos size max = Ok (e, s', mem', pos', size', max') /\
  token_read s p E_ mem pos size max (ReadToken p E_ (sub pos size mem)) e s' mem' pos' size' max'.
Proof.
  intros s p mem pos size max R Sn Hp Hs Hm Hb. pose proof (r_keys _ _ R) as K. unfold read_e.
  cbn [sane_read shape_of x_re] in Sn. pose proof (kr_re _ _ K) as Ke. destruct (ko_ephemeral (hs_remote s)) as [re|] eqn:El; [|discriminate Sn].
  cbn [remote_rel] in Ke. destruct Ke as (We & Se & _). specialize (Se eq_refl).
  destruct (link_len _ _ _ _ _ Ld We) as (L1 & L2 & L3 & L4). rewrite Se in L1.
  unfold token_read, ReadToken. cbv zeta. rewrite <- L1. rewrite zlen_sub by qlia.
  assert (Gl : known (get_slot (hs_remote s) Ephemeral) = true) by (cbn; now rewrite El).
  replace (zlen (sub pos size mem)) with size in * by (unfold sub; rewrite zlen_take, zlen_drop; qlia).
  destruct (Z.ltb_spec size (public_len re)).
  - do 6 eexists. split; [reflexivity|]. split; [apply same_frame_refl|]. split; [reflexivity|]. split; [reflexivity|]. right.
    split; [discriminate|]. split; [reflexivity|]. exists p. split; [now apply rel_weak|now left].
  - destruct (mix_hash_ok (hs_symmetric s) (p_sym p) (drop pos mem) (public_len re) (r_wf _ _ R) (r_view _ _ R)) as (y1 & E1 & W1 & I1 & V1);
      [rewrite zlen_drop; qlia|]. rewrite E1. cbn [obind fst snd is_none negb].
    destruct (set_sym_rel s p y1 _ K W1 V1 I1) as [Rm Fm].
    destruct (set_public_ok dalg D dview dready re (drop pos mem) (public_len re) Ld We ltac:(now apply bytes_drop) eq_refl ltac:(rewrite zlen_drop; qlia))
      as (re' & E2 & W' & S' & T' & P' & N'). rewrite E2. cbn [obind fst snd is_none negb].
    rewrite (is_null_ok dalg D dview dready re' Ld W' ltac:(congruence)), P'.
    pose proof (set_re_rel _ _ re' _ (r_keys _ _ Rm) W' ltac:(cbn; congruence) ltac:(congruence) P') as K'.
    pose proof (sf_set_remote (set_symmetric y1 s) Ephemeral re' Gl) as F'.
    assert (Rl : rel (set_remote Ephemeral (Some re') (set_symmetric y1 s)) (with_sym (with_re p (take (public_len re) (drop pos mem))) (MixHash (p_sym p) (take (public_len re) (drop pos mem)))))
      by (constructor; [exact K'|exact W1|exact V1]).
    rewrite take_sub by qlia.
    destruct (REJECTS_NULL D && all_zerob (take (public_len re) (drop pos mem))) eqn:Nl.
    + do 6 eexists. split; [reflexivity|]. split; [eapply same_frame_trans; [exact Fm|exact F']|]. split; [reflexivity|]. split; [reflexivity|]. right.
      split; [discriminate|]. split; [reflexivity|]. exists (with_re p (take (public_len re) (drop pos mem))). split.
      * constructor; [|exact W1|now apply view_cipher in V1]. destruct K' as [K1 K2 K3 K4 K5 K6 K7 K8 K9]. constructor; assumption.
      * right; left. split; [reflexivity|]. split; [reflexivity|exact H0].
    + pose proof (kr_prefix _ _ (r_keys _ _ Rl)) as Px. rewrite Px. rewrite MixEph_eq.
      assert (Zr : zlen (drop (public_len re) (sub pos size mem)) = size - public_len re).
      { unfold sub. rewrite zlen_drop, zlen_take, zlen_drop. qlia. }
      destruct psk.
      * cbn [hs_symmetric set_symmetric set_remote].
        destruct (link_len _ _ _ _ _ Ld W') as (_ & L2' & _ & _). rewrite N' in L2'.
        destruct (mix_key_ok y1 _ (dd_public (ds_data re')) (public_len re) W1 V1 L2') as (y2 & E3 & W2 & I2 & V2).
        rewrite E3. cbn [obind fst snd].
        replace (take (public_len re) (dd_public (ds_data re'))) with (take (public_len re) (drop pos mem)) in V2
          by (rewrite <- P'; unfold public_key; now rewrite N').
        destruct (set_sym_rel _ _ y2 _ (r_keys _ _ Rl) W2 V2 I2) as [Rk Fk].
        do 6 eexists. split; [reflexivity|]. split; [eapply same_frame_trans; [exact Fm|eapply same_frame_trans; [exact F'|exact Fk]]|]. split; [reflexivity|]. split; [reflexivity|]. left.
        split; [reflexivity|]. do 2 eexists. split; [reflexivity|]. split; [qlia|]. split; [apply sub_rest; qlia|]. split; [qlia|]. split; [qlia|]. split; [qlia|]. split; [exact Hb|].
        split; [exact Rk|reflexivity].
      * do 6 eexists. split; [reflexivity|]. split; [eapply same_frame_trans; [exact Fm|exact F']|]. split; [reflexivity|]. split; [reflexivity|]. left.
        split; [reflexivity|]. do 2 eexists. split; [reflexivity|]. split; [qlia|]. split; [apply sub_rest; qlia|]. split; [qlia|]. split; [qlia|]. split; [qlia|]. split; [exact Hb|].
        split; [exact Rl|reflexivity].
Qed.

(** DecryptAndHash of the code on the first [n] bytes of [m]: the refusals *)
Lemma dec_none : forall v k e out n m, ns_k v = Some k -> ca_decrypt ca k (ns_n v) (ns_h v) (take n m) = (e, out) -> e <> E_NONE ->
  DecryptAndHash v (take n m) = None.
Proof.
  intros v k e out n m Hk Hd He. unfold DecryptAndHash, aead_decrypt. rewrite Hk, Hd. cbn [fst snd].
  replace (is_none e) with false by (destruct e; try reflexivity; congruence). destruct (_ =? _); [reflexivity|]. destruct (_ <? _); reflexivity.
Qed.
Lemma dec_nonce : forall v c, ns_k v <> None -> ns_n v = max_nonce -> DecryptAndHash v c = None.
Proof. intros v c Hk Hn. unfold DecryptAndHash. destruct (ns_k v); [|congruence]. now rewrite Hn, Z.eqb_refl. Qed.

Lemma read_key_ok : forall a F view ready s p w d mem pos size max n,
  dh_link a F view ready -> rel s p -> dh_wf a d -> n = public_len d + mac_overhead (ca_mac_len ca) (p_sym p) ->
  0 <= pos -> 0 <= size <= max -> pos + max <= zlen mem -> bytes mem ->
  exists e s' mem' pos' size' max', read_key s w d mem pos size max = Ok (e, s', mem', pos', size', max') /\
  zlen mem' = zlen mem /\ drop (pos + size) mem' = drop (pos + size) mem /\
  match (if size <? n then None else DecryptAndHash (p_sym p) (take n (sub pos size mem))) with
  | Some (q, v) => e = E_NONE /\ bytes mem' /\ pos' = pos + n /\ size' = size - n /\ max' = max - n /\ n <= size /\ 0 <= n /\
      sub pos' size' mem' = drop n (sub pos size mem) /\
      exists d' y, s' = set_remote w (Some d') (set_symmetric y s) /\ dh_wf a d' /\ second_role (ds_data d') = second_role (ds_data d) /\
        dh_key_type d' = PUBLIC /\ public_key d' = q /\ sym_wf ca alg y /\ sym_view y = Some v /\ ss_id y = ss_id (hs_symmetric s)
  | None => e <> E_NONE /\ exists y, s' = set_symmetric y s /\ sym_wf ca alg y /\ ss_cipher y <> None /\ ss_id y = ss_id (hs_symmetric s)
  end.
Proof.
  intros a F view ready s p w d mem pos size max n L R W Hn Hp Hs Hm Hb. unfold read_key.
  destruct (link_len _ _ _ _ _ L W) as (L1 & L2 & L3 & L4).
  rewrite (sym_over_mac ca alg) by apply R. rewrite (sym_over_view ca alg _ _ (r_wf _ _ R) (r_view _ _ R)).
  change (mac_overhead (ca_mac_len ca) (p_sym p)) with (overhead ca (p_sym p)) in Hn.
  pose proof (shape_mac _ (correct_shape _ Cok)) as Hmac.
  assert (Ho : 0 <= overhead ca (p_sym p) <= 16) by (unfold overhead; destruct (ns_k (p_sym p)); qlia).
  cbv zeta. rewrite <- Hn. pose proof (rel_weak _ _ R) as Rw.
  destruct (Z.ltb_spec size n).
  - do 6 eexists. split; [reflexivity|]. split; [reflexivity|]. split; [reflexivity|]. split; [discriminate|].
    exists (hs_symmetric s). split; [destruct s; reflexivity|]. split; [apply R|]. split; [apply Rw|reflexivity].
  - rewrite take_sub by qlia.
    destruct (dec_hash_eq ca alg H Cok Law (hs_symmetric s) (p_sym p) (drop pos mem) n n (r_wf _ _ R) (r_view _ _ R)) as (c' & Hc & X);
      try (rewrite zlen_drop; qlia); [now apply bytes_drop|].
    assert (Wc : sym_wf ca alg (set_ctx (hs_symmetric s) c')) by (apply set_ctx_wf; [apply R|exact Hc]).
    destruct X as [(X & _)|[(_ & _ & _ & X1 & X2 & X)|[(_ & _ & _ & k & e & out & X1 & X2 & X3 & X4 & X5 & X)|(_ & _ & _ & pt & mem' & v' & y' & X1 & X2 & X3 & X4 & X5 & X6 & X7 & X8 & X9)]]].
    + exfalso. unfold MAX_PAYLOAD_LEN in X. qlia.
    + rewrite X. cbn [obind b_data is_none negb]. rewrite (dec_nonce _ _ X1 X2). do 6 eexists. split; [reflexivity|]. rewrite take_drop.
      split; [reflexivity|]. split; [reflexivity|]. split; [discriminate|]. eexists. split; [reflexivity|]. split; [exact Wc|]. split; [apply Rw|reflexivity].
    + rewrite X. cbn [obind b_data]. rewrite (dec_none _ _ _ _ _ _ X1 X3 X4). replace (is_none e) with false by (destruct e; try reflexivity; congruence). cbn [negb].
      do 6 eexists. split; [reflexivity|]. split; [|split; [|split; [exact X4|eexists; split; [reflexivity|]; split; [exact Wc|]; split; [apply Rw|reflexivity]]]].
      * rewrite zlen_app, zlen_take, splice_length by (rewrite ?zlen_drop; qlia). rewrite zlen_drop. qlia.
      * rewrite drop_app_ge by (rewrite zlen_take; qlia). rewrite zlen_take. rewrite splice_0, X5.
        replace (pos + size - Z.max 0 (Z.min pos (zlen mem))) with size by qlia.
        rewrite drop_app_ge by qlia. rewrite X5, !drop_drop by qlia. f_equal. qlia.
    + rewrite X2. cbn [obind b_data b_size is_none negb].
      assert (Zm : zlen (take pos mem) = pos) by (rewrite zlen_take; qlia).
      assert (Dm : drop pos (take pos mem ++ mem') = mem') by (rewrite <- Zm at 1; apply drop_app_exact).
      rewrite Dm. rewrite zlen_drop in X4.
      destruct (set_public_ok a F view ready d mem' (n - overhead ca (p_sym p)) L W X6 ltac:(qlia) ltac:(qlia)) as (d' & E2 & W' & S' & T' & P' & N').
      rewrite E2. cbn [obind fst snd is_none negb]. rewrite X1.
      do 6 eexists. split; [reflexivity|]. split; [rewrite zlen_app; qlia|]. split.
      { rewrite drop_app_ge by qlia. rewrite Zm. replace (pos + size - pos) with size by qlia.
        replace size with (size - n + n) at 1 by qlia. rewrite <- drop_drop, X5 by qlia. rewrite !drop_drop by qlia. f_equal; qlia. }
      split; [reflexivity|]. split; [apply bytes_app; split; [now apply bytes_take|exact X6]|]. split; [reflexivity|]. split; [reflexivity|]. split; [reflexivity|]. split; [qlia|]. split; [qlia|].
      split; [|exists d', y'; split; [reflexivity|]; split; [exact W'|]; split; [exact S'|]; split; [exact T'|]; split; [rewrite P'; exact X3|]; split; [exact X7|]; split; [exact X8|exact X9]].
      unfold sub. rewrite drop_app_ge by qlia. rewrite Zm. replace (pos + n - pos) with n by qlia. rewrite X5, drop_drop by qlia.
      fold (sub (n + pos) (size - n) mem). rewrite (Z.add_comm n pos). apply sub_rest; qlia.
Qed.

Lemma read_token_ok : forall env s p t mem pos size max, rel s p ->
  sane_read (shape_of s) (p_initiator p) (p_second p) (know_of p) t = true ->
  0 <= pos -> 0 <= size <= max -> pos + max <= zlen mem -> bytes mem ->
  exists e s' mem' pos' size' max', read_token env s (tok_code t) mem pos size max = Ok (e, s', mem', pos', size', max') /\
  token_read s p t mem pos size max (ReadToken p t (sub pos size mem)) e s' mem' pos' size' max'.
Proof.
  intros env s p t mem pos size max R Sn Hp Hs Hm Hb.
  assert (Zs : zlen (sub pos size mem) = size) by (unfold sub; rewrite zlen_take, zlen_drop; qlia).
  assert (X : match t with E_ | S_ | F_ => True | _ => exists e s' mem' pos' size' max', (let! r := dh_token env s (tok_code t) in Ok (fst r, snd r, mem, pos, size, max)) = Ok (e, s', mem', pos', size', max') /\
     token_read s p t mem pos size max (option_map (pair (sub pos size mem)) (DHToken p t)) e s' mem' pos' size' max' end).
  { destruct t; try exact I;
      (destruct (dh_token_ok env s p _ R Sn) as (e & s' & E1 & F1 & X); rewrite E1; cbn [obind fst snd]; do 6 eexists; (split; [reflexivity|]); split; [exact F1|];
       split; [reflexivity|]; split; [reflexivity|];
       destruct (DHToken _ _) as [p'|]; cbn [option_map];
       [destruct X as (X1 & X2 & X3); left; split; [exact X1|]; do 2 eexists; split; [reflexivity|]; split; [qlia|]; split; [reflexivity|];
         split; [qlia|]; split; [qlia|]; split; [qlia|]; split; [exact Hb|]; split; [exact X2|exact X3]
       |destruct X as (X1 & X2); right; split; [exact X1|]; split; [reflexivity|]; exists p; split; [exact X2|now left]]). }
  destruct t; try exact X; clear X; [|apply read_e_ok; auto|].
  - unfold read_token. change (tok_code S_ =? TOKEN_E) with false. change (tok_code S_ =? TOKEN_S) with true. cbv iota.
    cbn [sane_read shape_of x_rs] in Sn. pose proof (r_keys _ _ R) as K. pose proof (kr_rs _ _ K) as Ks. destruct (ko_static (hs_remote s)) as [rs|] eqn:El; [|discriminate Sn].
    cbn [remote_rel] in Ks. destruct Ks as (W & S & _). specialize (S eq_refl).
    destruct (link_len _ _ _ _ _ Ld W) as (L1 & L2 & L3 & L4). rewrite S in L1.
    destruct (read_key_ok dalg D dview dready s p Static rs mem pos size max _ Ld R W eq_refl Hp Hs Hm Hb) as (e & s' & mem' & pos' & size' & max' & E1 & Z1 & Z2 & X).
    rewrite E1. do 6 eexists. split; [reflexivity|]. unfold token_read, ReadToken. cbv zeta. rewrite Zs, <- L1.
    assert (Gl : known (get_slot (hs_remote s) Static) = true) by (cbn; now rewrite El).
    destruct (size <? _); [|destruct (DecryptAndHash _ _) as [[q v]|]].
    + destruct X as (X1 & y & -> & X3 & X4 & X5). destruct (set_sym_weak s p y K X3 X4 X5) as [Q1 Q2].
      split; [exact Q2|]. split; [exact Z1|]. split; [exact Z2|]. right. split; [exact X1|]. split; [reflexivity|]. exists p. split; [exact Q1|now left].
    + destruct X as (X1 & X2 & X3 & X4 & X5 & X6 & X6' & X7 & d' & y & -> & Y1 & Y2 & Y3 & Y4 & Y5 & Y6 & Y7).
      destruct (set_sym_rel s p y v K Y5 Y6 Y7) as [Rm Fm]. split; [eapply same_frame_trans; [exact Fm|now apply sf_set_remote]|]. split; [exact Z1|]. split; [exact Z2|].
      left. split; [exact X1|]. do 2 eexists. split; [reflexivity|]. split; [rewrite <- X7; unfold sub; rewrite zlen_take, zlen_drop; qlia|]. split; [exact X7|].
      split; [qlia|]. split; [qlia|]. split; [qlia|]. split; [exact X2|]. split; [|reflexivity].
      constructor; [|exact Y5|exact Y6]. apply (set_rs_rel _ _ d' q (r_keys _ _ Rm) Y1); [cbn; congruence|congruence|exact Y4].
    + destruct X as (X1 & y & -> & X3 & X4 & X5). destruct (set_sym_weak s p y K X3 X4 X5) as [Q1 Q2].
      split; [exact Q2|]. split; [exact Z1|]. split; [exact Z2|]. right. split; [exact X1|]. split; [reflexivity|]. exists p. split; [exact Q1|now left].
  - change (read_token env s (tok_code F_) mem pos size max) with (read_f s mem pos size max). unfold read_f.
    cbn [sane_read shape_of x_f x_rf know_of w_rf w_f] in Sn. pose proof (r_keys _ _ R) as K. pose proof (kr_f _ _ K) as Kf. pose proof (kr_rf _ _ K) as Krf.
    destruct (ko_hybrid (hs_local s)) as [lh|] eqn:El; [|discriminate Sn]. destruct (ko_hybrid (hs_remote s)) as [rh|] eqn:Er; [|discriminate Sn].
    cbn [known andb] in Sn. apply andb_prop in Sn. destruct Sn as [Nf Sn]. apply eqb_prop in Sn.
    destruct (p_rf p) as [f0|] eqn:Ef; [discriminate Nf|]. cbn [remote_rel] in Krf. destruct Krf as (Wr & _ & Tr).
    assert (Kn : key_type_eqb (dh_key_type lh) NO_KEY = p_second p).
    { cbn in Kf. destruct Kf as (_ & _ & T). destruct (p_f p); cbn [known] in Sn.
      - destruct T as [T _]. rewrite T. destruct (p_second p); [discriminate|reflexivity].
      - rewrite T. destruct (p_second p); [reflexivity|discriminate]. }
    rewrite Kn. destruct (set_role_ok halg rh (p_second p) Wr) as (rh0 & Q & W0 & S0 & T0). rewrite Q.
    assert (Gl : known (get_slot (hs_remote s) Hybrid) = true) by (cbn; now rewrite Er).
    assert (K0 : keys_rel (set_remote Hybrid (Some rh0) s) p).
    { destruct K as [K1 K2 K3 K4 K5 K6 K7 K8 K9]. constructor; auto. cbn [set_remote hs_remote put_slot ko_hybrid]. rewrite Ef. cbn [remote_rel known orb].
      split; [exact W0|]. split; [discriminate|congruence]. }
    pose proof (sf_set_remote s Hybrid rh0 Gl) as F0.
    assert (R0 : rel (set_remote Hybrid (Some rh0) s) p) by (constructor; [exact K0|apply R|apply R]).
    destruct (link_len _ _ _ _ _ Lh W0) as (L1 & L2 & L3 & L4). rewrite S0 in L1. cbv zeta.
    destruct (read_key_ok halg E hview hready _ p Hybrid rh0 mem pos size max _ Lh R0 W0 eq_refl Hp Hs Hm Hb) as (e & s' & mem' & pos' & size' & max' & E1 & Z1 & Z2 & X).
    rewrite E1. cbn [obind]. unfold token_read, ReadToken. cbv zeta. rewrite Zs, <- L1.
    assert (Y : (e <> E_NONE /\ exists y, s' = set_symmetric y (set_remote Hybrid (Some rh0) s) /\ sym_wf ca alg y /\ ss_cipher y <> None /\ ss_id y = ss_id (hs_symmetric (set_remote Hybrid (Some rh0) s))) ->
       exists (e0 : err) (s'0 : handshakestate) (mem'0 : list Z) (pos'0 size'0 max'0 : Z),
       (if negb (is_none e) then Ok (e, s', mem', pos', size', max')
        else if dhstate_is_null_public_key (ko_hybrid (hs_remote s')) then Ok (E_INVALID_PUBLIC_KEY, s', mem', pos', size', max') else Ok (e, s', mem', pos', size', max')) = Ok (e0, s'0, mem'0, pos'0, size'0, max'0) /\
       token_read s p F_ mem pos size max None e0 s'0 mem'0 pos'0 size'0 max'0).
    { clear X. intros (X1 & y & -> & X3 & X4 & X5). replace (is_none e) with false by (destruct e; try reflexivity; congruence). cbn [negb].
      destruct (set_sym_weak _ p y K0 X3 X4 X5) as [Q1 Q2]. do 6 eexists. split; [reflexivity|].
      split; [eapply same_frame_trans; [exact F0|exact Q2]|]. split; [exact Z1|]. split; [exact Z2|]. right. split; [exact X1|]. split; [reflexivity|]. exists p. split; [exact Q1|now left]. }
    unfold token_read in Y.
    destruct (size <? _); [apply Y; exact X|destruct (DecryptAndHash _ _) as [[q v]|]; [|apply Y; exact X]]. clear Y.
    destruct X as (X1 & X2 & X3 & X4 & X5 & X6 & X6' & X7 & d' & y & -> & Y1 & Y2 & Y3 & Y4 & Y5 & Y6 & Y7).
    destruct (set_sym_rel _ p y v K0 Y5 Y6 Y7) as [Rm Fm]. rewrite X1. cbn [is_none negb]. cbn [set_remote hs_remote put_slot ko_hybrid].
    rewrite (is_null_ok halg E hview hready d' Lh Y1 ltac:(congruence)), Y4.
    pose proof (sf_set_remote (set_symmetric y (set_remote Hybrid (Some rh0) s)) Hybrid d' eq_refl) as F1.
    assert (K2 : keys_rel (set_remote Hybrid (Some d') (set_symmetric y (set_remote Hybrid (Some rh0) s))) (with_rf (with_sym p v) q))
      by (apply (set_rf_rel _ _ d' q (r_keys _ _ Rm) Y1); [cbn; congruence|congruence|exact Y4]).
    destruct (REJECTS_NULL E && all_zerob q) eqn:Nl.
    + do 6 eexists. split; [reflexivity|]. split; [eapply same_frame_trans; [exact F0|eapply same_frame_trans; [exact Fm|exact F1]]|]. split; [exact Z1|]. split; [exact Z2|].
      right. split; [discriminate|]. split; [reflexivity|]. exists (with_rf p q). split; [|right; right; split; [reflexivity|now exists q]].
      constructor; [|exact Y5|now apply view_cipher in Y6]. destruct K2 as [K1 K2 K3 K4 K5 K6 K7 K8 K9]. constructor; assumption.
    + do 6 eexists. split; [reflexivity|]. split; [eapply same_frame_trans; [exact F0|eapply same_frame_trans; [exact Fm|exact F1]]|]. split; [exact Z1|]. split; [exact Z2|].
      left. split; [reflexivity|]. do 2 eexists. split; [reflexivity|]. split; [rewrite <- X7; unfold sub; rewrite zlen_take, zlen_drop; qlia|]. split; [exact X7|].
      split; [qlia|]. split; [qlia|]. split; [qlia|]. split; [exact X2|]. split; [|reflexivity].
      constructor; [exact K2|exact Y5|exact Y6].
Qed.
End P.
