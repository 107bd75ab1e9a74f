(** Proofs about HandshakeState: setting up an object and starting the handshake. *)
From Coq Require Import ZifyBool ZifyNat String.
From Verif Require Import Base Str MUtil MCipher SCipher PCipher MHash SHash PHash MSymm SSymm PSymm SNames MNames PNames TNames MPatterns SPatterns TPatterns MDh SDh PDh
  MHandshake SHandshake SHsApi PHandshake PHsTok PHsMsg SNoise.

(** ** Facts about the patterns, checked over the table *)
Definition flags_of (pat : pattern) (initiator : bool) : Z :=
  let f := pattern_flags (encode_pattern pat) in if initiator then f else reverse_flags f.
Definition shape_for (pat : pattern) (i : bool) : shape :=
  Shape (uses pat i S_) (uses pat i E_) (uses pat i F_) (uses pat (negb i) S_) (uses pat (negb i) E_) (uses pat (negb i) F_).
Definition reqs_ok (pat : pattern) (i psk fb : bool) (r : Z) : Prop :=
  has_bit r REQ_LOCAL_REQUIRED = uses pat i S_ /\ has_bit r REQ_LOCAL_PREMSG = given pat i S_ /\
  has_bit r REQ_REMOTE_REQUIRED = given pat (negb i) S_ /\ has_bit r REQ_REMOTE_PREMSG = given pat (negb i) S_ /\
  has_bit r REQ_PSK = psk /\ has_bit r REQ_FALLBACK_PREMSG = fb.
Definition bools : list bool := [true; false].
Lemma in_bools : forall b, In b bools.
Proof. intros []; cbn; auto. Qed.

Definition flag_facts (pat : pattern) (i : bool) : bool :=
  Bool.eqb (has_bit (flags_of pat i) FLAG_LOCAL_STATIC) (uses pat i S_) && Bool.eqb (has_bit (flags_of pat i) FLAG_LOCAL_EPHEMERAL) (uses pat i E_) &&
  Bool.eqb (has_bit (flags_of pat i) FLAG_LOCAL_HYBRID) (uses pat i F_) && Bool.eqb (has_bit (flags_of pat i) FLAG_REMOTE_STATIC) (uses pat (negb i) S_) &&
  Bool.eqb (has_bit (flags_of pat i) FLAG_REMOTE_EPHEMERAL) (uses pat (negb i) E_) && Bool.eqb (has_bit (flags_of pat i) FLAG_REMOTE_HYBRID) (uses pat (negb i) F_) &&
  Bool.eqb (has_bit (flags_of pat i) FLAG_REMOTE_EPHEM_REQ) (given pat (negb i) E_) &&
  Bool.eqb (has_bit (flags_of pat i) (Z.lor FLAG_REMOTE_EPHEM_REQ FLAG_LOCAL_EPHEM_REQ)) (fallback_pattern pat) &&
  Bool.eqb (has_bit (flags_of pat i) FLAG_REMOTE_REQUIRED) (given pat (negb i) S_).
Definition req_facts (pat : pattern) (i psk : bool) : bool :=
  let r0 := requirements_for (flags_of pat i) (if psk then PREFIX_PSK else 0) false in
  let r1 := requirements_for (flags_of pat i) (if psk then PREFIX_PSK else 0) true in
  let r2 := Z.lor (if has_bit (pattern_flags (encode_pattern pat)) FLAG_REMOTE_REQUIRED then REQ_FALLBACK_POSSIBLE else 0) r0 in
  let ok r fb := Bool.eqb (has_bit r REQ_LOCAL_REQUIRED) (uses pat i S_) && Bool.eqb (has_bit r REQ_LOCAL_PREMSG) (given pat i S_) &&
    Bool.eqb (has_bit r REQ_REMOTE_REQUIRED) (given pat (negb i) S_) && Bool.eqb (has_bit r REQ_REMOTE_PREMSG) (given pat (negb i) S_) &&
    Bool.eqb (has_bit r REQ_PSK) psk && Bool.eqb (has_bit r REQ_FALLBACK_PREMSG) fb in
  ok r2 false && ok r1 (fallback_pattern pat) && Bool.eqb (has_bit r2 REQ_FALLBACK_POSSIBLE) (given pat false S_).
(** Knowledge at the start: all the own keys that are used, the remote keys that are given, perhaps more *)
Definition start_know (pat : pattern) (i rs : bool) : knowledge :=
  Know (uses pat i S_) (given pat i E_) (given pat i F_) (given pat (negb i) S_ || uses pat (negb i) S_ && rs) (given pat (negb i) E_) (given pat (negb i) F_).
Definition sane_facts (pat : pattern) (i rs : bool) : bool :=
  sane_messages (shape_for pat i) i (if fallback_pattern pat then i else negb i) i (start_know pat i rs) (messages pat).
Definition tok_eqb (a b : tok) : bool := if tok_eq_dec a b then true else false.
Definition toks_eqb (a b : list tok) : bool := if list_eq_dec tok_eq_dec a b then true else false.
Definition list_facts (pat : pattern) : bool :=
  negb (match messages pat with [] => true | _ => false end) &&
  (toks_eqb (pre_initiator pat) [] || toks_eqb (pre_initiator pat) [S_]) &&
  (toks_eqb (pre_responder pat) [] || toks_eqb (pre_responder pat) [S_] ||
   fallback_pattern pat && toks_eqb (pre_initiator pat) [] && (toks_eqb (pre_responder pat) [E_] && negb (uses pat false F_) || toks_eqb (pre_responder pat) [E_; F_] && uses pat false F_)) &&
  Bool.eqb (uses pat true F_) (uses pat false F_).
Definition pattern_facts (pat : pattern) : bool :=
  list_facts pat && forallb (flag_facts pat) bools && forallb (fun i => forallb (req_facts pat i) bools) bools &&
  forallb (fun i => forallb (sane_facts pat i) bools) bools.
Lemma all_facts : forallb (fun e => pattern_facts (snd (snd e))) all_patterns = true.
Proof. vm_compute. reflexivity. Qed.

Lemma facts_of : forall k n pat, In (k, (n, pat)) all_patterns -> pattern_facts pat = true.
Proof. intros k n pat Hi. pose proof all_facts as A. rewrite forallb_forall in A. exact (A _ Hi). Qed.

Lemma flag_fact : forall pat i, pattern_facts pat = true ->
  has_bit (flags_of pat i) FLAG_LOCAL_STATIC = uses pat i S_ /\ has_bit (flags_of pat i) FLAG_LOCAL_EPHEMERAL = uses pat i E_ /\
  has_bit (flags_of pat i) FLAG_LOCAL_HYBRID = uses pat i F_ /\ has_bit (flags_of pat i) FLAG_REMOTE_STATIC = uses pat (negb i) S_ /\
  has_bit (flags_of pat i) FLAG_REMOTE_EPHEMERAL = uses pat (negb i) E_ /\ has_bit (flags_of pat i) FLAG_REMOTE_HYBRID = uses pat (negb i) F_ /\
  has_bit (flags_of pat i) FLAG_REMOTE_EPHEM_REQ = given pat (negb i) E_ /\
  has_bit (flags_of pat i) (Z.lor FLAG_REMOTE_EPHEM_REQ FLAG_LOCAL_EPHEM_REQ) = fallback_pattern pat /\
  has_bit (flags_of pat i) FLAG_REMOTE_REQUIRED = given pat (negb i) S_.
Proof.
  intros pat i F. unfold pattern_facts in F. rewrite !andb_true_iff in F. destruct F as [[[_ F] _] _].
  rewrite forallb_forall in F. specialize (F i (in_bools i)). unfold flag_facts in F. rewrite !andb_true_iff in F.
  destruct F as [[[[[[[[F1 F2] F3] F4] F5] F6] F7] F8] F9]. apply Bool.eqb_prop in F1, F2, F3, F4, F5, F6, F7, F8, F9. tauto.
Qed.
Lemma req_fact : forall pat i prefix, pattern_facts pat = true ->
  let extra := if has_bit (pattern_flags (encode_pattern pat)) FLAG_REMOTE_REQUIRED then REQ_FALLBACK_POSSIBLE else 0 in
  reqs_ok pat i (prefix =? PREFIX_PSK) false (Z.lor extra (requirements_for (flags_of pat i) prefix false)) /\
  reqs_ok pat i (prefix =? PREFIX_PSK) (fallback_pattern pat) (requirements_for (flags_of pat i) prefix true) /\
  has_bit (Z.lor extra (requirements_for (flags_of pat i) prefix false)) REQ_FALLBACK_POSSIBLE = given pat false S_.
Proof.
  intros pat i prefix F. unfold pattern_facts in F. rewrite !andb_true_iff in F. destruct F as [[_ F] _].
  rewrite forallb_forall in F. specialize (F i (in_bools i)). rewrite forallb_forall in F. specialize (F (prefix =? PREFIX_PSK) (in_bools _)).
  assert (X : forall fl fb, requirements_for fl (if prefix =? PREFIX_PSK then PREFIX_PSK else 0) fb = requirements_for fl prefix fb).
  { intros fl fb. unfold requirements_for. destruct (prefix =? PREFIX_PSK); reflexivity. }
  unfold req_facts in F. rewrite !X in F. rewrite !andb_true_iff in F.
  destruct F as [[[[[[[F1 F2] F3] F4] F5] F6] [[[[[G1 G2] G3] G4] G5] G6]] F7].
  apply Bool.eqb_prop in F1, F2, F3, F4, F5, F6, F7, G1, G2, G3, G4, G5, G6. cbv zeta. unfold reqs_ok. tauto.
Qed.
Lemma sane_fact : forall pat i rs, pattern_facts pat = true ->
  sane_messages (shape_for pat i) i (if fallback_pattern pat then i else negb i) i (start_know pat i rs) (messages pat) = true.
Proof.
  intros pat i rs F. unfold pattern_facts in F. rewrite !andb_true_iff in F. destruct F as [_ F].
  rewrite forallb_forall in F. specialize (F i (in_bools i)). rewrite forallb_forall in F. exact (F rs (in_bools _)).
Qed.
Lemma list_fact : forall pat, pattern_facts pat = true ->
  messages pat <> [] /\ uses pat true F_ = uses pat false F_ /\
  ((pre_initiator pat = [] \/ pre_initiator pat = [S_]) /\ (pre_responder pat = [] \/ pre_responder pat = [S_]) /\ fallback_pattern pat = false \/
   fallback_pattern pat = true /\ pre_initiator pat = [] /\
   (pre_responder pat = [E_] /\ uses pat false F_ = false \/ pre_responder pat = [E_; F_] /\ uses pat false F_ = true)).
Proof.
  intros pat F. unfold pattern_facts in F. rewrite !andb_true_iff in F. destruct F as [[[F _] _] _].
  unfold list_facts in F. rewrite !andb_true_iff in F. destruct F as [[[F1 F2] F3] F4]. apply Bool.eqb_prop in F4.
  assert (T : forall a b, toks_eqb a b = true -> a = b) by (intros a b; unfold toks_eqb; destruct (list_eq_dec _ _ _); [auto|discriminate]).
  split; [destruct (messages pat); [discriminate F1|discriminate]|]. split; [exact F4|].
  rewrite !orb_true_iff in F2, F3. rewrite ?andb_true_iff, ?orb_true_iff in F3. rewrite ?andb_true_iff, ?negb_true_iff in F3. repeat rewrite ?andb_true_iff, ?orb_true_iff, ?negb_true_iff in F3.
  destruct F3 as [[F3|F3]|[[F3 F5] F6]].
  1,2: left; split; [destruct F2 as [F2|F2]; auto|]; split; [auto|]; apply T in F3; unfold fallback_pattern, given; rewrite F3;
    destruct F2 as [F2|F2]; apply T in F2; rewrite F2; reflexivity.
  right. split; [exact F3|]. split; [auto|]. destruct F6 as [[F6 F7]|[F6 F7]]; auto.
Qed.

(** ** Roles of key objects *)
Lemma dh_step_role : forall alg s op e s', dh_shape alg -> dh_wf alg s -> dh_op_ok alg op -> (forall r, op <> DSetRole r) ->
  dh_step s op = Ok (e, s') -> dd_role (ds_data s') = dd_role (ds_data s).
Proof.
  intros alg s op e s' Sh [Ha Hd] Hop Nr Es.
  pose proof (sh_lens _ Sh (dd_role (ds_data s))) as [L1 L2].
  destruct op as [rng|rng o|p n q m|p n|q m| | |from|pub n|r]; cbn [dh_step dh_op_ok] in *.
  - unfold dhstate_generate_keypair in Es. rewrite Ha in Es. destruct (da_generate alg rng (ds_data s) None) as [e0 d] eqn:E.
    destruct (sh_generate _ Sh _ _ None _ _ Hd I Hop E) as (D1 & D2 & D3 & D4 & _). destruct (is_none e0); inversion Es; cbn; exact D2.
  - destruct Hop as [Hr Ho]. unfold dhstate_generate_dependent_keypair in Es.
    destruct (match o with Some o => negb (da_id (ds_alg s) =? da_id (ds_alg o)) | None => false end) eqn:Eo; [now inversion Es|].
    assert (Ho' : match option_map ds_data o with Some x => data_ok alg x | None => True end).
    { destruct o as [o|]; cbn; auto. destruct Ho as [O1 O2]. rewrite Ha in Eo. rewrite <- (O2 ltac:(lia)) at 1. exact O1. }
    rewrite Ha in Es. destruct (da_generate alg rng (ds_data s) (option_map ds_data o)) as [e0 d] eqn:E.
    destruct (sh_generate _ Sh _ _ _ _ _ Hd Ho' Hr E) as (D1 & D2 & D3 & D4 & _). destruct (is_none e0); inversion Es; cbn; exact D2.
  - destruct Hop as [Hp Hq]. unfold dhstate_set_keypair in Es. destruct p as [p|], q as [q|]; try now inversion Es.
    destruct (negb (n =? private_len s)) eqn:E1; [now inversion Es|]. destruct (negb (m =? public_len s)) eqn:E2; [now inversion Es|].
    destruct Hp as (Hn & Hpl & Hpb), Hq as (Hm & Hql & Hqb).
    rewrite !read_ptr_take in Es by lia. cbn [obind] in Es.
    assert (En : n = da_private_len alg (dd_role (ds_data s))) by (unfold private_len in E1; rewrite Ha in E1; lia).
    assert (Em : m = da_public_len alg (dd_role (ds_data s))) by (unfold public_len in E2; rewrite Ha in E2; lia).
    rewrite Ha in Es. destruct (da_set_keypair alg (ds_data s) (take n p) (take m q)) as [e0 d] eqn:E.
    destruct (sh_keypair _ Sh (ds_data s) (take n p) (take m q) e0 d Hd) as (D1 & D2 & _); auto.
    { subst n. split; [rewrite zlen_take; lia|now apply bytes_take]. } { subst m. split; [rewrite zlen_take; lia|now apply bytes_take]. }
    destruct (negb (is_none e0)); inversion Es; cbn; exact D2.
  - unfold dhstate_set_keypair_private in Es. destruct p as [p|]; [|now inversion Es].
    destruct (negb (n =? private_len s)) eqn:E1; [now inversion Es|]. destruct Hop as (Hn & Hpl & Hpb).
    rewrite !read_ptr_take in Es by lia. cbn [obind] in Es.
    assert (En : n = da_private_len alg (dd_role (ds_data s))) by (unfold private_len in E1; rewrite Ha in E1; lia).
    rewrite Ha in Es. destruct (da_set_keypair_private alg (ds_data s) (take n p)) as [e0 d] eqn:E.
    destruct (sh_private _ Sh (ds_data s) (take n p) e0 d Hd) as (D1 & D2 & _); auto.
    { subst n. split; [rewrite zlen_take; lia|now apply bytes_take]. }
    destruct (negb (is_none e0)); inversion Es; cbn; exact D2.
  - unfold dhstate_set_public_key in Es. destruct q as [q|]; [|now inversion Es].
    destruct (negb (m =? public_len s)) eqn:E1; [now inversion Es|]. destruct Hop as (Hn & Hpl & Hpb).
    rewrite !read_ptr_take in Es by lia. cbn [obind] in Es.
    match type of Es with context [if ?b then Ok _ else _] => destruct b end; inversion Es; reflexivity.
  - unfold dhstate_set_null_public_key in Es. destruct (negb _); inversion Es; reflexivity.
  - unfold dhstate_clear_key in Es. inversion Es; reflexivity.
  - unfold dhstate_copy in Es. destruct (negb (da_id (ds_alg s) =? da_id (ds_alg from))) eqn:E1; [now inversion Es|].
    rewrite Ha in Es. destruct Hop as [O1 O2]. assert (Hf : data_ok alg (ds_data from)) by (rewrite Ha in E1; rewrite <- (O2 ltac:(lia)) at 1; exact O1).
    destruct (da_copy alg (ds_data s) (ds_data from) None) as [e0 d] eqn:E. destruct (sh_copy _ Sh _ _ None _ _ Hd Hf I E) as (D1 & D2 & _).
    destruct (negb (is_none e0)); inversion Es; cbn; exact D2.
  - unfold dhstate_calculate in Es. destruct pub as [o|]; [|now inversion Es].
    destruct (negb (da_id (ds_alg s) =? da_id (ds_alg o))) eqn:E1; [now inversion Es|]. destruct (negb (n =? shared_len s)); [now inversion Es|].
    destruct (negb (key_type_eqb (dh_key_type s) KEYPAIR)); [now inversion Es|]. rewrite Ha in *. destruct Hop as [O1 O2].
    assert (Hf : data_ok alg (ds_data o)) by (rewrite <- (O2 ltac:(lia)) at 1; exact O1).
    destruct (da_calculate alg (ds_data s) (ds_data o)) as [[e0 out] d] eqn:E. destruct (sh_calculate _ Sh _ _ _ _ _ Hd Hf E) as (D1 & D2 & _). inversion Es; cbn; exact D2.
  - exfalso. now apply (Nr r).
Qed.

(** ** The key pair in a static object *)
Lemma suite_link_static : forall alg D, dh_suite alg D -> exists view ready, dh_link alg D view ready /\
  (da_ephemeral_only alg = false -> forall d, ready (ds_data d) /\ static_pair D d (view (ds_data d))).
Proof.
  intros alg D [base mult H1 H2|eval H1|kg sb sa H1 H2 H3]; do 2 eexists.
  - split; [now apply link_25519|]. intros _ d. split; [exact I|reflexivity].
  - split; [now apply link_448|]. intros _ d. split; [exact I|reflexivity].
  - split; [now apply link_newhope|]. intros X. discriminate X.
Qed.

Section P.
Variable N : suite.
Variable id : protocol_id.
Local Notation ca := (n_cipher N).
Local Notation alg := (n_hash N).
Local Notation H := (n_H N).
Local Notation dalg := (n_dh_alg N).
Local Notation halg := (n_hyb_alg N).
Local Notation D := (n_dh N).
Local Notation E := (n_hyb N).
Hypothesis Cok : cipher_correct ca.
Hypothesis Law : hash_law alg H.
Hypothesis Klen : ca_key_len ca <= ha_hash_len alg.
Hypothesis Mac : ca_mac_len ca <= 16.
Variable dview : dh_data -> KP D.
Variable dready : dh_data -> Prop.
Variable hview : dh_data -> KP E.
Variable hready : dh_data -> Prop.
Hypothesis Ld : dh_link dalg D dview dready.
Hypothesis Lh : dh_link halg E hview hready.
Hypothesis Lstatic : da_ephemeral_only dalg = false -> forall d, dready (ds_data d) /\ static_pair D d (dview (ds_data d)).
Local Notation psk := (psk_mode id).
Local Notation local_rel_d := (local_rel dalg D dview dready).
Local Notation local_rel_h := (local_rel halg E hview hready).
Local Notation rel := (rel ca alg dalg halg D E dview dready hview hready psk).
Local Notation at_ := (at_ ca alg dalg halg D E dview dready hview hready psk).

(** ** Before the start *)
Definition object_ok (second : bool) (o : option dhstate) : Prop :=
  match o with Some d => dh_wf dalg d /\ second_role (ds_data d) = second /\ da_ephemeral_only dalg = false | None => True end.
Record pre (pat : pattern) (i second fb : bool) (name prologue : list Z) (key : option (list Z))
    (e : option (KP D)) (f : option (KP E)) (re rf : option (list Z)) (s : handshakestate) : Prop := {
  pr_action : hs_action s = ACTION_NONE;
  pr_tokens : hs_tokens s = encode_messages (messages pat) ++ [0];
  pr_role : hs_role s = role_id i;
  pr_id : ss_id (hs_symmetric s) = id;
  pr_req : reqs_ok pat i psk fb (hs_requirements s);
  pr_wf : sym_wf ca alg (hs_symmetric s);
  pr_view : sym_view (hs_symmetric s) = Some (InitializeSymmetric H (ha_hash_len alg) name);
  pr_shape : shape_of s = shape_for pat i;
  pr_s : object_ok second (ko_static (hs_local s));
  pr_rs : object_ok (negb second) (ko_static (hs_remote s));
  pr_e : local_rel_d true second (ko_ephemeral (hs_local s)) e;
  pr_f : local_rel_h false second (ko_hybrid (hs_local s)) f;
  pr_re : remote_rel dalg true (negb second) (ko_ephemeral (hs_remote s)) re;
  pr_rf : remote_rel halg false (negb second) (ko_hybrid (hs_remote s)) rf;
  pr_fixed : hs_fixed_ephemeral s = None /\ hs_fixed_hybrid s = None;
  pr_psk : match key with Some k => hs_psk s = k /\ zlen k = 32 /\ bytes k | None => hs_psk s = [] end;
  pr_prologue : hs_prologue s = prologue /\ bytes prologue
}.

(** *** Creation *)
Lemma role_second : forall o r, (r = ROLE_INITIATOR \/ r = ROLE_RESPONDER) ->
  match snd (dhstate_set_role o r), o with
  | Some d', Some d => ds_alg d' = ds_alg d /\ second_role (ds_data d') = (r =? ROLE_RESPONDER) /\ dh_key_type d' = dh_key_type d /\
      (forall a, dh_wf a d -> dh_wf a d')
  | None, None => True
  | _, _ => False
  end.
Proof.
  intros [d|] r Hr; cbn [dhstate_set_role]; [|exact I].
  replace (negb (r =? ROLE_INITIATOR) && negb (r =? ROLE_RESPONDER) && negb (r =? 0)) with false by (destruct Hr as [-> | ->]; reflexivity).
  cbn [snd]. split; [reflexivity|]. split; [reflexivity|]. split; [reflexivity|]. intros a [A (B1 & B2 & B3)]. split; [exact A|]. repeat split; try apply B1; try apply B2; apply B3.
Qed.

Lemma make_dh_ok : forall lib w k e e' o, make_dh lib w k e = (e', o) -> e' = E_NONE ->
  e = E_NONE /\ (w = false -> o = None) /\ (w = true -> exists a, lib_dh lib k = Some a /\ o = Some (dhstate_new a)).
Proof.
  intros lib w k e e' o M ->. unfold make_dh in M. destruct w.
  - destruct e; cbn in M; try discriminate M. destruct (lib_dh lib k); [|discriminate M]. inversion M. split; [auto|]. split; [discriminate|eauto].
  - cbn in M. inversion M. subst. split; [auto|]. split; [auto|discriminate].
Qed.
Lemma make_hybrid_ok : forall lib w k e e' o, make_hybrid lib w k e = (e', o) -> e' = E_NONE ->
  e = E_NONE /\ (w = false -> o = None) /\ (w = true -> exists a, k <> DH_NONE /\ lib_dh lib k = Some a /\ o = Some (dhstate_new a)).
Proof.
  intros lib w k e e' o M ->. unfold make_hybrid in M. destruct w; cbn [andb] in M.
  - destruct (is_none e) eqn:En.
    + destruct (k =? DH_NONE) eqn:K; cbn [negb] in M; [discriminate M|]. apply make_dh_ok in M as (_ & _ & M); [|reflexivity].
      destruct (M eq_refl) as (a & A & B). apply is_none_true in En. split; [auto|]. split; [discriminate|]. exists a. split; [lia|auto].
    + destruct (k =? DH_NONE); cbn [negb] in M; [|discriminate M]. inversion M; subst. discriminate En.
  - destruct (k =? DH_NONE); cbn [negb] in M; [|discriminate M]. inversion M; subst. split; [auto|]. split; [auto|discriminate].
Qed.


Definition second_new (pat : pattern) (i : bool) : bool := if given pat (negb i) E_ then i else negb i.
Lemma registered_pattern : forall k, noise_pattern_lookup k <> None -> exists j n pat, In (j, (n, pat)) all_patterns /\ k = 80 * 256 + j /\
  noise_pattern_lookup k = Some (encode_pattern pat).
Proof.
  intros k Hk. apply C19_no_other_entries in Hk as (j & n & Hi & ->). rewrite <- all_patterns_names in Hi.
  apply in_map_iff in Hi as ([j' [n' pat]] & Ej & Hi). cbn in Ej. inversion Ej; subst. exists j, n, pat. split; [auto|]. split; [auto|]. now apply lookup_all with n.
Qed.
Lemma role_is : forall i, (role_id i =? ROLE_INITIATOR) = i /\ (role_id i =? ROLE_RESPONDER) = negb i.
Proof. intros []; split; reflexivity. Qed.
Lemma text_name : forall mem, noise_protocol_id_to_name (Some (zeros MAX_PROTOCOL_NAME)) MAX_PROTOCOL_NAME (Some (id, [0; 0; 0; 0])) = Ok (E_NONE, Some mem) ->
  exists name, protocol_text id name /\ bytes name /\ take (c_strlen mem) mem = name.
Proof.
  intros mem Em. destruct (C38_format_then_parse id [0; 0; 0; 0] (zeros MAX_PROTOCOL_NAME) MAX_PROTOCOL_NAME mem) as (name & (r & ->) & Hc & _ & Hp).
  { unfold MAX_PROTOCOL_NAME. rewrite zlen_zeros; lia. } { reflexivity. } { exact Em. }
  exists name. destruct (C38_parse_exact name) as (e & j & E2 & [(-> & Ht)|(-> & _)]); rewrite E2 in Hp; [|discriminate Hp]. inversion Hp; subst j.
  split; [exact Ht|]. split; [eapply Forall_impl; [|exact Hc]; cbn; unfold is_byte; lia|]. rewrite strlen_ok by auto. apply take_app_exact.
Qed.

Lemma new_ok : forall lib i s, provides lib id N ->
  handshakestate_new_by_id lib (Some (id, [0; 0; 0; 0])) (role_id i) = Ok (E_NONE, Live s) ->
  exists name k n pat, protocol_text id name /\ In (k, (n, pat)) all_patterns /\ pi_pattern id = 80 * 256 + k /\
    has_bit (hs_requirements s) REQ_FALLBACK_POSSIBLE = given pat false S_ /\
    pre pat i (second_new pat i) false name [] None None None None None s.
Proof.
  intros lib i s Pv En. unfold handshakestate_new_by_id in En. destruct (role_is i) as [Ri Rr]. rewrite Ri, Rr in En.
  replace (negb i && negb (negb i)) with false in En by (destruct i; reflexivity).
  unfold symmetricstate_new_by_id in En.
  destruct (noise_protocol_id_to_name (Some (zeros MAX_PROTOCOL_NAME)) MAX_PROTOCOL_NAME (Some (id, [0; 0; 0; 0]))) as [[e [mem|]]|] eqn:Em;
    cbn [obind] in En; [|destruct e; discriminate En|discriminate En].
  destruct e; try discriminate En. cbn [obind] in En.
  destruct (text_name mem Em) as (name & Ht & Hb & Tn). rewrite Tn in En.
  destruct (pv_hash _ _ _ Pv) as (c & Eh & Hc). rewrite (pv_cipher _ _ _ Pv), Eh in En.
  destruct (sym_new_eq ca alg H Law Klen id name c Hc Hb) as (y & Ey & Wy & Vy & Iy). rewrite Ey in En. cbn [obind] in En.
  exists name. unfold handshakestate_new in En. rewrite Iy in En.
  destruct (noise_pattern_lookup (pi_pattern id)) as [code|] eqn:El; [|discriminate En].
  destruct (registered_pattern (pi_pattern id)) as (k & n & pat & Hi & Hk & Hl); [rewrite El; discriminate|]. rewrite El in Hl. inversion Hl; subst code. clear Hl.
  exists k, n, pat. split; [exact Ht|]. split; [exact Hi|]. split; [exact Hk|].
  pose proof (facts_of _ _ _ Hi) as F. destruct (flag_fact pat i F) as (F1 & F2 & F3 & F4 & F5 & F6 & F7 & F8 & F9).
  destruct (req_fact pat i (pi_prefix id) F) as (R1 & _ & R3).
  cbv zeta in En. rewrite Ri, Rr in En.
  assert (Fl : (if negb i then reverse_flags (pattern_flags (encode_pattern pat)) else pattern_flags (encode_pattern pat)) = flags_of pat i) by (unfold flags_of; destruct i; reflexivity).
  rewrite Fl in En. rewrite F1, F2, F3, F4, F5, F6, F7 in En.
  set (X := if given pat (negb i) E_ then _ else _) in En.
  assert (Ex : X = (if second_new pat i then ROLE_RESPONDER else ROLE_INITIATOR, if second_new pat i then ROLE_INITIATOR else ROLE_RESPONDER)).
  { unfold X, second_new. destruct (given pat (negb i) E_), i; reflexivity. }
  rewrite Ex in En. clear X Ex.
  destruct (make_dh lib (uses pat i S_) (pi_dh id) E_NONE) as [e1 o1] eqn:M1.
  destruct (make_dh lib (uses pat i E_) (pi_dh id) e1) as [e2 o2] eqn:M2.
  destruct (make_hybrid lib (uses pat i F_) (pi_hybrid id) e2) as [e3 o3] eqn:M3.
  destruct (make_dh lib (uses pat (negb i) S_) (pi_dh id) e3) as [e4 o4] eqn:M4.
  destruct (make_dh lib (uses pat (negb i) E_) (pi_dh id) e4) as [e5 o5] eqn:M5.
  destruct (make_hybrid lib (uses pat (negb i) F_) (pi_hybrid id) e5) as [e6 o6] eqn:M6.
  cbv zeta in En.
  remember (snd (dhstate_set_role o2 (if second_new pat i then ROLE_RESPONDER else ROLE_INITIATOR))) as o2' eqn:O2.
  remember (snd (dhstate_set_role o1 (if second_new pat i then ROLE_RESPONDER else ROLE_INITIATOR))) as o1' eqn:O1.
  remember (snd (dhstate_set_role o5 (if second_new pat i then ROLE_INITIATOR else ROLE_RESPONDER))) as o5' eqn:O5.
  remember (snd (dhstate_set_role o4 (if second_new pat i then ROLE_INITIATOR else ROLE_RESPONDER))) as o4' eqn:O4.
  destruct (is_none e6) eqn:E6; [|rewrite E6 in En; discriminate En]. apply is_none_true in E6. subst e6.
  match type of En with Ok (if negb (is_none ?e) then _ else _) = _ => destruct (is_none e) eqn:Ee; [|discriminate En] end. cbn [negb] in En.
  assert (Eo : ephemeral_only o1' = false /\ ephemeral_only o4' = false).
  { destruct (ephemeral_only o4'), (ephemeral_only o1'); auto; destruct (ephemeral_only o2'), (is_null_ptr o5'), (ephemeral_only o5'); discriminate Ee. }
  apply make_hybrid_ok in M6 as (-> & N6 & S6); [|reflexivity]. apply make_dh_ok in M5 as (-> & N5 & S5); [|reflexivity].
  apply make_dh_ok in M4 as (-> & N4 & S4); [|reflexivity]. apply make_hybrid_ok in M3 as (-> & N3 & S3); [|reflexivity].
  apply make_dh_ok in M2 as (-> & N2 & S2); [|reflexivity]. apply make_dh_ok in M1 as (_ & N1 & S1); [|reflexivity].
  inversion En; subst s. clear En Ee. cbn [hs_requirements]. split; [exact R3|].
  set (b := second_new pat i) in *.
  assert (Rb : forall c : bool, (if c then ROLE_RESPONDER else ROLE_INITIATOR) = ROLE_INITIATOR \/ (if c then ROLE_RESPONDER else ROLE_INITIATOR) = ROLE_RESPONDER) by (intros []; auto).
  assert (Rb' : forall c : bool, (if c then ROLE_INITIATOR else ROLE_RESPONDER) = ROLE_INITIATOR \/ (if c then ROLE_INITIATOR else ROLE_RESPONDER) = ROLE_RESPONDER) by (intros []; auto).
  pose proof (role_second o1 _ (Rb b)) as Q1. pose proof (role_second o2 _ (Rb b)) as Q2. pose proof (role_second o4 _ (Rb' b)) as Q4. pose proof (role_second o5 _ (Rb' b)) as Q5.
  rewrite <- O1 in Q1. rewrite <- O2 in Q2. rewrite <- O4 in Q4. rewrite <- O5 in Q5. clear O1 O2 O4 O5.
  assert (Wn : forall a F v r, dh_link a F v r -> dh_wf a (dhstate_new a)) by (intros a F0 v r L; apply dh_new_wf, (lk_shape _ _ _ _ L)).
  assert (G : forall (w : bool) o o' r, (w = false -> o = None) -> (w = true -> exists a, lib_dh lib (pi_dh id) = Some a /\ o = Some (dhstate_new a)) ->
     match o', o with Some d', Some d => ds_alg d' = ds_alg d /\ second_role (ds_data d') = (r =? ROLE_RESPONDER) /\ dh_key_type d' = dh_key_type d /\ (forall a, dh_wf a d -> dh_wf a d') | None, None => True | _, _ => False end ->
     known o' = w /\ match o' with Some d => dh_wf dalg d /\ second_role (ds_data d) = (r =? ROLE_RESPONDER) /\ dh_key_type d = NO_KEY | None => True end).
  { intros w o o' r Nw Sw Q. destruct w.
    - destruct (Sw eq_refl) as (a & A & ->). rewrite (pv_dh _ _ _ Pv) in A. inversion A; subst a. destruct o' as [d|]; [|contradiction]. destruct Q as (Q1' & Q2' & Q3' & Q4').
      split; [reflexivity|]. split; [apply Q4'; eapply Wn; exact Ld|]. split; [exact Q2'|exact Q3'].
    - rewrite (Nw eq_refl) in Q. destruct o'; [contradiction|]. split; [reflexivity|exact I]. }
  assert (Gh : forall (w : bool) o, (w = false -> o = None) -> (w = true -> exists a, pi_hybrid id <> DH_NONE /\ lib_dh lib (pi_hybrid id) = Some a /\ o = Some (dhstate_new a)) ->
     known o = w /\ match o with Some d => dh_wf halg d /\ dh_key_type d = NO_KEY | None => True end).
  { intros w o Nw Sw. destruct w.
    - destruct (Sw eq_refl) as (a & A0 & A & ->). rewrite (pv_hyb _ _ _ Pv A0) in A. inversion A; subst a. split; [reflexivity|]. split; [eapply Wn; exact Lh|reflexivity].
    - rewrite (Nw eq_refl). split; [reflexivity|exact I]. }
  destruct (G _ _ _ _ N1 S1 Q1) as [K1 J1]. destruct (G _ _ _ _ N2 S2 Q2) as [K2 J2]. destruct (G _ _ _ _ N4 S4 Q4) as [K4 J4]. destruct (G _ _ _ _ N5 S5 Q5) as [K5 J5].
  destruct (Gh _ _ N3 S3) as [K3 J3]. destruct (Gh _ _ N6 S6) as [K6 J6].
  assert (Rs : forall c : bool, ((if c then ROLE_RESPONDER else ROLE_INITIATOR) =? ROLE_RESPONDER) = c) by (intros []; reflexivity).
  assert (Rs' : forall c : bool, ((if c then ROLE_INITIATOR else ROLE_RESPONDER) =? ROLE_RESPONDER) = negb c) by (intros []; reflexivity).
  rewrite Rs in J1, J2. rewrite Rs' in J4, J5. clear G Gh Q1 Q2 Q4 Q5.
  constructor; cbn [hs_action hs_tokens hs_role hs_symmetric hs_requirements hs_local hs_remote ko_static ko_ephemeral ko_hybrid hs_fixed_ephemeral hs_fixed_hybrid hs_psk hs_prologue].
  - reflexivity.
  - unfold encode_pattern. reflexivity.
  - reflexivity.
  - exact Iy.
  - exact R1.
  - exact Wy.
  - exact Vy.
  - unfold shape_of, shape_for. cbn [hs_local hs_remote ko_static ko_ephemeral ko_hybrid]. congruence.
  - destruct o1' as [d|]; [|exact I]. destruct J1 as (J & J' & _). split; [exact J|]. split; [exact J'|]. destruct Eo as [Eo _]. cbn in Eo. rewrite (proj1 J) in Eo. exact Eo.
  - destruct o4' as [d|]; [|exact I]. destruct J4 as (J & J' & _). split; [exact J|]. split; [exact J'|]. destruct Eo as [_ Eo]. cbn in Eo. rewrite (proj1 J) in Eo. exact Eo.
  - destruct o2' as [d|]; [|reflexivity]. destruct J2 as (J & J' & J''). split; [exact J|]. split; [intros _; exact J'|exact J''].
  - destruct o3 as [d|]; [|reflexivity]. destruct J3 as (J & J''). split; [exact J|]. split; [discriminate|exact J''].
  - destruct o5' as [d|]; [|reflexivity]. destruct J5 as (J & J' & J''). split; [exact J|]. split; [intros _; exact J'|exact J''].
  - destruct o6 as [d|]; [|reflexivity]. destruct J6 as (J & J''). split; [exact J|]. split; [discriminate|exact J''].
  - split; reflexivity.
  - reflexivity.
  - split; [reflexivity|constructor].
Qed.

(** *** Calls before the start *)
Lemma setup_step : forall lib pat i b fb name prol key e f re rf s op,
  pre pat i b fb name prol key e f re rf s -> setup_call N op ->
  exists r s', hs_step lib s op = Ok (r, s') /\ hs_requirements s' = hs_requirements s /\
    pre pat i b fb name (prologue_set prol [(op, r)]) (psk_set key [(op, r)]) e f re rf s'.
Proof.
  intros lib pat i b fb name prol key e f re rf s op [A1 A2 A3 A4 A5 A6 A7 A8 A9 A10 A11 A12 A13 A14 A15 A16 A17] Hop.
  destruct op as [k n|p n|w op| | | | | |]; try contradiction Hop; cbn [hs_step setup_call] in *.
  - unfold set_pre_shared_key. destruct k as [k|]; [|do 2 eexists; split; [reflexivity|]; split; [reflexivity|]; constructor; assumption].
    destruct (n =? PSK_LEN) eqn:E1; [|do 2 eexists; split; [reflexivity|]; split; [reflexivity|]; constructor; assumption].
    destruct (prefix_of s =? PREFIX_PSK) eqn:E2; [|do 2 eexists; split; [reflexivity|]; split; [reflexivity|]; constructor; assumption].
    rewrite A1. change (ACTION_NONE =? ACTION_NONE) with true. cbn [negb]. destruct Hop as (B1 & B2 & B3). rewrite read_ptr_take by lia. cbn [obind].
    do 2 eexists; split; [reflexivity|]; split; [reflexivity|]. cbn [psk_set prologue_set plain hr_err fst is_none].
    constructor; try assumption. cbn [snd set_psk hs_psk]. split; [reflexivity|]. unfold PSK_LEN in E1. split; [rewrite zlen_take; lia|now apply bytes_take].
  - unfold set_prologue. destruct p as [p|]; [|do 2 eexists; split; [reflexivity|]; split; [reflexivity|]; constructor; assumption].
    rewrite A1. change (ACTION_NONE =? ACTION_NONE) with true. cbn [negb]. destruct Hop as (B1 & B2 & B3). rewrite read_ptr_take by lia. cbn [obind].
    do 2 eexists; split; [reflexivity|]; split; [reflexivity|]. cbn [psk_set prologue_set plain hr_err fst is_none].
    constructor; try assumption. split; [reflexivity|now apply bytes_take].
  - assert (X : forall d second, dh_wf dalg d -> second_role (ds_data d) = second -> dh_op_ok dalg op -> (forall r, op <> DSetRole r) ->
      exists e d', dh_step d op = Ok (e, d') /\ dh_wf dalg d' /\ second_role (ds_data d') = second).
    { intros d second W S2 O1 O2. destruct (dh_step_ok dalg d op (lk_shape _ _ _ _ Ld) W O1) as (e0 & d' & E0 & W' & _).
      exists e0, d'. split; [exact E0|]. split; [exact W'|]. unfold second_role. rewrite (dh_step_role dalg d op e0 d' (lk_shape _ _ _ _ Ld) W O1 O2 E0). exact S2. }
    destruct w; try contradiction Hop; cbn [key_object].
    + destruct (ko_static (hs_local s)) as [d|] eqn:Ed; [|do 2 eexists; split; [reflexivity|]; split; [reflexivity|]; constructor; try assumption; rewrite Ed; assumption].
      destruct A9 as (W & S2 & Eo). destruct (X d b W S2 (proj1 Hop) (proj2 Hop)) as (e0 & d' & -> & W' & S'). cbn [obind fst snd].
      do 2 eexists; split; [reflexivity|]; split; [reflexivity|]. constructor; try assumption.
      * rewrite <- A8. unfold shape_of. cbn [put_key set_local hs_local hs_remote put_slot ko_static ko_ephemeral ko_hybrid]. rewrite Ed. reflexivity.
      * cbn. auto.
    + destruct (ko_static (hs_remote s)) as [d|] eqn:Ed; [|do 2 eexists; split; [reflexivity|]; split; [reflexivity|]; constructor; try assumption; rewrite Ed; assumption].
      destruct A10 as (W & S2 & Eo). destruct (X d (negb b) W S2 (proj1 Hop) (proj2 Hop)) as (e0 & d' & -> & W' & S'). cbn [obind fst snd].
      do 2 eexists; split; [reflexivity|]; split; [reflexivity|]. constructor; try assumption.
      * rewrite <- A8. unfold shape_of. cbn [put_key set_remote hs_local hs_remote put_slot ko_static ko_ephemeral ko_hybrid]. rewrite Ed. reflexivity.
      * cbn. auto.
Qed.
Lemma psk_set_cons : forall op r log now, psk_set now ((op, r) :: log) = psk_set (psk_set now [(op, r)]) log.
Proof. intros [[k|] n| | | | | | | |] r log now; reflexivity. Qed.
Lemma prologue_set_cons : forall op r log now, prologue_set now ((op, r) :: log) = prologue_set (prologue_set now [(op, r)]) log.
Proof. intros [|[k|] n| | | | | | |] r log now; reflexivity. Qed.
Lemma setup_run : forall lib pat i b fb name e f re rf ops prol key s,
  pre pat i b fb name prol key e f re rf s -> Forall (setup_call N) ops ->
  exists log s', hs_run lib s ops = Ok (log, s') /\ hs_requirements s' = hs_requirements s /\
    pre pat i b fb name (prologue_set prol log) (psk_set key log) e f re rf s'.
Proof.
  intros lib pat i b fb name e f re rf. induction ops as [|op ops IH]; intros prol key s P F.
  - exists [], s. split; [reflexivity|]. split; [reflexivity|exact P].
  - inversion F; subst. destruct (setup_step lib _ _ _ _ _ _ _ _ _ _ _ s op P) as (r & s1 & E1 & R1 & P1); [assumption|].
    destruct (IH _ _ s1 P1) as (log & s2 & E2 & R2 & P2); [assumption|]. exists ((op, r) :: log), s2. cbn [hs_run]. rewrite E1. cbn [obind fst snd]. rewrite E2. cbn [obind fst snd].
    split; [reflexivity|]. split; [congruence|]. rewrite psk_set_cons, prologue_set_cons. exact P2.
Qed.

(** *** The start *)
Definition mixes (f : symmetricstate -> outcome symmetricstate) (g : noise_sym -> noise_sym) : Prop :=
  forall y v, sym_wf ca alg y -> sym_view y = Some v -> ss_id y = id ->
    exists y', f y = Ok y' /\ sym_wf ca alg y' /\ sym_view y' = Some (g v) /\ ss_id y' = id.
Lemma mixes_when : forall c f g, (c = true -> mixes f g) -> mixes (when c f) (fun v => if c then g v else v).
Proof. intros [] f g M y v W V I; [apply (M eq_refl); assumption|]. exists y. auto. Qed.
Lemma mixes_then : forall f g f' g', mixes f g -> mixes f' g' -> mixes (fun y => let! y := f y in f' y) (fun v => g' (g v)).
Proof.
  intros f g f' g' M M' y v W V I. destruct (M y v W V I) as (y1 & E1 & W1 & V1 & I1). destruct (M' y1 _ W1 V1 I1) as (y2 & E2 & W2 & V2 & I2).
  exists y2. rewrite E1. cbn [obind]. auto.
Qed.
Lemma mixes_ext : forall f g f' g', mixes f g -> (forall y, f' y = f y) -> (forall v, g' v = g v) -> mixes f' g'.
Proof. intros f g f' g' M Ef Eg y v W V I. rewrite Ef, Eg. now apply M. Qed.
Lemma mixes_id : mixes Ok (fun v => v).
Proof. intros y v W V I. exists y. auto. Qed.

Lemma pub_range : forall a F view ready d, dh_link a F view ready -> dh_wf a d -> 0 <= public_len d <= zlen (dd_public (ds_data d)).
Proof. intros a F view ready d L W. apply (link_len a F view ready d L W). Qed.
Lemma mixes_public : forall a F view ready d, dh_link a F view ready -> dh_wf a d -> dh_key_type d <> NO_KEY ->
  mixes (fun y => mix_public_key y (Some d)) (fun v => MixHash H v (public_key d)).
Proof.
  intros a F view ready d L W T y v Wy V I. unfold mix_public_key. cbn [dhstate_has_public_key]. replace (negb (key_type_eqb (dh_key_type d) NO_KEY)) with true by (destruct (dh_key_type d); try reflexivity; congruence).
  destruct (mix_hash_ok ca alg H Law y v (dd_public (ds_data d)) (public_len d) Wy V (pub_range _ _ _ _ _ L W)) as (y' & E1 & W1 & I1 & V1).
  rewrite E1. cbn [obind snd]. exists y'. split; [reflexivity|]. split; [exact W1|]. split; [exact V1|congruence].
Qed.
Lemma mixes_chaining : forall a F view ready d, dh_link a F view ready -> dh_wf a d -> dh_key_type d <> NO_KEY ->
  mixes (fun y => mix_chaining_key y (Some d)) (fun v => MixKey H (ha_block_len alg) (ca_key_len ca) v (public_key d)).
Proof.
  intros a F view ready d L W T y v Wy V I. unfold mix_chaining_key. cbn [dhstate_has_public_key]. replace (negb (key_type_eqb (dh_key_type d) NO_KEY)) with true by (destruct (dh_key_type d); try reflexivity; congruence).
  destruct (mix_key_ok ca alg H Cok Law Klen y v (dd_public (ds_data d)) (public_len d) Wy V (pub_range _ _ _ _ _ L W)) as (y' & E1 & W1 & I1 & V1).
  rewrite E1. cbn [obind snd]. exists y'. split; [reflexivity|]. split; [exact W1|]. split; [exact V1|congruence].
Qed.
Lemma mixes_prologue : forall s, ss_id (hs_symmetric s) = id -> forall v, sym_wf ca alg (hs_symmetric s) -> sym_view (hs_symmetric s) = Some v ->
  exists y', start_prologue s = Ok y' /\ sym_wf ca alg y' /\ sym_view y' = Some (MixHash H v (hs_prologue s)) /\ ss_id y' = id.
Proof.
  intros s I v W V. unfold start_prologue. pose proof (zlen_nonneg _ (hs_prologue s)) as Hz. destruct (zlen (hs_prologue s) =? 0) eqn:Z0; cbn [negb].
  - destruct (mix_hash_ok ca alg H Law _ v (zeros PSK_LEN) 0 W V) as (y' & E1 & W1 & I1 & V1); [pose proof (zlen_nonneg _ (zeros PSK_LEN)) as Hzz; lia|].
    rewrite E1. cbn [obind snd]. exists y'. split; [reflexivity|]. split; [exact W1|]. rewrite (take_le0 _ 0) in V1 by lia.
    destruct (hs_prologue s); [|rewrite zlen_cons in Z0; pose proof (zlen_nonneg _ l); lia]. split; [exact V1|congruence].
  - destruct (mix_hash_ok ca alg H Law _ v (hs_prologue s) (zlen (hs_prologue s)) W V) as (y' & E1 & W1 & I1 & V1); [lia|].
    rewrite E1. cbn [obind snd]. exists y'. split; [reflexivity|]. split; [exact W1|]. rewrite take_all in V1 by lia. split; [exact V1|congruence].
Qed.
Lemma mixes_psk : forall s, mixes (start_psk s) (fun v => if zlen (hs_psk s) =? 0 then v else
  let '(ck, temp) := HKDF H (ha_block_len alg) (ns_ck v) (hs_psk s) in MixHash H (NSym ck (ns_h v) (ns_k v) (ns_n v)) temp).
Proof.
  intros s y v W V I. unfold start_psk. destruct (zlen (hs_psk s) =? 0) eqn:Z0; cbn [negb]; [exists y; auto|].
  unfold sym_view in V. destruct (ss_cipher y) as [cs|] eqn:Ecs; [|discriminate]. inversion V as [Ev]. cbn [ns_ck ns_h ns_k ns_n].
  destruct (sw_ck _ _ _ W) as [Hck Hckb]. rewrite (sw_hash _ _ _ W). pose proof (law_lens _ _ Law) as Hll. cbv zeta.
  destruct (hkdf_correct alg H Law (ss_hctx y) (ss_ck y) (hs_psk s) (ha_hash_len alg) (ha_hash_len alg) (sw_ctx _ _ _ W)) as (c' & E1 & Hc'); [lia|lia|].
  rewrite Hck in E1. rewrite E1. cbn [obind].
  assert (Ho1 : zlen (fst (HKDF H (ha_block_len alg) (ss_ck y) (hs_psk s))) = ha_hash_len alg) by apply (zlen_hmac alg H Law).
  assert (Ho2 : zlen (snd (HKDF H (ha_block_len alg) (ss_ck y) (hs_psk s))) = ha_hash_len alg) by apply (zlen_hmac alg H Law).
  assert (Hb1 : bytes (fst (HKDF H (ha_block_len alg) (ss_ck y) (hs_psk s)))) by apply (bytes_hmac alg H Law).
  destruct (HKDF H (ha_block_len alg) (ss_ck y) (hs_psk s)) as [o1 o2]. cbn [fst snd] in *. rewrite !take_all by lia.
  destruct (mix_hash_ok ca alg H Law (SymState (ss_id y) (ss_cipher y) alg c' o1 (ss_h y)) (NSym o1 (ss_h y) (ns_k v) (ns_n v)) o2 (ha_hash_len alg)) as (y' & E2 & W2 & I2 & V2).
  - constructor; cbn; auto; try apply W.
  - unfold sym_view. cbn [ss_cipher]. rewrite Ecs. rewrite <- Ev. reflexivity.
  - lia.
  - rewrite Ecs in E2. rewrite E2. cbn [obind snd]. exists y'. split; [reflexivity|]. split; [exact W2|]. rewrite take_all in V2 by lia.
    rewrite <- Ev in V2. cbn [ns_k ns_n] in V2. split; [exact V2|cbn in I2; congruence].
Qed.

Lemma local_pub : forall a F view ready al sec d k, dh_link a F view ready -> local_rel a F view ready al sec (Some d) (Some k) ->
  dh_wf a d /\ dh_key_type d <> NO_KEY /\ PUB F k = public_key d.
Proof.
  intros a F view ready al sec d k L ((A & B) & _ & T & R & V). split; [split; auto|]. split; [rewrite T; discriminate|].
  rewrite <- V. rewrite (lk_pub _ _ _ _ L (ds_data d) B R). unfold public_key, public_len. rewrite A. reflexivity.
Qed.
Lemma remote_pub : forall a al sec d q, remote_rel a al sec (Some d) (Some q) -> dh_wf a d /\ dh_key_type d <> NO_KEY /\ q = public_key d.
Proof. intros a al sec d q (W & _ & T & <-). auto. Qed.

Lemma start_keys_ok : forall pat i b name prol key k e f re rf s,
  pattern_facts pat = true -> pre pat i b (fallback_pattern pat) name prol key e f re rf s ->
  local_rel_d true b (ko_static (hs_local s)) k -> known k = uses pat i S_ ->
  known e = given pat i E_ -> known f = given pat i F_ -> known re = given pat (negb i) E_ -> known rf = given pat (negb i) F_ ->
  (given pat (negb i) S_ = true -> known (remote_key (ko_static (hs_remote s))) = true) ->
  let pub F k := option_map (PUB F) k in
  let MixPre := MixPre H (ha_block_len alg) (ca_key_len ca) psk in
  let rs := remote_key (ko_static (hs_remote s)) in
  mixes (start_keys s) (fun sym =>
    if i then fold_left (MixPre rs re rf) (pre_responder pat) (fold_left (MixPre (pub D k) (pub D e) (pub E f)) (pre_initiator pat) sym)
    else fold_left (MixPre (pub D k) (pub D e) (pub E f)) (pre_responder pat) (fold_left (MixPre rs re rf) (pre_initiator pat) sym)).
Proof.
  intros pat i b name prol key k e f re rf s F P Lk Kk Ke Kf Kre Krf Hrs pub MP rs.
  destruct P as [A1 A2 A3 A4 (B1 & B2 & B3 & B4 & B5 & B6) A6 A7 A8 A9 A10 A11 A12 A13 A14 A15 A16 A17].
  assert (Us : given pat i S_ = true -> uses pat i S_ = true).
  { unfold given, uses. destruct (in_dec tok_eq_dec S_ _) as [X|]; [|discriminate]. intros _. destruct (in_dec _ (i, S_) (events pat)) as [|Y]; [reflexivity|]. exfalso. apply Y.
    unfold events. rewrite !in_app_iff. destruct i; [left|right; left]; now apply in_map. }
  (* mixing the static keys *)
  assert (Ml : mixes (when (has_bit (hs_requirements s) REQ_LOCAL_PREMSG) (fun y => mix_public_key y (ko_static (hs_local s))))
                     (fun v => if given pat i S_ then MP (pub D k) (pub D e) (pub E f) v S_ else v)).
  { rewrite B2. apply mixes_when. intros G. rewrite (Us G) in Kk. destruct k as [kp|]; [|discriminate Kk].
    destruct (ko_static (hs_local s)) as [d|]; [|discriminate Lk]. destruct (local_pub _ _ _ _ _ _ _ _ Ld Lk) as (X1 & X2 & X3).
    unfold MP, MixPre, pub. cbn [option_map]. rewrite X3. now apply (mixes_public _ _ _ _ d Ld). }
  assert (Mr : mixes (when (has_bit (hs_requirements s) REQ_REMOTE_PREMSG) (fun y => mix_public_key y (ko_static (hs_remote s))))
                     (fun v => if given pat (negb i) S_ then MP rs re rf v S_ else v)).
  { rewrite B4. apply mixes_when. intros G. specialize (Hrs G). unfold rs, remote_key in *.
    destruct (ko_static (hs_remote s)) as [d|]; [|discriminate Hrs]. destruct (dhstate_has_public_key (Some d)) eqn:Hp; [|discriminate Hrs].
    unfold MP, MixPre. apply (mixes_public _ _ _ _ d Ld); [apply A10|]. intros T. cbn in Hp. rewrite T in Hp. discriminate Hp. }
  assert (Rl : (hs_role s =? ROLE_INITIATOR) = i) by (rewrite A3; apply role_is).
  destruct (list_fact pat F) as (_ & _ & [(L1 & L2 & Fb)|(Fb & L1 & L2)]).
  - (* no fallback *)
    rewrite Fb in B6. unfold start_keys. rewrite Rl, B6. destruct i.
    + apply (mixes_ext _ _ _ _ (mixes_then _ _ _ _ Ml Mr)).
      * intros y. reflexivity.
      * intros v. cbn [negb] in *. unfold given in *. destruct L1 as [-> | ->], L2 as [-> | ->]; reflexivity.
    + apply (mixes_ext _ _ _ _ (mixes_then _ _ _ _ Mr Ml)).
      * intros y. reflexivity.
      * intros v. cbn [negb] in *. unfold given in *. destruct L1 as [-> | ->], L2 as [-> | ->]; reflexivity.
  - rewrite Fb in B6. 
    assert (G0 : given pat true E_ = false /\ given pat true F_ = false /\ given pat true S_ = false /\ given pat false S_ = false /\ given pat false E_ = true /\ given pat false F_ = uses pat false F_).
    { unfold given. rewrite L1. destruct L2 as [[L2 ->]|[L2 ->]]; rewrite L2; repeat split. }
    destruct G0 as (G1 & G2 & G3 & G4 & G5 & G6).
    assert (Comm : forall v q q', MixKey H (ha_block_len alg) (ca_key_len ca) (MixHash H v q') q = MixHash H (MixKey H (ha_block_len alg) (ca_key_len ca) v q) q').
    { intros v q q'. unfold MixKey, MixHash. cbn [ns_ck ns_h ns_k ns_n]. destruct (HKDF _ _ _ _). reflexivity. }
    assert (Cm2 : forall v q q', MixEphemeral H (ha_block_len alg) (ca_key_len ca) psk v q = (if psk then MixKey H (ha_block_len alg) (ca_key_len ca) (MixHash H v q) q else MixHash H v q) /\
      MixHash H (MixEphemeral H (ha_block_len alg) (ca_key_len ca) psk v q) q' = (if psk then MixKey H (ha_block_len alg) (ca_key_len ca) (MixHash H (MixHash H v q) q') q else MixHash H (MixHash H v q) q')).
    { intros v q q'. unfold MixEphemeral. destruct psk; [|split; reflexivity]. split; [reflexivity|]. now rewrite Comm. }
    unfold start_keys. rewrite Rl, B2, B4, B5, B6.
    destruct i; cbn [negb] in *; rewrite ?G3, ?G4; rewrite G5, G6 in *.
    + destruct re as [q|]; [|discriminate Kre]. destruct (ko_ephemeral (hs_remote s)) as [d|] eqn:Ed; [|discriminate A13].
      destruct (remote_pub _ _ _ _ _ A13) as (W1 & T1 & ->).
      assert (Sf : known (ko_hybrid (hs_remote s)) = uses pat false F_) by (pose proof (f_equal x_rf A8) as X; exact X).
      destruct L2 as [[L2 Uf]|[L2 Uf]]; rewrite Uf in *.
      * destruct (ko_hybrid (hs_remote s)) as [h|]; [discriminate Sf|].
        apply (mixes_ext _ _ _ _ (mixes_then _ _ _ _ (mixes_public _ _ _ _ d Ld W1 T1) (mixes_when psk _ _ (fun _ => mixes_chaining _ _ _ _ d Ld W1 T1)))).
        -- intros y. cbn [when is_null_ptr negb obind]. destruct (mix_public_key y (Some d)) as [y1|]; [|reflexivity]. cbn [obind]. destruct (when psk _ y1); reflexivity.
        -- intros v. rewrite L1, L2. cbn [fold_left]. unfold MP, MixPre. apply Cm2; exact [].
      * destruct rf as [q'|]; [|discriminate Krf]. destruct (ko_hybrid (hs_remote s)) as [h|]; [|discriminate Sf]. destruct (remote_pub _ _ _ _ _ A14) as (W2 & T2 & ->).
        apply (mixes_ext _ _ _ _ (mixes_then _ _ _ _ (mixes_then _ _ _ _ (mixes_public _ _ _ _ d Ld W1 T1) (mixes_public _ _ _ _ h Lh W2 T2)) (mixes_when psk _ _ (fun _ => mixes_chaining _ _ _ _ d Ld W1 T1)))).
        -- intros y. cbn [when is_null_ptr negb obind]. destruct (mix_public_key y (Some d)) as [y1|]; [|reflexivity]. cbn [obind]. destruct (mix_public_key y1 (Some h)) as [y2|]; [|reflexivity]. cbn [obind]. destruct (when psk _ y2); reflexivity.
        -- intros v. rewrite L1, L2. cbn [fold_left]. unfold MP, MixPre. apply Cm2.
    + destruct e as [kp|]; [|discriminate Ke]. destruct (ko_ephemeral (hs_local s)) as [d|] eqn:Ed; [|discriminate A11].
      destruct (local_pub _ _ _ _ _ _ _ _ Ld A11) as (W1 & T1 & Pe).
      assert (Sf : known (ko_hybrid (hs_local s)) = uses pat false F_) by (pose proof (f_equal x_f A8) as X; exact X).
      destruct L2 as [[L2 Uf]|[L2 Uf]]; rewrite Uf in *.
      * destruct (ko_hybrid (hs_local s)) as [h|]; [discriminate Sf|].
        apply (mixes_ext _ _ _ _ (mixes_then _ _ _ _ (mixes_public _ _ _ _ d Ld W1 T1) (mixes_when psk _ _ (fun _ => mixes_chaining _ _ _ _ d Ld W1 T1)))).
        -- intros y. cbn [when is_null_ptr negb obind]. destruct (mix_public_key y (Some d)) as [y1|]; [|reflexivity]. cbn [obind]. destruct (when psk _ y1); reflexivity.
        -- intros v. rewrite L1, L2. cbn [fold_left]. unfold MP, MixPre, pub. cbn [option_map]. rewrite Pe. apply Cm2; exact [].
      * destruct f as [fp|]; [|discriminate Kf]. destruct (ko_hybrid (hs_local s)) as [h|]; [|discriminate Sf]. destruct (local_pub _ _ _ _ _ _ _ _ Lh A12) as (W2 & T2 & Pf).
        apply (mixes_ext _ _ _ _ (mixes_then _ _ _ _ (mixes_then _ _ _ _ (mixes_public _ _ _ _ d Ld W1 T1) (mixes_public _ _ _ _ h Lh W2 T2)) (mixes_when psk _ _ (fun _ => mixes_chaining _ _ _ _ d Ld W1 T1)))).
        -- intros y. cbn [when is_null_ptr negb obind]. destruct (mix_public_key y (Some d)) as [y1|]; [|reflexivity]. cbn [obind]. destruct (mix_public_key y1 (Some h)) as [y2|]; [|reflexivity]. cbn [obind]. destruct (when psk _ y2); reflexivity.
        -- intros v. rewrite L1, L2. cbn [fold_left]. unfold MP, MixPre, pub. cbn [option_map]. rewrite Pe, Pf. apply Cm2.
Qed.

(** What start answers *)
Lemma start_answer : forall pat i b fb name prol key e f re rf s,
  pre pat i b fb name prol key e f re rf s -> (pi_pattern id = PATTERN_XX_FALLBACK -> fb = true) ->
  if uses pat i S_ && negb (dhstate_has_keypair (ko_static (hs_local s))) then handshakestate_start s = Ok (E_LOCAL_KEY_REQUIRED, s)
  else if given pat (negb i) S_ && negb (dhstate_has_public_key (ko_static (hs_remote s))) then handshakestate_start s = Ok (E_REMOTE_KEY_REQUIRED, s)
  else if psk && negb (known key) then handshakestate_start s = Ok (E_PSK_REQUIRED, s)
  else handshakestate_start s = (let! y := start_prologue s in let! y := start_psk s y in let! y := start_keys s y in
    Ok (E_NONE, set_action (if i then ACTION_WRITE_MESSAGE else ACTION_READ_MESSAGE) (set_symmetric y s))).
Proof.
  intros pat i b fb name prol key e f re rf s [A1 A2 A3 A4 (B1 & B2 & B3 & B4 & B5 & B6) A6 A7 A8 A9 A10 A11 A12 A13 A14 A15 A16 A17] Hx.
  unfold handshakestate_start. cbv zeta. rewrite A1, A3, A4, B1, B3, B5, B6. destruct (role_is i) as [-> _]. change (ACTION_NONE =? ACTION_NONE) with true. cbn [negb].
  replace ((pi_pattern id =? PATTERN_XX_FALLBACK) && negb fb) with false by (destruct (pi_pattern id =? PATTERN_XX_FALLBACK) eqn:X; [rewrite Hx by lia|]; reflexivity).
  destruct (uses pat i S_ && _); [reflexivity|]. destruct (given pat (negb i) S_ && _); [reflexivity|].
  replace (zlen (hs_psk s) =? 0) with (negb (known key)); [destruct (psk && negb (known key)); reflexivity|].
  destruct key as [q|]; [destruct A16 as (-> & Z1 & _); rewrite Z1; reflexivity|rewrite A16; reflexivity].
Qed.

Lemma start_ok : forall pat i name prol key e f re rf s,
  let b := if fallback_pattern pat then i else negb i in
  pattern_facts pat = true -> pre pat i b (fallback_pattern pat) name prol key e f re rf s ->
  (pi_pattern id = PATTERN_XX_FALLBACK -> fallback_pattern pat = true) ->
  known e = given pat i E_ -> known f = given pat i F_ -> known re = given pat (negb i) E_ -> known rf = given pat (negb i) F_ ->
  (uses pat i S_ = true -> dhstate_has_keypair (ko_static (hs_local s)) = true) ->
  (given pat (negb i) S_ = true -> dhstate_has_public_key (ko_static (hs_remote s)) = true) ->
  (psk = true -> known key = true) ->
  exists k s', handshakestate_start s = Ok (E_NONE, s') /\ local_pair N (ko_static (hs_local s)) k /\
    hs_local s' = hs_local s /\ hs_remote s' = hs_remote s /\ kept s s' /\
    at_ s' (nInitialize N id name prol key pat i b k e f (remote_key (ko_static (hs_remote s))) re rf).
Proof.
  intros pat i name prol key e f re rf s b F P Hx Ke Kf Kre Krf Hl Hr Hk.
  pose proof (start_answer _ _ _ _ _ _ _ _ _ _ _ _ P Hx) as A.
  destruct (uses pat i S_ && _) eqn:C1; [apply andb_true_iff in C1 as [C1 C1']; rewrite (Hl C1) in C1'; discriminate C1'|].
  destruct (given pat (negb i) S_ && _) eqn:C2; [apply andb_true_iff in C2 as [C2 C2']; rewrite (Hr C2) in C2'; discriminate C2'|].
  destruct (psk && _) eqn:C3; [apply andb_true_iff in C3 as [C3 C3']; rewrite (Hk C3) in C3'; discriminate C3'|]. clear C1 C2 C3.
  pose proof P as [A1 A2 A3 A4 A5 A6 A7 A8 A9 A10 A11 A12 A13 A14 A15 A16 A17].
  (* the static key pair *)
  assert (Sk : exists k, local_pair N (ko_static (hs_local s)) k /\ local_rel_d true b (ko_static (hs_local s)) k /\ known k = uses pat i S_).
  { assert (X : known (ko_static (hs_local s)) = uses pat i S_) by (pose proof (f_equal x_s A8) as X; exact X).
    destruct (ko_static (hs_local s)) as [d|] eqn:Ed.
    - specialize (Hl (eq_sym X)). destruct A9 as (W & S2 & Eo). destruct (Lstatic Eo d) as [Rd Sp]. exists (Some (dview (ds_data d))).
      split; [split; [exact Hl|exact Sp]|]. split; [|exact X]. split; [exact W|]. split; [intros _; exact S2|].
      split; [cbn in Hl; destruct (dh_key_type d); try discriminate Hl; reflexivity|]. split; [exact Rd|reflexivity].
    - exists None. split; [exact I|]. split; [reflexivity|exact X]. }
  destruct Sk as (k & Sp & Lk & Kk). exists k.
  assert (Xrs : known (ko_static (hs_remote s)) = uses pat (negb i) S_) by (pose proof (f_equal x_rs A8) as X; exact X).
  set (rs := remote_key (ko_static (hs_remote s))).
  assert (Krs : known rs = given pat (negb i) S_ || uses pat (negb i) S_ && known rs).
  { unfold rs, remote_key in *. destruct (ko_static (hs_remote s)) as [d|]; cbn [known] in Xrs; rewrite <- Xrs.
    - destruct (dhstate_has_public_key (Some d)) eqn:Hp; [cbn; now rewrite orb_true_r|]. cbn [known]. destruct (given pat (negb i) S_); [specialize (Hr eq_refl); congruence|reflexivity].
    - destruct (given pat (negb i) S_); [specialize (Hr eq_refl); discriminate Hr|reflexivity]. }
  assert (Rrs : remote_rel dalg true (negb b) (ko_static (hs_remote s)) rs).
  { unfold rs, remote_key. destruct (ko_static (hs_remote s)) as [d|]; [|reflexivity]. destruct A10 as (W & S2 & _). split; [exact W|]. split; [intros _; exact S2|].
    cbn [dhstate_has_public_key]. destruct (dh_key_type d) eqn:T; cbn [key_type_eqb negb]; [reflexivity|split; [discriminate|reflexivity]|split; [discriminate|reflexivity]]. }
  (* the symmetric state *)
  destruct (mixes_prologue s A4 _ A6 A7) as (y1 & E1 & W1 & V1 & I1).
  destruct (mixes_psk s y1 _ W1 V1 I1) as (y2 & E2 & W2 & V2 & I2).
  destruct (start_keys_ok pat i b name prol key k e f re rf s F P Lk Kk Ke Kf Kre Krf) with (y := y2) (v := (if zlen (hs_psk s) =? 0 then MixHash H (InitializeSymmetric H (ha_hash_len alg) name) (hs_prologue s) else
      let '(ck, temp) := HKDF H (ha_block_len alg) (ns_ck (MixHash H (InitializeSymmetric H (ha_hash_len alg) name) (hs_prologue s))) (hs_psk s) in
      MixHash H (NSym ck (ns_h (MixHash H (InitializeSymmetric H (ha_hash_len alg) name) (hs_prologue s))) (ns_k (MixHash H (InitializeSymmetric H (ha_hash_len alg) name) (hs_prologue s))) (ns_n (MixHash H (InitializeSymmetric H (ha_hash_len alg) name) (hs_prologue s)))) temp)) as (y3 & E3 & W3 & V3 & I3); auto.
  { intros G. unfold remote_key. specialize (Hr G). destruct (ko_static (hs_remote s)); [rewrite Hr; reflexivity|discriminate Hr]. }
  rewrite E1 in A. cbn [obind] in A. rewrite E2 in A. cbn [obind] in A. rewrite E3 in A. cbn [obind] in A.
  eexists. split; [exact A|]. split; [exact Sp|]. split; [reflexivity|]. split; [reflexivity|].
  split; [unfold kept; cbn [set_action set_symmetric hs_requirements hs_role hs_psk hs_prologue hs_symmetric]; repeat split; congruence|].
  unfold nInitialize, Initialize. fold rs.
  assert (Pm : MixPrologue H (ha_block_len alg) prol key (InitializeSymmetric H (ha_hash_len alg) name) =
    (if zlen (hs_psk s) =? 0 then MixHash H (InitializeSymmetric H (ha_hash_len alg) name) (hs_prologue s) else
      let '(ck, temp) := HKDF H (ha_block_len alg) (ns_ck (MixHash H (InitializeSymmetric H (ha_hash_len alg) name) (hs_prologue s))) (hs_psk s) in
      MixHash H (NSym ck (ns_h (MixHash H (InitializeSymmetric H (ha_hash_len alg) name) (hs_prologue s))) (ns_k (MixHash H (InitializeSymmetric H (ha_hash_len alg) name) (hs_prologue s))) (ns_n (MixHash H (InitializeSymmetric H (ha_hash_len alg) name) (hs_prologue s)))) temp)).
  { unfold MixPrologue. cbv zeta. destruct A17 as [-> _]. destruct key as [q|]; [destruct A16 as (-> & Z1 & _); rewrite Z1; reflexivity|rewrite A16; reflexivity]. }
  rewrite Pm. destruct (list_fact pat F) as (Mn & _).
  constructor; cbn [p_messages p_writing p_initiator p_second].
  - constructor; cbn [set_action set_symmetric hs_symmetric p_sym]; [|exact W3|exact V3].
    constructor; cbn [set_action set_symmetric hs_symmetric hs_role hs_fixed_ephemeral hs_fixed_hybrid hs_local hs_remote p_initiator p_second p_s p_e p_f p_rs p_re p_rf]; auto.
    unfold prefix_of. cbn [set_action set_symmetric hs_symmetric]. rewrite I3. reflexivity.
  - exact A2.
  - cbn [set_action hs_action]. destruct (messages pat); [congruence|reflexivity].
  - assert (Sh : shape_of (set_action (if i then ACTION_WRITE_MESSAGE else ACTION_READ_MESSAGE) (set_symmetric y3 s)) = shape_for pat i) by (rewrite <- A8; reflexivity).
    rewrite Sh. unfold know_of. cbn [p_s p_e p_f p_rs p_re p_rf]. rewrite Kk, Ke, Kf, Kre, Krf, Krs. apply (sane_fact pat i (known rs) F).
Qed.
End P.
