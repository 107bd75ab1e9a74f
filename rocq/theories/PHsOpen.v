(** Proofs about HandshakeState: from new and the set-up calls to a started handshake. *)
From Coq Require Import ZifyBool ZifyNat String.
From Verif Require Import Base Str SNames MUtil MCipher SCipher PCipher MHash SHash PHash MSymm SSymm PSymm MPatterns SPatterns TPatterns MDh SDh PDh
  MHandshake SHandshake SHsApi PHandshake PHsTok PHsMsg SNoise PHsStart PHsRun.

(** ** A name denotes one pattern *)
Local Open Scope string_scope.
Definition basic_names : list string :=
  ["N"; "K"; "X"; "NN"; "KN"; "NK"; "KK"; "NX"; "KX"; "XN"; "IN"; "XK"; "IK"; "XX"; "IX"; "XXfallback"].
Lemma basic_in : forall n p, basic_pattern n = Some p -> In n basic_names.
Proof.
  intros n p E. unfold basic_pattern in E.
  repeat match type of E with
  | match ?x with _ => _ end = Some _ => destruct x; try discriminate E
  end; cbn; tauto.
Qed.
Definition denotes (n : string) : list (string * pattern) :=
  match basic_pattern n with
  | None => []
  | Some p => [(n, p); (n ++ "noidh", noidh p); (n ++ "hfs", hfs p); (n ++ "noidh+hfs", hfs (noidh p))]
  end.
Definition denoted : list (string * pattern) := ("XXfallback+hfs", match basic_pattern "XXfallback" with Some p => hfs p | None => Pattern [] [] [] end) :: flat_map denotes basic_names.
Lemma named_denoted : forall n p, named_pattern n p -> In (n, p) denoted.
Proof.
  intros n p [n' p' E|n' p' E|n' p' E _|p' E|n' p' E]; try (injection E as <-; left; reflexivity).
  all: right; apply in_flat_map; exists n'; split; [exact (basic_in _ _ E)|]; unfold denotes; rewrite E; cbn [In]; tauto.
Qed.
Definition pattern_eqb (p q : pattern) : bool :=
  toks_eqb (pre_initiator p) (pre_initiator q) && toks_eqb (pre_responder p) (pre_responder q) &&
  (if list_eq_dec (list_eq_dec tok_eq_dec) (messages p) (messages q) then true else false).
Lemma pattern_eqb_eq : forall p q, pattern_eqb p q = true -> p = q.
Proof.
  intros [a b c] [a' b' c'] E. unfold pattern_eqb, toks_eqb in E. cbn [pre_initiator pre_responder messages] in E. apply andb_true_iff in E as [E E3]. apply andb_true_iff in E as [E1 E2].
  repeat match type of E1 with (if ?x then _ else _) = _ => destruct x; [|discriminate E1] end.
  repeat match type of E2 with (if ?x then _ else _) = _ => destruct x; [|discriminate E2] end.
  repeat match type of E3 with (if ?x then _ else _) = _ => destruct x; [|discriminate E3] end. congruence.
Qed.
Lemma denoted_once : forallb (fun x => forallb (fun y => negb (String.eqb (fst x) (fst y)) || pattern_eqb (snd x) (snd y)) denoted) denoted = true.
Proof. vm_compute. reflexivity. Qed.
Local Close Scope string_scope.
Lemma named_unique : forall n p q, named_pattern n p -> named_pattern n q -> p = q.
Proof.
  intros n p q Hp Hq. apply named_denoted in Hp, Hq. pose proof denoted_once as A. rewrite forallb_forall in A. specialize (A _ Hp). cbv beta in A.
  rewrite forallb_forall in A. specialize (A _ Hq). cbn [fst snd] in A. rewrite String.eqb_refl in A. now apply pattern_eqb_eq.
Qed.
Lemma names_once : forallb (fun x => forallb (fun y => negb (fst x =? fst y) || String.eqb (snd x) (snd y)) pattern_names) pattern_names = true.
Proof. vm_compute. reflexivity. Qed.
Lemma pattern_in_all : forall id pat, has_pattern id pat -> forall k n p, In (k, (n, p)) all_patterns -> pi_pattern id = 80 * 256 + k -> p = pat.
Proof.
  intros id pat (k' & n' & Hi & Hn & Ek) k n p Ha Ep. assert (k' = k) by lia. subst k'.
  pose proof (in_map (fun e => (fst e, fst (snd e))) _ _ Ha) as Ha'. rewrite all_patterns_names in Ha'. cbn [fst snd] in Ha'.
  pose proof names_once as A. rewrite forallb_forall in A. specialize (A _ Hi). cbv beta in A. rewrite forallb_forall in A. specialize (A _ Ha'). cbn [fst snd] in A.
  rewrite Z.eqb_refl in A. apply String.eqb_eq in A. subst n'. exact (named_unique _ _ _ (all_patterns_named _ _ _ Ha) Hn).
Qed.
Lemma in_all_pattern : forall id k n p, In (k, (n, p)) all_patterns -> pi_pattern id = 80 * 256 + k -> has_pattern id p.
Proof.
  intros id k n p Ha Ep. exists k, n. pose proof (in_map (fun e => (fst e, fst (snd e))) _ _ Ha) as Ha'. rewrite all_patterns_names in Ha'.
  split; [exact Ha'|]. split; [exact (all_patterns_named _ _ _ Ha)|exact Ep].
Qed.
(** The only patterns with a given ephemeral key are the two fallback patterns. *)
Lemma fallback_16 : forall k n p, In (k, (n, p)) all_patterns -> k = 16 -> fallback_pattern p = true.
Proof.
  assert (A : forallb (fun e => negb (fst e =? 16) || fallback_pattern (snd (snd e))) all_patterns = true) by (vm_compute; reflexivity).
  intros k n p Ha ->. rewrite forallb_forall in A. exact (A _ Ha).
Qed.
Lemma not_fallback : forall p i, fallback_pattern p = false -> pattern_facts p = true ->
  given p i E_ = false /\ given p i F_ = false /\ second_new p i = negb i.
Proof.
  intros p i Hf Hp. destruct (list_fact _ Hp) as (_ & _ & [(A & B & _)|(A & _)]); [|congruence].
  assert (G : forall j t, t <> S_ -> given p j t = false).
  { intros j t Ht. unfold given. destruct j; [destruct A as [-> | ->]|destruct B as [-> | ->]]; try reflexivity; destruct t; try reflexivity; congruence. }
  split; [apply G; discriminate|]. split; [apply G; discriminate|]. unfold second_new. now rewrite G by discriminate.
Qed.

Section P.
Variables (lib : library) (id : protocol_id) (N : suite).
Hypothesis V : provides lib id N.

Lemma opened : forall i log s pat, set_up N id lib i log s -> has_pattern id pat ->
  exists dview dready hview hready name,
    dh_link (n_dh_alg N) (n_dh N) dview dready /\ dh_link (n_hyb_alg N) (n_hyb N) hview hready /\
    (da_ephemeral_only (n_dh_alg N) = false -> forall d, dready (ds_data d) /\ static_pair (n_dh N) d (dview (ds_data d))) /\
    protocol_text id name /\ pattern_facts pat = true /\ (pi_pattern id = PATTERN_XX_FALLBACK -> fallback_pattern pat = true) /\
    has_bit (hs_requirements s) REQ_FALLBACK_POSSIBLE = given pat false S_ /\
    pre N id dview dready hview hready pat i (second_new pat i) false name (prologue_set [] log) (psk_set None log) None None None None s.
Proof.
  intros i log s pat [s0 ops En Fo Er] Hp.
  destruct (suite_link_static _ _ (pv_dh_ok _ _ _ V)) as (dview & dready & Ld & Ls). destruct (suite_link_static _ _ (pv_hyb_ok _ _ _ V)) as (hview & hready & Lh & _).
  destruct (new_ok N id (pv_hash_ok _ _ _ V) (pv_key _ _ _ V) dview dready hview hready Ld Lh Ls lib i s0 V En) as (name & k & n & p & Ht & Ha & Ep & Rq & P).
  assert (p = pat) by (eapply pattern_in_all; eauto). subst p.
  destruct (setup_run N id dview dready hview hready Ld Ls lib _ _ _ _ _ _ _ _ _ ops _ _ _ P Fo) as (log' & s' & E' & Rq' & P').
  rewrite Er in E'. injection E' as <- <-. exists dview, dready, hview, hready, name.
  repeat (split; [first [assumption|exact (facts_of _ _ _ Ha)|intros X; apply (fallback_16 _ _ _ Ha); change PATTERN_XX_FALLBACK with (80*256+16) in X; rewrite Ep in X; clear - X; lia|rewrite Rq'; exact Rq]|]). exact P'.
Qed.

(** The handshake after a successful start *)
Lemma started : forall i log s s1 pat, set_up N id lib i log s -> has_pattern id pat -> fallback_pattern pat = false ->
  handshakestate_start s = Ok (E_NONE, s1) ->
  exists dview dready hview hready name k,
    dh_link (n_dh_alg N) (n_dh N) dview dready /\ dh_link (n_hyb_alg N) (n_hyb N) hview hready /\
    protocol_text id name /\ pattern_facts pat = true /\ local_pair N (ko_static (hs_local s)) k /\
    hs_local s1 = hs_local s /\ hs_remote s1 = hs_remote s /\ kept s s1 /\
    (psk_mode id = true -> known (psk_set None log) = true) /\
    (uses pat i S_ = true -> dhstate_has_keypair (ko_static (hs_local s)) = true) /\
    (given pat (negb i) S_ = true -> dhstate_has_public_key (ko_static (hs_remote s)) = true) /\
    at_ (n_cipher N) (n_hash N) (n_dh_alg N) (n_hyb_alg N) (n_dh N) (n_hyb N) dview dready hview hready (psk_mode id) s1
      (nInitialize N id name (prologue_set [] log) (psk_set None log) pat i (negb i) k None None (remote_key (ko_static (hs_remote s))) None None).
Proof.
  intros i log s s1 pat Su Hp Hf Es. destruct (opened _ _ _ _ Su Hp) as (dview & dready & hview & hready & name & Ld & Lh & Ls & Ht & Hpf & Hfb & Rq & P).
  destruct (not_fallback pat i Hf Hpf) as (G1 & G2 & G3). destruct (not_fallback pat (negb i) Hf Hpf) as (G1' & G2' & _).
  assert (Hx : pi_pattern id = PATTERN_XX_FALLBACK -> false = true) by (intros X; rewrite <- Hf; auto).
  pose proof (start_answer N id dview dready hview hready Ls _ _ _ _ _ _ _ _ _ _ _ _ P Hx) as A.
  destruct (uses pat i S_ && negb _) eqn:C1; [rewrite A in Es; discriminate Es|].
  destruct (given pat (negb i) S_ && negb _) eqn:C2; [rewrite A in Es; discriminate Es|].
  destruct (psk_mode id && negb _) eqn:C3; [rewrite A in Es; discriminate Es|]. clear A.
  assert (B1 : uses pat i S_ = true -> dhstate_has_keypair (ko_static (hs_local s)) = true) by (intros X; rewrite X in C1; now destruct (dhstate_has_keypair _)).
  assert (B2 : given pat (negb i) S_ = true -> dhstate_has_public_key (ko_static (hs_remote s)) = true) by (intros X; rewrite X in C2; now destruct (dhstate_has_public_key _)).
  assert (B3 : psk_mode id = true -> known (psk_set None log) = true) by (intros X; rewrite X in C3; now destruct (known _)).
  pose proof (start_ok N id (pv_cipher_ok _ _ _ V) (pv_hash_ok _ _ _ V) (pv_key _ _ _ V) dview dready hview hready Ld Lh Ls pat i name (prologue_set [] log) (psk_set None log) None None None None s) as St.
  cbv zeta in St. rewrite Hf in St. rewrite G3 in P. cbn [known] in St. rewrite ?G1, ?G2, ?G1', ?G2' in St.
  destruct (St Hpf P Hx eq_refl eq_refl eq_refl eq_refl B1 B2 B3) as (k & s' & E' & Lp & H1 & H2 & H3 & At).
  rewrite Es in E'. injection E' as <-. exists dview, dready, hview, hready, name, k.
  repeat (split; [assumption|]). exact At.
Qed.
End P.
