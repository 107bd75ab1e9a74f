(** Properties C19 and C20: the pattern table. *)
From Coq Require Import ZifyBool String.
From Verif Require Import Base Str MPatterns SNames SPatterns.

(** The specification as a finite list, checked against [named_pattern] and
    the registered pattern names below. *)
Definition base_named (suffix : string) (f : pattern -> pattern) (names : list string) : list (string * pattern) :=
  flat_map (fun n => match basic_pattern n with Some p => [((n ++ suffix)%string, f p)] | None => [] end) names.
Definition all_patterns : list (Z * (string * pattern)) :=
  combine (map Z.of_nat (seq 1 3)) (base_named "" (fun p => p) ["N"; "X"; "K"]%string) ++
  combine (map Z.of_nat (seq 4 12)) (base_named "" (fun p => p) interactive) ++
  combine [16] (base_named "" (fun p => p) ["XXfallback"]%string) ++
  combine [32] (base_named "noidh" noidh ["X"]%string) ++
  combine (map Z.of_nat (seq 33 5)) (base_named "noidh" noidh SNames.noidh) ++
  combine (map Z.of_nat (seq 48 12)) (base_named "hfs" hfs interactive) ++
  combine [60] (base_named "+hfs" hfs ["XXfallback"]%string) ++
  combine (map Z.of_nat (seq 80 5)) (base_named "noidh+hfs" (fun p => hfs (noidh p)) SNames.noidh).

Lemma all_patterns_names : map (fun e => (fst e, fst (snd e))) all_patterns = pattern_names.
Proof. reflexivity. Qed.
Lemma all_patterns_named : forall i n p, In (i, (n, p)) all_patterns -> named_pattern n p.
Proof.
  intros i n p H. unfold all_patterns in H. cbn in H.
  repeat match goal with H : _ \/ _ |- _ => destruct H as [H|H] end; try contradiction; inversion H; subst; clear H.
  all: try (apply np_basic; reflexivity).
  all: try (apply (np_noidh "X"); reflexivity). all: try (apply (np_noidh "NX"); reflexivity).
  all: try (apply (np_noidh "XX"); reflexivity). all: try (apply (np_noidh "KX"); reflexivity).
  all: try (apply (np_noidh "IK"); reflexivity). all: try (apply (np_noidh "IX"); reflexivity).
  all: try (apply np_fallback_hfs; reflexivity).
  all: try (apply (np_noidh_hfs "NX"); reflexivity). all: try (apply (np_noidh_hfs "XX"); reflexivity). all: try (apply (np_noidh_hfs "KX"); reflexivity).
  all: try (apply (np_noidh_hfs "IK"); reflexivity). all: try (apply (np_noidh_hfs "IX"); reflexivity).
  all: try (apply (np_hfs "NN"); [reflexivity|discriminate]). all: try (apply (np_hfs "NK"); [reflexivity|discriminate]).
  all: try (apply (np_hfs "NX"); [reflexivity|discriminate]). all: try (apply (np_hfs "XN"); [reflexivity|discriminate]).
  all: try (apply (np_hfs "XK"); [reflexivity|discriminate]). all: try (apply (np_hfs "XX"); [reflexivity|discriminate]).
  all: try (apply (np_hfs "KN"); [reflexivity|discriminate]). all: try (apply (np_hfs "KK"); [reflexivity|discriminate]).
  all: try (apply (np_hfs "KX"); [reflexivity|discriminate]). all: try (apply (np_hfs "IN"); [reflexivity|discriminate]).
  all: try (apply (np_hfs "IK"); [reflexivity|discriminate]). all: try (apply (np_hfs "IX"); [reflexivity|discriminate]).
Qed.
Lemma lookup_all : forall i n p, In (i, (n, p)) all_patterns -> noise_pattern_lookup (80 * 256 + i) = Some (encode_pattern p).
Proof.
  intros i n p H.
  assert (All : forallb (fun e => match noise_pattern_lookup (80 * 256 + fst e) with
     | Some t => if list_eq_dec Z.eq_dec t (encode_pattern (snd (snd e))) then true else false | None => false end) all_patterns = true) by reflexivity.
  rewrite forallb_forall in All. specialize (All _ H). cbn [fst snd] in All.
  destruct (noise_pattern_lookup (80 * 256 + i)); [|discriminate]. destruct (list_eq_dec _ _ _); [now subst|discriminate].
Qed.

(** Every registered pattern name names exactly one pattern of the specification
    and the table entry of its identifier is that pattern, written out. *)
Theorem C19_table_is_specification : forall k name,
  In (k, name) pattern_names ->
  exists p, named_pattern name p /\ noise_pattern_lookup (80 * 256 + k) = Some (encode_pattern p).
Proof.
  intros k name H. rewrite <- all_patterns_names in H. apply in_map_iff in H as ([i [n p]] & E & H). cbn in E. inversion E; subst.
  exists p. split; [eapply all_patterns_named; eauto|eapply lookup_all; eauto].
Qed.
Print Assumptions C19_table_is_specification.

(** Identifiers without a registered name have no table entry. *)
Theorem C19_no_other_entries : forall id,
  noise_pattern_lookup id <> None <-> exists k name, In (k, name) pattern_names /\ id = 80 * 256 + k.
Proof.
  intros id. split.
  - intros H. assert (E : exists e, In e pattern_names /\ id = 80 * 256 + fst e).
    { unfold noise_pattern_lookup in H.
      repeat match type of H with context [if ?a =? ?b then _ else _] => destruct (a =? b) eqn:E;
        [apply Z.eqb_eq in E; match type of E with _ = NOISE_ID _ ?k => assert (F : find (fun e => fst e =? k) pattern_names <> None) by (vm_compute; discriminate) end;
         match type of F with ?f <> None => destruct f as [e|] eqn:G; [|exfalso; first [exact (F eq_refl)|exact (F G)|congruence]] end;
         apply find_some in G as [G1 G2]; exists e; split; [exact G1|apply Z.eqb_eq in G2; rewrite G2; exact E] | clear E] end. congruence. }
    destruct E as ([k n] & H1 & H2). exists k, n. auto.
  - intros (k & name & H & ->). destruct (C19_table_is_specification k name H) as (p & _ & E). rewrite E. discriminate.
Qed.
Print Assumptions C19_no_other_entries.

(** The written form determines the messages, so the table entry can only mean
    this pattern. *)
Lemma tok_code_inj : forall a b, tok_code a = tok_code b -> a = b.
Proof. intros [] [] H; try reflexivity; discriminate H. Qed.
Lemma split_unique : forall a b x y, (forall t, In t a -> exists k, t = tok_code k) -> (forall t, In t b -> exists k, t = tok_code k) ->
  a ++ 255 :: x = b ++ 255 :: y -> a = b /\ x = y.
Proof.
  assert (C : forall k, tok_code k <> 255) by (intros []; discriminate).
  induction a as [|t a IH]; intros [|u b] x y Ha Hb E; cbn in E.
  - now inversion E.
  - inversion E; subst. destruct (Hb 255 (or_introl eq_refl)) as [k Hk]. exfalso. now apply (C k).
  - inversion E; subst. destruct (Ha 255 (or_introl eq_refl)) as [k Hk]. exfalso. now apply (C k).
  - inversion E; subst. destruct (IH b x y) as [-> ->]; auto; intros t Ht; [apply Ha|apply Hb]; now right.
Qed.
Theorem C19_encoding_unambiguous : forall p q,
  messages p <> [] -> messages q <> [] -> encode_pattern p = encode_pattern q -> messages p = messages q.
Proof.
  intros p q Hp Hq E. unfold encode_pattern in E. assert (E' : encode_messages (messages p) ++ [0] = encode_messages (messages q) ++ [0]) by (cbn [app] in E; now injection E). clear E. apply app_inv_tail in E'.
  revert E' Hp Hq. generalize (messages p) (messages q). clear p q.
  assert (M : forall l, forall t, In t (map tok_code l) -> exists k, t = tok_code k).
  { intros l t H. apply in_map_iff in H as (k & <- & _). eauto. }
  assert (Inj : forall a b, map tok_code a = map tok_code b -> a = b).
  { induction a as [|x a IH]; intros [|y b] H; auto; try discriminate H. inversion H. f_equal; auto. now apply tok_code_inj. }
  assert (No : forall a b r, map tok_code a = map tok_code b ++ 255 :: r -> False).
  { intros a b r H. assert (I : In 255 (map tok_code a)) by (rewrite H; apply in_or_app; right; now left).
    apply in_map_iff in I as (k & Hk & _). destruct k; discriminate Hk. }
  induction l as [|m l IH]; intros ms' E Hl Hm; [congruence|]. destruct ms' as [|n ms']; [congruence|].
  assert (X : forall m r, encode_messages (m :: r) = map tok_code m ++ match r with [] => [] | _ => [255] ++ encode_messages r end).
  { intros x [|y r]; cbn; auto. now rewrite app_nil_r. }
  rewrite !X in E. destruct l as [|m2 l], ms' as [|n2 ms'].
  - rewrite !app_nil_r in E. f_equal. now apply Inj.
  - rewrite app_nil_r in E. exfalso. eapply No. exact E.
  - rewrite app_nil_r in E. exfalso. symmetry in E. eapply No. exact E.
  - destruct (split_unique _ _ _ _ (M m) (M n) E) as [E1 E2]. f_equal; [now apply Inj|]. apply IH; auto; discriminate.
Qed.
Print Assumptions C19_encoding_unambiguous.

Example C19_example :
  In (36, "IKnoidh"%string) pattern_names /\
  noise_pattern_lookup (80 * 256 + 36) = Some [3; 7; 2; 1; 4; 6; 255; 2; 3; 5; 0] /\
  noise_pattern_lookup (80 * 256 + 17) = None.
Proof. repeat split. cbn. intuition auto. Qed.

(** ** C20 *)
Definition ev_eq_dec : forall a b : bool * tok, {a = b} + {a <> b}.
Proof. decide equality; [apply tok_eq_dec|apply Bool.bool_dec]. Defined.
Definition mem_ev (e : bool * tok) (l : list (bool * tok)) : bool := if in_dec ev_eq_dec e l then true else false.
Fixpoint check_events (before after : list (bool * tok)) : bool :=
  match after with
  | [] => true
  | (who, t) :: r =>
    match dh_keys t with
    | None => negb (mem_ev (who, t) before)
    | Some (a, b) => mem_ev (true, a) before && mem_ev (false, b) before && negb (mem_ev (true, t) before) && negb (mem_ev (false, t) before)
    end && check_events (before ++ [(who, t)]) r
  end.
Lemma mem_ev_true : forall e l, mem_ev e l = true <-> In e l.
Proof. intros e l. unfold mem_ev. destruct (in_dec ev_eq_dec e l); intuition congruence. Qed.
Lemma check_events_ok : forall after before, check_events before after = true ->
  forall b who t a, after = b ++ (who, t) :: a ->
    match dh_keys t with
    | None => ~ In (who, t) (before ++ b)
    | Some (x, y) => In (true, x) (before ++ b) /\ In (false, y) (before ++ b) /\ (forall w, ~ In (w, t) (before ++ b))
    end.
Proof.
  induction after as [|[w0 t0] after IH]; intros before H b who t a E; [destruct b; discriminate E|].
  cbn [check_events] in H. apply andb_true_iff in H as [H1 H2]. destruct b as [|e b]; cbn in E; inversion E; subst; clear E.
  - rewrite app_nil_r. destruct (dh_keys t) as [[x y]|].
    + rewrite !andb_true_iff, !negb_true_iff in H1. destruct H1 as [[[A B] C] D]. rewrite mem_ev_true in A, B. repeat split; auto.
      intros w Hw. apply mem_ev_true in Hw. destruct w; congruence.
    + intros C. apply mem_ev_true in C. rewrite C in H1. discriminate H1.
  - specialize (IH _ H2 b who t a eq_refl). rewrite <- app_assoc in IH. exact IH.
Qed.

(** All forty patterns satisfy the validity rules. *)
Theorem C20_patterns_valid : forall k name,
  In (k, name) pattern_names -> exists p, named_pattern name p /\
    noise_pattern_lookup (80 * 256 + k) = Some (encode_pattern p) /\ valid_pattern p.
Proof.
  intros k name H. rewrite <- all_patterns_names in H. apply in_map_iff in H as ([i [n p]] & E & H). cbn in E. inversion E; subst.
  exists p. split; [eapply all_patterns_named; eauto|]. split; [eapply lookup_all; eauto|].
  assert (All : forallb (fun e => check_events [] (events (snd (snd e)))) all_patterns = true) by reflexivity.
  rewrite forallb_forall in All. specialize (All _ H). cbn [snd] in All.
  intros before who t after Ev. exact (check_events_ok _ _ All before who t after Ev).
Qed.
Print Assumptions C20_patterns_valid.

(** The flags stored in the table are exactly the keys the pattern uses, for the
    initiator in the low byte and for the responder in the high byte; reversing
    them gives the responder's view. *)
Theorem C20_flags_exact : forall k name,
  In (k, name) pattern_names -> exists p lo hi tokens, named_pattern name p /\
    noise_pattern_lookup (80 * 256 + k) = Some (lo :: hi :: tokens) /\
    lo = party_flags p true /\ hi = party_flags p false /\
    reverse_flags (lo + 256 * hi) = party_flags p false + 256 * party_flags p true.
Proof.
  intros k name H. rewrite <- all_patterns_names in H. apply in_map_iff in H as ([i [n p]] & E & H). cbn in E. inversion E; subst.
  exists p, (party_flags p true), (party_flags p false). eexists. split; [eapply all_patterns_named; eauto|].
  split; [rewrite (lookup_all _ _ _ H); reflexivity|]. split; auto. split; auto.
  assert (All : forallb (fun e => let p := snd (snd e) in reverse_flags (party_flags p true + 256 * party_flags p false) =? party_flags p false + 256 * party_flags p true) all_patterns = true) by reflexivity.
  rewrite forallb_forall in All. specialize (All _ H). cbn [snd] in All. now apply Z.eqb_eq in All.
Qed.
Print Assumptions C20_flags_exact.

(** XK meets the rules; a pattern with es before the static key does not. *)
Example C20_example :
  In (8, "XK"%string) pattern_names /\ basic_pattern "XK" = Some (Pattern [] [S_] [[E_; ES_]; [E_; EE_]; [S_; SE_]]) /\
  ~ valid_pattern (Pattern [] [] [[E_; ES_]]).
Proof.
  split; [cbn; tauto|]. split; [reflexivity|]. intros H.
  destruct (H [(true, E_)] true ES_ [] eq_refl) as (_ & [C|[]] & _). discriminate C.
Qed.
