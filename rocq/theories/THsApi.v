(** Properties C22, C23 and C30: the action state machine of a HandshakeState. *)
From Coq Require Import ZifyBool.
From Verif Require Import Base MCipher SCipher MHash MSymm MDh SDh MNames MPatterns MHandshake SHsApi ToyHs.

Ltac ob H := let E := fresh "E" in let r := fresh "r" in
  match type of H with
  | obind ?x ?f = Ok _ => destruct x as [r|] eqn:E; cbn [obind] in H; [|discriminate H]
  end.

Lemma mix_dh_action : forall env s a b e s', mix_dh env s a b = Ok (e, s') -> hs_action s' = hs_action s.
Proof.
  intros env s a b e s' E. unfold mix_dh in E. destruct (get_slot (hs_local s) a) as [p|]; [|discriminate].
  destruct (dhstate_calculate _ _ _) as [[e0 out] p']. ob E. injection E as _ <-. reflexivity.
Qed.
Lemma dh_token_action : forall env s t e s', dh_token env s t = Ok (e, s') -> hs_action s' = hs_action s.
Proof.
  intros env s t e s' E. unfold dh_token in E.
  repeat match type of E with context [if ?b then _ else _] => destruct b end; try (now apply mix_dh_action in E); now injection E as _ <-.
Qed.
Lemma write_key_action : forall s d mem n m e s' mem' k, write_key s d mem n m = Ok (e, s', mem', k) -> hs_action s' = hs_action s.
Proof.
  intros s d mem n m e s' mem' k E. unfold write_key in E. destruct (_ <? _); [injection E as _ <- _ _; reflexivity|].
  ob E. ob E. ob E. destruct r1 as [[e1 y] b]. injection E as _ <- _ _. reflexivity.
Qed.
Lemma write_token_action : forall env s t mem n m e s' mem' k, write_token env s t mem n m = Ok (e, s', mem', k) -> hs_action s' = hs_action s.
Proof.
  intros env s t mem n m e s' mem' k E. unfold write_token in E. destruct (t =? TOKEN_E); [|destruct (t =? TOKEN_S); [|destruct (t =? TOKEN_F)]].
  - unfold write_e in E. destruct (ko_ephemeral (hs_local s)); [|now injection E as _ <- _ _].
    destruct (match hs_fixed_ephemeral s with None => _ | Some _ => _ end) as [e0 le]. destruct (negb (is_none e0)); [now injection E as _ <- _ _|].
    destruct (_ <? _); [now injection E as _ <- _ _|]. ob E. ob E. ob E. destruct (_ =? PREFIX_PSK).
    + ob E. now injection E as _ <- _ _.
    + now injection E as _ <- _ _.
  - destruct (ko_static (hs_local s)); [now apply write_key_action in E|now injection E as _ <- _ _].
  - unfold write_f in E. destruct (ko_hybrid (hs_local s)), (ko_hybrid (hs_remote s)); try (now injection E as _ <- _ _).
    destruct (match hs_fixed_hybrid s with None => _ | Some _ => _ end) as [e0 le]. destruct (negb (is_none e0)); [now injection E as _ <- _ _|].
    now apply write_key_action in E.
  - ob E. destruct r as [e1 s1]. apply dh_token_action in E0. now injection E as _ <- _ _.
Qed.
Lemma write_tokens_action : forall env tokens s mem n m e s' mem' k, write_tokens env s tokens mem n m = Ok (e, s', mem', k) ->
  if is_none e then hs_action s' = ACTION_READ_MESSAGE \/ hs_action s' = ACTION_SPLIT else hs_action s' = hs_action s.
Proof.
  induction tokens as [|t ts IH]; intros s mem n m e s' mem' k E; cbn [write_tokens] in E; [discriminate|].
  destruct (t =? TOKEN_END); [injection E as <- <- _ _; cbn; auto|]. destruct (t =? TOKEN_FLIP_DIR); [injection E as <- <- _ _; cbn; auto|].
  ob E. destruct r as [[[e1 s1] mem1] n1]. apply write_token_action in E0. destruct (is_none e1) eqn:N; cbn [negb] in E.
  - apply IH in E. now rewrite E0 in E.
  - injection E as <- <- _ _. rewrite N. exact E0.
Qed.
Lemma handshakestate_write_action : forall env s mem m p e s' mem' k, handshakestate_write env s mem m p = Ok (e, s', mem', k) ->
  is_none e = true -> hs_action s' = ACTION_READ_MESSAGE \/ hs_action s' = ACTION_SPLIT.
Proof.
  intros env s mem m p e s' mem' k E N. unfold handshakestate_write in E. ob E. destruct r as [[[e1 s1] mem1] n1].
  apply write_tokens_action in E0. destruct (is_none e1) eqn:N1; cbn [negb] in E; [|injection E as <- <- _ _; congruence].
  destruct (_ <? _); [injection E as <- _ _ _; discriminate|].
  assert (F : forall mm ps, (let! r := symmetricstate_encrypt_and_hash (hs_symmetric s1) (NBuf (Some (drop n1 mm)) ps (size_sub m n1)) in
        let '(e, y, rest) := r in
        let mem := take n1 mm ++ match b_data rest with Some m => m | None => [] end in
        let s := set_symmetric y s1 in
        if negb (is_none e) then Ok (e, s, mem, n1) else Ok (E_NONE, s, mem, n1 + b_size rest)) = Ok (e, s', mem', k) ->
     hs_action s' = hs_action s1).
  { intros mm ps F. ob F. destruct r as [[e2 y] b]. destruct (negb _); injection F as _ <- _ _; reflexivity. }
  destruct p as [p|].
  - destruct (_ <? _); [injection E as <- _ _ _; discriminate|]. ob E. ob E. apply F in E. now rewrite E.
  - apply F in E. now rewrite E.
Qed.

Lemma read_key_action : forall s w d mem a b c e s' mem' a' b' c', read_key s w d mem a b c = Ok (e, s', mem', a', b', c') -> hs_action s' = hs_action s.
Proof.
  intros s w d mem a b c e s' mem' a' b' c' E. unfold read_key in E. destruct (_ <? _); [now injection E as _ <- _ _ _ _|].
  ob E. destruct r as [[e1 y] b1]. destruct (negb _); [now injection E as _ <- _ _ _ _|]. ob E.
  destruct (negb _); now injection E as _ <- _ _ _ _.
Qed.
Lemma read_token_action : forall env s t mem a b c e s' mem' a' b' c', read_token env s t mem a b c = Ok (e, s', mem', a', b', c') -> hs_action s' = hs_action s.
Proof.
  intros env s t mem a b c e s' mem' a' b' c' E. unfold read_token in E. destruct (t =? TOKEN_E); [|destruct (t =? TOKEN_S); [|destruct (t =? TOKEN_F)]].
  - unfold read_e in E. destruct (ko_ephemeral (hs_remote s)); [|now injection E as _ <- _ _ _ _].
    destruct (_ <? _); [now injection E as _ <- _ _ _ _|]. ob E. destruct (negb _); [now injection E as _ <- _ _ _ _|].
    ob E. destruct (negb _); [now injection E as _ <- _ _ _ _|]. destruct (dhstate_is_null_public_key _); [now injection E as _ <- _ _ _ _|].
    destruct (_ =? PREFIX_PSK); [ob E|]; now injection E as _ <- _ _ _ _.
  - destruct (ko_static (hs_remote s)); [now apply read_key_action in E|now injection E as _ <- _ _ _ _].
  - unfold read_f in E. destruct (ko_hybrid (hs_local s)), (ko_hybrid (hs_remote s)); try (now injection E as _ <- _ _ _ _).
    ob E. destruct r as [[[[[e1 s1] m1] a1] b1] c1]. apply read_key_action in E0.
    destruct (negb _); [|destruct (dhstate_is_null_public_key _)]; injection E as _ <- _ _ _ _; exact E0.
  - ob E. destruct r as [e1 s1]. apply dh_token_action in E0. now injection E as _ <- _ _ _ _.
Qed.
Lemma read_tokens_action : forall env tokens s mem a b c e s' mem' a' b' c', read_tokens env s tokens mem a b c = Ok (e, s', mem', a', b', c') ->
  if is_none e then hs_action s' = ACTION_WRITE_MESSAGE \/ hs_action s' = ACTION_SPLIT else hs_action s' = hs_action s.
Proof.
  induction tokens as [|t ts IH]; intros s mem a b c e s' mem' a' b' c' E; cbn [read_tokens] in E; [discriminate|].
  destruct (t =? TOKEN_END); [injection E as <- <- _ _ _ _; cbn; auto|]. destruct (t =? TOKEN_FLIP_DIR); [injection E as <- <- _ _ _ _; cbn; auto|].
  ob E. destruct r as [[[[[e1 s1] m1] a1] b1] c1]. apply read_token_action in E0. destruct (is_none e1) eqn:N; cbn [negb] in E.
  - apply IH in E. now rewrite E0 in E.
  - injection E as <- <- _ _ _ _. rewrite N. exact E0.
Qed.
(** On failure the payload buffer is handed back as it was. *)
Lemma handshakestate_read_action : forall env s mem a b p e s' mem' p', handshakestate_read env s mem a b p = Ok (e, s', mem', p') ->
  if is_none e then hs_action s' = ACTION_WRITE_MESSAGE \/ hs_action s' = ACTION_SPLIT else p' = p.
Proof.
  intros env s mem a b p e s' mem' p' E. unfold handshakestate_read in E. ob E. destruct r as [[[[[e1 s1] m1] a1] b1] c1].
  apply read_tokens_action in E0. destruct (is_none e1) eqn:N1; cbn [negb] in E; [|injection E as <- _ _ <-; now rewrite N1].
  ob E. destruct r as [[e2 y] b2]. destruct (is_none e2) eqn:N2; cbn [negb] in E; [|injection E as <- _ _ <-; now rewrite N2].
  destruct p as [p|]; [|injection E as <- <- _ _; exact E0].
  destruct (_ <? _); [injection E as <- _ _ <-; reflexivity|]. ob E. destruct (b_data p); [|discriminate]. ob E.
  injection E as <- <- _ _. exact E0.
Qed.

Lemma id_to_name_some : forall mem n id, noise_protocol_id_to_name (Some mem) n (Some id) <> Ok (E_NONE, None).
Proof.
  intros mem n [id res] E. unfold noise_protocol_id_to_name in E. destruct (n =? 0); [discriminate|]. ob E. ob E. ob E. ob E. ob E.
  destruct r3 as [[m k] e]. cbv zeta in E. destruct (negb _); [ob E|]; discriminate.
Qed.
Definition call_ok (ini : bool) (a : Z) : bool := (a =? ACTION_FAILED) || (a =? (if ini then ACTION_READ_MESSAGE else ACTION_WRITE_MESSAGE)).

(** C22.  Every call that returns, on any HandshakeState whatever: when the
    documentation does not allow the call in the current action (or forbids its
    arguments) it fails and the object is exactly as before; otherwise the
    action moves as documented, and only then. *)
Theorem C22_only_documented_transitions : forall lib s op r s',
  hs_step lib s op = Ok (r, s') ->
  let initiator := hs_role s =? ROLE_INITIATOR in
  if call_allowed initiator (hs_action s) op && negb (bad_arguments op)
  then action_after initiator (hs_action s) op (hr_err r) (hs_action s')
  else hr_err r <> E_NONE /\ s' = s.
Proof.
  intros lib s op r s' E ini. destruct op as [k n|p n|w op| |id|env m p|env m p|w1 w2 ok|h n]; cbn [hs_step call_allowed bad_arguments action_after] in *.
  - ob E. destruct r0 as [e1 s1]. injection E as <- <-. cbn [fst snd hr_err plain]. unfold set_pre_shared_key in E0. destruct k as [k|];
      [|injection E0 as <- <-; rewrite andb_false_r; split; [discriminate|reflexivity]].
    change PSK_LEN with 32 in E0. destruct (n =? 32); cbn [negb andb] in *; [|injection E0 as <- <-; rewrite andb_false_r; split; [discriminate|reflexivity]].
    rewrite andb_true_r. destruct (hs_action s =? ACTION_NONE) eqn:A.
    + destruct (negb (prefix_of s =? PREFIX_PSK)); [now injection E0 as <- <-|]. cbn [negb] in E0. ob E0. injection E0 as <- <-. reflexivity.
    + destruct (negb (prefix_of s =? PREFIX_PSK)); injection E0 as <- <-; (split; [discriminate|reflexivity]).
  - ob E. destruct r0 as [e1 s1]. injection E as <- <-. cbn [fst snd hr_err plain]. unfold set_prologue in E0. destruct p as [p|];
      [|injection E0 as <- <-; rewrite andb_false_r; split; [discriminate|reflexivity]].
    rewrite andb_true_r. destruct (hs_action s =? ACTION_NONE) eqn:A; cbn [negb] in E0.
    + ob E0. injection E0 as <- <-. reflexivity.
    + injection E0 as <- <-; (split; [discriminate|reflexivity]).
  - cbn [negb andb]. assert (K : forall d s1, key_object lib w s = (d, s1) -> hs_action s1 = hs_action s).
    { intros d s1 K. destruct w; cbn in K; try (now injection K as _ <-).
      - unfold get_fixed_ephemeral_dh in K. destruct (ko_ephemeral _); [|now injection K as _ <-]. destruct (hs_fixed_ephemeral s); [now injection K as _ <-|].
        destruct (lib_dh _ _); now injection K as _ <-.
      - unfold get_fixed_hybrid_dh in K. destruct (ko_hybrid _); [|now injection K as _ <-]. destruct (hs_fixed_hybrid s); [now injection K as _ <-|].
        destruct (lib_dh _ _); now injection K as _ <-. }
    destruct (key_object lib w s) as [d s1]. specialize (K _ _ eq_refl). destruct d as [d|]; [|injection E as _ <-; exact K].
    ob E. injection E as _ <-. destruct w; exact K.
  - ob E. destruct r0 as [e1 s1]. injection E as <- <-. cbn [fst snd hr_err plain negb]. rewrite andb_true_r. unfold handshakestate_start in E0.
    destruct (hs_action s =? ACTION_NONE) eqn:A; cbn [negb] in E0; [|injection E0 as <- <-; split; [discriminate|reflexivity]].
    apply Z.eqb_eq in A.
    repeat match type of E0 with (if ?b then Ok _ else _) = _ => destruct b; [injection E0 as <- <-; exact A|] end.
    ob E0. ob E0. ob E0. injection E0 as <- <-. reflexivity.
  - ob E. destruct r0 as [e1 s1]. injection E as <- <-. cbn [fst snd hr_err plain negb]. rewrite andb_true_r. unfold handshakestate_fallback_to in E0.
    fold ini in E0.
    assert (G : forall e, e <> E_NONE -> (if (hs_action s =? ACTION_FAILED) || (hs_action s =? (if ini then ACTION_READ_MESSAGE else ACTION_WRITE_MESSAGE))
              then hs_action s = (if is_none e then ACTION_NONE else hs_action s) else e <> E_NONE /\ s = s)).
    { intros e He. match goal with |- if ?b then _ else _ => destruct b end; [|auto]. destruct e; try reflexivity; congruence. }
    destruct (_ || negb (has_bit _ _)); [injection E0 as <- <-; apply G; discriminate|].
    destruct (noise_pattern_lookup id) as [pat|]; [|injection E0 as <- <-; apply G; discriminate].
    destruct (negb (has_bit _ _)); [injection E0 as <- <-; apply G; discriminate|].
    cbv zeta in E0. remember ini as i eqn:Ei. clear Ei. assert (T : call_ok i (hs_action s) = true -> forall e, e <> E_NONE -> if call_ok i (hs_action s) then hs_action s = (if is_none e then ACTION_NONE else hs_action s) else e <> E_NONE /\ s = s) by (intros _; exact G).
    change (if call_ok i (hs_action s) then hs_action s1 = (if is_none e1 then ACTION_NONE else hs_action s) else e1 <> E_NONE /\ s1 = s).
    destruct (call_ok i (hs_action s)) eqn:A.
    2:{ match type of E0 with (if ?b then _ else _) = _ => replace b with true in E0 by (unfold call_ok in A; destruct i; lia) end.
        injection E0 as <- <-. split; [discriminate|reflexivity]. }
    specialize (T eq_refl). do 3 (match type of E0 with (if ?b then _ else _) = _ => destruct b; [injection E0 as <- <-; apply T; discriminate|] end).
    ob E0. destruct r as [e2 o]. destruct e2; try (injection E0 as <- <-; apply T; discriminate).
    destruct o as [mem|].
    + destruct i; ob E0; destruct r as [c' h]; (destruct (ss_cipher _); [|discriminate]); injection E0 as <- <-; reflexivity.
    + injection E0 as <- <-. exfalso. exact (id_to_name_some _ _ _ E).
  - ob E. destruct r0 as [[e1 s1] m1]. injection E as <- <-. cbn [hr_err]. unfold write_message in E0. unfold missing. destruct (b_data m) as [mem|].
    2:{ injection E0 as <- <- _. rewrite andb_false_r. split; [discriminate|reflexivity]. }
    replace (match p with Some p0 => match b_data p0 with Some _ => false | None => true end | None => false end) with
      (match p with Some p0 => is_null_ptr (b_data p0) | None => false end) by (destruct p as [[[]]|]; reflexivity).
    destruct (match p with Some p0 => is_null_ptr (b_data p0) | None => false end).
    { injection E0 as <- <- _. rewrite andb_false_r. split; [discriminate|reflexivity]. }
    cbn [orb negb]. rewrite andb_true_r. destruct (hs_action s =? ACTION_WRITE_MESSAGE); cbn [negb] in E0; [|injection E0 as <- <- _; split; [discriminate|reflexivity]].
    ob E0. destruct r as [[[e2 s2] m2] k2]. pose proof (handshakestate_write_action _ _ _ _ _ _ _ _ _ E) as A.
    destruct (is_none e2) eqn:N; cbn [negb] in E0; injection E0 as <- <- _; rewrite N; auto.
  - ob E. destruct r0 as [[[e1 s1] m1] p1]. injection E as <- <-. cbn [hr_err]. unfold read_message in E0. unfold missing.
    replace (match p with Some p0 => match b_data p0 with Some _ => false | None => true end | None => false end) with
      (match p with Some p0 => is_null_ptr (b_data p0) | None => false end) by (destruct p as [[[]]|]; reflexivity).
    destruct (match p with Some p0 => is_null_ptr (b_data p0) | None => false end).
    { injection E0 as <- <- _ _. rewrite orb_true_r. cbn [orb negb]. rewrite andb_false_r. split; [discriminate|reflexivity]. }
    destruct (b_data m) as [mem|]; [|injection E0 as <- <- _ _; rewrite andb_false_r; split; [discriminate|reflexivity]].
    cbn [orb]. destruct (b_max m <? b_size m); [injection E0 as <- <- _ _; rewrite andb_false_r; split; [discriminate|reflexivity]|].
    cbn [orb negb]. rewrite andb_true_r. destruct (hs_action s =? ACTION_READ_MESSAGE); cbn [negb] in E0; [|injection E0 as <- <- _ _; split; [discriminate|reflexivity]].
    ob E0. destruct r as [[[e2 s2] m2] k2]. pose proof (handshakestate_read_action _ _ _ _ _ _ _ _ _ _ E) as A. ob E0.
    destruct (is_none e2) eqn:N; cbn [negb] in E0; injection E0 as <- <- _ _; rewrite N; auto.
  - ob E. destruct r0 as [[[e1 s1] c1] c2]. injection E as <- <-. cbn [hr_err]. unfold handshakestate_split in E0.
    destruct (negb w1 && negb w2); [injection E0 as <- <- _ _; rewrite andb_false_r; split; [discriminate|reflexivity]|].
    cbn [negb]. rewrite andb_true_r. destruct (hs_action s =? ACTION_SPLIT); cbn [negb] in E0; [|injection E0 as <- <- _ _; split; [discriminate|reflexivity]].
    destruct (ss_cipher _); [|now injection E0 as <- <- _ _]. ob E0. destruct r as [[[e2 y] d1] d2]. injection E0 as <- <- _ _. destruct (is_none e2); reflexivity.
  - ob E. destruct r0 as [e1 h1]. injection E as <- <-. cbn [hr_err fst]. unfold get_handshake_hash in E0. destruct h as [mem|];
      [|injection E0 as <- _; rewrite andb_false_r; split; [discriminate|reflexivity]].
    cbn [negb]. rewrite andb_true_r. destruct ((hs_action s =? ACTION_SPLIT) || (hs_action s =? ACTION_COMPLETE)) eqn:A; [reflexivity|].
    replace (negb (hs_action s =? ACTION_SPLIT) && negb (hs_action s =? ACTION_COMPLETE)) with true in E0 by lia. injection E0 as <- _. split; [discriminate|reflexivity].
Qed.
Print Assumptions C22_only_documented_transitions.

(** A handshake driven through its calls: writing in action NONE is refused,
    start moves to WRITE_MESSAGE, a second start is refused, a message too long
    for its buffer fails the handshake, and fallback is not applicable to XX. *)
Example C22_example :
  toy_calls (toy_xx ROLE_INITIATOR)
    [HWrite toy_env (NBuf (Some (zeros 99)) 0 99) None; HStart; HStart; HWrite toy_env (NBuf (Some (zeros 99)) 0 10) None; HFallback PATTERN_XX_FALLBACK]
  = Some ([E_INVALID_STATE; E_NONE; E_INVALID_STATE; E_INVALID_LENGTH; E_NOT_APPLICABLE], ACTION_FAILED).
Proof. vm_compute. reflexivity. Qed.

(** ** C23 *)
Definition successful_fallback (x : hs_op * hs_res) : Prop :=
  match fst x with HFallback _ => hr_err (snd x) = E_NONE | _ => False end.
Definition is_key_call (op : hs_op) : bool := match op with HKey _ _ => true | _ => false end.

(** Whatever is called on a failed handshake, it stays failed and every call
    (other than one on a key object) returns an error, until a fallback succeeds. *)
Theorem C23_failed_stays_failed : forall lib ops s log s',
  hs_action s = ACTION_FAILED ->
  hs_run lib s ops = Ok (log, s') ->
  (forall x, In x log -> ~ successful_fallback x) ->
  hs_action s' = ACTION_FAILED /\
  forall op r, In (op, r) log -> is_key_call op = false -> hr_err r <> E_NONE.
Proof.
  intros lib. induction ops as [|op ops IH]; intros s log s' A E N; cbn [hs_run] in E.
  - injection E as <- <-. split; [exact A|intros ? ? []].
  - ob E. destruct r as [r s1]. ob E. destruct r0 as [log1 s2]. injection E as <- <-. cbn [fst snd] in *.
    pose proof (C22_only_documented_transitions _ _ _ _ _ E0) as T. cbv zeta in T. rewrite A in T.
    assert (X : hs_action s1 = ACTION_FAILED /\ (is_key_call op = false -> hr_err r <> E_NONE)).
    { destruct op; cbn in T; try solve [destruct T as [T1 T2]; subst s1; split; [exact A|intros _; exact T1]].
      - split; [exact T|discriminate].
      - specialize (N _ (or_introl eq_refl)). unfold successful_fallback in N. cbn in N.
        assert (hr_err r <> E_NONE) by exact N. split; [|auto]. rewrite T. destruct (hr_err r); try reflexivity; congruence. }
    destruct X as [X1 X2]. destruct (IH s1 log1 s2 X1 E1) as [Y1 Y2]; [intros x Hx; apply N; now right|].
    split; [exact Y1|]. intros op0 r0 [[= <- <-]|I]; [exact X2|now apply Y2].
Qed.
Print Assumptions C23_failed_stays_failed.

(** A write that fails leaves an empty message, a read that fails an empty
    payload, and every attempted read wipes the message. *)
Theorem C23_failure_empties_buffers : forall lib s r s',
  (forall env m p, hs_step lib s (HWrite env m p) = Ok (r, s') -> hr_err r <> E_NONE ->
     exists m', hr_message r = Some m' /\ b_size m' = 0) /\
  (forall env m p, hs_step lib s (HRead env m (Some p)) = Ok (r, s') -> hr_err r <> E_NONE -> b_data p <> None ->
     exists p', hr_payload r = Some p' /\ b_size p' = 0) /\
  (forall env m p, hs_step lib s (HRead env m p) = Ok (r, s') -> 0 <= b_size m -> hs_action s = ACTION_READ_MESSAGE -> bad_arguments (HRead env m p) = false ->
     exists m' mem, hr_message r = Some m' /\ b_data m' = Some mem /\ take (b_size m) mem = zeros (b_size m)).
Proof.
  intros lib s r s'. split; [|split].
  - intros env m p E F. cbn [hs_step] in E. ob E. destruct r0 as [[e1 s1] m1]. injection E as <- <-. cbn [hr_err hr_message] in *. eexists. split; [reflexivity|].
    unfold write_message in E0. destruct (b_data m); [|injection E0 as <- <- <-; reflexivity]. destruct (match p with Some _ => _ | None => _ end); [injection E0 as <- <- <-; reflexivity|].
    destruct (negb _); [injection E0 as <- <- <-; reflexivity|]. ob E0. destruct r as [[[e2 s2] m2] k2]. destruct (is_none e2) eqn:N; cbn [negb] in E0; injection E0 as <- <- <-; [|reflexivity].
    apply is_none_true in N. congruence.
  - intros env m p E F D. cbn [hs_step] in E. ob E. destruct r0 as [[[e1 s1] m1] p1]. injection E as <- <-. cbn [hr_err hr_payload] in *.
    unfold read_message in E0. destruct (b_data p) as [pd|]; [|congruence]. cbn [is_null_ptr] in E0. cbv zeta in E0.
    destruct (b_data m); [|injection E0 as <- <- <- <-; eexists; split; reflexivity].
    destruct (_ <? _); [injection E0 as <- <- <- <-; eexists; split; reflexivity|]. destruct (negb _); [injection E0 as <- <- <- <-; eexists; split; reflexivity|].
    ob E0. destruct r as [[[e2 s2] m2] k2]. pose proof (handshakestate_read_action _ _ _ _ _ _ _ _ _ _ E) as A. ob E0.
    destruct (is_none e2) eqn:N; cbn [negb] in E0; injection E0 as <- <- <- <-; [apply is_none_true in N; congruence|]. subst k2. eexists; split; reflexivity.
  - intros env m p E Hn A B. cbn [hs_step] in E. ob E. destruct r0 as [[[e1 s1] m1] p1]. injection E as <- <-. cbn [hr_message] in *.
    unfold read_message in E0. cbn [bad_arguments] in B. unfold missing in B. destruct (b_data m) as [mem|]; [|discriminate]. cbn [orb] in B.
    destruct (match p with Some p0 => match b_data p0 with Some _ => false | None => true end | None => false end) eqn:P; [discriminate|].
    replace (match p with Some p0 => is_null_ptr (b_data p0) | None => false end) with false in E0 by (destruct p as [[[]]|]; auto; discriminate P).
    cbn [orb] in B. rewrite B, A, Z.eqb_refl in E0. cbn [negb] in E0. cbv zeta in E0. ob E0. destruct r as [[[e2 s2] m2] k2]. ob E0.
    injection E0 as <- <- <- <-. do 2 eexists. split; [reflexivity|]. split; [reflexivity|].
    unfold store in E1. destruct (_ && _) eqn:C; [|discriminate]. injection E1 as <-. rewrite splice_0.
    pose proof (take_app_exact _ (zeros (b_size m)) (drop (zlen (zeros (b_size m))) m2)) as T. rewrite zlen_zeros in T at 1 by lia. exact T.
Qed.
Print Assumptions C23_failure_empties_buffers.

(** A handshake that has failed and then meets every kind of call. *)
Example C23_example :
  toy_calls (toy_xx ROLE_INITIATOR)
    [HStart; HWrite toy_env (NBuf (Some (zeros 99)) 0 10) None;
     HSetPsk (Some (zeros 32)) 32; HSetPrologue (Some [1]) 1; HStart; HFallback PATTERN_XX_FALLBACK;
     HWrite toy_env (NBuf (Some (zeros 99)) 0 99) None; HRead toy_env (NBuf (Some (zeros 99)) 0 99) None;
     HSplit true true true; HGetHash (Some (zeros 4)) 4]
  = Some ([E_NONE; E_INVALID_LENGTH; E_NOT_APPLICABLE; E_INVALID_STATE; E_INVALID_STATE; E_NOT_APPLICABLE; E_INVALID_STATE;
           E_INVALID_STATE; E_INVALID_STATE; E_INVALID_STATE], ACTION_FAILED).
Proof. vm_compute. reflexivity. Qed.

(** ** C30 *)
Definition finished (s : handshakestate) : Prop := hs_action s = ACTION_SPLIT \/ hs_action s = ACTION_COMPLETE.

(** The hash is refused before the handshake is over, and the buffer left alone. *)
Theorem C30_refused_before_the_end : forall s mem n r,
  ~ finished s -> get_handshake_hash s (Some mem) n = Ok r -> r = (E_INVALID_STATE, Some mem).
Proof.
  intros s mem n r F E. unfold get_handshake_hash in E. unfold finished in F.
  replace (negb (hs_action s =? ACTION_SPLIT) && negb (hs_action s =? ACTION_COMPLETE)) with true in E by lia. now injection E as <-.
Qed.
Print Assumptions C30_refused_before_the_end.

(** Afterwards a buffer of any size gets exactly the value, cut off or followed by zeros. *)
Theorem C30_truncated_or_padded : forall s mem n,
  finished s -> zlen (ss_h (hs_symmetric s)) = ha_hash_len (ss_hash (hs_symmetric s)) -> 0 <= n <= zlen mem ->
  get_handshake_hash s (Some mem) n =
    Ok (E_NONE, Some (take n (ss_h (hs_symmetric s) ++ zeros n) ++ drop n mem)).
Proof.
  intros s mem n F L Hn. unfold get_handshake_hash.
  replace (negb (hs_action s =? ACTION_SPLIT) && negb (hs_action s =? ACTION_COMPLETE)) with false by (unfold finished in F; lia).
  rewrite <- L. pose proof (zlen_nonneg _ (ss_h (hs_symmetric s))). destruct (Z.leb_spec (zlen (ss_h (hs_symmetric s))) n).
  - rewrite load_ok by lia. unfold sub. rewrite (drop_le0 _ 0) by lia. rewrite take_all by lia. cbn [obind].
    rewrite store_ok by lia. cbn [obind]. rewrite store_ok; [|lia|rewrite splice_length, zlen_zeros by lia; lia]. cbn [obind]. do 3 f_equal.
    unfold splice at 1. rewrite zlen_zeros by lia. rewrite splice_0. rewrite take_app_le by lia. rewrite take_all by lia.
    rewrite take_app_ge by lia. rewrite <- !app_assoc. f_equal. f_equal.
    + unfold take, zeros. rewrite <- (firstn_all (repeat 0 (Z.to_nat (n - zlen (ss_h (hs_symmetric s)))))) at 1.
      rewrite repeat_length. replace (repeat 0 (Z.to_nat n)) with (repeat 0 (Z.to_nat (n - zlen (ss_h (hs_symmetric s)))) ++ repeat 0 (Z.to_nat (zlen (ss_h (hs_symmetric s))))).
      * rewrite firstn_app, repeat_length, Nat.sub_diag. cbn. now rewrite app_nil_r.
      * rewrite <- repeat_app. f_equal. lia.
    + rewrite drop_app_ge by lia. rewrite drop_drop by lia. f_equal. lia.
  - rewrite load_ok by lia. unfold sub. rewrite (drop_le0 _ 0) by lia. cbn [obind]. rewrite store_ok by (rewrite ?zlen_take; lia). cbn [obind]. do 3 f_equal.
    rewrite splice_0, zlen_take. rewrite take_app_le by lia. f_equal. f_equal. lia.
Qed.
Print Assumptions C30_truncated_or_padded.

(** And nothing that is called afterwards changes the value. *)
Theorem C30_value_is_final : forall lib ops s log s',
  finished s -> hs_run lib s ops = Ok (log, s') -> finished s' /\ ss_h (hs_symmetric s') = ss_h (hs_symmetric s).
Proof.
  intros lib. induction ops as [|op ops IH]; intros s log s' F E; cbn [hs_run] in E.
  - injection E as <- <-. auto.
  - ob E. destruct r as [r s1]. ob E. destruct r0 as [log1 s2]. injection E as <- <-. cbn [fst snd] in *.
    pose proof (C22_only_documented_transitions _ _ _ _ _ E0) as T. cbv zeta in T.
    assert (X : finished s1 /\ ss_h (hs_symmetric s1) = ss_h (hs_symmetric s)).
    { assert (Y : forall b, (if call_allowed b (hs_action s) op && negb (bad_arguments op) then False else hr_err r <> E_NONE /\ s1 = s) -> finished s1 /\ ss_h (hs_symmetric s1) = ss_h (hs_symmetric s)).
      { intros b Y. match type of Y with (if ?c then _ else _) => destruct c end; [contradiction|]. destruct Y as [_ ->]. auto. }
      destruct op; try (apply (Y (hs_role s =? ROLE_INITIATOR)); destruct F as [F|F]; rewrite F in *; destruct (hs_role s =? ROLE_INITIATOR); cbn in *; exact T).
      - cbn [hs_step] in E0. destruct (key_object lib w s) as [d s3] eqn:K.
        assert (Z3 : hs_action s3 = hs_action s /\ hs_symmetric s3 = hs_symmetric s).
        { destruct w; cbn in K; try (now injection K as _ <-).
          - unfold get_fixed_ephemeral_dh in K. destruct (ko_ephemeral _); [|now injection K as _ <-]. destruct (hs_fixed_ephemeral s); [now injection K as _ <-|].
            destruct (lib_dh _ _); now injection K as _ <-.
          - unfold get_fixed_hybrid_dh in K. destruct (ko_hybrid _); [|now injection K as _ <-]. destruct (hs_fixed_hybrid s); [now injection K as _ <-|].
            destruct (lib_dh _ _); now injection K as _ <-. }
        destruct Z3 as [Z1 Z2]. unfold finished in *. destruct d as [d|]; [|injection E0 as _ <-; now rewrite Z1, Z2].
        ob E0. injection E0 as _ <-. destruct w; cbn [put_key set_local set_remote set_fixed_ephemeral set_fixed_hybrid hs_action hs_symmetric]; now rewrite Z1, Z2.
      - cbn [hs_step] in E0. ob E0. destruct r0 as [[[e y] c1] c2]. injection E0 as <- <-. clear T Y. rename E into Q. unfold handshakestate_split in Q.
        destruct (negb _ && negb _); [injection Q as <- <- _ _; auto|]. destruct (negb _) eqn:A; [injection Q as <- <- _ _; auto|].
        destruct (ss_cipher _) as [cs|] eqn:Ecs; [|injection Q as <- <- _ _; auto].
        assert (S : forall w1 w2 e y c1 c2, symmetricstate_split (hs_symmetric s) w1 w2 create_ok = Ok (e, y, c1, c2) -> ss_h y = ss_h (hs_symmetric s)).
        { clear. intros w1 w2 e y c1 c2 E. unfold symmetricstate_split in E. destruct (negb w1 && negb w2); [now injection E as _ <- _ _|].
          destruct (ss_cipher _); [|now injection E as _ <- _ _]. ob E. destruct r as [[? c'] [[k1 k2]|]]; [|discriminate]. destruct (negb w1 && w2).
          - ob E. now injection E as _ <- _ _.
          - destruct w2; [destruct (negb create_ok); [now injection E as _ <- _ _|]; ob E; ob E; now injection E as _ <- _ _|]. ob E. now injection E as _ <- _ _. }
        assert (Fin : forall e y, finished (if is_none e then set_action ACTION_COMPLETE (set_symmetric y s) else set_symmetric y s) /\
           (ss_h y = ss_h (hs_symmetric s) -> ss_h (hs_symmetric (if is_none e then set_action ACTION_COMPLETE (set_symmetric y s) else set_symmetric y s)) = ss_h (hs_symmetric s))).
        { intros e0 y0. destruct (is_none e0); (split; [|auto]); [right; reflexivity|exact F]. }
        destruct (hs_role s =? ROLE_RESPONDER).
        + ob Q. destruct r as [[[e0 y0] d1] d2]. rename E into Q1. ob Q1. destruct r as [[[e3 y3] d3] d4]. injection Q1 as <- <- <- <-. injection Q as <- <- _ _.
          destruct (Fin e3 y3) as [F1 F2]. split; [exact F1|]. apply F2. eapply S. exact E.
        + ob Q. destruct r as [[[e0 y0] d1] d2]. injection Q as <- <- _ _.
          destruct (Fin e0 y0) as [F1 F2]. split; [exact F1|]. apply F2. eapply S. exact E.
      - cbn [hs_step] in E0. ob E0. injection E0 as _ <-. auto. }
    destruct X as [X1 X2]. destruct (IH s1 log1 s2 X1 E1) as [Y1 Y2]. split; [exact Y1|congruence].
Qed.
Print Assumptions C30_value_is_final.
(** A complete Noise_XX exchange: both parties reach SPLIT, and after calls that
    are refused the hash can be asked for with any length. *)
Example C30_example :
  match (let! a := toy_xx ROLE_INITIATOR in let! b := toy_xx ROLE_RESPONDER in
         let! a := hs_step toy_lib a HStart in let! b := hs_step toy_lib b HStart in
         let! p := toy_exchange 3 toy_env toy_env2 (snd a) (snd b) in
         let! r1 := hs_run toy_lib (fst p) [HGetHash (Some [1; 2; 3]) 3; HStart; HGetHash (Some [1; 2; 3; 4; 5; 6; 7]) 6] in
         let! r2 := hs_run toy_lib (snd p) [HGetHash (Some [1; 2; 3; 4]) 4] in
         Ok (hs_action (fst p), hs_action (snd p), map (fun x => (hr_err (snd x), hr_hash (snd x))) (fst r1),
             map (fun x => (hr_err (snd x), hr_hash (snd x))) (fst r2)))
  with
  | Ok (x, y, [(e1, Some h1); (e2, _); (e3, Some h3)], [(e4, Some h4)]) =>
    x = ACTION_SPLIT /\ y = ACTION_SPLIT /\ e1 = E_NONE /\ e2 = E_INVALID_STATE /\ e3 = E_NONE /\ e4 = E_NONE /\
    h1 = take 3 h4 /\ h3 = h4 ++ [0; 0; 7] /\ h4 <> zeros 4
  | _ => False
  end.
Proof. vm_compute. repeat split; try reflexivity. discriminate. Qed.
