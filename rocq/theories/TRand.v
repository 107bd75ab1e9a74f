(** C42, C43: the random number generator *)
From Verif Require Import Base MHash MSha2 MBlake2 SSha2 SBlake2 MChaCha SChaCha PChaCha TChaCha MPoly1305 SPoly1305 MChaChaPoly SChaChaPoly PChaChaPoly MRand SRand PRand.

(** Calls on one RandState object.  [mem] is the memory at the pointer. *)
Inductive rand_call : Type :=
| RGenerate (mem : list Z) (len : Z)
| RPad (mem : list Z) (orig_len padded_len mode : Z)
| RReseed.
Definition rand_call_ok (c : rand_call) : Prop :=
  match c with
  | RGenerate mem len => bytes mem /\ 0 <= len <= zlen mem
  | RPad mem orig padded _ => bytes mem /\ 0 <= orig <= zlen mem /\ padded <= zlen mem
  | RReseed => True
  end.
(** The object and the caller's memory afterwards *)
Definition rand_step (b : cc_build) (temp : list Z) (entropy : nat -> list Z) (s : randstate) (c : rand_call)
    : outcome (err * option randstate * cptr) :=
  match c with
  | RGenerate mem len => randstate_generate b temp entropy (Some s) (Some mem) len
  | RPad mem orig padded mode => randstate_pad b temp entropy (Some s) (Some mem) orig padded mode
  | RReseed => Ok (E_NONE, Some (randstate_reseed b temp entropy s), None)
  end.
Fixpoint rand_run (b : cc_build) (temp : list Z) (entropy : nat -> list Z) (s : randstate) (calls : list rand_call)
    : outcome (list (err * cptr)) :=
  match calls with
  | [] => Ok []
  | c :: calls' =>
    let! r := rand_step b temp entropy s c in
    match r with
    | (e, Some s', mem) => let! rs := rand_run b temp entropy s' calls' in Ok ((e, mem) :: rs)
    | (_, None, _) => UB
    end
  end.

(** What a call answers when the generator [g] performs [acts] during it *)
Definition rand_answer (g : gen) (c : rand_call) (acts : list act) : err * cptr :=
  let out := snd (act_run g acts) in
  match c with
  | RGenerate mem len => (E_NONE, Some (out ++ drop len mem))
  | RPad mem orig padded mode =>
    if padded <=? orig then (E_NONE, Some mem)
    else (E_NONE, Some (take orig mem ++ (if mode =? PADDING_ZERO then zeros (padded - orig) else out) ++ drop padded mem))
  | RReseed => (E_NONE, None)
  end.
Fixpoint rand_answers (g : gen) (calls : list rand_call) (actss : list (list act)) : list (err * cptr) :=
  match calls, actss with
  | c :: calls', acts :: actss' => rand_answer g c acts :: rand_answers (fst (act_run g acts)) calls' actss'
  | _, _ => []
  end.
(** The calls that produce random bytes give as many as were asked for, and end
    with a change of key. *)
Definition acts_fit (g : gen) (c : rand_call) (acts : list act) : Prop :=
  match c with
  | RGenerate mem len =>
    (exists before, acts = before ++ [Rekey]) /\ zlen (snd (act_run g acts)) = len
  | RPad mem orig padded mode =>
    if (padded <=? orig) || (mode =? PADDING_ZERO) then acts = []
    else (exists before, acts = before ++ [Rekey]) /\ zlen (snd (act_run g acts)) = padded - orig
  | RReseed => exists fresh, acts = [Reseed fresh; Rekey]
  end.
Fixpoint all_fit (g : gen) (calls : list rand_call) (actss : list (list act)) : Prop :=
  match calls, actss with
  | [], [] => True
  | c :: calls', acts :: actss' => acts_fit g c acts /\ all_fit (fst (act_run g acts)) calls' actss'
  | _, _ => False
  end.

(** A new generator has the fixed starting key; creating it reads entropy. *)
Definition first_gen : gen := Gen starting_key (zeros 12) 0.

Lemma starting_key_ok : bytes starting_key /\ zlen starting_key = 32.
Proof. split; [|reflexivity]. unfold bytes, starting_key. repeat apply Forall_cons; try apply Forall_nil; unfold is_byte; lia. Qed.
Lemma step_moves : forall b temp entropy g s m c, b <> CC_ScalarBE -> bytes temp -> zlen temp = 64 ->
  (forall i, bytes (entropy i) /\ zlen (entropy i) = 40) ->
  holds_gen g s -> g_block g = 0 -> m + rs_left s <= 1600064 -> rand_call_ok c ->
  exists acts s', rand_step b temp entropy s c = Ok (fst (rand_answer g c acts), Some s', snd (rand_answer g c acts)) /\
    acts_fit g c acts /\ moves entropy g s m acts s' /\ g_block (fst (act_run g acts)) = 0.
Proof.
  intros b temp entropy g s m c Hb Ht Lt He Hs H0 Hm Hc. destruct c as [mem len|mem orig padded mode|]; cbn [rand_step rand_answer acts_fit fst snd rand_call_ok] in *.
  - destruct Hc as [Hmem Hl]. destruct (generate_moves b Hb temp Ht Lt entropy He g s m mem len Hs H0 Hm Hmem Hl) as (acts & s' & E & L & M).
    exists (acts ++ [Rekey]), s'. split; [exact E|]. split; [|split; [exact M|rewrite run_block, blocks_from_app; reflexivity]].
    split; [now exists acts|exact L].
  - destruct Hc as (Hmem & Ho & Hp). unfold randstate_pad. destruct (padded <=? orig) eqn:E1.
    { exists [], s. split; [reflexivity|]. split; [reflexivity|]. split; [now apply moves_nil|exact H0]. }
    apply Z.leb_gt in E1. cbn [orb]. destruct (mode =? PADDING_ZERO).
    { exists [], s. unfold store. assert ((0 <=? orig) && (orig + zlen (zeros (padded - orig)) <=? zlen mem) = true) as ->.
      { rewrite zlen_zeros by lia. destruct (Z.leb_spec 0 orig); [|lia]. destruct (Z.leb_spec (orig + (padded - orig)) (zlen mem)); [reflexivity|lia]. }
      cbn [obind fst snd]. unfold splice. rewrite zlen_zeros by lia. replace (orig + (padded - orig)) with padded by lia.
      split; [reflexivity|]. split; [reflexivity|]. split; [now apply moves_nil|exact H0]. }
    destruct (generate_moves b Hb temp Ht Lt entropy He g s m (drop orig mem) (padded - orig) Hs H0 Hm) as (acts & s' & E & L & M);
      [now apply bytes_drop|rewrite zlen_drop; lia|].
    exists (acts ++ [Rekey]), s'. rewrite E. cbn [obind fst snd]. rewrite drop_drop by lia.
    replace (padded - orig + orig) with padded by lia.
    split; [reflexivity|]. split; [|split; [exact M|rewrite run_block, blocks_from_app; reflexivity]].
    split; [now exists acts|exact L].
  - destruct (moves_reseed b Hb temp Ht Lt entropy He g s m Hs Hm) as [M _].
    exists [Reseed (entropy (rs_reads s)); Rekey], (randstate_reseed b temp entropy s).
    split; [reflexivity|]. split; [now eexists|]. split; [exact M|]. rewrite run_block. reflexivity.
Qed.

(** Whatever calls are made on a new generator: there are actions [actss], a
    list for each call, such that every call answers with the output of its
    actions; the actions of all calls keep to the schedule (at most 17 blocks
    under a key, at most 1600064 bytes between two readings of entropy); every
    call that gives out random bytes gives the full number and ends with a change
    of key; and the entropy used is what the system delivered, each piece once. *)
Theorem C42_schedule : forall b temp entropy reads calls,
  b <> CC_ScalarBE -> bytes temp -> zlen temp = 64 ->
  (forall i, bytes (entropy i) /\ zlen (entropy i) = 40) -> Forall rand_call_ok calls ->
  exists start actss,
    start = [Reseed (entropy reads); Rekey] /\
    let g := fst (act_run first_gen start) in
    rand_run b temp entropy (randstate_new b temp entropy reads) calls = Ok (rand_answers g calls actss) /\
    all_fit g calls actss /\
    on_schedule (start ++ concat actss) /\
    exists n, fresh_data (start ++ concat actss) = map entropy (seq reads n).
Proof.
  intros b temp entropy reads calls Hb Ht Lt He Hc.
  assert (forall calls g s m, Forall rand_call_ok calls -> holds_gen g s -> g_block g = 0 -> m + rs_left s <= 1600064 ->
    exists actss s', rand_run b temp entropy s calls = Ok (rand_answers g calls actss) /\ all_fit g calls actss /\
      moves entropy g s m (concat actss) s') as G.
  { clear calls Hc. intros calls. induction calls as [|c calls IH]; intros g s m Hc Hs H0 Hm.
    - exists [], s. split; [reflexivity|]. split; [exact I|]. now apply moves_nil.
    - inversion Hc as [|? ? C1 C2]; subst.
      destruct (step_moves b temp entropy g s m c Hb Ht Lt He Hs H0 Hm C1) as (acts & s1 & E & F & M & B).
      destruct (IH (fst (act_run g acts)) s1 (bytes_from m acts) C2) as (actss & s' & E2 & F2 & M2); [apply M|exact B|apply M|].
      exists (acts :: actss), s'. cbn [rand_run rand_answers all_fit concat]. rewrite E. cbn [obind]. rewrite E2. cbn [obind].
      split; [destruct (rand_answer g c acts); reflexivity|]. split; [auto|]. apply (moves_app entropy g s m acts s1); assumption. }
  destruct starting_key_ok as [Bk Lk].
  assert (holds_gen first_gen (RandState 0 (chacha_keysetup b starting_key 256) reads)) as H1.
  { unfold holds_gen, first_gen. cbn [rs_chacha rs_left g_key g_nonce g_block].
    split; [apply keysetup_spec; auto|]. split; [exact Bk|]. split; [apply bytes_zeros|]. lia. }
  destruct (moves_reseed b Hb temp Ht Lt entropy He first_gen _ 0 H1) as [M ML]; [cbn [rs_left]; lia|].
  cbn [rs_reads] in M. fold (randstate_new b temp entropy reads) in *.
  exists [Reseed (entropy reads); Rekey].
  destruct (G calls (fst (act_run first_gen [Reseed (entropy reads); Rekey])) (randstate_new b temp entropy reads)
              (bytes_from 0 [Reseed (entropy reads); Rekey]) Hc) as (actss & s' & E & F & M2);
    [apply M|reflexivity|apply M|].
  exists actss. split; [reflexivity|]. cbv zeta. split; [exact E|]. split; [exact F|].
  pose proof (moves_app entropy first_gen _ 0 _ _ (concat actss) s' M M2) as (_ & _ & S & Fr & _). split.
  - exact S.
  - eexists. exact Fr.
Qed.
Print Assumptions C42_schedule.

(** Seventeen is reached: of one request for 33 blocks on a new generator, the
    last seventeen blocks come from one key, although a change of key is announced
    for every sixteen (NOISE_RAND_REKEY_COUNT). *)
Theorem C42_sixteen_refuted : exists entropy key nonce,
  (forall i, bytes (entropy i) /\ zlen (entropy i) = 40) /\
  match rand_run CC_ScalarLE (zeros 64) entropy (randstate_new CC_ScalarLE (zeros 64) entropy 0) [RGenerate (zeros (33 * 64)) (33 * 64)] with
  | Ok [(E_NONE, Some out)] => drop (16 * 64) out = concat (map (fun i => chacha20_block key (Z.of_nat i) nonce) (seq 0 17))
  | _ => False
  end.
Proof.
  exists (fun _ => zeros 40),
    [170; 25; 38; 14; 44; 235; 97; 138; 160; 59; 3; 174; 176; 61; 118; 112; 101; 203; 64; 96; 87; 51; 74; 170; 91; 247; 8; 143; 248; 58; 56; 37],
    [0; 0; 0; 0; 223; 38; 254; 251; 204; 127; 86; 146].
  split; [intros _; split; [apply bytes_zeros|reflexivity]|].
  vm_compute. reflexivity.
Qed.
Print Assumptions C42_sixteen_refuted.

Example C42_ok : Forall rand_call_ok [RGenerate (zeros 70) 65; RReseed; RPad [1; 2; 3; 4] 2 4 PADDING_RANDOM; RPad [1; 2; 3] 3 1 0].
Proof.
  assert (bytes [1; 2; 3; 4] /\ bytes [1; 2; 3]) as [B1 B2]
    by (split; unfold bytes; repeat apply Forall_cons; try apply Forall_nil; unfold is_byte; lia).
  repeat apply Forall_cons; try apply Forall_nil; cbn [rand_call_ok]; auto; rewrite ?zlen_zeros by lia;
    (split; [first [apply bytes_zeros | assumption]|unfold zlen; cbn [length]; lia]).
Qed.

(** ** C43 *)
Lemma encrypt_zeros : forall b temp x n, 0 < n <= 64 -> exists x' out, zlen out = n /\
  forall rest, chacha_encrypt_bytes b temp x (zeros n ++ rest) n = (x', out ++ rest).
Proof.
  intros b temp x n Hn. unfold chacha_encrypt_bytes. rewrite Z.mod_small by lia. cbv zeta.
  assert (zlen (zeros n) = n) as Lz by (rewrite zlen_zeros; lia).
  destruct (Z.eq_dec n 64) as [->|N].
  - exists (chacha_increment x), (xor_stored b (chacha_core b x) (zeros 64)). split; [apply xor_stored_any|].
    intros rest. change (S (Z.to_nat (64 / 64))) with 2%nat. cbn [chacha_loop]. change (64 >? 0) with true. change (64 >=? 64) with true. cbv iota zeta.
    change (64 - 64 >? 0) with false. cbv iota.
    assert (take 64 (zeros 64 ++ rest) = zeros 64) as -> by (rewrite <- Lz at 1; apply take_app_exact).
    assert (drop 64 (zeros 64 ++ rest) = rest) as -> by (rewrite <- Lz at 1; apply drop_app_exact). reflexivity.
  - exists (chacha_increment x), (take n (xor_stored b (chacha_core b x) (splice 0 (zeros n) temp))).
    split; [rewrite zlen_take, (proj1 (xor_stored_any _ _ _)); lia|].
    intros rest. rewrite Z.div_small by lia. cbn [Z.to_nat chacha_loop].
    destruct (Z.gtb_spec n 0); [|lia]. destruct (Z.geb_spec n 64); [lia|]. cbv zeta.
    assert (take n (zeros n ++ rest) = zeros n) as -> by (rewrite <- Lz at 1; apply take_app_exact).
    f_equal. rewrite splice_0. f_equal. rewrite zlen_take, (proj1 (xor_stored_any _ _ _)).
    replace (Z.max 0 (Z.min n 64)) with n by lia. rewrite <- Lz at 1. apply drop_app_exact.
Qed.

Lemma loop_zeros : forall b temp entropy fuel s blocks len, 0 <= len -> (Z.to_nat ((len + 63) / 64) < fuel)%nat ->
  exists s' out, zlen out = len /\
    forall rest, generate_loop b temp entropy fuel s blocks (zeros len ++ rest) len = (s', out ++ rest).
Proof.
  intros b temp entropy fuel. induction fuel as [|fuel IH]; intros s blocks len Hl Hf; [lia|].
  cbn [generate_loop]. destruct (len >? 0) eqn:E0.
  2:{ assert (len = 0) as -> by (rewrite Z.gtb_ltb in E0; apply Z.ltb_ge in E0; lia).
      exists s, []. split; [reflexivity|]. intros rest. reflexivity. }
  apply Z.gtb_lt in E0. cbv zeta. set (tl := if len >? 64 then 64 else len).
  assert (0 < tl <= 64 /\ tl <= len) as [T1 T2].
  { unfold tl. destruct (len >? 64) eqn:E1; [apply Z.gtb_lt in E1|rewrite Z.gtb_ltb in E1; apply Z.ltb_ge in E1]; lia. }
  assert (len - tl = 0 \/ tl = 64) as T3 by (unfold tl; destruct (len >? 64); [now right|left; lia]).
  destruct (if rs_left s >=? 64 then _ else _) as [s1 blocks1].
  destruct (if blocks1 >=? RAND_REKEY_COUNT then _ else _) as [s2 blocks2].
  destruct (encrypt_zeros b temp (rs_chacha s2) tl T1) as (x & out & Lo & Eo).
  destruct (IH (RandState (rs_left s2) x (rs_reads s2)) blocks2 (len - tl)) as (s' & out' & Lo' & Eo').
  - lia.
  - destruct T3 as [T3|T3].
    + rewrite T3. change ((0 + 63) / 64) with 0. assert (0 < (len + 63) / 64) by (apply Z.div_str_pos; lia). lia.
    + rewrite T3. replace (len + 63) with (len - 64 + 63 + 1 * 64) in Hf by lia. rewrite Z.div_add in Hf by lia.
      assert (0 <= (len - 64 + 63) / 64) by (apply Z.div_pos; lia). lia.
  - exists s', (out ++ out'). split; [rewrite zlen_app; lia|]. intros rest.
    assert (zeros len = zeros tl ++ zeros (len - tl)) as -> by (rewrite zeros_app by lia; f_equal; lia).
    rewrite <- app_assoc, Eo.
    assert (take tl (out ++ zeros (len - tl) ++ rest) = out) as -> by (rewrite <- Lo at 1; apply take_app_exact).
    assert (drop tl (out ++ zeros (len - tl) ++ rest) = zeros (len - tl) ++ rest) as -> by (rewrite <- Lo at 1; apply drop_app_exact).
    rewrite Eo', app_assoc. reflexivity.
Qed.
Lemma generate_fills : forall b temp entropy s len, 0 <= len -> exists s' out, zlen out = len /\
  forall mem, len <= zlen mem ->
    randstate_generate b temp entropy (Some s) (Some mem) len = Ok (E_NONE, Some s', Some (out ++ drop len mem)).
Proof.
  intros b temp entropy s len Hl. unfold randstate_generate, store. cbv zeta.
  destruct (loop_zeros b temp entropy (S (Z.to_nat ((len + 63) / 64))) (if rs_left s <? len then randstate_reseed b temp entropy s else s) 0 len Hl)
    as (s' & out & Lo & Eo); [lia|].
  exists (randstate_rekey b temp s'), out. split; [exact Lo|]. intros mem Hm.
  assert ((0 <=? 0) && (0 + zlen (zeros len) <=? zlen mem) = true) as ->
    by (rewrite zlen_zeros by lia; destruct (Z.leb_spec (0 + len) (zlen mem)); [reflexivity|lia]).
  cbn [obind]. rewrite splice_0, zlen_zeros by lia. rewrite Eo. reflexivity.
Qed.

(** Generating overwrites exactly the first [len] bytes, with bytes that do not
    depend on what was there before; so does a call without a state object,
    with zeros. *)
Theorem C42_overwrites : forall b temp entropy s len, 0 <= len ->
  (exists s' out, zlen out = len /\ forall mem, len <= zlen mem ->
    randstate_generate b temp entropy (Some s) (Some mem) len = Ok (E_NONE, Some s', Some (out ++ drop len mem))) /\
  (forall mem, len <= zlen mem ->
    randstate_generate b temp entropy None (Some mem) len = Ok (E_INVALID_PARAM, None, Some (zeros len ++ drop len mem))) /\
  (forall reads, exists reads' out, zlen out = len /\ forall mem, len <= zlen mem ->
    randstate_generate_simple b temp entropy reads (Some mem) len = Ok (E_NONE, reads', Some (out ++ drop len mem))).
Proof.
  intros b temp entropy s len Hl. split; [now apply generate_fills|]. split.
  - intros mem Hm. unfold randstate_generate, store.
    assert ((0 <=? 0) && (0 + zlen (zeros len) <=? zlen mem) = true) as ->
      by (rewrite zlen_zeros by lia; destruct (Z.leb_spec (0 + len) (zlen mem)); [reflexivity|lia]).
    cbn [obind]. rewrite splice_0, zlen_zeros by lia. reflexivity.
  - intros reads. destruct (generate_fills b temp entropy (randstate_new b temp entropy reads) len Hl) as (s' & out & Lo & Eo).
    exists (rs_reads s'), out. split; [exact Lo|]. intros mem Hm. unfold randstate_generate_simple. cbv zeta. rewrite Eo by exact Hm. reflexivity.
Qed.
Print Assumptions C42_overwrites.

(** Padding keeps the payload and everything beyond the padded length, and puts
    exactly the missing number of bytes in between: zeros in zero mode, and in any
    case bytes that do not depend on what was there before.  It does nothing if
    nothing is missing.  Without a state object the padding is zeros. *)
Theorem C43_pad : forall b temp entropy s orig padded mode, 0 <= orig ->
  (exists s' fill, zlen fill = Z.max 0 (padded - orig) /\
    (mode = PADDING_ZERO -> fill = zeros (Z.max 0 (padded - orig))) /\
    (padded <= orig \/ mode = PADDING_ZERO -> s' = s) /\
    forall mem, Z.max orig padded <= zlen mem ->
      randstate_pad b temp entropy (Some s) (Some mem) orig padded mode
      = Ok (E_NONE, Some s', Some (take orig mem ++ fill ++ drop (Z.max orig padded) mem))) /\
  (forall mem, Z.max orig padded <= zlen mem ->
      randstate_pad b temp entropy None (Some mem) orig padded mode
      = Ok (E_INVALID_PARAM, None, Some (take orig mem ++ zeros (Z.max 0 (padded - orig)) ++ drop (Z.max orig padded) mem))).
Proof.
  intros b temp entropy s orig padded mode Ho.
  assert (forall mem, orig <= padded <= zlen mem -> store mem orig (zeros (padded - orig)) = Ok (take orig mem ++ zeros (padded - orig) ++ drop padded mem)) as St.
  { intros mem Hm. unfold store. rewrite zlen_zeros by lia.
    destruct (Z.leb_spec 0 orig); [|lia]. destruct (Z.leb_spec (orig + (padded - orig)) (zlen mem)); [|lia]. cbn [andb].
    unfold splice. rewrite zlen_zeros by lia. replace (orig + (padded - orig)) with padded by lia. reflexivity. }
  split.
  - destruct (Z_le_gt_dec padded orig) as [L|L].
    + exists s, []. replace (Z.max 0 (padded - orig)) with 0 by lia. replace (Z.max orig padded) with orig by lia.
      split; [reflexivity|]. split; [reflexivity|]. split; [reflexivity|]. intros mem Hm. unfold randstate_pad.
      destruct (Z.leb_spec padded orig); [|lia]. cbn [app]. rewrite take_drop. reflexivity.
    + replace (Z.max 0 (padded - orig)) with (padded - orig) by lia. replace (Z.max orig padded) with padded by lia.
      destruct (Z.eq_dec mode PADDING_ZERO) as [->|N].
      * exists s, (zeros (padded - orig)). split; [rewrite zlen_zeros; lia|]. split; [reflexivity|]. split; [reflexivity|].
        intros mem Hm. unfold randstate_pad. destruct (Z.leb_spec padded orig); [lia|]. rewrite Z.eqb_refl.
        rewrite St by lia. reflexivity.
      * destruct (generate_fills b temp entropy s (padded - orig)) as (s' & out & Lo & Eo); [lia|].
        exists s', out. split; [exact Lo|]. split; [contradiction|]. split; [intros [X|X]; [lia|contradiction]|].
        intros mem Hm. unfold randstate_pad. destruct (Z.leb_spec padded orig); [lia|].
        destruct (Z.eqb_spec mode PADDING_ZERO); [contradiction|]. rewrite Eo by (rewrite zlen_drop; lia). cbn [obind].
        rewrite drop_drop by lia. replace (padded - orig + orig) with padded by lia. reflexivity.
  - intros mem Hm. unfold randstate_pad. destruct (Z.gtb_spec padded orig).
    + rewrite St by lia. cbn [obind]. replace (Z.max 0 (padded - orig)) with (padded - orig) by lia.
      replace (Z.max orig padded) with padded by lia. reflexivity.
    + cbn [obind]. replace (Z.max 0 (padded - orig)) with 0 by lia. replace (Z.max orig padded) with orig by lia.
      change (zeros 0) with (@nil Z). cbn [app]. rewrite take_drop. reflexivity.
Qed.
Print Assumptions C43_pad.

Example C43_example :
  let s := randstate_new CC_ScalarLE (zeros 64) (fun _ => zeros 40) 0 in
  exists fill s', zlen fill = 3 /\ fill <> zeros 3 /\
  randstate_pad CC_ScalarLE (zeros 64) (fun _ => zeros 40) (Some s) (Some [1; 2; 3; 4; 5; 6]) 2 5 PADDING_RANDOM
  = Ok (E_NONE, Some s', Some ([1; 2] ++ fill ++ [6])).
Proof. eexists [_; _; _], _. split; [reflexivity|]. split; [|vm_compute; reflexivity]. discriminate. Qed.
