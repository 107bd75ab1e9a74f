(** Property C78: the handshake properties C21, C31 and C32 hold for the library as it
    is, with nothing assumed about the algorithms, for all protocols with 25519 and
    without a hybrid algorithm. *)
From Coq Require Import ZifyBool String.
From Verif Require Import Base MUtil MCipher SCipher PCipher MHash SHash MSymm SSymm MPatterns SPatterns MDh SDh PDh
  MHandshake SHandshake SHsApi SNoise SAgree SFallback THsAgree THsFall.
From Verif Require Import MSha2 PSha2b MBlake2 PBlake2b MChaCha MChaChaPoly TChaChaPoly MGhash MAesGcm TAesGcm SX25519 TX25519 PX25519f TDhAgree TEdBase MLibrary.
From Verif Require Import ToyNoise.

(** A 25519 protocol without hybrid part: the cipher is ChaChaPoly or AESGCM, the hash
    BLAKE2s, BLAKE2b, SHA256 or SHA512; any prefix and pattern. *)
Definition real_id (id : protocol_id) : Prop :=
  pi_dh id = DH_CURVE25519 /\ pi_hybrid id = DH_NONE /\
  (exists k, 1 <= k <= 2 /\ pi_cipher id = NOISE_ID 67 k) /\ (exists k, 1 <= k <= 4 /\ pi_hash id = NOISE_ID 72 k).
(** The hash functions; C12 to C15 say that they are those of the standards. *)
Definition function_by_id (m : machine) (id : Z) : list Z -> list Z :=
  if id =? NOISE_ID 72 1 then blake2s_code (m_blake2s m)
  else if id =? NOISE_ID 72 2 then blake2b_code
  else if id =? NOISE_ID 72 3 then sha256_code
  else sha512_code.
Definition real_suite (m : machine) (id : protocol_id) : suite :=
  Suite (match cipher_by_id m (pi_cipher id) with Some c => c | None => chachapoly (m_chacha m) end)
        (match hash_by_id m (pi_hash id) with Some h => fst h | None => sha512_alg end)
        (function_by_id m (pi_hash id)) ref_25519 ref_25519_functions ref_25519 ref_25519_functions.
(** A key pair: 32 bytes and their public key X25519(k, 9) *)
Definition real_pair (k : list Z * list Z) : Prop := sized 32 (fst k) /\ snd k = public_of (fst k).

Lemma real_provides : forall m c448 newhope id, m_chacha m <> CC_ScalarBE -> real_id id ->
  provides (reference m ref_25519 c448 newhope) id (real_suite m id).
Proof.
  intros m c448 nh id Hm (Hd & Hy & (kc & Kc & Hc) & (kh & Kh & Hh)).
  assert (C : exists c, cipher_by_id m (pi_cipher id) = Some c /\ cipher_correct c /\ ca_mac_len c <= 16 /\ ca_key_len c = 32).
  { rewrite Hc. assert (kc = 1 \/ kc = 2) as [-> | ->] by lia; eexists; (split; [reflexivity|]).
    - split; [apply C60_correct; exact Hm|]. split; reflexivity || discriminate.
    - split; [apply C62_correct|]. split; reflexivity || discriminate. }
  assert (H : exists h c, hash_by_id m (pi_hash id) = Some (h, c) /\ hctx_ok h c /\ hash_law h (function_by_id m (pi_hash id)) /\ 32 <= ha_hash_len h).
  { rewrite Hh. assert (kh = 1 \/ kh = 2 \/ kh = 3 \/ kh = 4) as [-> | [-> | [-> | ->]]] by lia; eexists; eexists; (split; [reflexivity|]); (split; [reflexivity|]); split.
    - apply blake2s_is_law. - discriminate. - apply blake2b_is_law. - discriminate. - apply sha256_is_law. - discriminate. - apply sha512_is_law. - discriminate. }
  destruct C as (c & C1 & C2 & C3 & C4). destruct H as (h & x & H1 & H2 & H3 & H4).
  constructor; unfold real_suite; cbn [reference lib_cipher lib_hash lib_dh n_cipher n_hash n_H n_dh_alg n_dh n_hyb_alg n_hyb].
  - now rewrite C1.
  - rewrite C1. exact C2.
  - rewrite C1. exact C3.
  - rewrite H1. exists x. split; [reflexivity|exact H2].
  - rewrite H1. exact H3.
  - rewrite C1, H1. cbn [fst]. lia.
  - rewrite Hd. reflexivity.
  - exact ref_25519_suite.
  - intros N. contradiction (N Hy).
  - exact ref_25519_suite.
Qed.
Lemma agrees_fewer : forall D (s s' : KP D -> Prop) g, dh_agrees D s g -> (forall k, s' k -> s k) -> dh_agrees D s' g.
Proof.
  intros D s s' g [A1 A2 A3 A4 A5 A6 A7] I. constructor; auto.
  - intros second r other k x Hx. apply A4. auto.
Qed.
Lemma real_agrees : forall m id, dh_agrees (n_dh (real_suite m id)) real_pair (fun _ => True) /\ dh_agrees (n_hyb (real_suite m id)) (fun _ => False) (fun _ => True).
Proof.
  intros m id. unfold real_suite. cbn [n_dh n_hyb]. split; apply (agrees_fewer ref_25519_functions (good_pair 32 donna_base)); try exact C76_dh_agrees.
  - intros k [S P]. split; [exact S|]. rewrite C77_base_is_x25519 by exact S. split; [exact P|]. rewrite P. exact (X25519_nine_not_null (fst k)).
  - intros k [].
Qed.

(** Two parties that have set up their objects for the same such protocol, with
    static keys that are key pairs of 25519, and talk to each other in turns: every
    message is accepted, every payload arrives, both reach SPLIT with the same
    handshake hash, and the CipherStates of split match. *)
Theorem C78_handshake_succeeds : forall m c448 newhope id pat initiator responder turns,
  m_chacha m <> CC_ScalarBE -> real_id id -> has_pattern id pat -> fallback_pattern pat = false ->
  let lib := reference m ref_25519 c448 newhope in
  meet lib (real_suite m id) id real_pair initiator responder ->
  turns_ok (real_suite m id) id (fun _ => True) false false (messages pat) turns ->
  exchange lib initiator responder turns agreed /\ exchange lib initiator responder turns (transport (real_suite m id) lib).
Proof.
  intros m c448 nh id pat a b turns Hm Hid Hp Hf lib M Tk. destruct (real_agrees m id) as [Ad Ah].
  pose proof (real_provides m c448 nh id Hm Hid) as V. split.
  - exact (C21_two_honest_parties_agree _ _ _ _ _ _ _ _ _ V Hp Hf Ad Ah M Tk).
  - exact (C32_transport_ciphers_match _ _ _ _ _ _ _ _ _ V Hp Hf Ad Ah M Tk).
Qed.
Print Assumptions C78_handshake_succeeds.

(** The same after fallback from a first message that was not understood. *)
Theorem C78_fallback_succeeds : forall m c448 newhope id pat initiator responder,
  m_chacha m <> CC_ScalarBE -> real_id id -> has_pattern id pat -> can_fall_back pat = true ->
  psk_mode id = false \/ uses pat true F_ = false ->
  let lib := reference m ref_25519 c448 newhope in
  misunderstood lib (real_suite m id) id pat real_pair (fun _ => True) initiator responder ->
  exists w0 w r0 r,
    handshakestate_fallback_to responder (fallback_number pat) = Ok (E_NONE, w0) /\ handshakestate_start w0 = Ok (E_NONE, w) /\
    handshakestate_fallback_to initiator (fallback_number pat) = Ok (E_NONE, r0) /\ handshakestate_start r0 = Ok (E_NONE, r) /\
    hs_role w = ROLE_INITIATOR /\ hs_role r = ROLE_RESPONDER /\
    forall fpat turns, has_pattern (fallback_id id pat) fpat ->
      turns_ok (real_suite m id) (fallback_id id pat) (fun _ => True) true (psk_mode id) (messages fpat) turns ->
      exchange lib w r turns agreed /\ exchange lib w r turns (transport (real_suite m id) lib).
Proof.
  intros m c448 nh id pat a b Hm Hid Hp Hc Hx lib M. destruct (real_agrees m id) as [Ad Ah].
  exact (C31_fallback_agrees _ _ _ _ _ _ _ _ (real_provides m c448 nh id Hm Hid) Hp Hc Hx Ad Ah M).
Qed.
Print Assumptions C78_fallback_succeeds.

(** The hypotheses are met: Noise_XX_25519_ChaChaPoly_SHA256, three messages with
    payloads.  (The set-up is computed for any pair of DH functions.) *)
Definition some_machine : machine := Machine CC_ScalarLE (GhBuild true false) ScalarLE.
Definition some_xx : protocol_id := ProtocolId PREFIX_STANDARD (NOISE_ID 80 9) DH_CURVE25519 (NOISE_ID 67 1) (NOISE_ID 72 3) DH_NONE.
Definition some_xx_pattern : pattern := Pattern [] [] [[E_]; [E_; EE_; S_; ES_]; [S_; SE_]].
Definition some_ops (n : Z) : list hs_op := [HKey LocalStatic (DSetPrivate (Some (repeat n 32)) 32); HSetPrologue (Some [1; 2; 3]) 3].
Definition set_with (lib : library) (id : protocol_id) (initiator : bool) (ops : list hs_op) : outcome (list (hs_op * hs_res) * handshakestate) :=
  match handshakestate_new_by_id lib (Some (id, [0; 0; 0; 0])) (role_id initiator) with Ok (E_NONE, Live s) => hs_run lib s ops | _ => UB end.
Definition seen (r : outcome (list (hs_op * hs_res) * handshakestate)) :=
  match r with
  | Ok (log, s) =>
    match handshakestate_start s with
    | Ok (E_NONE, _) => Some (prologue_set [] log, psk_set None log,
        option_map (fun d => (dd_private (ds_data d), dd_public (ds_data d))) (ko_static (hs_local s)), remote_key (ko_static (hs_remote s)))
    | _ => None
    end
  | UB => None
  end.
Lemma some_seen : forall base mult (initiator : bool), let dh := curve25519 base mult in let n := if initiator then 7 else 9 in
  seen (set_with (reference some_machine dh dh dh) some_xx initiator (some_ops n)) = Some ([1; 2; 3], None, Some (repeat n 32, base (repeat n 32)), None).
Proof. intros base mult [|]; vm_compute; reflexivity. Qed.
Lemma seen_up : forall lib N id i ops p q k r, Forall (setup_call N) ops -> seen (set_with lib id i ops) = Some (p, q, k, r) ->
  exists log s s1, set_up N id lib i log s /\ handshakestate_start s = Ok (E_NONE, s1) /\ prologue_set [] log = p /\ psk_set None log = q /\
    option_map (fun d => (dd_private (ds_data d), dd_public (ds_data d))) (ko_static (hs_local s)) = k /\ remote_key (ko_static (hs_remote s)) = r.
Proof.
  intros lib N id i ops p q k r Ho H. unfold set_with in H. destruct (handshakestate_new_by_id _ _ _) as [[e h]|] eqn:E0; [|discriminate H].
  destruct e; try discriminate H. destruct h as [|s0|]; try discriminate H. destruct (hs_run lib s0 ops) as [[log s]|] eqn:E1; [|discriminate H]. unfold seen in H.
  destruct (handshakestate_start s) as [[e s1]|] eqn:E2; [|discriminate H]. destruct e; try discriminate H. injection H as <- <- <- <-.
  exists log, s, s1. split; [exact (Set_up N id lib i log s s0 ops E0 Ho E1)|]. auto.
Qed.
Definition some_lib : library := reference some_machine ref_25519 ref_25519 ref_25519.
Lemma some_meet : exists a b, meet some_lib (real_suite some_machine some_xx) some_xx real_pair a b.
Proof.
  assert (Up : forall i : bool, let n := if i then 7 else 9 in exists log s s1, set_up (real_suite some_machine some_xx) some_xx some_lib i log s /\ handshakestate_start s = Ok (E_NONE, s1) /\
    prologue_set [] log = [1; 2; 3] /\ psk_set None log = None /\ proper_static (real_suite some_machine some_xx) real_pair s /\ remote_key (ko_static (hs_remote s)) = None).
  { intros i n. assert (Bn : bytes (repeat n 32)) by (apply Forall_forall; intros x Hx; apply repeat_spec in Hx; subst x n; destruct i; unfold is_byte; lia).
    destruct (seen_up some_lib (real_suite some_machine some_xx) some_xx i (some_ops n) [1; 2; 3] None (Some (repeat n 32, donna_base (repeat n 32))) None) as (log & s & s1 & U & St & P1 & P2 & K & R).
    - apply Forall_cons; [|apply Forall_cons; [|apply Forall_nil]].
      + split; [|discriminate]. split; [lia|]. split; [discriminate|]. exact Bn.
      + cbn [setup_call]. unfold ptr_ok. repeat split; try discriminate. apply toy_bytes. reflexivity.
    - exact (some_seen donna_base donna i).
    - exists log, s, s1. split; [exact U|]. split; [exact St|]. split; [exact P1|]. split; [exact P2|]. split; [|exact R].
      intros k Lk. unfold local_pair in Lk. destruct (ko_static (hs_local s)) as [d|]; [|contradiction]. cbn [option_map] in K.
      assert (K' : (dd_private (ds_data d), dd_public (ds_data d)) = (repeat n 32, donna_base (repeat n 32))) by congruence. clear K.
      destruct Lk as [_ Sp]. unfold static_pair in Sp. change (Some (dd_private (ds_data d), dd_public (ds_data d)) = Some k) in Sp. rewrite K' in Sp.
      assert (Sk : k = (repeat n 32, donna_base (repeat n 32))) by congruence. rewrite Sk. unfold real_pair. cbn [fst snd].
      assert (Sz : sized 32 (repeat n 32)) by (split; [unfold zlen; rewrite repeat_length; reflexivity|exact Bn]). split; [exact Sz|]. now apply C77_base_is_x25519. }
  destruct (Up true) as (la & a & a1 & A1 & A2 & A3 & A4 & A5 & A6). destruct (Up false) as (lb & b & b1 & B1 & B2 & B3 & B4 & B5 & B6).
  exists a1, b1. constructor. exists a, la, b, lb. split; [exact A1|]. split; [exact B1|]. split; [now rewrite A3, B3|]. split; [now rewrite A4, B4|].
  split; [exact A5|]. split; [exact B5|]. split; [left; exact A6|]. split; [left; exact B6|]. auto.
Qed.
Lemma some_turns_ok : turns_ok (real_suite some_machine some_xx) some_xx (fun _ => True) false false (messages some_xx_pattern) (toy_turns ++ [toy_turn ToyHs.toy_env [8]]).
Proof.
  assert (R : forall k t, rng_ok (fun n => repeat ((t + k) mod 256) (Z.to_nat n))).
  { intros k t n Hn. split; [unfold zlen; rewrite repeat_length; lia|].
    apply Forall_forall. intros x Hx. apply repeat_spec in Hx. subst x. unfold is_byte. apply Z.mod_pos_bound. lia. }
  assert (Z0 : zlen (zeros 2200) = 2200) by (apply zlen_zeros; lia).
  assert (T : forall env p, (forall t, rng_ok (env_rand env t)) -> bytes p -> zlen p <= 10 -> turn_ok (fun _ => True) (toy_turn env p)).
  { intros env p He Hb Hl. unfold turn_ok, toy_turn. cbn [t_rand t_mem t_size t_max t_payload t_env t_tail t_out handshake_call b_data b_size b_max payload_bytes].
    rewrite Z0. change (zlen (zeros 10)) with 10. pose proof (zlen_nonneg _ p). unfold contents. cbn [b_data b_size]. rewrite ?take_all by lia.
    split; [split; [exact He|]; split; [split; [apply bytes_zeros|]; split; [lia|vm_compute; reflexivity]|]; split; [exact Hb|lia]|].
    split; [auto|]. split; [apply toy_bytes; reflexivity|lia]. }
  cbn [messages some_xx_pattern toy_turns app turns_ok].
  split; [apply T; [intros t; apply (R 100 t)|apply toy_bytes; reflexivity|vm_compute; discriminate]|]. split; [vm_compute; discriminate|]. split; [vm_compute; discriminate|].
  split; [apply T; [intros t; apply (R 200 t)|apply toy_bytes; reflexivity|vm_compute; discriminate]|]. split; [vm_compute; discriminate|]. split; [vm_compute; discriminate|].
  split; [apply T; [intros t; apply (R 100 t)|apply toy_bytes; reflexivity|vm_compute; discriminate]|]. split; [vm_compute; discriminate|]. split; [vm_compute; discriminate|]. exact I.
Qed.
Example C78_example : exists a b, let turns := toy_turns ++ [toy_turn ToyHs.toy_env [8]] in
  exchange some_lib a b turns agreed /\ exchange some_lib a b turns (transport (real_suite some_machine some_xx) some_lib).
Proof.
  destruct some_meet as (a & b & M). exists a, b. cbv zeta.
  assert (Hid : real_id some_xx) by (repeat split; [exists 1|exists 3]; split; reflexivity || lia).
  assert (Hp : has_pattern some_xx some_xx_pattern).
  { exists 9, "XX"%string. split; [cbn; tauto|]. split; [|reflexivity]. constructor; cbn; tauto. }
  exact (C78_handshake_succeeds some_machine ref_25519 ref_25519 some_xx some_xx_pattern a b _ ltac:(discriminate) Hid Hp eq_refl M some_turns_ok).
Qed.
