(** C83, C84: NewHope, the code between the number theoretic transform and the wire. *)
From Verif Require Import Base MNewhope SNewhope PNewhope.

(** * C83: polynomials on the wire and arithmetic on coefficients *)

(** A polynomial is sent as 1792 bytes and what is received has the same
    coefficients modulo q, each in 0 .. q - 1, whatever multiple of q the sender
    held. *)
Theorem C83_codec_roundtrip : forall p, coefficients p ->
  zlen (poly_tobytes p) = 1792 /\ bytes (poly_tobytes p) /\
  poly_frombytes (poly_tobytes p) = map (fun x => x mod newhope_q) p.
Proof.
  intros p [L F]. destruct (tobytes_ok 256 p [] ltac:(lia) F) as (L1 & B & R). split; [exact L1|]. split; [exact B|].
  rewrite app_nil_r in R. rewrite R. cbn [poly_frombytes]. apply app_nil_r.
Qed.
Print Assumptions C83_codec_roundtrip.

(** Two representations of the same polynomial modulo q give the same bytes, so the
    bytes do not tell how it was computed. *)
Theorem C83_codec_canonical : forall p p', coefficients p -> coefficients p' ->
  (forall i, (i < 1024)%nat -> cong_q (nth i p 0) (nth i p' 0)) -> poly_tobytes p = poly_tobytes p'.
Proof.
  intros p p' [L F] [L' F'] H. apply tobytes_cong. unfold zlen in *.
  assert (length p = length p') as E by lia. assert (forall i, (i < length p)%nat -> cong_q (nth i p 0) (nth i p' 0)) as G by (intros; apply H; lia).
  clear - E G F F'. revert p' F' E G. induction F as [|x p X F IH]; intros [|y p'] F' E G; try discriminate; constructor.
  - inversion F'; subst. split; [assumption|]. split; [assumption|]. apply (G 0%nat). cbn. lia.
  - inversion F'; subst. apply IH; [assumption|now injection E|]. intros i Hi. apply (G (S i)). cbn. lia.
Qed.
Print Assumptions C83_codec_canonical.

(** Any 1792 received bytes give 1024 coefficients of 14 bits. *)
Theorem C83_codec_total : forall l, bytes l -> zlen l = 1792 ->
  coefficients (poly_frombytes l) /\ Forall (fun x => 0 <= x < 2^14) (poly_frombytes l).
Proof.
  intros l B L. destruct (frombytes_range 256 l ltac:(lia) B) as [L1 F]. split; [|exact F]. split; [lia|].
  eapply Forall_impl; [|exact F]. cbn beta. intros. lia.
Qed.
Print Assumptions C83_codec_total.

(** The answer of the responder, a polynomial and the help data, has 2048 bytes and
    comes back as it was sent. *)
Theorem C83_response_roundtrip : forall b c, coefficients b -> zlen c = 1024 -> Forall (fun x => 0 <= x < 4) c ->
  zlen (encode_b b c) = 2048 /\ bytes (encode_b b c) /\
  decode_b (encode_b b c) = (map (fun x => x mod newhope_q) b, c).
Proof. intros b c [L F] Lc Fc. now apply encode_b_ok. Qed.
Print Assumptions C83_response_roundtrip.

(** So does the message of the initiator, a polynomial and the seed of 32 bytes. *)
Theorem C83_initiation_roundtrip : forall a seed, coefficients a -> bytes seed -> zlen seed = 32 ->
  zlen (encode_a a seed) = 1824 /\ bytes (encode_a a seed) /\
  decode_a (encode_a a seed) = (map (fun x => x mod newhope_q) a, seed).
Proof.
  intros a seed Ha Bs Ls. destruct (C83_codec_roundtrip a Ha) as (L & B & R). unfold encode_a, decode_a. rewrite (take_all Z 32 seed) by lia.
  split; [rewrite zlen_app; lia|]. split; [now apply bytes_app|].
  rewrite <- L, take_app_exact, drop_app_exact, (take_all Z 32 seed), R by lia. reflexivity.
Qed.
Print Assumptions C83_initiation_roundtrip.

(** Multiplication of coefficients is multiplication modulo q, for all operands of
    16 bits, with no overflow of a signed integer. *)
Theorem C83_pointwise : forall a b, coefficients a -> coefficients b ->
  exists r, poly_pointwise a b = Ok r /\ coefficients r /\ Forall (fun x => 0 <= x < 2^14) r /\
    forall i, (i < 1024)%nat -> cong_q (nth i r 0) (nth i a 0 * nth i b 0).
Proof.
  intros a b [La Fa] [Lb Fb]. destruct (pointwise_ok a b Fa Fb ltac:(lia)) as (r & E & L & F & H).
  exists r. split; [exact E|]. split; [split; [lia|eapply Forall_impl; [|exact F]; cbn beta; intros; lia]|]. split; [exact F|].
  intros i Hi. apply H. unfold zlen in La. lia.
Qed.
Print Assumptions C83_pointwise.

(** Addition is addition modulo q for operands below 2^15.  All operands in the
    code are results of a reduction, a multiplication or the noise function and are
    below 2^15. *)
Theorem C83_add : forall a b, zlen a = 1024 -> zlen b = 1024 ->
  Forall (fun x => 0 <= x < 2^15) a -> Forall (fun x => 0 <= x < 2^15) b ->
  coefficients (poly_add a b) /\ Forall (fun x => 0 <= x < 2^14) (poly_add a b) /\
    forall i, (i < 1024)%nat -> cong_q (nth i (poly_add a b) 0) (nth i a 0 + nth i b 0).
Proof.
  intros a b La Lb Fa Fb. destruct (add_ok a b Fa Fb ltac:(lia)) as (L & F & H).
  split; [split; [lia|eapply Forall_impl; [|exact F]; cbn beta; intros; lia]|]. split; [exact F|].
  intros i Hi. apply H. unfold zlen in La. lia.
Qed.
Print Assumptions C83_add.

(** One coefficient of noise: the difference of two numbers of ones among 16 bits,
    kept positive by adding q, so at most 16 away from q.  With 32 uniform bits this
    is the centred binomial distribution of parameter 16. *)
Theorem C83_noise_binomial : forall t,
  getnoise1 t = newhope_q + ones_in t 0 16 - ones_in t 16 16 /\ newhope_q - 16 <= getnoise1 t <= newhope_q + 16.
Proof. intros t. apply getnoise1_ok. Qed.
Print Assumptions C83_noise_binomial.

(** A polynomial of noise from 4096 bytes of stream: coefficient i comes from bytes
    4 i to 4 i + 3.  It meets the bound of C83_add. *)
Theorem C83_noise_polynomial : forall buf, bytes buf -> zlen buf = 4096 ->
  Forall (fun x => 0 <= x < 2^15) (noise_of_stream buf) /\ coefficients (noise_of_stream buf) /\
  forall i, (i < 1024)%nat ->
    let w := nth (4 * i) buf 0 + nth (4 * i + 1) buf 0 * 2^8 + nth (4 * i + 2) buf 0 * 2^16 + nth (4 * i + 3) buf 0 * 2^24 in
    nth i (noise_of_stream buf) 0 = newhope_q + ones_in w 0 16 - ones_in w 16 16.
Proof.
  assert (forall n buf, bytes buf -> zlen buf = 4 * Z.of_nat n -> zlen (noise_of_stream buf) = Z.of_nat n /\
    Forall (fun x => newhope_q - 16 <= x <= newhope_q + 16) (noise_of_stream buf) /\ forall i, (i < n)%nat ->
    nth i (noise_of_stream buf) 0 = getnoise1 (nth (4 * i) buf 0 + nth (4 * i + 1) buf 0 * 2^8 + nth (4 * i + 2) buf 0 * 2^16 + nth (4 * i + 3) buf 0 * 2^24)) as G.
  { induction n as [|n IH]; intros buf B L.
    - assert (buf = []) as -> by (apply zlen_0_nil; lia). split; [reflexivity|]. split; [constructor|intros; lia].
    - do 4 (destruct buf as [|? buf]; [repeat rewrite zlen_cons in L; change (zlen (@nil Z)) with 0 in L; lia|]).
      rewrite !zlen_cons in L. unfold bytes in B. repeat match goal with H : Forall _ (_ :: _) |- _ => inversion H; clear H; subst end.
      destruct (IH buf ltac:(assumption) ltac:(lia)) as (L1 & F & N). cbn [noise_of_stream]. split; [rewrite zlen_cons; lia|].
      split; [constructor; [apply C83_noise_binomial|exact F]|]. unfold is_byte in *. intros [|i] Hi.
      + cbn [nth Nat.mul Nat.add]. rewrite (lor_high _ _ 8), (lor_high _ _ 16), (lor_high _ _ 24) by lia. reflexivity.
      + replace (4 * S i)%nat with (S (S (S (S (4 * i))))) by lia. cbn [nth Nat.add]. apply N. lia. }
  intros buf B L. destruct (G 1024%nat buf B ltac:(lia)) as (L1 & F & N). change (Z.of_nat 1024) with 1024 in L1.
  split; [|split; [split; [exact L1|]|]]; try (eapply Forall_impl; [|exact F]; unfold newhope_q; cbn beta; intros; lia).
  intros i Hi w. rewrite N by exact Hi. apply C83_noise_binomial.
Qed.
Print Assumptions C83_noise_polynomial.

Example polynomial_roundtrip :
  let p := map (fun i => (Z.of_nat i * 64) mod 65536) (seq 0 1024) in
  coefficients p /\ poly_frombytes (poly_tobytes p) = map (fun x => x mod newhope_q) p /\ nth 1000 p 0 = 64000.
Proof.
  split; [|vm_compute; split; reflexivity]. split; [reflexivity|].
  apply Forall_forall. intros x Hx. apply in_map_iff in Hx. destruct Hx as (i & <- & _). apply Z.mod_pos_bound. lia.
Qed.
Example noise_word : getnoise1 0xffff = newhope_q + 16 /\ getnoise1 0xf00f0001 = newhope_q + 1 - 8.
Proof. vm_compute. split; reflexivity. Qed.
(* the bound of C83_add is needed: the sum is cut to 16 bits *)
Example add_wraps : barrett_reduce (u16 (40000 + 40000)) mod newhope_q <> (40000 + 40000) mod newhope_q.
Proof. vm_compute. discriminate. Qed.

(** * C84: both sides derive the same key *)

(** The responder holds v, the initiator v'; the two differ, modulo q, by the noise
    e.  Whatever random bits the responder uses, its help data c makes both sides
    arrive at the same 32 bytes as long as the noise is small, and c is not changed
    by the journey. *)
Theorem C84_same_key : forall v v' e rand b, coefficients v -> coefficients v' -> coefficients b ->
  difference v v' e -> small_noise e ->
  exists c key, helprec v rand = Ok c /\ rec v c = Ok key /\
    rec v' (snd (decode_b (encode_b b c))) = Ok key /\ zlen key = 32 /\ bytes key.
Proof.
  intros v v' e rand b Hv Hv' Hb D S. destruct (helprec_ok v rand Hv) as (c & E & Lc & Fc & H).
  destruct (rec_ok v v' e c Hv Hv' D S H) as (key & R1 & R2 & L & B). exists c, key.
  destruct (C83_response_roundtrip b c Hb Lc Fc) as (_ & _ & ->). repeat split; assumption.
Qed.
Print Assumptions C84_same_key.

(** The key is no constant: for all coefficients and help data each of its bits says
    whether the four coefficients, less the help data, are near to a multiple of q.
    No input makes a signed integer overflow. *)
Theorem C84_key_bits : forall v c, coefficients v -> zlen c = 1024 -> Forall (fun x => 0 <= x < 4) c ->
  exists key, rec v c = Ok key /\ zlen key = 32 /\ bytes key /\ forall i, (i < 256)%nat -> bit_at key i = key_bit v c i.
Proof. exact rec_exact. Qed.
Print Assumptions C84_key_bits.

(** Any 256 received bytes are valid help data. *)
Theorem C84_help_total : forall l, bytes l -> zlen l = 256 ->
  zlen (decode_c l) = 1024 /\ Forall (fun x => 0 <= x < 4) (decode_c l).
Proof.
  assert (forall l, bytes l -> zlen (decode_c l) = 4 * zlen l /\ Forall (fun x => 0 <= x < 4) (decode_c l)) as G.
  { intros l B. induction B as [|x l X B [L F]]; [split; [reflexivity|constructor]|]. unfold is_byte in X.
    cbn [decode_c]. rewrite !zlen_cons, L. split; [lia|].
    repeat constructor; try assumption; rewrite ?land_3, ?Z.shiftr_div_pow2 by lia; try (apply Z.mod_pos_bound; lia);
    try (apply Z.div_pos; lia); apply Z.div_lt_upper_bound; lia. }
  intros l B L. destruct (G l B) as [L1 F]. split; [lia|exact F].
Qed.
Print Assumptions C84_help_total.

(** A case with noise of up to 2000 in each coefficient; the noise of the protocol
    is some hundreds *)
Example keys_agree :
  let v := map (fun i => (Z.of_nat i * 7919) mod newhope_q) (seq 0 1024) in
  let e := map (fun i => (Z.of_nat i * 37) mod 4001 - 2000) (seq 0 1024) in
  let v' := map (fun i => (Z.of_nat i * 7919 + ((Z.of_nat i * 37) mod 4001 - 2000)) mod newhope_q) (seq 0 1024) in
  difference v v' e /\ small_noise e /\
  exists c key, helprec v (zeros 32) = Ok c /\ rec v c = Ok key /\ rec v' c = Ok key /\ take 4 key <> take 4 (drop 4 key).
Proof.
  cbv zeta. split; [|split].
  - split; [reflexivity|]. intros i Hi.
    assert (forall f : nat -> Z, nth i (map f (seq 0 1024)) 0 = f i) as N.
    { intros f. rewrite (nth_indep _ 0 (f 0%nat)), map_nth, seq_nth by (rewrite ?map_length, ?seq_length; lia). reflexivity. }
    rewrite !N. exists (Z.of_nat i * 7919 / newhope_q - (Z.of_nat i * 7919 + ((Z.of_nat i * 37) mod 4001 - 2000)) / newhope_q).
    pose proof (Z.div_mod (Z.of_nat i * 7919) newhope_q ltac:(discriminate)).
    pose proof (Z.div_mod (Z.of_nat i * 7919 + ((Z.of_nat i * 37) mod 4001 - 2000)) newhope_q ltac:(discriminate)). lia.
  - intros i Hi.
    assert (forall (f : nat -> Z) j, (j < 1024)%nat -> nth j (map f (seq 0 1024)) 0 = f j) as N.
    { intros f j Hj. rewrite (nth_indep _ 0 (f 0%nat)), map_nth, seq_nth by (rewrite ?map_length, ?seq_length; lia). reflexivity. }
    rewrite !N by lia. unfold newhope_q.
    assert (forall x, Z.abs (x mod 4001 - 2000) <= 2000) as A by (intros x; pose proof (Z.mod_pos_bound x 4001); lia).
    pose proof (A (Z.of_nat i * 37)). pose proof (A (Z.of_nat (256 + i) * 37)). pose proof (A (Z.of_nat (512 + i) * 37)). pose proof (A (Z.of_nat (768 + i) * 37)).
    lia.
  - eexists. eexists. split; [vm_compute; reflexivity|]. split; [vm_compute; reflexivity|]. split; [vm_compute; reflexivity|]. vm_compute. discriminate.
Qed.
(** The bound is the best: [small_noise] lets the four differences of a group add up
    to 9214, and with 9215 there are coefficients for which the keys differ. *)
Theorem C84_noise_bound_best : exists v v' e rand c key key',
  coefficients v /\ coefficients v' /\ difference v v' e /\
  (forall i, (i < 256)%nat ->
    Z.abs (nth i e 0) + Z.abs (nth (256 + i) e 0) + Z.abs (nth (512 + i) e 0) + Z.abs (nth (768 + i) e 0) <= 9215) /\
  helprec v rand = Ok c /\ rec v c = Ok key /\ rec v' c = Ok key' /\ key <> key'.
Proof.
  pose (p := fun a b c d : Z => (a :: zeros 255) ++ (b :: zeros 255) ++ (c :: zeros 255) ++ (d :: zeros 255)).
  exists (p 768 6912 3841 766), (p (12289 - 1536) 4608 1537 (12289 - 1537)), (p (-2304) (-2304) (-2304) (-2303)), [1].
  eexists. eexists. eexists.
  assert (forall a b c d, (forall x, In x [a; b; c; d] -> 0 <= x < 2^16) -> coefficients (p a b c d)) as C.
  { intros a b c d H. split; [reflexivity|]. unfold p.
    assert (Forall (fun x => 0 <= x < 2^16) (zeros 255)) as Z by (apply Forall_forall; intros x Hx; apply repeat_spec in Hx; lia).
    do 3 (apply Forall_app; split; [constructor; [apply H; cbn [In]; auto|exact Z]|]). constructor; [apply H; cbn [In]; auto|exact Z]. }
  split; [apply C; cbn [In]; intros; lia|]. split; [apply C; cbn [In]; intros; lia|].
  assert (forall a b c d i, (i < 256)%nat -> nth i (p a b c d) 0 = (if (i =? 0)%nat then a else 0) /\ nth (256 + i) (p a b c d) 0 = (if (i =? 0)%nat then b else 0) /\
    nth (512 + i) (p a b c d) 0 = (if (i =? 0)%nat then c else 0) /\ nth (768 + i) (p a b c d) 0 = (if (i =? 0)%nat then d else 0)) as N.
  { intros a b c d i Hi. unfold p.
    destruct (nth_quarters (a :: zeros 255) (b :: zeros 255) (c :: zeros 255) (d :: zeros 255) i Hi eq_refl eq_refl eq_refl) as (-> & -> & -> & ->).
    destruct i as [|i]; [repeat split|]. cbn [nth Nat.eqb]. unfold zeros. rewrite nth_repeat. auto. }
  split; [|split].
  - split; [reflexivity|]. intros i Hi.
    assert (exists j, (j < 256)%nat /\ (i = j \/ i = 256 + j \/ i = 512 + j \/ i = 768 + j)%nat) as (j & Hj & J).
    { destruct (Nat.lt_ge_cases i 256); [exists i; lia|]. destruct (Nat.lt_ge_cases i 512); [exists (i - 256)%nat; lia|].
      destruct (Nat.lt_ge_cases i 768); [exists (i - 512)%nat; lia|exists (i - 768)%nat; lia]. }
    destruct (N 768 6912 3841 766 j Hj) as (V0 & V1 & V2 & V3).
    destruct (N (12289 - 1536) 4608 1537 (12289 - 1537) j Hj) as (W0 & W1 & W2 & W3).
    destruct (N (-2304) (-2304) (-2304) (-2303) j Hj) as (E0 & E1 & E2 & E3). clearbody p.
    destruct J as [-> | [-> | [-> | ->]]]; [rewrite V0, W0, E0|rewrite V1, W1, E1|rewrite V2, W2, E2|rewrite V3, W3, E3]; unfold newhope_q;
    (destruct (j =? 0)%nat; [|exists 0; reflexivity]); unfold cong_q, newhope_q; [exists 1|exists 0|exists 0|exists 1]; reflexivity.
  - intros i Hi. destruct (N (-2304) (-2304) (-2304) (-2303) i Hi) as (-> & -> & -> & ->). destruct (i =? 0)%nat; cbn; lia.
  - split; [vm_compute; reflexivity|]. split; [vm_compute; reflexivity|]. split; [vm_compute; reflexivity|]. vm_compute. discriminate.
Qed.
Print Assumptions C84_noise_bound_best.
