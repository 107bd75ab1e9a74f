(** C82: on machines without 128-bit integers the Poly1305 code computes RFC 7539
    Poly1305, however the message is split, for both sizes of unsigned long, and
    none of its sums, products and conversions overflows. *)
From Verif Require Import Base MHash MSha2 MBlake2 SSha2 SBlake2 PSha2 PSha2b PBlake2 PChaCha MPoly1305 SPoly1305 PPoly1305 PPoly1305b TPoly1305 MPoly32 PPoly32 PPoly32b.

(** poly1305_init, one poly1305_update for each chunk, poly1305_finish, with
    unsigned long of [lw] bits and arithmetic [w]; [buffer] is what the context
    happened to contain *)
Fixpoint poly32_updates (lw : Z) (w : Z -> Z -> outcome Z) (st : poly32) (chunks : list (list Z)) : outcome poly32 :=
  match chunks with
  | [] => Ok st
  | m :: chunks' => let! st := poly32_update lw w st m in poly32_updates lw w st chunks'
  end.
Definition poly32_run (lw : Z) (w : Z -> Z -> outcome Z) (buffer key : list Z) (chunks : list (list Z)) : outcome (list Z) :=
  let! st := poly32_updates lw w (poly32_init buffer key) chunks in
  let! r := poly32_finish lw w st in
  Ok (snd r).

Lemma updates_holding32 : forall lw, lw = 32 \/ lw = 64 -> forall w, exact_in_range w -> forall key chunks k full rest st,
  holding32 key k full rest st -> Forall bytes chunks ->
  exists st' k' full' rest', poly32_updates lw w st chunks = Ok st' /\
    full' ++ rest' = full ++ rest ++ concat chunks /\ holding32 key k' full' rest' st'.
Proof.
  intros lw Hlw w Hw key chunks. induction chunks as [|m chunks IH]; intros k full rest st Hh Hb.
  - exists st, k, full, rest. cbn [concat]. rewrite app_nil_r. split; [reflexivity|]. split; [reflexivity|exact Hh].
  - inversion Hb; subst. cbn [poly32_updates concat].
    destruct (update_holding32 lw Hlw w Hw key k full rest st m Hh) as (s1 & k1 & f1 & r1 & E1 & V1 & H1'); [assumption|].
    rewrite E1. cbn [obind].
    destruct (IH k1 f1 r1 s1 H1') as (s2 & k2 & f2 & r2 & E2 & V2 & H2'); [assumption|].
    exists s2, k2, f2, r2. split; [exact E2|]. split; [|exact H2'].
    rewrite V2, app_assoc, V1. rewrite <- !app_assoc. reflexivity.
Qed.
Lemma run32_ok : forall lw, lw = 32 \/ lw = 64 -> forall w, exact_in_range w -> forall buffer key chunks,
  bytes buffer -> zlen buffer = 16 -> bytes key -> zlen key = 32 -> Forall bytes chunks ->
  poly32_run lw w buffer key chunks = Ok (poly1305_mac key (concat chunks)).
Proof.
  intros lw Hlw w Hw buffer key chunks Hb Lb Hk Lk0 Hc. assert (32 <= zlen key) as Lk by lia. unfold poly32_run.
  destruct (updates_holding32 lw Hlw w Hw key chunks 0 [] [] _ (init_holding32 buffer key Hk Lk Hb Lb) Hc)
    as (s & k & f & r & E & V & H). rewrite E. cbn [obind].
  destruct (finish32_ok lw Hlw w Hw key k f r s Hk Lk H) as (s' & E' & _). rewrite E'. cbn [obind snd]. rewrite V. reflexivity.
Qed.

(** The MAC is that of RFC 7539 for the concatenation of the chunks. *)
Theorem C82_is_rfc7539 : forall lw buffer key chunks, lw = 32 \/ lw = 64 ->
  bytes buffer -> zlen buffer = 16 -> bytes key -> zlen key = 32 -> Forall bytes chunks ->
  poly32_run lw wrap buffer key chunks = Ok (poly1305_mac key (concat chunks)).
Proof. intros. apply run32_ok; auto. apply wrap_exact. Qed.
Print Assumptions C82_is_rfc7539.

(** The same run with arithmetic in which every sum, product and conversion that
    leaves its width is an error: there is none. *)
Theorem C82_no_overflow : forall lw buffer key chunks, lw = 32 \/ lw = 64 ->
  bytes buffer -> zlen buffer = 16 -> bytes key -> zlen key = 32 -> Forall bytes chunks ->
  poly32_run lw strict buffer key chunks = Ok (poly1305_mac key (concat chunks)).
Proof. intros. apply run32_ok; auto. apply strict_exact. Qed.
Print Assumptions C82_no_overflow.

(** Machines of the two kinds give the same MAC, whatever the split of the message
    on each: what one authenticates the other accepts. *)
Theorem C82_interoperates : forall lw buffer buffer' key chunks chunks', lw = 32 \/ lw = 64 ->
  bytes buffer -> zlen buffer = 16 -> bytes buffer' -> zlen buffer' = 16 -> bytes key -> zlen key = 32 ->
  Forall bytes chunks -> Forall bytes chunks' -> concat chunks = concat chunks' ->
  poly32_run lw wrap buffer key chunks = poly1305_run wrap buffer' key chunks'.
Proof. intros. rewrite C82_is_rfc7539, C59_is_rfc7539 by assumption. congruence. Qed.
Print Assumptions C82_interoperates.

(** Finishing clears the secret parts of the state. *)
Theorem C82_state_cleared : forall lw buffer key chunks st st' mac, lw = 32 \/ lw = 64 ->
  bytes buffer -> zlen buffer = 16 -> bytes key -> zlen key = 32 -> Forall bytes chunks ->
  poly32_updates lw wrap (poly32_init buffer key) chunks = Ok st ->
  poly32_finish lw wrap st = Ok (st', mac) ->
  q_r st' = (0, 0, 0, 0, 0) /\ q_h st' = (0, 0, 0, 0, 0) /\ q_pad st' = (0, 0, 0, 0).
Proof.
  intros lw buffer key chunks st st' mac Hlw Hb Lb Hk Lk0 Hc E F. assert (32 <= zlen key) as Lk by lia.
  destruct (updates_holding32 lw Hlw wrap wrap_exact key chunks 0 [] [] _ (init_holding32 buffer key Hk Lk Hb Lb) Hc)
    as (s & k & f & r & E1 & V & H). rewrite E in E1. injection E1 as <-.
  destruct (finish32_ok lw Hlw wrap wrap_exact key k f r st Hk Lk H) as (s' & E' & X). rewrite F in E'. injection E' as <- _.
  injection X as -> -> ->. auto.
Qed.
Print Assumptions C82_state_cleared.

(** The example of RFC 7539, section 2.5.2, in chunks of 20 and 14 bytes *)
Example poly32_rfc_vector :
  let key := [0x85; 0xd6; 0xbe; 0x78; 0x57; 0x55; 0x6d; 0x33; 0x7f; 0x44; 0x52; 0xfe; 0x42; 0xd5; 0x06; 0xa8;
              0x01; 0x03; 0x80; 0x8a; 0xfb; 0x0d; 0xb2; 0xfd; 0x4a; 0xbf; 0xf6; 0xaf; 0x41; 0x49; 0xf5; 0x1b] in
  let text := [67; 114; 121; 112; 116; 111; 103; 114; 97; 112; 104; 105; 99; 32; 70; 111; 114; 117; 109; 32;
               82; 101; 115; 101; 97; 114; 99; 104; 32; 71; 114; 111; 117; 112] in
  let tag := [0xa8; 0x06; 0x1d; 0xc1; 0x30; 0x51; 0x36; 0xc6; 0xc2; 0x2b; 0x8b; 0xaf; 0x0c; 0x01; 0x27; 0xa9] in
  poly32_run 32 strict (zeros 16) key [take 20 text; drop 20 text] = Ok tag /\
  poly32_run 64 strict (zeros 16) key [take 20 text; drop 20 text] = Ok tag.
Proof. vm_compute. split; reflexivity. Qed.
