(** C59: the Poly1305 code computes RFC 7539 Poly1305, however the message is
    split, and none of its sums and products overflows. *)
From Verif Require Import Base MHash MSha2 MBlake2 SSha2 SBlake2 PSha2 PSha2b PBlake2 PChaCha MPoly1305 SPoly1305 PPoly1305 PPoly1305b.

(** poly1305_init, one poly1305_update for each chunk, poly1305_finish, with
    arithmetic [w]; [buffer] is what the context happened to contain *)
Fixpoint poly1305_updates (w : Z -> Z -> outcome Z) (st : poly1305) (chunks : list (list Z)) : outcome poly1305 :=
  match chunks with
  | [] => Ok st
  | m :: chunks' => let! st := poly1305_update w st m in poly1305_updates w st chunks'
  end.
Definition poly1305_run (w : Z -> Z -> outcome Z) (buffer key : list Z) (chunks : list (list Z)) : outcome (list Z) :=
  let! st := poly1305_updates w (poly1305_init buffer key) chunks in
  let! r := poly1305_finish w st in
  Ok (snd r).

Lemma updates_holding : forall w, exact_in_range w -> forall key chunks k full rest st,
  holding key k full rest st -> Forall bytes chunks ->
  exists st' k' full' rest', poly1305_updates w st chunks = Ok st' /\
    full' ++ rest' = full ++ rest ++ concat chunks /\ holding key k' full' rest' st'.
Proof.
  intros w Hw key chunks. induction chunks as [|m chunks IH]; intros k full rest st Hh Hb.
  - exists st, k, full, rest. cbn [concat]. rewrite app_nil_r. split; [reflexivity|]. split; [reflexivity|exact Hh].
  - inversion Hb; subst. cbn [poly1305_updates concat].
    destruct (update_holding w Hw key k full rest st m Hh) as (s1 & k1 & f1 & r1 & E1 & V1 & H1'); [assumption|].
    rewrite E1. cbn [obind].
    destruct (IH k1 f1 r1 s1 H1') as (s2 & k2 & f2 & r2 & E2 & V2 & H2'); [assumption|].
    exists s2, k2, f2, r2. split; [exact E2|]. split; [|exact H2'].
    rewrite V2, app_assoc, V1. rewrite <- !app_assoc. reflexivity.
Qed.
Lemma run_ok : forall w, exact_in_range w -> forall buffer key chunks,
  bytes buffer -> zlen buffer = 16 -> bytes key -> zlen key = 32 -> Forall bytes chunks ->
  poly1305_run w buffer key chunks = Ok (poly1305_mac key (concat chunks)).
Proof.
  intros w Hw buffer key chunks Hb Lb Hk Lk0 Hc. assert (32 <= zlen key) as Lk by lia. unfold poly1305_run.
  destruct (updates_holding w Hw key chunks 0 [] [] _ (init_holding buffer key Hk Lk Hb Lb) Hc)
    as (s & k & f & r & E & V & H). rewrite E. cbn [obind].
  destruct (finish_ok w Hw key k f r s Hk Lk H) as (s' & E' & _). rewrite E'. cbn [obind snd]. rewrite V. reflexivity.
Qed.

(** The MAC is that of RFC 7539 for the concatenation of the chunks. *)
Theorem C59_is_rfc7539 : forall buffer key chunks,
  bytes buffer -> zlen buffer = 16 -> bytes key -> zlen key = 32 -> Forall bytes chunks ->
  poly1305_run wrap buffer key chunks = Ok (poly1305_mac key (concat chunks)).
Proof. apply run_ok. apply wrap_exact. Qed.
Print Assumptions C59_is_rfc7539.

(** The same run with arithmetic in which every sum, product and conversion
    that leaves its 64 or 128 bits is an error: there is none. *)
Theorem C59_no_overflow : forall buffer key chunks,
  bytes buffer -> zlen buffer = 16 -> bytes key -> zlen key = 32 -> Forall bytes chunks ->
  poly1305_run strict buffer key chunks = Ok (poly1305_mac key (concat chunks)).
Proof. apply run_ok. apply strict_exact. Qed.
Print Assumptions C59_no_overflow.

(** Finishing clears the secret parts of the state. *)
Theorem C59_state_cleared : forall buffer key chunks st st' mac,
  bytes buffer -> zlen buffer = 16 -> bytes key -> zlen key = 32 -> Forall bytes chunks ->
  poly1305_updates wrap (poly1305_init buffer key) chunks = Ok st ->
  poly1305_finish wrap st = Ok (st', mac) ->
  p_r st' = (0, 0, 0) /\ p_h st' = (0, 0, 0) /\ p_pad st' = (0, 0).
Proof.
  intros buffer key chunks st st' mac Hb Lb Hk Lk0 Hc E F. assert (32 <= zlen key) as Lk by lia.
  destruct (updates_holding wrap wrap_exact key chunks 0 [] [] _ (init_holding buffer key Hk Lk Hb Lb) Hc)
    as (s & k & f & r & E1 & V & H). rewrite E in E1. injection E1 as <-.
  destruct (finish_ok wrap wrap_exact key k f r st Hk Lk H) as (s' & E' & X). rewrite F in E'. injection E' as <- _.
  injection X as -> -> ->. auto.
Qed.
Print Assumptions C59_state_cleared.

(** The example of RFC 7539, section 2.5.2, in chunks of 20 and 14 bytes *)
Example poly1305_rfc_vector :
  let key := [0x85; 0xd6; 0xbe; 0x78; 0x57; 0x55; 0x6d; 0x33; 0x7f; 0x44; 0x52; 0xfe; 0x42; 0xd5; 0x06; 0xa8;
              0x01; 0x03; 0x80; 0x8a; 0xfb; 0x0d; 0xb2; 0xfd; 0x4a; 0xbf; 0xf6; 0xaf; 0x41; 0x49; 0xf5; 0x1b] in
  let text := [67; 114; 121; 112; 116; 111; 103; 114; 97; 112; 104; 105; 99; 32; 70; 111; 114; 117; 109; 32;
               82; 101; 115; 101; 97; 114; 99; 104; 32; 71; 114; 111; 117; 112] in
  poly1305_run wrap (zeros 16) key [take 20 text; drop 20 text]
  = Ok [0xa8; 0x06; 0x1d; 0xc1; 0x30; 0x51; 0x36; 0xc6; 0xc2; 0x2b; 0x8b; 0xaf; 0x0c; 0x01; 0x27; 0xa9].
Proof. vm_compute. reflexivity. Qed.
