(** Common vocabulary of the model: bytes, lists indexed by [Z], error codes,
    undefined behaviour, caller buffers. *)
From Coq Require Export ZArith List Lia Bool.
From Coq Require Import ZifyBool ZifyNat.
Export ListNotations.
Open Scope Z_scope.

(** ** Lists with Z lengths *)

Definition zlen {A} (l : list A) : Z := Z.of_nat (length l).
Definition take {A} (n : Z) (l : list A) : list A := firstn (Z.to_nat n) l.
Definition drop {A} (n : Z) (l : list A) : list A := skipn (Z.to_nat n) l.
(* [n] zero bytes: memset(p, 0, n) *)
Definition zeros (n : Z) : list Z := repeat 0 (Z.to_nat n).
(* the [len] bytes at offset [off] *)
Definition sub {A} (off len : Z) (l : list A) : list A := take len (drop off l).
(* [l] with the bytes from [off] on replaced by [d] *)
Definition splice {A} (off : Z) (d l : list A) : list A :=
  take off l ++ d ++ drop (off + zlen d) l.
Definition byte_at (l : list Z) (i : Z) : Z := nth (Z.to_nat i) l 0.

Arguments Z.add : simpl never.
Arguments Z.sub : simpl never.
Arguments Z.mul : simpl never.
Arguments Z.opp : simpl never.
Arguments Z.pow : simpl never.
Arguments Z.modulo : simpl never.
Arguments Z.div : simpl never.
Arguments Z.leb : simpl never.
Arguments Z.ltb : simpl never.
Arguments Z.eqb : simpl never.
Arguments Z.land : simpl never.
Arguments Z.lor : simpl never.
Arguments Z.lxor : simpl never.
Arguments Z.shiftl : simpl never.
Arguments Z.shiftr : simpl never.
Arguments Z.to_nat : simpl never.
Arguments Z.of_nat : simpl never.
Arguments zlen : simpl never.
Arguments take : simpl never.
Arguments drop : simpl never.
Arguments zeros : simpl never.
Arguments sub : simpl never.
Arguments splice : simpl never.
Arguments byte_at : simpl never.

(** A byte, and a byte string. *)
Definition is_byte (b : Z) : Prop := 0 <= b < 256.
Definition bytes (l : list Z) : Prop := Forall is_byte l.

(** ** Outcome of a C call: a result, or undefined behaviour. *)
Inductive outcome (A : Type) : Type :=
| Ok (a : A)
| UB.
Arguments Ok {A} a.
Arguments UB {A}.

Definition obind {A B} (x : outcome A) (f : A -> outcome B) : outcome B :=
  match x with Ok a => f a | UB => UB end.
Notation "'let!' x ':=' e 'in' k" := (obind e (fun x => k))
  (at level 200, x pattern, e at level 100, k at level 200, right associativity).

(** ** Error codes: include/noise/protocol/constants.h:136-153 *)
Inductive err : Type :=
| E_NONE | E_NO_MEMORY | E_UNKNOWN_ID | E_UNKNOWN_NAME | E_MAC_FAILURE
| E_NOT_APPLICABLE | E_SYSTEM | E_REMOTE_KEY_REQUIRED | E_LOCAL_KEY_REQUIRED
| E_PSK_REQUIRED | E_INVALID_LENGTH | E_INVALID_PARAM | E_INVALID_STATE
| E_INVALID_NONCE | E_INVALID_PRIVATE_KEY | E_INVALID_PUBLIC_KEY
| E_INVALID_FORMAT | E_INVALID_SIGNATURE.

Definition err_eqb (a b : err) : bool :=
  match a, b with
  | E_NONE, E_NONE | E_NO_MEMORY, E_NO_MEMORY | E_UNKNOWN_ID, E_UNKNOWN_ID
  | E_UNKNOWN_NAME, E_UNKNOWN_NAME | E_MAC_FAILURE, E_MAC_FAILURE
  | E_NOT_APPLICABLE, E_NOT_APPLICABLE | E_SYSTEM, E_SYSTEM
  | E_REMOTE_KEY_REQUIRED, E_REMOTE_KEY_REQUIRED
  | E_LOCAL_KEY_REQUIRED, E_LOCAL_KEY_REQUIRED
  | E_PSK_REQUIRED, E_PSK_REQUIRED | E_INVALID_LENGTH, E_INVALID_LENGTH
  | E_INVALID_PARAM, E_INVALID_PARAM | E_INVALID_STATE, E_INVALID_STATE
  | E_INVALID_NONCE, E_INVALID_NONCE
  | E_INVALID_PRIVATE_KEY, E_INVALID_PRIVATE_KEY
  | E_INVALID_PUBLIC_KEY, E_INVALID_PUBLIC_KEY
  | E_INVALID_FORMAT, E_INVALID_FORMAT
  | E_INVALID_SIGNATURE, E_INVALID_SIGNATURE => true
  | _, _ => false
  end.
Definition is_none (e : err) : bool := err_eqb e E_NONE.

(** ** Identifiers: NOISE_ID(ch,num), include/noise/protocol/constants.h:32 *)
Definition NOISE_ID (ch num : Z) : Z := Z.lor (Z.shiftl ch 8) num.

(** include/noise/protocol/constants.h:155-156 *)
Definition MAX_PAYLOAD_LEN : Z := 65535.

(** ** Pointers
    A pointer to constant bytes is [None] (NULL) or the bytes that may be read
    through it.  Reading beyond them is undefined behaviour. *)
Definition cptr := option (list Z).

Definition read_ptr (p : cptr) (len : Z) : outcome (list Z) :=
  match p with
  | None => if len =? 0 then Ok [] else UB
  | Some l => if len <=? zlen l then Ok (take len l) else UB
  end.

(** ** NoiseBuffer: include/noise/protocol/buffer.h:31-38
    [b_data] is the storage behind the data pointer (None = NULL); it may be
    longer than [b_max], so that overruns would be visible. *)
Record nbuf : Type := NBuf { b_data : cptr; b_size : Z; b_max : Z }.

(* Checked store of [d] at offset [off]. *)
Definition store (mem : list Z) (off : Z) (d : list Z) : outcome (list Z) :=
  if (0 <=? off) && (off + zlen d <=? zlen mem) then Ok (splice off d mem)
  else UB.
(* Checked load of [len] bytes at offset [off]. *)
Definition load (mem : list Z) (off len : Z) : outcome (list Z) :=
  if (0 <=? off) && (0 <=? len) && (off + len <=? zlen mem)
  then Ok (sub off len mem) else UB.

(** The caller's side of the contract for a buffer: sizes are size_t values and
    the storage holds at least max_size bytes.  (size <= max_size is not
    assumed: the code checks it.) *)
Definition buf_ok (b : nbuf) : Prop :=
  0 <= b_size b /\ 0 <= b_max b /\
  match b_data b with None => True | Some mem => b_max b <= zlen mem /\ bytes mem end.

(** ** Basic list lemmas *)
Lemma zlen_nil : forall A, zlen (@nil A) = 0.
Proof. reflexivity. Qed.
Lemma zlen_cons : forall A (x : A) l, zlen (x :: l) = 1 + zlen l.
Proof. intros; unfold zlen; cbn [length]; lia. Qed.
Lemma zlen_app : forall A (l m : list A), zlen (l ++ m) = zlen l + zlen m.
Proof. intros; unfold zlen; rewrite app_length; lia. Qed.
Lemma zlen_nonneg : forall A (l : list A), 0 <= zlen l.
Proof. intros; unfold zlen; lia. Qed.
Lemma zlen_map : forall A B (f : A -> B) l, zlen (map f l) = zlen l.
Proof. intros; unfold zlen; now rewrite map_length. Qed.
Lemma zlen_rev : forall A (l : list A), zlen (rev l) = zlen l.
Proof. intros; unfold zlen; now rewrite rev_length. Qed.
Lemma zlen_repeat : forall A (x : A) n, zlen (repeat x n) = Z.of_nat n.
Proof. intros; unfold zlen; now rewrite repeat_length. Qed.
Lemma zlen_zeros : forall n, 0 <= n -> zlen (zeros n) = n.
Proof. intros; unfold zeros; rewrite zlen_repeat; lia. Qed.
Lemma zlen_take : forall A n (l : list A), zlen (take n l) = Z.max 0 (Z.min n (zlen l)).
Proof. intros; unfold zlen, take; rewrite firstn_length; lia. Qed.
Lemma zlen_drop : forall A n (l : list A), zlen (drop n l) = Z.max 0 (zlen l - Z.max 0 n).
Proof. intros; unfold zlen, drop; rewrite skipn_length; lia. Qed.
Lemma zlen_sub : forall A off len (l : list A), 0 <= off -> 0 <= len ->
  off + len <= zlen l -> zlen (sub off len l) = len.
Proof. intros; unfold sub; rewrite zlen_take, zlen_drop; lia. Qed.
Lemma zlen_0_nil : forall A (l : list A), zlen l <= 0 -> l = [].
Proof. intros A [|x l] H; auto. rewrite zlen_cons in H. pose proof (zlen_nonneg A l); lia. Qed.

Lemma take_le0 : forall A n (l : list A), n <= 0 -> take n l = [].
Proof. intros; unfold take; replace (Z.to_nat n) with O by lia; auto. Qed.
Lemma drop_le0 : forall A n (l : list A), n <= 0 -> drop n l = l.
Proof. intros; unfold drop; replace (Z.to_nat n) with O by lia; auto. Qed.
Lemma take_all : forall A n (l : list A), zlen l <= n -> take n l = l.
Proof. intros; unfold take, zlen in *; apply firstn_all2; lia. Qed.
Lemma drop_all : forall A n (l : list A), zlen l <= n -> drop n l = [].
Proof. intros; unfold drop, zlen in *; apply skipn_all2; lia. Qed.
Lemma take_drop : forall A n (l : list A), take n l ++ drop n l = l.
Proof. intros; unfold take, drop; apply firstn_skipn. Qed.
Lemma take_app_le : forall A n (l m : list A), n <= zlen l -> take n (l ++ m) = take n l.
Proof.
  intros; unfold take, zlen in *; rewrite firstn_app.
  replace (Z.to_nat n - length l)%nat with O by lia. cbn; now rewrite app_nil_r.
Qed.
Lemma take_app_ge : forall A n (l m : list A), zlen l <= n ->
  take n (l ++ m) = l ++ take (n - zlen l) m.
Proof.
  intros; unfold take, zlen in *; rewrite firstn_app, firstn_all2 by lia.
  do 2 f_equal; lia.
Qed.
Lemma drop_app_le : forall A n (l m : list A), n <= zlen l -> drop n (l ++ m) = drop n l ++ m.
Proof.
  intros; unfold drop, zlen in *; rewrite skipn_app.
  replace (Z.to_nat n - length l)%nat with O by lia. reflexivity.
Qed.
Lemma drop_app_ge : forall A n (l m : list A), zlen l <= n ->
  drop n (l ++ m) = drop (n - zlen l) m.
Proof.
  intros; unfold drop, zlen in *; rewrite skipn_app, skipn_all2 by lia. cbn.
  f_equal; lia.
Qed.
Lemma take_app_exact : forall A (l m : list A), take (zlen l) (l ++ m) = l.
Proof. intros; rewrite take_app_le by lia; apply take_all; lia. Qed.
Lemma drop_app_exact : forall A (l m : list A), drop (zlen l) (l ++ m) = m.
Proof. intros; rewrite drop_app_ge by lia; apply drop_le0; lia. Qed.
Lemma take_take : forall A n m (l : list A), take n (take m l) = take (Z.min n m) l.
Proof. intros; unfold take; rewrite firstn_firstn; f_equal; lia. Qed.
Lemma drop_drop : forall A n m (l : list A), 0 <= n -> 0 <= m -> drop n (drop m l) = drop (n + m) l.
Proof.
  intros A n m l Hn Hm; unfold drop. replace (Z.to_nat (n+m)) with (Z.to_nat m + Z.to_nat n)%nat by lia.
  generalize (Z.to_nat n) (Z.to_nat m); clear. intros n m; revert n l.
  induction m; intros n l; cbn; auto. destruct l; auto. now rewrite skipn_nil.
Qed.
Lemma take_drop_comm : forall A n m (l : list A), 0 <= n -> 0 <= m ->
  take n (drop m l) = drop m (take (n + m) l).
Proof.
  intros A n m l Hn Hm; unfold take, drop. replace (Z.to_nat (n+m)) with (Z.to_nat m + Z.to_nat n)%nat by lia.
  apply firstn_skipn_comm.
Qed.

Lemma splice_length : forall A off (d l : list A), 0 <= off -> off + zlen d <= zlen l ->
  zlen (splice off d l) = zlen l.
Proof.
  intros; unfold splice; rewrite !zlen_app, zlen_take, zlen_drop.
  pose proof (zlen_nonneg A d); lia.
Qed.
Lemma splice_sub_same : forall A off (d l : list A), 0 <= off -> off + zlen d <= zlen l ->
  sub off (zlen d) (splice off d l) = d.
Proof.
  intros A off d l H H0; unfold sub, splice. pose proof (zlen_nonneg A d).
  rewrite drop_app_ge by (rewrite zlen_take; lia).
  rewrite (drop_le0 _ (_ - _)) by (rewrite zlen_take; lia).
  apply take_app_exact.
Qed.
Lemma splice_take_before : forall A n off (d l : list A), 0 <= off -> n <= off -> off <= zlen l ->
  take n (splice off d l) = take n l.
Proof.
  intros; unfold splice. rewrite take_app_le by (rewrite zlen_take; lia).
  rewrite take_take; f_equal; lia.
Qed.
Lemma splice_drop_after : forall A n off (d l : list A), 0 <= off -> off + zlen d <= n ->
  off + zlen d <= zlen l -> drop n (splice off d l) = drop n l.
Proof.
  intros A n off d l H H0 H1; unfold splice. pose proof (zlen_nonneg A d).
  rewrite drop_app_ge by (rewrite zlen_take; lia).
  rewrite drop_app_ge by (rewrite zlen_take; lia).
  rewrite drop_drop by (rewrite ?zlen_take; lia). f_equal; rewrite zlen_take; lia.
Qed.

Lemma bytes_app : forall l m, bytes (l ++ m) <-> bytes l /\ bytes m.
Proof. intros; apply Forall_app. Qed.
Lemma Forall_firstn' : forall A (P : A -> Prop) n l, Forall P l -> Forall P (firstn n l).
Proof. intros A P n; induction n; intros [|x l] H; cbn; auto; inversion H; subst; constructor; auto. Qed.
Lemma Forall_skipn' : forall A (P : A -> Prop) n l, Forall P l -> Forall P (skipn n l).
Proof. intros A P n; induction n; intros [|x l] H; cbn; auto; inversion H; subst; auto. Qed.
Lemma bytes_take : forall n l, bytes l -> bytes (take n l).
Proof. intros; apply Forall_firstn'; auto. Qed.
Lemma bytes_drop : forall n l, bytes l -> bytes (drop n l).
Proof. intros; apply Forall_skipn'; auto. Qed.
Lemma bytes_sub : forall a n l, bytes l -> bytes (sub a n l).
Proof. intros; apply bytes_take, bytes_drop; auto. Qed.
Lemma bytes_repeat : forall b n, is_byte b -> bytes (repeat b n).
Proof. intros b n H; induction n; cbn; constructor; auto. Qed.
Lemma bytes_zeros : forall n, bytes (zeros n).
Proof. intros; apply bytes_repeat; unfold is_byte; lia. Qed.
Lemma bytes_splice : forall off d l, bytes d -> bytes l -> bytes (splice off d l).
Proof.
  intros; unfold splice; rewrite !bytes_app; split; [apply bytes_take|split;[|apply bytes_drop]]; auto.
Qed.

Lemma err_eqb_eq : forall a b, err_eqb a b = true <-> a = b.
Proof. intros a b; split; [destruct a; destruct b; cbn; congruence | intros ->; destruct b; reflexivity]. Qed.
Lemma is_none_true : forall e, is_none e = true <-> e = E_NONE.
Proof. intros; apply err_eqb_eq. Qed.
Lemma is_none_false : forall e, is_none e = false <-> e <> E_NONE.
Proof. intros e; rewrite <- is_none_true; destruct (is_none e); split; congruence. Qed.

Lemma store_ok : forall mem off d, 0 <= off -> off + zlen d <= zlen mem ->
  store mem off d = Ok (splice off d mem).
Proof. intros; unfold store. destruct (Z.leb_spec 0 off), (Z.leb_spec (off + zlen d) (zlen mem)); cbn; auto; lia. Qed.
Lemma load_ok : forall mem off n, 0 <= off -> 0 <= n -> off + n <= zlen mem ->
  load mem off n = Ok (sub off n mem).
Proof.
  intros; unfold load.
  destruct (Z.leb_spec 0 off), (Z.leb_spec 0 n), (Z.leb_spec (off + n) (zlen mem)); cbn; auto; lia.
Qed.
Lemma splice_0 : forall A (d l : list A), splice 0 d l = d ++ drop (zlen d) l.
Proof. intros; unfold splice. rewrite take_le0 by lia. cbn. f_equal. Qed.
