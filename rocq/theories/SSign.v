(** Specification vocabulary for SignState (C64): a program with any number of
    SignState objects, and what it should observe. *)
From Verif Require Import Base MUtil MDh MSign SCipher SDh SUtil.

(** ** Programs
    The objects are numbered; a number without an object is the NULL pointer.
    Pointers are storage contents; None is NULL. *)
Inductive sg_op : Type :=
| SNew (id : Z)
| SGenerate (i : nat) (rng : Z -> list Z)
| SSetKeypair (i : nat) (priv : cptr) (priv_len : Z) (pub : cptr) (pub_len : Z)
| SSetPrivate (i : nat) (priv : cptr) (priv_len : Z)
| SSetPublic (i : nat) (pub : cptr) (pub_len : Z)
| SClear (i : nat)
| SCopy (i from : nat)
| SHasKeypair (i : nat)
| SHasPublic (i : nat)
| SGetKeypair (i : nat) (priv : cptr) (priv_len : Z) (pub : cptr) (pub_len : Z)
| SGetPublic (i : nat) (pub : cptr) (pub_len : Z)
| SSign (i : nat) (message : cptr) (message_len : Z) (signature : cptr) (signature_len : Z)
| SVerify (i : nat) (message : cptr) (message_len : Z) (signature : cptr) (signature_len : Z)
| SFingerprint (i : nat) (type : Z) (buffer : cptr) (len : Z).

(** What the program sees: an error code or a truth value, and the contents of
    the buffers it passed for output. *)
Record sg_seen : Type := Seen { seen_error : err; seen_flag : bool; seen_buffers : list cptr }.
Definition code (e : err) : sg_seen := Seen e false [].
Definition flag (b : bool) : sg_seen := Seen E_NONE b [].
Definition wrote (e : err) (bufs : list cptr) : sg_seen := Seen e false bufs.

(** ** The library's side *)
Fixpoint set_nth {A} (i : nat) (x : A) (l : list A) : list A :=
  match l, i with
  | [], _ => []
  | _ :: r, O => x :: r
  | y :: r, S i => y :: set_nth i x r
  end.
Definition put (i : nat) (r : err * option signstate) (pool : list signstate) : sg_seen * list signstate :=
  (code (fst r), match snd r with Some s => set_nth i s pool | None => pool end).

Section Program.
Variable publickey : list Z -> list Z.
Variable sign : list Z -> list Z -> list Z -> list Z.
Variable sign_open : list Z -> list Z -> list Z -> bool.

Definition sg_step (pool : list signstate) (op : sg_op) : outcome (sg_seen * list signstate) :=
  let obj := nth_error pool in
  match op with
  | SNew id => let '(e, s) := signstate_new_by_id id in
      Ok (code e, match s with Some s => pool ++ [s] | None => pool end)
  | SGenerate i rng => Ok (put i (signstate_generate_keypair publickey rng (obj i)) pool)
  | SSetKeypair i p n q m => let! r := signstate_set_keypair publickey (obj i) p n q m in Ok (put i r pool)
  | SSetPrivate i p n => let! r := signstate_set_keypair_private publickey (obj i) p n in Ok (put i r pool)
  | SSetPublic i q m => let! r := signstate_set_public_key (obj i) q m in Ok (put i r pool)
  | SClear i => Ok (put i (signstate_clear_key (obj i)) pool)
  | SCopy i from => Ok (put i (signstate_copy (obj i) (obj from)) pool)
  | SHasKeypair i => Ok (flag (signstate_has_keypair (obj i)), pool)
  | SHasPublic i => Ok (flag (signstate_has_public_key (obj i)), pool)
  | SGetKeypair i p n q m =>
      let! r := signstate_get_keypair (obj i) p n q m in
      let '(e, p', q') := r in Ok (wrote e [p'; q'], pool)
  | SGetPublic i q m => let! r := signstate_get_public_key (obj i) q m in Ok (wrote (fst r) [snd r], pool)
  | SSign i m ml g gl => let! r := signstate_sign sign (obj i) m ml g gl in Ok (wrote (fst r) [snd r], pool)
  | SVerify i m ml g gl => let! e := signstate_verify sign_open (obj i) m ml g gl in Ok (code e, pool)
  | SFingerprint i t b n => let! r := signstate_format_fingerprint (obj i) t b n in Ok (wrote (fst r) [snd r], pool)
  end.
Fixpoint sg_run (pool : list signstate) (ops : list sg_op) : outcome (list sg_seen * list signstate) :=
  match ops with
  | [] => Ok ([], pool)
  | op :: ops =>
    let! r := sg_step pool op in
    let! r' := sg_run (snd r) ops in
    Ok (fst r :: fst r', snd r')
  end.

(** ** What it should see
    An object holds nothing, somebody's public key, or a key pair; nothing else
    about it can be observed. *)
Inductive holds_key : Type := HNothing | HPublic (pub : list Z) | HPair (priv pub : list Z).

Definition secret_of (h : holds_key) : option (list Z * list Z) :=
  match h with HPair k q => Some (k, q) | _ => None end.
Definition public_of (h : holds_key) : option (list Z) :=
  match h with HPair _ q => Some q | HPublic q => Some q | HNothing => None end.

(** The private keys Ed25519 key generation may produce from 32 random bytes *)
Definition fresh_key (r : list Z) : list Z :=
  [byte_at r 0 - byte_at r 0 mod 8] ++ sub 1 30 r ++ [64 + byte_at r 31 mod 64].

(** [buf] with its first bytes replaced by [l] *)
Definition filled_with (l : list Z) (buf : list Z) : cptr := Some (l ++ drop (zlen l) buf).

(** The fingerprint of a held public key in a buffer of [n] bytes (C41): the
    text and its NUL, or the empty string. *)
Definition fingerprint_size (t : Z) : option Z :=
  if t =? FINGERPRINT_BASIC then Some 16 else if t =? FINGERPRINT_FULL then Some 32 else None.
Definition shows_fingerprint (t : Z) (q b : list Z) (n : Z) (seen : sg_seen) : Prop :=
  exists b', seen_buffers seen = [Some b'] /\ zlen b' = zlen b /\ drop n b' = drop n b /\
  match fingerprint_size t with
  | None => seen_error seen = E_INVALID_PARAM /\ holds_string b' []
  | Some k => if zlen (fingerprint k q) <? n
              then seen_error seen = E_NONE /\ holds_string b' (fingerprint k q)
              else seen_error seen = E_INVALID_LENGTH /\ holds_string b' []
  end.

(** Setting what object [i] holds; None: there is no such object. *)
Definition update (hs : list holds_key) (i : nat) (n : holds_key) : list holds_key := set_nth i n hs.

(** One call: [expects hs op seen hs'] says what the call must report when the
    objects hold [hs], and what they hold afterwards. *)
Inductive expects (hs : list holds_key) : sg_op -> sg_seen -> list holds_key -> Prop :=
| x_new : expects hs (SNew SIGN_ED25519) (code E_NONE) (hs ++ [HNothing])
| x_new_unknown : forall id, id <> SIGN_ED25519 -> expects hs (SNew id) (code E_UNKNOWN_ID) hs
| x_generate : forall i h rng, nth_error hs i = Some h ->
    expects hs (SGenerate i rng) (code E_NONE) (update hs i (HPair (fresh_key (rng 32)) (publickey (fresh_key (rng 32)))))
| x_pair : forall i h k q, nth_error hs i = Some h -> 32 <= zlen k -> 32 <= zlen q ->
    publickey (take 32 k) = take 32 q ->
    expects hs (SSetKeypair i (Some k) 32 (Some q) 32) (code E_NONE) (update hs i (HPair (take 32 k) (take 32 q)))
| x_pair_mismatch : forall i h k q, nth_error hs i = Some h -> 32 <= zlen k -> 32 <= zlen q ->
    publickey (take 32 k) <> take 32 q ->
    expects hs (SSetKeypair i (Some k) 32 (Some q) 32) (code E_INVALID_PUBLIC_KEY) hs
| x_pair_length : forall i h k n q m, nth_error hs i = Some h -> n <> 32 \/ m <> 32 ->
    expects hs (SSetKeypair i (Some k) n (Some q) m) (code E_INVALID_LENGTH) hs
| x_pair_null : forall i k n q m, nth_error hs i = None \/ k = None \/ q = None ->
    expects hs (SSetKeypair i k n q m) (code E_INVALID_PARAM) hs
| x_private : forall i h k, nth_error hs i = Some h -> 32 <= zlen k ->
    expects hs (SSetPrivate i (Some k) 32) (code E_NONE) (update hs i (HPair (take 32 k) (publickey (take 32 k))))
| x_private_length : forall i h k n, nth_error hs i = Some h -> n <> 32 ->
    expects hs (SSetPrivate i (Some k) n) (code E_INVALID_LENGTH) hs
| x_private_null : forall i k n, nth_error hs i = None \/ k = None ->
    expects hs (SSetPrivate i k n) (code E_INVALID_PARAM) hs
| x_public : forall i h q, nth_error hs i = Some h -> 32 <= zlen q ->
    expects hs (SSetPublic i (Some q) 32) (code E_NONE) (update hs i (HPublic (take 32 q)))
| x_public_length : forall i h q n, nth_error hs i = Some h -> n <> 32 ->
    expects hs (SSetPublic i (Some q) n) (code E_INVALID_LENGTH) hs
| x_public_null : forall i q n, nth_error hs i = None \/ q = None ->
    expects hs (SSetPublic i q n) (code E_INVALID_PARAM) hs
| x_clear : forall i h, nth_error hs i = Some h -> expects hs (SClear i) (code E_NONE) (update hs i HNothing)
| x_copy : forall i j h h', nth_error hs i = Some h -> nth_error hs j = Some h' ->
    expects hs (SCopy i j) (code E_NONE) (update hs i h')
| x_no_object : forall i op, nth_error hs i = None ->
    (exists rng, op = SGenerate i rng) \/ op = SClear i \/ (exists j, op = SCopy i j) \/ (exists j, op = SCopy j i) ->
    expects hs op (code E_INVALID_PARAM) hs
| x_has_pair : forall i,
    expects hs (SHasKeypair i)
      (flag match nth_error hs i with Some h => match secret_of h with Some _ => true | None => false end | None => false end) hs
| x_has_public : forall i,
    expects hs (SHasPublic i)
      (flag match nth_error hs i with Some h => match public_of h with Some _ => true | None => false end | None => false end) hs
| x_get_pair : forall i h k q p' q', nth_error hs i = Some h -> secret_of h = Some (k, q) -> 32 <= zlen p' -> 32 <= zlen q' ->
    expects hs (SGetKeypair i (Some p') 32 (Some q') 32) (wrote E_NONE [filled_with k p'; filled_with q q']) hs
| x_get_pair_none : forall i h p' q', nth_error hs i = Some h -> secret_of h = None -> 32 <= zlen p' -> 32 <= zlen q' ->
    expects hs (SGetKeypair i (Some p') 32 (Some q') 32)
      (wrote E_INVALID_STATE [filled_with (zeros 32) p'; filled_with (zeros 32) q']) hs
| x_get_pair_length : forall i h p' n q' m, nth_error hs i = Some h -> n <> 32 \/ m <> 32 ->
    expects hs (SGetKeypair i (Some p') n (Some q') m) (wrote E_INVALID_LENGTH [Some p'; Some q']) hs
| x_get_pair_null : forall i p' n q' m, nth_error hs i = None \/ p' = None \/ q' = None ->
    expects hs (SGetKeypair i p' n q' m) (wrote E_INVALID_PARAM [p'; q']) hs
| x_get_public : forall i h q q', nth_error hs i = Some h -> public_of h = Some q -> 32 <= zlen q' ->
    expects hs (SGetPublic i (Some q') 32) (wrote E_NONE [filled_with q q']) hs
| x_get_public_none : forall i h q', nth_error hs i = Some h -> public_of h = None ->
    expects hs (SGetPublic i (Some q') 32) (wrote E_INVALID_STATE [Some q']) hs
| x_get_public_length : forall i h q' n, nth_error hs i = Some h -> n <> 32 ->
    expects hs (SGetPublic i (Some q') n) (wrote E_INVALID_LENGTH [Some q']) hs
| x_get_public_null : forall i q' n, nth_error hs i = None \/ q' = None ->
    expects hs (SGetPublic i q' n) (wrote E_INVALID_PARAM [q']) hs
| x_sign : forall i h k q m ml g, nth_error hs i = Some h -> secret_of h = Some (k, q) -> 64 <= zlen g ->
    0 <= ml <= zlen m ->
    expects hs (SSign i (Some m) ml (Some g) 64) (wrote E_NONE [filled_with (sign (take ml m) k q) g]) hs
| x_sign_no_key : forall i h m ml g, nth_error hs i = Some h -> secret_of h = None ->
    expects hs (SSign i (Some m) ml (Some g) 64) (wrote E_INVALID_PRIVATE_KEY [Some g]) hs
| x_sign_length : forall i h m ml g n, nth_error hs i = Some h -> n <> 64 ->
    expects hs (SSign i (Some m) ml (Some g) n) (wrote E_INVALID_LENGTH [Some g]) hs
| x_sign_null : forall i m ml g n, nth_error hs i = None \/ m = None \/ g = None ->
    expects hs (SSign i m ml g n) (wrote E_INVALID_PARAM [g]) hs
| x_verify : forall i h q m ml g, nth_error hs i = Some h -> public_of h = Some q ->
    expects hs (SVerify i (Some m) ml (Some g) 64)
      (code (if sign_open (take ml m) q (take 64 g) then E_NONE else E_INVALID_SIGNATURE)) hs
| x_verify_no_key : forall i h m ml g, nth_error hs i = Some h -> public_of h = None ->
    expects hs (SVerify i (Some m) ml (Some g) 64) (code E_INVALID_PUBLIC_KEY) hs
| x_verify_length : forall i h m ml g n, nth_error hs i = Some h -> n <> 64 ->
    expects hs (SVerify i (Some m) ml (Some g) n) (code E_INVALID_LENGTH) hs
| x_verify_null : forall i m ml g n, nth_error hs i = None \/ m = None \/ g = None ->
    expects hs (SVerify i m ml g n) (code E_INVALID_PARAM) hs
| x_finger : forall i h q t b n seen, nth_error hs i = Some h -> public_of h = Some q -> 0 < n <= zlen b ->
    seen_flag seen = false -> shows_fingerprint t q b n seen ->
    expects hs (SFingerprint i t (Some b) n) seen hs
| x_finger_no_key : forall i h t b n, nth_error hs i = Some h -> public_of h = None -> n <> 0 ->
    expects hs (SFingerprint i t (Some b) n) (wrote E_INVALID_STATE [filled_with [0] b]) hs
| x_finger_no_object : forall i t b n, nth_error hs i = None -> n <> 0 ->
    expects hs (SFingerprint i t (Some b) n) (wrote E_INVALID_PARAM [filled_with [0] b]) hs
| x_finger_length : forall i t b,
    expects hs (SFingerprint i t (Some b) 0) (wrote E_INVALID_LENGTH [Some b]) hs
| x_finger_null : forall i t n, expects hs (SFingerprint i t None n) (wrote E_INVALID_PARAM [None]) hs.

Inductive expects_all : list holds_key -> list sg_op -> list sg_seen -> list holds_key -> Prop :=
| xa_nil : forall hs, expects_all hs [] [] hs
| xa_cons : forall hs op seen hs1 ops seens hs2,
    expects hs op seen hs1 -> expects_all hs1 ops seens hs2 ->
    expects_all hs (op :: ops) (seen :: seens) hs2.
End Program.

(** The buffers of a call exist: each has at least the length passed for it and
    contains bytes; the random source delivers what it is asked for. *)
Definition sg_op_ok (op : sg_op) : Prop :=
  match op with
  | SNew _ | SClear _ | SCopy _ _ | SHasKeypair _ | SHasPublic _ => True
  | SGenerate _ rng => rng_ok rng
  | SSetKeypair _ p n q m | SGetKeypair _ p n q m => ptr_ok p n /\ ptr_ok q m
  | SSetPrivate _ p n | SSetPublic _ p n | SGetPublic _ p n => ptr_ok p n
  | SSign _ m ml g gl | SVerify _ m ml g gl => ptr_ok m ml /\ ptr_ok g gl
  | SFingerprint _ _ b n => ptr_ok b n
  end.

(** The Ed25519 functions deliver 32 and 64 bytes. *)
Definition ed25519_shape (publickey : list Z -> list Z) (sign : list Z -> list Z -> list Z -> list Z) : Prop :=
  (forall k, sized 32 k -> sized 32 (publickey k)) /\
  (forall m k q, bytes m -> sized 32 k -> sized 32 q -> sized 64 (sign m k q)).
