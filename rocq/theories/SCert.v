(** Specification for certificate and key objects: the message types of
    doc/noise-certificate.proto and the rules of Protocol Buffers for reading a
    message (developers.google.com/protocol-buffers/docs/encoding). *)
From Verif Require Import Base MProto SProto MCert.

(** ** Messages of doc/noise-certificate.proto: field number and type of each
    field, in the order of the struct members that hold them *)
Definition schema (m : mtype) : list (Z * kind) :=
  match m with
  | Certificate => [(1, KUInt32); (2, KObject SubjectInfo); (3, KArray Signature)]
  | CertificateChain => [(8, KArray Certificate)]
  | SubjectInfo => [(1, KString); (2, KString); (3, KString); (4, KArray PublicKeyInfo); (5, KArray MetaInfo)]
  | PublicKeyInfo => [(1, KString); (2, KBytes)]
  | MetaInfo => [(1, KString); (2, KString)]
  | Signature =>
    [(1, KString); (2, KString); (3, KObject PublicKeyInfo); (4, KString); (5, KObject ExtraSignedInfo); (15, KBytes)]
  | ExtraSignedInfo => [(1, KBytes); (2, KString); (3, KString); (4, KArray MetaInfo)]
  | EncryptedPrivateKey => [(10, KUInt32); (11, KString); (12, KBytes); (13, KUInt32); (15, KBytes)]
  | PrivateKey => [(1, KString); (2, KString); (3, KString); (4, KArray PrivateKeyInfo); (5, KArray MetaInfo)]
  | PrivateKeyInfo => [(1, KString); (2, KBytes)]
  end.
Definition all2 {A B : Type} (R : A -> B -> Prop) : list A -> list B -> Prop :=
  fix go l k :=
    match l, k with
    | [], [] => True
    | a :: l, b :: k => R a b /\ go l k
    | _, _ => False
    end.
Definition flat2 {A B C : Type} (f : A -> B -> list C) : list A -> list B -> list C :=
  fix go l k := match l, k with a :: l, b :: k => f a b ++ go l k | _, _ => [] end.
Definition all {A : Type} (P : A -> Prop) : list A -> Prop :=
  fix go l := match l with [] => True | a :: l => P a /\ go l end.

(** ** The objects a program can make: members of the right types, strings the
    library accepts, no NULL in an array *)
Fixpoint member_ok (v : value) (f : Z * kind) : Prop :=
  match snd f, v with
  | KUInt32, VInt n => 0 <= n < 2^32
  | KString, VBlock None | KBytes, VBlock None | KObject _, VObject None => True
  | KString, VBlock (Some d) => bytes d /\ zlen d < 2^64 /\ accepted d
  | KBytes, VBlock (Some d) => bytes d /\ zlen d < 2^64
  | KObject m, VObject (Some o) => all2 member_ok o (schema m)
  | KArray m, VArray l => all (fun x => match x with Some o => all2 member_ok o (schema m) | None => False end) l
  | _, _ => False
  end.
Definition object_ok (m : mtype) (o : obj) : Prop := all2 member_ok o (schema m).

(** ** The message that stands for an object: present members in the order of
    their numbers; integers that are zero are not present (proto3). *)
Fixpoint member_fields (v : value) (f : Z * kind) : list field :=
  match snd f, v with
  | KUInt32, VInt n => if n =? 0 then [] else [FNumber (fst f) UInt32 n]
  | KString, VBlock (Some d) => [FString (fst f) d]
  | KBytes, VBlock (Some d) => [FBytes (fst f) d]
  | KObject m, VObject (Some o) => [FElement (fst f) (flat2 member_fields o (schema m))]
  | KArray m, VArray l =>
    flat_map (fun x => match x with Some o => [FElement (fst f) (flat2 member_fields o (schema m))] | None => [] end) l
  | _, _ => []
  end.
Definition object_fields (m : mtype) (o : obj) : list field := flat2 member_fields o (schema m).
(** The message as an element with a tag; tag 0: at the top, the whole buffer *)
Definition message (tag : Z) (m : mtype) (o : obj) : list Z := encoding (FElement tag (object_fields m o)).

(** ** Reading: what a message with any fields in any order means *)
(** Position and type of a field number *)
Fixpoint number_of (tag : Z) (l : list (Z * kind)) : option (nat * kind) :=
  match l with
  | [] => None
  | (t, k) :: l => if t =? tag then Some (O, k) else option_map (fun '(i, k) => (S i, k)) (number_of tag l)
  end.
Definition empty_object (m : mtype) : obj :=
  map (fun f => match snd f with KUInt32 => VInt 0 | KString | KBytes => VBlock None | KObject _ => VObject None | KArray _ => VArray [] end)
    (schema m).
Definition put (i : nat) (v : value) (o : obj) : obj := firstn i o ++ v :: skipn (S i) o.
(** The last of several values for one member counts; repeated fields are
    collected in order; unknown fields do not matter.  (Protocol Buffers would
    merge several occurrences of an embedded message; this library takes the last.) *)
Fixpoint merge (f : field) (m : mtype) (o : obj) : obj :=
  match number_of (field_tag f) (schema m) with
  | None => o
  | Some (i, k) =>
    match k, f with
    | KUInt32, FNumber _ _ v => put i (VInt v) o
    | KString, FString _ d => put i (VBlock (Some d)) o
    | KBytes, FBytes _ d => put i (VBlock (Some d)) o
    | KObject m', FElement _ fs => put i (VObject (Some (fold_left (fun o f => merge f m' o) fs (empty_object m')))) o
    | KArray m', FElement _ fs =>
      match nth_error o i with
      | Some (VArray l) => put i (VArray (l ++ [Some (fold_left (fun o f => merge f m' o) fs (empty_object m'))])) o
      | _ => o
      end
    | _, _ => o
    end
  end.
Definition meaning (m : mtype) (fs : list field) : obj := fold_left (fun o f => merge f m o) fs (empty_object m).
(** The fields a message may have: known ones as declared, unknown ones of any kind *)
Fixpoint allowed (f : field) (m : mtype) : Prop :=
  0 < field_tag f /\ field_ok f /\
  match number_of (field_tag f) (schema m) with
  | None => True
  | Some (_, k) =>
    match k, f with
    | KUInt32, FNumber _ UInt32 _ | KString, FString _ _ | KBytes, FBytes _ _ => True
    | KObject m', FElement _ fs | KArray m', FElement _ fs => all (fun f => allowed f m') fs
    | _, _ => False
    end
  end.

(** An input object over the given bytes (noise_protobuf_prepare_input) *)
Definition input (data : list Z) : pbuf := PBuf (Some data) (zlen data) 0 E_NONE.
Definition enough_memory : oracle := fun _ => true.
