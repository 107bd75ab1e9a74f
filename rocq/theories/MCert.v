(** Model of the generated certificate code, src/keys/certificate.c: the objects
    and their _write and _read functions.

    The ten message types have the same code but for the fields, so each function
    is modelled once, over tables of what the C functions say field by field.
    There is one table for the struct, one for the _write function and one for the
    _read function of each type; the numbers in them are the C literals. *)
From Verif Require Import Base MArray MProto.

(** The ten types of certificate.c:27-126 *)
Inductive mtype : Type :=
| Certificate | CertificateChain | SubjectInfo | PublicKeyInfo | MetaInfo | Signature | ExtraSignedInfo
| EncryptedPrivateKey | PrivateKey | PrivateKeyInfo.
(** Types of struct members: uint32_t, char* with size, void* with size, pointer
    to another object, array of pointers to objects with count and max *)
Inductive kind : Type := KUInt32 | KString | KBytes | KObject (m : mtype) | KArray (m : mtype).
(** Values of struct members.  NULL is None.  A string or block is the [size]
    bytes at the pointer, without the NUL added by the library.  The max of an array
    is not kept: see [at_capacity]. *)
Inductive value : Type :=
| VInt (v : Z)
| VBlock (d : option (list Z))
| VObject (o : option (list value))
| VArray (l : list (option (list value))).
Definition obj := list value.

(** certificate.c:27-126: struct members in order (an integer, a pointer with its
    size or an array with its count and max is one member) *)
Definition members (m : mtype) : list kind :=
  match m with
  | Certificate => [KUInt32; KObject SubjectInfo; KArray Signature]
  | CertificateChain => [KArray Certificate]
  | SubjectInfo => [KString; KString; KString; KArray PublicKeyInfo; KArray MetaInfo]
  | PublicKeyInfo => [KString; KBytes]
  | MetaInfo => [KString; KString]
  | Signature => [KString; KString; KObject PublicKeyInfo; KString; KObject ExtraSignedInfo; KBytes]
  | ExtraSignedInfo => [KBytes; KString; KString; KArray MetaInfo]
  | EncryptedPrivateKey => [KUInt32; KString; KBytes; KUInt32; KBytes]
  | PrivateKey => [KString; KString; KString; KArray PrivateKeyInfo; KArray MetaInfo]
  | PrivateKeyInfo => [KString; KBytes]
  end.
(** calloc: certificate.c:129-137, 336-344, ... (the _new functions) *)
Definition zero (k : kind) : value :=
  match k with KUInt32 => VInt 0 | KString | KBytes => VBlock None | KObject _ => VObject None | KArray _ => VArray [] end.
Definition fresh (m : mtype) : obj := map zero (members m).

(** One write in a _write function: tag, index of the member, kind *)
Record wfield := WField { wf_tag : Z; wf_index : nat; wf_kind : kind }.
(** The writes in the order of the code *)
Definition writer (m : mtype) : list wfield :=
  match m with
  | Certificate => (* certificate.c:158-163 *)
    [WField 3 2 (KArray Signature); WField 2 1 (KObject SubjectInfo); WField 1 0 KUInt32]
  | CertificateChain => (* 364-365 *)
    [WField 8 0 (KArray Certificate)]
  | SubjectInfo => (* 500-509 *)
    [WField 5 4 (KArray MetaInfo); WField 4 3 (KArray PublicKeyInfo); WField 3 2 KString; WField 2 1 KString; WField 1 0 KString]
  | PublicKeyInfo => (* 853-856 *)
    [WField 2 1 KBytes; WField 1 0 KString]
  | MetaInfo => (* 1013-1016 *)
    [WField 2 1 KString; WField 1 0 KString]
  | Signature => (* 1178-1189 *)
    [WField 15 5 KBytes; WField 5 4 (KObject ExtraSignedInfo); WField 4 3 KString; WField 3 2 (KObject PublicKeyInfo);
     WField 2 1 KString; WField 1 0 KString]
  | ExtraSignedInfo => (* 1534-1541 *)
    [WField 4 3 (KArray MetaInfo); WField 3 2 KString; WField 2 1 KString; WField 1 0 KBytes]
  | EncryptedPrivateKey => (* 1817-1826 *)
    [WField 15 4 KBytes; WField 13 3 KUInt32; WField 12 2 KBytes; WField 11 1 KString; WField 10 0 KUInt32]
  | PrivateKey => (* 2103-2112 *)
    [WField 5 4 (KArray MetaInfo); WField 4 3 (KArray PrivateKeyInfo); WField 3 2 KString; WField 2 1 KString; WField 1 0 KString]
  | PrivateKeyInfo => (* 2456-2459 *)
    [WField 2 1 KBytes; WField 1 0 KString]
  end.

(** [msg] stands for the _write function of the members that are objects. *)
(** The loop from the last element to the first; the error codes are ignored. *)
Fixpoint write_elements (msg : option pbuf -> option obj -> outcome (err * option pbuf)) (p : option pbuf)
    (l : list (option obj)) : outcome (option pbuf) :=
  match l with
  | [] => Ok p
  | o :: l => let! p := write_elements msg p l in let! r := msg p o in Ok (snd r)
  end.
(** One line of a _write function, such as certificate.c:158-163 and 1178-1189.
    A member that is not of the kind the line takes it for: undefined. *)
Definition write_member (msg : mtype -> option pbuf -> Z -> option obj -> outcome (err * option pbuf))
    (p : option pbuf) (o : obj) (w : wfield) : outcome (option pbuf) :=
  match wf_kind w, nth_error o (wf_index w) with
  | KUInt32, Some (VInt v) =>
    if v =? 0 then Ok p else let! r := write_uint32 p (wf_tag w) v in Ok (snd r)
  | KString, Some (VBlock d) =>
    match d with None => Ok p | Some s => let! r := write_string p (wf_tag w) d (zlen s) in Ok (snd r) end
  | KBytes, Some (VBlock d) =>
    match d with None => Ok p | Some s => let! r := write_bytes p (wf_tag w) d (zlen s) in Ok (snd r) end
  | KObject m, Some (VObject x) =>
    match x with None => Ok p | Some _ => let! r := msg m p (wf_tag w) x in Ok (snd r) end
  | KArray m, Some (VArray l) => write_elements (fun p x => msg m p (wf_tag w) x) p l
  | _, _ => UB
  end.
Fixpoint write_members (msg : mtype -> option pbuf -> Z -> option obj -> outcome (err * option pbuf))
    (p : option pbuf) (o : obj) (l : list wfield) : outcome (option pbuf) :=
  match l with [] => Ok p | w :: l => let! p := write_member msg p o w in write_members msg p o l end.
(** The _write functions: certificate.c:151-165, 357-367, 493-511, 847-858,
    1007-1018, 1172-1191, 1527-1543, 1811-1828, 2096-2114, 2450-2461.  [depth] is
    the number of nested calls: the types nest at most five deep (chain,
    certificate, signature, extra signed info, meta). *)
Fixpoint write_object (depth : nat) (m : mtype) (p : option pbuf) (tag : Z) (o : option obj) : outcome (err * option pbuf) :=
  match depth with
  | O => UB
  | S depth =>
    match p, o with
    | Some _, Some o =>
      let end_posn := snd (write_end_element p) in
      let! p := write_members (write_object depth) p o (writer m) in
      write_start_element p tag end_posn
    | _, _ => Ok (E_INVALID_PARAM, p)
    end
  end.
Definition cert_write (m : mtype) := write_object 5 m.

(** One case of the switch in a _read function: case label, tag passed on, index
    of the member, kind *)
Record rcase := RCase { rc_label : Z; rc_tag : Z; rc_index : nat; rc_kind : kind }.
Definition reader (m : mtype) : list rcase :=
  match m with
  | Certificate => (* certificate.c:182-197 *)
    [RCase 1 1 0 KUInt32; RCase 2 2 1 (KObject SubjectInfo); RCase 3 3 2 (KArray Signature)]
  | CertificateChain => (* 384-391 *)
    [RCase 8 8 0 (KArray Certificate)]
  | SubjectInfo => (* 528-561 *)
    [RCase 1 1 0 KString; RCase 2 2 1 KString; RCase 3 3 2 KString; RCase 4 4 3 (KArray PublicKeyInfo); RCase 5 5 4 (KArray MetaInfo)]
  | PublicKeyInfo => (* 875-886 *)
    [RCase 1 1 0 KString; RCase 2 2 1 KBytes]
  | MetaInfo => (* 1035-1046 *)
    [RCase 1 1 0 KString; RCase 2 2 1 KString]
  | Signature => (* 1208-1241 *)
    [RCase 1 1 0 KString; RCase 2 2 1 KString; RCase 3 3 2 (KObject PublicKeyInfo); RCase 4 4 3 KString;
     RCase 5 5 4 (KObject ExtraSignedInfo); RCase 15 15 5 KBytes]
  | ExtraSignedInfo => (* 1560-1585 *)
    [RCase 1 1 0 KBytes; RCase 2 2 1 KString; RCase 3 3 2 KString; RCase 4 4 3 (KArray MetaInfo)]
  | EncryptedPrivateKey => (* 1845-1868 *)
    [RCase 10 10 0 KUInt32; RCase 11 11 1 KString; RCase 12 12 2 KBytes; RCase 13 13 3 KUInt32; RCase 15 15 4 KBytes]
  | PrivateKey => (* 2131-2164 *)
    [RCase 1 1 0 KString; RCase 2 2 1 KString; RCase 3 3 2 KString; RCase 4 4 3 (KArray PrivateKeyInfo); RCase 5 5 4 (KArray MetaInfo)]
  | PrivateKeyInfo => (* 2478-2489 *)
    [RCase 1 1 0 KString; RCase 2 2 1 KBytes]
  end.
Definition find_case (m : mtype) (label : Z) : option rcase := find (fun c => rc_label c =? label) (reader m).

(** Memory may run out: the oracle answers whether the n-th allocation succeeds.
    [n] counts the points of the program where something may be allocated. *)
Definition oracle := nat -> bool.
(** Whether an array made by appending [count] elements is full: noise_protobuf_grow_array
    (protobufs.c:2047-2056) makes room for 4, 8, 16, 32, 64, 128, 192, ... *)
Definition at_capacity (count : Z) : bool :=
  if count <? 64 then existsb (Z.eqb count) [0; 4; 8; 16; 32] else count mod 64 =? 0.

Fixpoint set_member (i : nat) (v : value) (o : obj) : obj :=
  match o, i with
  | [], _ => []
  | _ :: o, O => v :: o
  | x :: o, S i => x :: set_member i v o
  end.
Definition block (c : cptr) (size : Z) : value := VBlock (option_map (take size) c).

(** One round of the loop of a _read function, such as certificate.c:180-201: the
    object, the protobuf and the number of allocations afterwards.  [msg] stands for
    the _read functions of other types. *)
Definition read_member (msg : mtype -> option pbuf -> Z -> nat -> outcome (option (err * option obj * option pbuf * nat)))
    (alloc : oracle) (m : mtype) (o : obj) (p : option pbuf) (n : nat) : outcome (option (obj * option pbuf * nat)) :=
  let! label := peek_tag p in
  match find_case m label with
  | None => let! r := read_skip p in Ok (Some (o, snd r, n))
  | Some (RCase _ tag i k) =>
    match k with
    | KUInt32 =>
      let! r := read_uint32 p tag in
      let '(_, v, p) := r in
      Ok (Some (set_member i (VInt v) o, p, n))
    | KString =>
      let! r := read_alloc_string (alloc n) p tag 0 in
      let '(_, c, size, p) := r in
      Ok (Some (set_member i (block c size) o, p, S n))
    | KBytes =>
      let! r := read_alloc_bytes (alloc n) p tag 0 in
      let '(_, c, size, p) := r in
      Ok (Some (set_member i (block c size) o, p, S n))
    | KObject m' =>
      let! r := msg m' p tag n in
      match r with
      | None => Ok None
      | Some (_, x, p, n) => Ok (Some (set_member i (VObject x) o, p, n))
      end
    | KArray m' =>
      let! r := msg m' p tag n in
      match r with
      | None => Ok None
      | Some (_, x, p, n) =>
        match nth_error o i, p with
        | Some (VArray l), Some b =>
          if negb (at_capacity (zlen l)) || alloc n then Ok (Some (set_member i (VArray (l ++ [x])) o, p, S n))
          else
            let b := if negb (is_none (pb_error b)) then with_error E_NO_MEMORY b else b in
            Ok (Some (o, Some b, S n))
        | _, _ => UB
        end
      end
    end
  end.
(** The loop, certificate.c:179-202 and so on *)
Fixpoint read_members (fuel : nat) (msg : mtype -> option pbuf -> Z -> nat -> outcome (option (err * option obj * option pbuf * nat)))
    (alloc : oracle) (m : mtype) (end_posn : Z) (o : obj) (p : option pbuf) (n : nat) : outcome (option (obj * option pbuf * nat)) :=
  if read_at_end_element p end_posn then Ok (Some (o, p, n))
  else
    match fuel with
    | O => Ok None
    | S fuel =>
      let! r := read_member msg alloc m o p n in
      match r with
      | None => Ok None
      | Some (o, p, n) => read_members fuel msg alloc m end_posn o p n
      end
    end.
(** The _read functions: certificate.c:167-209, 369-403, 513-573, 860-898,
    1020-1058, 1193-1253, 1545-1597, 1830-1880, 2116-2176, 2463-2501 (obj not NULL):
    error code, *obj, the protobuf, allocations.  [fuel] bounds the rounds of each
    loop. *)
Fixpoint read_object (depth fuel : nat) (alloc : oracle) (m : mtype) (p : option pbuf) (tag : Z) (n : nat)
    : outcome (option (err * option obj * option pbuf * nat)) :=
  match depth with
  | O => UB
  | S depth =>
    match p with
    | None => Ok (Some (E_INVALID_PARAM, None, p, n))
    | Some _ =>
      if negb (alloc n) then Ok (Some (E_NO_MEMORY, None, p, S n))
      else
        let! r := read_start_element p tag in
        let '(_, end_posn, p) := r in
        let! r := read_members fuel (read_object depth fuel alloc) alloc m end_posn (fresh m) p (S n) in
        match r with
        | None => Ok None
        | Some (o, p, n) =>
          let '(e, p) := read_end_element p end_posn in
          Ok (Some (e, if is_none e then Some o else None, p, n))
        end
    end
  end.
Definition cert_read (fuel : nat) (alloc : oracle) (m : mtype) (p : option pbuf) (tag : Z) (n : nat) :=
  read_object 5 fuel alloc m p tag n.
