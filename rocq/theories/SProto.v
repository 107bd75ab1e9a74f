(** Specification for the protobuf functions: the wire format of Protocol
    Buffers (developers.google.com/protocol-buffers/docs/encoding), strict UTF-8
    (RFC 3629) and sequences of calls. *)
From Verif Require Import Base MProto.

(** ** Wire format *)
(** Base 128, least significant group first, continuation bit on all but the
    last byte.  Ten groups are enough for 70 bits. *)
Fixpoint varint_groups (n : nat) (v : Z) : list Z :=
  match n with
  | O => []
  | S n => if v <? 128 then [v] else (v mod 128 + 128) :: varint_groups n (v / 128)
  end.
Definition varint (v : Z) : list Z := varint_groups 10 v.
(** n bytes, least significant first *)
Fixpoint little_endian (n : nat) (v : Z) : list Z :=
  match n with O => [] | S n => v mod 256 :: little_endian n (v / 256) end.

(** The payload of a field, with its wire type *)
Inductive wire : Type := Varint (v : Z) | Bits64 (v : Z) | Delimited (d : list Z) | Bits32 (v : Z).
Definition wire_type (w : wire) : Z :=
  match w with Varint _ => 0 | Bits64 _ => 1 | Delimited _ => 2 | Bits32 _ => 5 end.
Definition wire_bytes (w : wire) : list Z :=
  match w with
  | Varint v => varint v
  | Bits64 v => little_endian 8 v
  | Delimited d => varint (zlen d) ++ d
  | Bits32 v => little_endian 4 v
  end.
(** Tag 0 stands for no tag at all (noise/protobufs.h). *)
Definition field_bytes (tag : Z) (w : wire) : list Z :=
  (if tag =? 0 then [] else varint (tag * 8 + wire_type w)) ++ wire_bytes w.

(** ** Numbers.  A float or double is its 32 or 64 bit representation. *)
Inductive number : Type :=
| Int32 | UInt32 | Int64 | UInt64 | SInt32 | SInt64 | Fixed32 | SFixed32 | Fixed64 | SFixed64 | Float | Double | Bool.
Definition in_range (k : number) (v : Z) : Prop :=
  match k with
  | Int32 | SInt32 | SFixed32 => - 2^31 <= v < 2^31
  | UInt32 | Fixed32 | Float => 0 <= v < 2^32
  | Int64 | SInt64 | SFixed64 => - 2^63 <= v < 2^63
  | UInt64 | Fixed64 | Double => 0 <= v < 2^64
  | Bool => v = 0 \/ v = 1
  end.
Definition zigzag (v : Z) : Z := if 0 <=? v then 2 * v else - 2 * v - 1.
Definition number_wire (k : number) (v : Z) : wire :=
  match k with
  | Int32 | UInt32 | Int64 | UInt64 | Bool => Varint (v mod 2^64)
  | SInt32 | SInt64 => Varint (zigzag v)
  | Fixed32 | SFixed32 | Float => Bits32 (v mod 2^32)
  | Fixed64 | SFixed64 | Double => Bits64 (v mod 2^64)
  end.
(** The library function for each kind *)
Definition write_number (k : number) : option pbuf -> Z -> Z -> outcome (err * option pbuf) :=
  match k with
  | Int32 => write_int32 | UInt32 => write_uint32 | Int64 => write_int64 | UInt64 => write_uint64
  | SInt32 => write_sint32 | SInt64 => write_sint64 | Fixed32 => write_fixed32 | SFixed32 => write_sfixed32
  | Fixed64 => write_fixed64 | SFixed64 => write_sfixed64 | Float => write_float | Double => write_double | Bool => write_bool
  end.
Definition read_number (k : number) : option pbuf -> Z -> outcome (err * Z * option pbuf) :=
  match k with
  | Int32 => read_int32 | UInt32 => read_uint32 | Int64 => read_int64 | UInt64 => read_uint64
  | SInt32 => read_sint32 | SInt64 => read_sint64 | Fixed32 => read_fixed32 | SFixed32 => read_sfixed32
  | Fixed64 => read_fixed64 | SFixed64 => read_sfixed64 | Float => read_float | Double => read_double | Bool => read_bool
  end.

(** ** Strict UTF-8 *)
(** Unicode scalar values other than NUL *)
Definition scalar (c : Z) : Prop := 0 < c <= 1114111 /\ ~ (55296 <= c <= 57343).
(** The encoding table of RFC 3629, section 3 *)
Definition utf8_char (c : Z) : list Z :=
  if c <? 128 then [c]
  else if c <? 2048 then [192 + c / 64; 128 + c mod 64]
  else if c <? 65536 then [224 + c / 4096; 128 + c / 64 mod 64; 128 + c mod 64]
  else [240 + c / 262144; 128 + c / 4096 mod 64; 128 + c / 64 mod 64; 128 + c mod 64].
Definition strict_utf8 (s : list Z) : Prop := exists cs, Forall scalar cs /\ s = flat_map utf8_char cs.
(** The strings the library takes *)
Definition accepted (s : list Z) : Prop := protobuf_is_utf8 s (zlen s) = Ok true.

(** ** Protobuf objects *)
(** What prepare_input, prepare_output and prepare_measure establish and every call keeps. *)
Definition pb_ok (b : pbuf) : Prop :=
  0 <= pb_posn b <= pb_size b /\ pb_size b < 2^64 /\
  match pb_data b with Some mem => pb_size b <= zlen mem /\ bytes mem | None => True end.
(** [l] are the next bytes to be read. *)
Definition next_bytes (b : pbuf) (l : list Z) : Prop :=
  pb_error b = E_NONE /\ exists mem, pb_data b = Some mem /\ pb_posn b + zlen l <= pb_size b /\ sub (pb_posn b) (zlen l) mem = l.
Definition advanced (n : Z) (b : pbuf) : pbuf := with_posn (pb_posn b + n) b.
(** The bytes written between two states of an output object *)
Definition written (b b' : pbuf) : list Z :=
  match pb_data b' with Some mem => sub (pb_posn b') (pb_posn b - pb_posn b') mem | None => [] end.

(** ** Messages: what a caller may write, elements nesting to any depth *)
Inductive field : Type :=
| FNumber (tag : Z) (k : number) (v : Z)
| FBytes (tag : Z) (d : list Z)
| FString (tag : Z) (d : list Z)
| FElement (tag : Z) (fs : list field).
Definition is_tag (tag : Z) : Prop := 0 <= tag < 2^31.
Fixpoint encoding (f : field) : list Z :=
  match f with
  | FNumber tag k v => field_bytes tag (number_wire k v)
  | FBytes tag d | FString tag d => field_bytes tag (Delimited d)
  | FElement tag fs => if tag =? 0 then flat_map encoding fs else field_bytes tag (Delimited (flat_map encoding fs))
  end.
Fixpoint field_ok (f : field) : Prop :=
  match f with
  | FNumber tag k v => is_tag tag /\ in_range k v
  | FBytes tag d => is_tag tag /\ bytes d /\ zlen d < 2^64
  | FString tag d => is_tag tag /\ bytes d /\ zlen d < 2^64 /\ accepted d
  | FElement tag fs => is_tag tag /\ (fix all l := match l with [] => True | f :: l => field_ok f /\ all l end) fs
  end.
Definition field_tag (f : field) : Z :=
  match f with FNumber t _ _ | FBytes t _ | FString t _ | FElement t _ => t end.
(** How a caller writes it: from the last field to the first, an element between
    write_end_element and write_start_element (noise/protobufs.h).  Error codes
    are looked at only in the end, by finish. *)
Fixpoint write_field (p : option pbuf) (f : field) : outcome (option pbuf) :=
  match f with
  | FNumber tag k v => let! r := write_number k p tag v in Ok (snd r)
  | FBytes tag d => let! r := write_bytes p tag (Some d) (zlen d) in Ok (snd r)
  | FString tag d => let! r := write_string p tag (Some d) (zlen d) in Ok (snd r)
  | FElement tag fs =>
    let end_posn := snd (write_end_element p) in
    let! p := (fix go l := match l with [] => Ok p | f :: l => let! p := go l in write_field p f end) fs in
    let! r := write_start_element p tag end_posn in
    Ok (snd r)
  end.
Fixpoint write_fields (p : option pbuf) (l : list field) : outcome (option pbuf) :=
  match l with [] => Ok p | f :: l => let! p := write_fields p l in write_field p f end.

(** ** Arbitrary calls on an object (arguments not NULL where the library
    insists on it; storage for results as large as announced) *)
Inductive pb_op : Type :=
| WNumber (tag : Z) (k : number) (v : Z) | WBytes (tag : Z) (d : list Z) | WString (tag : Z) (d : list Z)
| WStart (tag end_posn : Z) | WEnd
| PTag | PSize
| RNumber (tag : Z) (k : number) | RString (tag : Z) (mem : list Z) (max : Z) | RBytes (tag : Z) (mem : list Z) (max : Z)
| RAllocString (ok : bool) (tag max : Z) | RAllocBytes (ok : bool) (tag max : Z)
| RStart (tag : Z) | REnd (end_posn : Z) | RAtEnd (end_posn : Z) | RSkip | RStop
| FinishInput | FinishOutput | FinishShift | FinishMeasure.
Definition is_int (n : Z) : Prop := - 2^31 <= n < 2^31.
Definition op_ok (o : pb_op) : Prop :=
  match o with
  | WNumber tag k v => is_int tag /\ in_range k v
  | WBytes tag d | WString tag d => is_int tag /\ bytes d /\ zlen d < 2^64
  | WStart tag n => is_int tag /\ 0 <= n < 2^64
  | RNumber tag _ | RStart tag => is_int tag
  | RString tag mem max | RBytes tag mem max => is_int tag /\ 0 <= max <= zlen mem /\ max < 2^64 /\ bytes mem
  | RAllocString _ tag max | RAllocBytes _ tag max => is_int tag /\ 0 <= max < 2^64
  | REnd n | RAtEnd n => 0 <= n < 2^64
  | _ => True
  end.
(** Error code and object afterwards.  (Calls that return no error code: E_NONE.) *)
Definition pb_step (b : pbuf) (o : pb_op) : outcome (err * option pbuf) :=
  let p := Some b in
  match o with
  | WNumber tag k v => write_number k p tag v
  | WBytes tag d => write_bytes p tag (Some d) (zlen d)
  | WString tag d => write_string p tag (Some d) (zlen d)
  | WStart tag n => write_start_element p tag n
  | WEnd => Ok (fst (write_end_element p), p)
  | PTag => let! _ := peek_tag p in Ok (E_NONE, p)
  | PSize => let! _ := peek_size p in Ok (E_NONE, p)
  | RNumber tag k => let! r := read_number k p tag in Ok (fst (fst r), snd r)
  | RString tag mem max => let! r := read_string p tag (Some mem) max in Ok (fst (fst (fst r)), snd r)
  | RBytes tag mem max => let! r := read_bytes p tag (Some mem) max in Ok (fst (fst (fst r)), snd r)
  | RAllocString ok tag max => let! r := read_alloc_string ok p tag max in Ok (fst (fst (fst r)), snd r)
  | RAllocBytes ok tag max => let! r := read_alloc_bytes ok p tag max in Ok (fst (fst (fst r)), snd r)
  | RStart tag => let! r := read_start_element p tag in Ok (fst (fst r), snd r)
  | REnd n => Ok (read_end_element p n)
  | RAtEnd n => Ok (E_NONE, p)
  | RSkip => read_skip p
  | RStop => Ok (read_stop p)
  | FinishInput => Ok (finish_input p)
  | FinishOutput => Ok (fst (fst (finish_output p)), p)
  | FinishShift => let! r := finish_output_shift p in Ok (fst (fst (fst r)), snd r)
  | FinishMeasure => Ok (fst (finish_measure p), p)
  end.
Fixpoint pb_run (b : pbuf) (ops : list pb_op) : outcome (list err * pbuf) :=
  match ops with
  | [] => Ok ([], b)
  | o :: ops =>
    let! r := pb_step b o in
    match r with
    | (e, Some b) => let! r := pb_run b ops in Ok (e :: fst r, snd r)
    | (_, None) => UB
    end
  end.
(** The calls that return an error code, and those that read or write *)
Definition reports (o : pb_op) : Prop :=
  match o with PTag | PSize | RAtEnd _ => False | _ => True end.

(** ** Any encoding a sender may choose *)
(** At most ten groups of seven bits, least significant first, the last one
    without continuation bit; not necessarily the shortest form. *)
Definition a_varint (l : list Z) : Prop :=
  exists groups last, l = groups ++ [last] /\ Forall (fun c => 128 <= c < 256) groups /\ 0 <= last < 128 /\ zlen l <= 10.
Definition groups_value (l : list Z) : Z := fold_right (fun c v => c mod 128 + 128 * v) 0 l.
(** The value read for each kind of number when the sender's integer is [n]
    modulo 2^64; for int32 and uint32 the low half counts, and a sint32 field is
    understood if its encoded integer fits 32 bits. *)
Definition number_from (k : number) (n v : Z) : Prop :=
  in_range k v /\
  match k with
  | Int32 | UInt32 => exists q, n = v + q * 2^32
  | Int64 | UInt64 => exists q, n = v + q * 2^64
  | Bool => v = 1 <-> ~ exists q, n = q * 2^64
  | SInt64 => exists q, n = zigzag v + q * 2^64
  | SInt32 => n mod 2^64 < 2^32 -> exists q, n = zigzag v + q * 2^64
  | _ => False
  end.
(** The wire type of each kind of number *)
Definition number_type (k : number) : Z :=
  match k with
  | Int32 | UInt32 | Int64 | UInt64 | SInt32 | SInt64 | Bool => 0
  | Fixed64 | SFixed64 | Double => 1
  | Fixed32 | SFixed32 | Float => 5
  end.
