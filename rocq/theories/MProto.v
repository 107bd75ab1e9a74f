(** Model of src/protobufs/protobufs.c, except the array functions (MArray.v) *)
From Verif Require Import Base.

(** NoiseProtobuf, include/noise/protobufs.h:34-41.  [pb_data] is the storage
    behind the data pointer (None: NULL); sizes are size_t values. *)
Record pbuf : Type := PBuf { pb_data : cptr; pb_size : Z; pb_posn : Z; pb_error : err }.
Definition with_error (e : err) (p : pbuf) : pbuf := PBuf (pb_data p) (pb_size p) (pb_posn p) e.
Definition with_posn (n : Z) (p : pbuf) : pbuf := PBuf (pb_data p) (pb_size p) n (pb_error p).
Definition with_mem (m : cptr) (p : pbuf) : pbuf := PBuf m (pb_size p) (pb_posn p) (pb_error p).
(** Every function that takes a NoiseProtobuf pointer is given [None] for NULL
    and returns the object afterwards. *)
Definition usize (n : Z) : Z := n mod 2^64.

(** protobufs.c:243-253, 267-277, 292-301 (pbuf not NULL; it is not changed on error) *)
Definition prepare_input (data : list Z) (size : Z) : pbuf := PBuf (Some data) size 0 E_NONE.
Definition prepare_output (data : list Z) (size : Z) : pbuf := PBuf (Some data) size size E_NONE.
Definition prepare_measure (max_size : Z) : pbuf := PBuf None max_size max_size E_NONE.

(** protobufs.c:322-333 *)
Definition finish_input (p : option pbuf) : err * option pbuf :=
  match p with
  | None => (E_INVALID_PARAM, p)
  | Some b =>
    if negb (is_none (pb_error b)) then (pb_error b, p)
    else if negb (pb_posn b =? pb_size b) then (E_INVALID_FORMAT, Some (with_error E_INVALID_FORMAT b))
    else (E_NONE, p)
  end.
(** protobufs.c:361-376 (data and size not NULL): error code, *data as an offset
    into the storage (None: NULL) and *size *)
Definition finish_output (p : option pbuf) : err * option Z * Z :=
  match p with
  | None => (E_INVALID_PARAM, None, 0)
  | Some b =>
    if negb (is_none (pb_error b)) then (pb_error b, None, 0)
    else (E_NONE, match pb_data b with Some _ => Some (pb_posn b) | None => None end, usize (pb_size b - pb_posn b))
  end.
(** protobufs.c:404-424 (data and size not NULL); the third component is the
    storage after the memmove *)
Definition finish_output_shift (p : option pbuf) : outcome (err * option Z * Z * option pbuf) :=
  match p with
  | None => Ok (E_INVALID_PARAM, None, 0, p)
  | Some b =>
    if negb (is_none (pb_error b)) then Ok (pb_error b, None, 0, p)
    else
      let n := usize (pb_size b - pb_posn b) in
      match pb_data b with
      | None => Ok (E_NONE, None, n, p)
      | Some mem =>
        if negb (pb_posn b =? 0) then
          let! d := load mem (pb_posn b) n in
          let! mem := store mem 0 d in
          Ok (E_NONE, Some 0, n, Some (with_mem (Some mem) b))
        else Ok (E_NONE, Some 0, n, p)
      end
  end.
(** protobufs.c:444-456 (size not NULL) *)
Definition finish_measure (p : option pbuf) : err * Z :=
  match p with
  | None => (E_INVALID_PARAM, 0)
  | Some b => if negb (is_none (pb_error b)) then (pb_error b, 0) else (E_NONE, usize (pb_size b - pb_posn b))
  end.

(** ** Writing *)

(** protobufs.c:470-487: on success the space starts at the new position *)
Definition reserve_space (p : option pbuf) (size : Z) : err * option pbuf :=
  match p with
  | None => (E_INVALID_PARAM, p)
  | Some b =>
    if negb (is_none (pb_error b)) then (pb_error b, p)
    else if pb_posn b <? size then (E_INVALID_LENGTH, Some (with_error E_INVALID_LENGTH b))
    else (E_NONE, Some (with_posn (pb_posn b - size) b))
  end.
(** What is done with the space: store [d] there unless the data pointer is NULL *)
Definition fill_space (p : option pbuf) (d : list Z) : outcome (option pbuf) :=
  match p with
  | None => UB
  | Some b =>
    match pb_data b with
    | None => Ok p
    | Some mem => let! mem := store mem (pb_posn b) d in Ok (Some (with_mem (Some mem) b))
    end
  end.
Definition reserve_and_fill (p : option pbuf) (size : Z) (d : list Z) : outcome (err * option pbuf) :=
  let '(e, p) := reserve_space p size in
  if negb (is_none e) then Ok (e, p) else let! p := fill_space p d in Ok (E_NONE, p).

(** protobufs.c:510-530 *)
Definition varint_size (value : Z) : Z :=
  if value <? 2^7 then 1 else if value <? 2^14 then 2 else if value <? 2^21 then 3
  else if value <? 2^28 then 4 else if value <? 2^35 then 5 else if value <? 2^42 then 6
  else if value <? 2^49 then 7 else if value <? 2^56 then 8 else if value <? 2^63 then 9 else 10.
(** protobufs.c:535-540: the loop for [size] - 1 = n and the last byte *)
Fixpoint varint_loop (n : nat) (value : Z) : list Z :=
  match n with
  | O => [Z.land (value mod 256) 127]
  | S n => Z.lor (value mod 256) 128 :: varint_loop n (Z.shiftr value 7)
  end.
(** protobufs.c:505-542 *)
Definition write_varint (p : option pbuf) (value : Z) : outcome (err * option pbuf) :=
  let size := varint_size value in
  reserve_and_fill p size (varint_loop (Z.to_nat (size - 1)) value).

(** protobufs.c:222-227 *)
Definition WIRE_VARINT : Z := 0.
Definition WIRE_64BIT : Z := 1.
Definition WIRE_DELIM : Z := 2.
Definition WIRE_32BIT : Z := 5.
(** The cast in protobufs.c:563-565 and 1205.  (Shifting a negative int64_t is
    taken to mean multiplication.) *)
Definition tag_value (tag type : Z) : Z := (Z.lor (Z.shiftl tag 3) type) mod 2^64.

(** protobufs.c:555-566 *)
Definition write_tag (p : option pbuf) (tag type : Z) : outcome (err * option pbuf) :=
  match p with
  | None => Ok (E_INVALID_PARAM, p)
  | Some b =>
    if negb (is_none (pb_error b)) then Ok (pb_error b, p)
    else if tag =? 0 then Ok (E_NONE, p)
    else write_varint p (tag_value tag type)
  end.
(** Common ending of the write functions: write the tag unless there was an error *)
Definition then_tag (r : outcome (err * option pbuf)) (tag type : Z) : outcome (err * option pbuf) :=
  let! r := r in
  let '(e, p) := r in
  if negb (is_none e) then Ok (e, p) else write_tag p tag type.

(** protobufs.c:579-586 *)
Definition write_integer (p : option pbuf) (tag value : Z) : outcome (err * option pbuf) :=
  then_tag (write_varint p value) tag WIRE_VARINT.
(** protobufs.c:599-602, 615-618, 631-634, 647-650.  Signed values are integers
    in range; a cast to uint64_t is reduction modulo 2^64. *)
Definition write_int32 (p : option pbuf) (tag value : Z) := write_integer p tag (value mod 2^64).
Definition write_uint32 (p : option pbuf) (tag value : Z) := write_integer p tag value.
Definition write_int64 (p : option pbuf) (tag value : Z) := write_integer p tag (value mod 2^64).
Definition write_uint64 (p : option pbuf) (tag value : Z) := write_integer p tag value.
(** protobufs.c:663-667, 680-684 *)
Definition write_sint32 (p : option pbuf) (tag value : Z) :=
  write_integer p tag (Z.lxor (Z.shiftl (value mod 2^32) 1 mod 2^32) (Z.shiftr value 31 mod 2^32)).
Definition write_sint64 (p : option pbuf) (tag value : Z) :=
  write_integer p tag (Z.lxor (Z.shiftl (value mod 2^64) 1 mod 2^64) (Z.shiftr value 63 mod 2^64)).
(** protobufs.c:713-726, 755-772 *)
Definition write_fixed32 (p : option pbuf) (tag value : Z) : outcome (err * option pbuf) :=
  then_tag (reserve_and_fill p 4 (map (fun s => Z.shiftr value s mod 256) [0; 8; 16; 24])) tag WIRE_32BIT.
Definition write_fixed64 (p : option pbuf) (tag value : Z) : outcome (err * option pbuf) :=
  then_tag (reserve_and_fill p 8 (map (fun s => Z.shiftr value s mod 256) [0; 8; 16; 24; 32; 40; 48; 56])) tag WIRE_64BIT.
(** protobufs.c:697-700, 739-742 *)
Definition write_sfixed32 (p : option pbuf) (tag value : Z) := write_fixed32 p tag (value mod 2^32).
Definition write_sfixed64 (p : option pbuf) (tag value : Z) := write_fixed64 p tag (value mod 2^64).
(** protobufs.c:785-793, 806-814: a float or double is given by its
    representation, the integer member of the union *)
Definition write_float (p : option pbuf) (tag bits : Z) := write_fixed32 p tag bits.
Definition write_double (p : option pbuf) (tag bits : Z) := write_fixed64 p tag bits.
(** protobufs.c:827-830 *)
Definition write_bool (p : option pbuf) (tag value : Z) := write_integer p tag (if value =? 0 then 0 else 1).

(** protobufs.c:843-916.  [str] is what the pointer designates; [size] goes down
    in every round, so that many rounds suffice. *)
Definition continuation (ch : Z) : bool := negb ((ch <? 128) || (191 <? ch)).
Fixpoint is_utf8 (fuel : nat) (str : list Z) (size : Z) : outcome bool :=
  if size <=? 0 then Ok true
  else
    match fuel, str with
    | S fuel, ch :: str =>
      let size := size - 1 in
      if ch =? 0 then Ok false
      else if ch <? 128 then is_utf8 fuel str size
      else if (194 <=? ch) && (ch <=? 223) then
        if size <? 1 then Ok false
        else
          match str with
          | [] => UB
          | ch :: str => if negb (continuation ch) then Ok false else is_utf8 fuel str (size - 1)
          end
      else if (224 <=? ch) && (ch <=? 239) then
        if size <? 2 then Ok false
        else
          let code := Z.shiftl (Z.land ch 15) 12 in
          match str with
          | c1 :: c2 :: _ =>
            if negb (continuation c1) then Ok false
            else if negb (continuation c2) then Ok false
            else
              let code := Z.lor (Z.lor code (Z.shiftl (Z.land c1 63) 6)) (Z.land c2 63) in
              if (55296 <=? code) && (code <=? 57343) then Ok false
              else if code <? 2048 then Ok false
              else is_utf8 fuel str (size - 2)
          | _ => UB
          end
      else if (240 <=? ch) && (ch <=? 244) then
        if size <? 3 then Ok false
        else
          let code := Z.shiftl (Z.land ch 7) 18 in
          match str with
          | c1 :: c2 :: c3 :: _ =>
            if negb (continuation c1) then Ok false
            else if negb (continuation c2) then Ok false
            else if negb (continuation c3) then Ok false
            else
              let code := Z.lor (Z.lor (Z.lor code (Z.shiftl (Z.land c1 63) 12)) (Z.shiftl (Z.land c2 63) 6)) (Z.land c3 63) in
              if 1114111 <? code then Ok false
              else if code <? 65536 then Ok false
              else is_utf8 fuel str (size - 3)
          | _ => UB
          end
      else Ok false
    | _, _ => UB
    end.
Definition protobuf_is_utf8 (str : list Z) (size : Z) : outcome bool := is_utf8 (Z.to_nat size) str size.

(** protobufs.c:962-978 *)
Definition write_bytes (p : option pbuf) (tag : Z) (data : cptr) (size : Z) : outcome (err * option pbuf) :=
  match p with
  | None => Ok (E_INVALID_PARAM, p)
  | Some _ =>
    if match data with None => negb (size =? 0) | Some _ => false end then Ok (E_INVALID_PARAM, p)
    else
      let '(e, p) := reserve_space p size in
      if negb (is_none e) then Ok (e, p)
      else
        let! p := (if match p with Some b => match pb_data b with Some _ => true | None => false end | None => false end && negb (size =? 0)
                   then let! d := read_ptr data size in fill_space p d else Ok p) in
        then_tag (write_varint p size) tag WIRE_DELIM
  end.
(** protobufs.c:934-946 *)
Definition write_string (p : option pbuf) (tag : Z) (str : cptr) (size : Z) : outcome (err * option pbuf) :=
  match p with
  | None => Ok (E_INVALID_PARAM, p)
  | Some b =>
    if match str with None => negb (size =? 0) | Some _ => false end then Ok (E_INVALID_PARAM, p)
    else if negb (is_none (pb_error b)) then Ok (pb_error b, p)
    else
      let! ok := protobuf_is_utf8 (match str with Some s => s | None => [] end) size in
      if negb ok then Ok (E_INVALID_FORMAT, Some (with_error E_INVALID_FORMAT b))
      else write_bytes p tag str size
  end.
(** protobufs.c:999-1009 (end_posn not NULL): error code and *end_posn *)
Definition write_end_element (p : option pbuf) : err * Z :=
  match p with
  | None => (E_INVALID_PARAM, 0)
  | Some b => if negb (is_none (pb_error b)) then (pb_error b, 0) else (E_NONE, pb_posn b)
  end.
(** protobufs.c:1026-1038 *)
Definition write_start_element (p : option pbuf) (tag end_posn : Z) : outcome (err * option pbuf) :=
  match p with
  | None => Ok (E_INVALID_PARAM, p)
  | Some b =>
    if (end_posn <? pb_posn b) || (pb_size b <? end_posn) then Ok (E_INVALID_PARAM, p)
    else if tag =? 0 then Ok (pb_error b, p)
    else then_tag (write_varint p (end_posn - pb_posn b)) tag WIRE_DELIM
  end.

(** ** Reading *)

(** Read one byte at [posn] *)
Definition fetch (mem : list Z) (posn : Z) : outcome Z := let! d := load mem posn 1 in Ok (byte_at d 0).

(** protobufs.c:1069-1082: the loop, with rounds left, *value, *length and posn.
    The position is not the one after the first byte. *)
Fixpoint peek_loop (n : nat) (mem : list Z) (size shift value length posn : Z) : outcome (err * Z * Z) :=
  match n with
  | O => Ok (E_INVALID_FORMAT, value, length)
  | S n =>
    if size <=? posn then Ok (E_INVALID_FORMAT, value, length)
    else
      let! ch := fetch mem posn in
      let value := Z.lor value (Z.shiftl (Z.land ch 127) shift mod 2^64) in
      if Z.land ch 128 =? 0 then Ok (E_NONE, value, length + 1)
      else peek_loop n mem size (shift + 7) value (length + 1) (posn + 1)
  end.
(** protobufs.c:1050-1083: error code, *value and *length; shift = 7, 14, ..., 63
    makes nine rounds *)
Definition peek_varint (p : option pbuf) (length : Z) : outcome (err * Z * Z) :=
  match p with
  | None => Ok (E_INVALID_PARAM, 0, length)
  | Some b =>
    match pb_data b with
    | None => Ok (E_INVALID_PARAM, 0, length)
    | Some mem =>
      if negb (is_none (pb_error b)) then Ok (pb_error b, 0, length)
      else
        let posn := usize (pb_posn b + length) in
        if pb_size b <=? posn then Ok (E_INVALID_FORMAT, 0, length)
        else
          let! ch := fetch mem posn in
          if Z.land ch 128 =? 0 then Ok (E_NONE, ch, length + 1)
          else peek_loop 9 mem (pb_size b) 7 (Z.land ch 127) (length + 1) posn
    end
  end.
(** protobufs.c:229-230 *)
Definition MAX_TAG : Z := 2^29 - 1.
(** protobufs.c:1095-1111 (int has 32 bits) *)
Definition peek_tag (p : option pbuf) : outcome Z :=
  let! r := peek_varint p 0 in
  let '(e, tag, _) := r in
  if negb (is_none e) then Ok 0
  else
    let tag := Z.shiftr tag 3 in
    if (tag =? 0) || (MAX_TAG <? tag) then Ok 0 else Ok tag.
(** protobufs.c:1128-1146 (size_t has 64 bits) *)
Definition peek_size (p : option pbuf) : outcome Z :=
  let! r := peek_varint p 0 in
  let '(e, value, length) := r in
  if negb (is_none e) then Ok 0
  else if negb (Z.land value 7 =? WIRE_DELIM) then Ok 0
  else
    let! r := peek_varint p length in
    let '(e, value, _) := r in
    if negb (is_none e) then Ok 0 else Ok value.

(** protobufs.c:1172-1186: the loop *)
Fixpoint read_loop (n : nat) (b : pbuf) (mem : list Z) (shift value : Z) : outcome (err * Z * pbuf) :=
  match n with
  | O => Ok (E_INVALID_FORMAT, value, with_error E_INVALID_FORMAT b)
  | S n =>
    if pb_size b <=? pb_posn b then Ok (E_INVALID_FORMAT, value, with_error E_INVALID_FORMAT b)
    else
      let! ch := fetch mem (pb_posn b) in
      let b := with_posn (pb_posn b + 1) b in
      let value := Z.lor value (Z.shiftl (Z.land ch 127) shift mod 2^64) in
      if Z.land ch 128 =? 0 then Ok (E_NONE, value, b)
      else read_loop n b mem (shift + 7) value
  end.
(** protobufs.c:1156-1189: error code, *value and the object *)
Definition read_varint (p : option pbuf) : outcome (err * Z * option pbuf) :=
  match p with
  | None => Ok (E_INVALID_PARAM, 0, p)
  | Some b =>
    match pb_data b with
    | None => Ok (E_INVALID_PARAM, 0, p)
    | Some mem =>
      if negb (is_none (pb_error b)) then Ok (pb_error b, 0, p)
      else if pb_size b <=? pb_posn b then Ok (E_INVALID_FORMAT, 0, Some (with_error E_INVALID_FORMAT b))
      else
        let! ch := fetch mem (pb_posn b) in
        let b := with_posn (pb_posn b + 1) b in
        if Z.land ch 128 =? 0 then Ok (E_NONE, ch, Some b)
        else
          let! r := read_loop 9 b mem 7 (Z.land ch 127) in
          let '(e, value, b) := r in Ok (e, value, Some b)
    end
  end.
(** protobufs.c:1200-1224.  For tag <= 0 the pointer is used without a test. *)
Definition read_tag (p : option pbuf) (tag type : Z) : outcome (err * option pbuf) :=
  if 0 <? tag then
    let! r := read_varint p in
    let '(e, actual, p) := r in
    if is_none e then
      if negb (tag_value tag type =? actual) then
        match p with
        | None => UB
        | Some b => Ok (E_INVALID_FORMAT, Some (with_error E_INVALID_FORMAT b))
        end
      else Ok (e, p)
    else Ok (e, p)
  else
    match p with
    | None => UB (* NULL dereference *)
    | Some b =>
      if tag =? 0 then Ok (pb_error b, p)
      else
        let b := if negb (is_none (pb_error b)) then with_error E_INVALID_FORMAT b else b in
        Ok (pb_error b, Some b)
    end.
(** protobufs.c:1235-1249: on success the space is given by its offset *)
Definition read_space (p : option pbuf) (size : Z) : err * Z * option pbuf :=
  match p with
  | None => (E_INVALID_PARAM, 0, p)
  | Some b =>
    match pb_data b with
    | None => (E_INVALID_PARAM, 0, p)
    | Some _ =>
      if negb (is_none (pb_error b)) then (pb_error b, 0, p)
      else if usize (pb_size b - pb_posn b) <? size then (E_INVALID_FORMAT, 0, Some (with_error E_INVALID_FORMAT b))
      else (E_NONE, pb_posn b, Some (with_posn (pb_posn b + size) b))
    end
  end.
(** The bytes at an offset returned by read_space *)
Definition space_bytes (p : option pbuf) (off size : Z) : outcome (list Z) :=
  match p with
  | Some b => match pb_data b with Some mem => load mem off size | None => UB end
  | None => UB
  end.

(** protobufs.c:1262-1272 (result_ptr not NULL) *)
Definition read_integer (p : option pbuf) (tag : Z) : outcome (err * Z * option pbuf) :=
  match p with
  | None => Ok (E_INVALID_PARAM, 0, p)
  | Some _ =>
    let! r := read_tag p tag WIRE_VARINT in
    let '(e, p) := r in
    if negb (is_none e) then Ok (e, 0, p) else read_varint p
  end.
(** Conversion to a signed integer type of n bits *)
Definition to_signed (n v : Z) : Z := let v := v mod 2^n in if v <? 2^(n-1) then v else v - 2^n.
(** What the functions store in *value (not NULL): 0 unless the read succeeds *)
Definition convert (f : Z -> Z) (r : outcome (err * Z * option pbuf)) : outcome (err * Z * option pbuf) :=
  let! r := r in
  let '(e, val, p) := r in
  if negb (is_none e) then Ok (e, 0, p) else Ok (E_NONE, f val, p).
(** protobufs.c:1286-1297, 1311-1322, 1336-1347, 1361-1372 *)
Definition read_int32 (p : option pbuf) (tag : Z) := convert (to_signed 32) (read_integer p tag).
Definition read_uint32 (p : option pbuf) (tag : Z) := convert (fun v => v mod 2^32) (read_integer p tag).
Definition read_int64 (p : option pbuf) (tag : Z) := convert (to_signed 64) (read_integer p tag).
Definition read_uint64 (p : option pbuf) (tag : Z) := convert (fun v => v) (read_integer p tag).
(** protobufs.c:1386-1397, 1411-1422 *)
Definition read_sint32 (p : option pbuf) (tag : Z) :=
  convert (fun val => Z.lxor (to_signed 32 (Z.shiftr val 1)) (- Z.land val 1)) (read_integer p tag).
Definition read_sint64 (p : option pbuf) (tag : Z) :=
  convert (fun val => Z.lxor (to_signed 64 (Z.shiftr val 1)) (- Z.land val 1)) (read_integer p tag).
(** protobufs.c:1602-1613 *)
Definition read_bool (p : option pbuf) (tag : Z) := convert (fun val => if val =? 0 then 0 else 1) (read_integer p tag).
(** protobufs.c:1453-1473, 1504-1528 (value not NULL); the bytes from the last *)
Definition bytes_value (d : list Z) : Z := fold_right (fun b v => Z.lor b (Z.shiftl v 8)) 0 d.
Definition read_fixed (width type : Z) (p : option pbuf) (tag : Z) : outcome (err * Z * option pbuf) :=
  match p with
  | None => Ok (E_INVALID_PARAM, 0, p)
  | Some _ =>
    let! r := read_tag p tag type in
    let '(e, p) := r in
    if negb (is_none e) then Ok (e, 0, p)
    else
      let '(e, off, p) := read_space p width in
      if negb (is_none e) then Ok (e, 0, p)
      else let! d := space_bytes p off width in Ok (E_NONE, bytes_value d, p)
  end.
Definition read_fixed32 := read_fixed 4 WIRE_32BIT.
Definition read_fixed64 := read_fixed 8 WIRE_64BIT.
(** protobufs.c:1436-1439, 1487-1490: the same through a pointer to a signed integer *)
Definition read_sfixed32 (p : option pbuf) (tag : Z) := convert (to_signed 32) (read_fixed32 p tag).
Definition read_sfixed64 (p : option pbuf) (tag : Z) := convert (to_signed 64) (read_fixed64 p tag).
(** protobufs.c:1542-1558, 1572-1588: the representation of the float or double *)
Definition read_float (p : option pbuf) (tag : Z) := read_fixed32 p tag.
Definition read_double (p : option pbuf) (tag : Z) := read_fixed64 p tag.

(** Common beginning of protobufs.c:1640-1675, 1707-1748, 1767-1795 and
    1821-1866: tag, length and space, where [limit b value] tells whether the
    length is too large.  Error code, offset, length. *)
Definition read_delim (p : option pbuf) (tag : Z) (too_long : pbuf -> Z -> bool) : outcome (err * Z * Z * option pbuf) :=
  let! r := read_tag p tag WIRE_DELIM in
  let '(e, p) := r in
  if negb (is_none e) then Ok (e, 0, 0, p)
  else
    let! r := read_varint p in
    let '(e, value, p) := r in
    if negb (is_none e) then Ok (e, 0, 0, p)
    else
      match p with
      | None => UB
      | Some b =>
        if too_long b value then Ok (E_INVALID_FORMAT, 0, 0, Some (with_error E_INVALID_FORMAT b))
        else let '(e, off, p) := read_space p value in Ok (e, off, value, p)
      end.
(** Refuse a string that is not UTF-8 *)
Definition check_utf8 (p : option pbuf) (d : list Z) (size : Z) : outcome (err * option pbuf) :=
  let! ok := protobuf_is_utf8 d size in
  if negb ok then match p with Some b => Ok (E_INVALID_FORMAT, Some (with_error E_INVALID_FORMAT b)) | None => UB end
  else Ok (E_NONE, p).

(** protobufs.c:1640-1675.  [str] is the caller's storage of at least max_size
    bytes; the result is the error code, that storage afterwards and *size. *)
Definition read_string (p : option pbuf) (tag : Z) (str : cptr) (max_size : Z) : outcome (err * cptr * Z * option pbuf) :=
  match str with
  | None => Ok (E_INVALID_PARAM, str, 0, p)
  | Some mem =>
    if max_size =? 0 then Ok (E_INVALID_PARAM, str, 0, p)
    else
      let! mem := store mem 0 [0] in
      let! r := read_delim p tag (fun _ value => max_size <=? value) in
      let '(e, off, sz, p) := r in
      if negb (is_none e) then Ok (e, Some mem, 0, p)
      else
        let! d := space_bytes p off sz in
        let! r := check_utf8 p d sz in
        let '(e, p) := r in
        if negb (is_none e) then Ok (e, Some mem, 0, p)
        else
          let! mem := store mem 0 d in
          let! mem := store mem sz [0] in
          Ok (E_NONE, Some mem, sz, p)
  end.
(** protobufs.c:1767-1795 (size not NULL) *)
Definition read_bytes (p : option pbuf) (tag : Z) (data : cptr) (max_size : Z) : outcome (err * cptr * Z * option pbuf) :=
  match data with
  | None => Ok (E_INVALID_PARAM, data, 0, p)
  | Some mem =>
    let! r := read_delim p tag (fun _ value => max_size <? value) in
    let '(e, off, sz, p) := r in
    if negb (is_none e) then Ok (e, data, 0, p)
    else
      let! d := space_bytes p off sz in
      let! mem := store mem 0 d in
      Ok (E_NONE, Some mem, sz, p)
  end.
Definition alloc_limit (max_size : Z) (b : pbuf) (value : Z) : bool :=
  (if max_size =? 0 then usize (pb_size b - pb_posn b) else max_size) <? value.
Definition no_memory (p : option pbuf) : option pbuf := option_map (with_error E_NO_MEMORY) p.
(** protobufs.c:1707-1748 (str not NULL).  [malloc_ok]: the allocation succeeds.
    Error code, *str (None: NULL) and *size. *)
Definition read_alloc_string (malloc_ok : bool) (p : option pbuf) (tag max_size : Z) : outcome (err * cptr * Z * option pbuf) :=
  let! r := read_delim p tag (alloc_limit max_size) in
  let '(e, off, sz, p) := r in
  if negb (is_none e) then Ok (e, None, 0, p)
  else
    let! d := space_bytes p off sz in
    let! r := check_utf8 p d sz in
    let '(e, p) := r in
    if negb (is_none e) then Ok (e, None, 0, p)
    else if negb malloc_ok then Ok (E_NO_MEMORY, None, 0, no_memory p)
    else Ok (E_NONE, Some (d ++ [0]), sz, p).
(** protobufs.c:1821-1866 (data and size not NULL) *)
Definition read_alloc_bytes (malloc_ok : bool) (p : option pbuf) (tag max_size : Z) : outcome (err * cptr * Z * option pbuf) :=
  let! r := read_delim p tag (alloc_limit max_size) in
  let '(e, off, sz, p) := r in
  if negb (is_none e) then Ok (e, None, 0, p)
  else if negb malloc_ok then Ok (E_NO_MEMORY, None, 0, no_memory p)
  else
    let! d := space_bytes p off sz in
    Ok (E_NONE, Some (if 0 <? sz then d else [0]), sz, p).

(** protobufs.c:1885-1910 (end_posn not NULL): error code and *end_posn *)
Definition read_start_element (p : option pbuf) (tag : Z) : outcome (err * Z * option pbuf) :=
  match p with
  | None => Ok (E_INVALID_PARAM, 0, p)
  | Some _ =>
    let! r := read_tag p tag WIRE_DELIM in
    let '(e, p) := r in
    if negb (is_none e) then Ok (e, 0, p)
    else if negb (tag =? 0) then
      let! r := read_varint p in
      let '(e, size, p) := r in
      if negb (is_none e) then Ok (e, 0, p)
      else
        match p with
        | None => UB
        | Some b =>
          if usize (pb_size b - pb_posn b) <? size then Ok (E_INVALID_FORMAT, 0, Some (with_error E_INVALID_FORMAT b))
          else Ok (E_NONE, pb_posn b + size, p)
        end
    else match p with Some b => Ok (E_NONE, pb_size b, p) | None => UB end
  end.
(** protobufs.c:1926-1937 *)
Definition read_end_element (p : option pbuf) (end_posn : Z) : err * option pbuf :=
  match p with
  | None => (E_INVALID_PARAM, p)
  | Some b =>
    if negb (is_none (pb_error b)) then (pb_error b, p)
    else if negb (pb_posn b =? end_posn) then (E_INVALID_FORMAT, Some (with_error E_INVALID_FORMAT b))
    else (E_NONE, p)
  end.
(** protobufs.c:1952-1958 *)
Definition read_at_end_element (p : option pbuf) (end_posn : Z) : bool :=
  match p with
  | None => true
  | Some b => if negb (is_none (pb_error b)) then true else end_posn <=? pb_posn b
  end.
(** protobufs.c:1976-1983 *)
Definition read_stop (p : option pbuf) : err * option pbuf :=
  match p with
  | None => (E_INVALID_PARAM, p)
  | Some b => let b := if is_none (pb_error b) then with_error E_INVALID_FORMAT b else b in (pb_error b, Some b)
  end.
(** protobufs.c:2001-2038 *)
Definition read_skip (p : option pbuf) : outcome (err * option pbuf) :=
  match p with
  | None => Ok (E_INVALID_PARAM, p)
  | Some _ =>
    let! r := read_varint p in
    let '(e, value, p) := r in
    if negb (is_none e) then Ok (e, p)
    else
      let type := Z.land value 7 in
      if type =? WIRE_VARINT then let! r := read_varint p in let '(e, _, p) := r in Ok (e, p)
      else if type =? WIRE_64BIT then let '(e, _, p) := read_space p 8 in Ok (e, p)
      else if type =? WIRE_DELIM then
        let! r := read_varint p in
        let '(e, value, p) := r in
        if is_none e then
          match p with
          | None => UB
          | Some b =>
            if value <=? usize (pb_size b - pb_posn b) then Ok (e, Some (with_posn (pb_posn b + value) b))
            else Ok (E_INVALID_FORMAT, Some (with_error E_INVALID_FORMAT b))
          end
        else Ok (e, p)
      else if type =? WIRE_32BIT then let '(e, _, p) := read_space p 4 in Ok (e, p)
      else
        match p with
        | None => UB
        | Some b => Ok (E_INVALID_FORMAT, Some (with_error E_INVALID_FORMAT b))
        end
  end.
