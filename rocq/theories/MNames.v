(** Model of src/protocol/names.c *)
From Coq Require Import String.
From Verif Require Import Base Str MCipher MHash MSymm.

(** include/noise/protocol/constants.h:36-107 *)
Definition CIPHER_CATEGORY : Z := NOISE_ID 67 0.
Definition HASH_CATEGORY : Z := NOISE_ID 72 0.
Definition DH_CATEGORY : Z := NOISE_ID 68 0.
Definition PATTERN_CATEGORY : Z := NOISE_ID 80 0.
Definition PREFIX_CATEGORY : Z := NOISE_ID 78 0.
Definition SIGN_CATEGORY : Z := NOISE_ID 83 0.

(** NoiseIdMapping, src/protocol/names.c:49-55: id, name, name_len *)
Definition id_mapping : Type := (Z * list Z * Z)%type.
Definition mapping (id : Z) (name : string) (len : Z) : id_mapping := (id, str name, len).

(** src/protocol/names.c:56-122; the terminator is the end of the list.  The
    identifiers are those of include/noise/protocol/constants.h:36-110. *)
Definition algorithm_names : list id_mapping :=
  [ mapping (NOISE_ID 67 1) "ChaChaPoly" 10;
    mapping (NOISE_ID 67 2) "AESGCM" 6;
    mapping (NOISE_ID 72 1) "BLAKE2s" 7;
    mapping (NOISE_ID 72 2) "BLAKE2b" 7;
    mapping (NOISE_ID 72 3) "SHA256" 6;
    mapping (NOISE_ID 72 4) "SHA512" 6;
    mapping (NOISE_ID 68 1) "25519" 5;
    mapping (NOISE_ID 68 2) "448" 3;
    mapping (NOISE_ID 68 3) "NewHope" 7;
    mapping (NOISE_ID 80 1) "N" 1;
    mapping (NOISE_ID 80 2) "X" 1;
    mapping (NOISE_ID 80 3) "K" 1;
    mapping (NOISE_ID 80 4) "NN" 2;
    mapping (NOISE_ID 80 5) "NK" 2;
    mapping (NOISE_ID 80 6) "NX" 2;
    mapping (NOISE_ID 80 7) "XN" 2;
    mapping (NOISE_ID 80 8) "XK" 2;
    mapping (NOISE_ID 80 9) "XX" 2;
    mapping (NOISE_ID 80 10) "KN" 2;
    mapping (NOISE_ID 80 11) "KK" 2;
    mapping (NOISE_ID 80 12) "KX" 2;
    mapping (NOISE_ID 80 13) "IN" 2;
    mapping (NOISE_ID 80 14) "IK" 2;
    mapping (NOISE_ID 80 15) "IX" 2;
    mapping (NOISE_ID 80 16) "XXfallback" 10;
    mapping (NOISE_ID 80 32) "Xnoidh" 6;
    mapping (NOISE_ID 80 33) "NXnoidh" 7;
    mapping (NOISE_ID 80 34) "XXnoidh" 7;
    mapping (NOISE_ID 80 35) "KXnoidh" 7;
    mapping (NOISE_ID 80 36) "IKnoidh" 7;
    mapping (NOISE_ID 80 37) "IXnoidh" 7;
    mapping (NOISE_ID 80 48) "NNhfs" 5;
    mapping (NOISE_ID 80 49) "NKhfs" 5;
    mapping (NOISE_ID 80 50) "NXhfs" 5;
    mapping (NOISE_ID 80 51) "XNhfs" 5;
    mapping (NOISE_ID 80 52) "XKhfs" 5;
    mapping (NOISE_ID 80 53) "XXhfs" 5;
    mapping (NOISE_ID 80 54) "KNhfs" 5;
    mapping (NOISE_ID 80 55) "KKhfs" 5;
    mapping (NOISE_ID 80 56) "KXhfs" 5;
    mapping (NOISE_ID 80 57) "INhfs" 5;
    mapping (NOISE_ID 80 58) "IKhfs" 5;
    mapping (NOISE_ID 80 59) "IXhfs" 5;
    mapping (NOISE_ID 80 60) "XXfallback+hfs" 14;
    mapping (NOISE_ID 80 80) "NXnoidh+hfs" 11;
    mapping (NOISE_ID 80 81) "XXnoidh+hfs" 11;
    mapping (NOISE_ID 80 82) "KXnoidh+hfs" 11;
    mapping (NOISE_ID 80 83) "IKnoidh+hfs" 11;
    mapping (NOISE_ID 80 84) "IXnoidh+hfs" 11;
    mapping (NOISE_ID 78 1) "Noise" 5;
    mapping (NOISE_ID 78 2) "NoisePSK" 8;
    mapping (NOISE_ID 83 1) "Ed25519" 7 ].

(** memcmp(a, b, n) == 0 *)
Definition memcmp_eq (a b : list Z) (n : Z) : bool :=
  if list_eq_dec Z.eq_dec (take n a) (take n b) then true else false.

(** src/protocol/names.c:150, 186 *)
Definition category_mask (category : Z) : Z := if category =? 0 then 0 else NOISE_ID 255 0.

(** src/protocol/names.c:146-162; the loop over the table *)
Fixpoint name_to_id_loop (table : list id_mapping) (category : Z) (name : list Z) (name_len : Z) : Z :=
  match table with
  | [] => 0
  | (id, n, len) :: r =>
    if (Z.land id (category_mask category) =? category) && ((len =? name_len) && memcmp_eq n name name_len)
    then id else name_to_id_loop r category name name_len
  end.
Definition noise_name_to_id (category : Z) (name : cptr) (name_len : Z) : outcome Z :=
  match name with
  | None => Ok 0
  | Some _ => let! d := read_ptr name name_len in
              Ok (name_to_id_loop algorithm_names category d name_len)
  end.

(** src/protocol/names.c:182-196 *)
Fixpoint id_to_name_loop (table : list id_mapping) (category id : Z) : option (list Z) :=
  match table with
  | [] => None
  | (i, n, len) :: r =>
    if (Z.land i (category_mask category) =? category) && (i =? id)
    then Some n else id_to_name_loop r category id
  end.
Definition noise_id_to_name (category id : Z) : option (list Z) :=
  if id <=? 0 then None else id_to_name_loop algorithm_names category id.

(** The loops at names.c:227-228 and 287-288: how far the position moves until
    a stop character or the end; [l] is what is left of the name. *)
Fixpoint scan (stop : Z -> bool) (l : list Z) : Z :=
  match l with
  | [] => 0
  | c :: r => if stop c then 0 else 1 + scan stop r
  end.
Definition is_underscore (c : Z) : bool := c =? 95.
Definition is_underscore_or_plus (c : Z) : bool := (c =? 95) || (c =? 43).

(** src/protocol/names.c:214-251; [name] has exactly [len] bytes.  The result is
    the identifier, the new position and the new ok flag. *)
Definition parse_field (category : Z) (name : list Z) (posn : Z) (is_last : bool) (ok : bool) : Z * Z * bool :=
  if negb ok then (0, posn, ok)
  else
    let start := posn in
    let posn := posn + scan is_underscore (drop posn name) in
    let field_len := posn - start in
    let lookup (posn : Z) :=
      let id := name_to_id_loop algorithm_names category (sub start field_len name) field_len in
      (id, posn, if id =? 0 then false else ok) in
    if is_last then
      if posn <? zlen name then (0, posn, false) else lookup posn
    else
      if zlen name <=? posn then (0, posn, false) else lookup (posn + 1).

(** src/protocol/names.c:270-315: first id, second id, position, ok *)
Definition parse_dual_field (category : Z) (name : list Z) (posn : Z) (ok : bool) : Z * Z * Z * bool :=
  if negb ok then (0, 0, posn, ok)
  else
    let start := posn in
    let posn := posn + scan is_underscore_or_plus (drop posn name) in
    if zlen name <=? posn then (0, 0, posn, false)
    else
      let field_len := posn - start in
      let first_id := name_to_id_loop algorithm_names category (sub start field_len name) field_len in
      if first_id =? 0 then (0, 0, posn, false)
      else if byte_at name posn =? 95 then (first_id, 0, posn + 1, ok)
      else
        let '(second_id, posn, ok) := parse_field category name (posn + 1) false ok in
        if second_id =? 0 then (0, second_id, posn, ok) else (first_id, second_id, posn, ok).

Definition zero_id : protocol_id := ProtocolId 0 0 0 0 0 0.

(** src/protocol/names.c:331-364.  The reserved fields are always set to zero
    and not shown.  [id] is not NULL; None as structure means not written. *)
Definition noise_protocol_name_to_id (name : cptr) (name_len : Z) : outcome (err * option protocol_id) :=
  match name with
  | None => Ok (E_INVALID_PARAM, None)
  | Some _ =>
    let! name := read_ptr name name_len in
    let '(prefix_id, posn, ok) := parse_field PREFIX_CATEGORY name 0 false true in
    let '(pattern_id, posn, ok) := parse_field PATTERN_CATEGORY name posn false ok in
    let '(dh_id, hybrid_id, posn, ok) := parse_dual_field DH_CATEGORY name posn ok in
    let '(cipher_id, posn, ok) := parse_field CIPHER_CATEGORY name posn false ok in
    let '(hash_id, posn, ok) := parse_field HASH_CATEGORY name posn true ok in
    if negb ok then Ok (E_UNKNOWN_NAME, Some zero_id)
    else Ok (E_NONE, Some (ProtocolId prefix_id pattern_id dh_id cipher_id hash_id hybrid_id))
  end.

(** src/protocol/names.c:379-411: buffer contents, position and error so far *)
Definition format_state : Type := (list Z * Z * err)%type.
Definition format_field (category id len : Z) (is_last : bool) (s : format_state) : outcome format_state :=
  let '(mem, posn, e) := s in
  if negb (is_none e) then Ok s
  else
    match noise_id_to_name category id with
    | None => Ok (mem, posn, E_UNKNOWN_ID)
    | Some alg_name =>
      let alg_len := zlen alg_name in
      if (len - posn) mod 2^64 <=? alg_len then Ok (mem, posn, E_INVALID_LENGTH)
      else
        let! mem := store mem posn alg_name in
        let posn := posn + alg_len in
        if is_last then let! mem := store mem posn [0] in Ok (mem, posn, e)
        else let! mem := store mem posn [95] in Ok (mem, posn + 1, e)
    end.

(** src/protocol/names.c:469-475 *)
Definition format_plus (len : Z) (s : format_state) : outcome format_state :=
  let '(mem, posn, e) := s in
  if negb (is_none e) then Ok s
  else if posn + 1 <? len then let! mem := store mem posn [43] in Ok (mem, posn + 1, e)
  else Ok (mem, posn, E_INVALID_LENGTH).

(** src/protocol/names.c:436-495.  [id] is the structure with its reserved
    fields; [name] the caller's buffer. *)
Definition noise_protocol_id_to_name (name : cptr) (name_len : Z) (id : option (protocol_id * list Z)) :
    outcome (err * cptr) :=
  match id with
  | None =>
    match name with
    | Some mem => if name_len =? 0 then Ok (E_INVALID_PARAM, name)
                  else let! mem := store mem 0 [0] in Ok (E_INVALID_PARAM, Some mem)
    | None => Ok (E_INVALID_PARAM, name)
    end
  | Some (id, reserved) =>
    match name with
    | None => Ok (E_INVALID_PARAM, name)
    | Some mem =>
      if name_len =? 0 then Ok (E_INVALID_LENGTH, name)
      else
        let s := (mem, 0, E_NONE) in
        let! s := format_field PREFIX_CATEGORY (pi_prefix id) name_len false s in
        let! s := format_field PATTERN_CATEGORY (pi_pattern id) name_len false s in
        let! s := (if pi_hybrid id =? 0 then
                     format_field DH_CATEGORY (pi_dh id) name_len false s
                   else
                     let! s := format_field DH_CATEGORY (pi_dh id) name_len true s in
                     let! s := format_plus name_len s in
                     format_field DH_CATEGORY (pi_hybrid id) name_len false s) in
        let! s := format_field CIPHER_CATEGORY (pi_cipher id) name_len false s in
        let! s := format_field HASH_CATEGORY (pi_hash id) name_len true s in
        let '(mem, _, e) := s in
        let e := if is_none e && negb (forallb (Z.eqb 0) reserved) then E_UNKNOWN_ID else e in
        if negb (is_none e) then let! mem := store mem 0 [0] in Ok (e, Some mem)
        else Ok (e, Some mem)
    end
  end.

(** C library: strlen; the string is the part before the first NUL *)
Definition c_strlen (mem : list Z) : Z := scan (Z.eqb 0) mem.

(** NOISE_MAX_PROTOCOL_NAME, include/noise/protocol/constants.h:154 *)
Definition MAX_PROTOCOL_NAME : Z := 128.

(** src/protocol/symmetricstate.c:135-157 (state not NULL).  The local buffer
    has arbitrary contents, here zeros. *)
Definition symmetricstate_new_by_id (cipher : option cipher_alg) (hash : option (hash_alg * hctx))
    (id : option (protocol_id * list Z)) : outcome (err * option symmetricstate) :=
  match id with
  | None => Ok (E_INVALID_PARAM, None)
  | Some (p, _) =>
    let! r := noise_protocol_id_to_name (Some (zeros MAX_PROTOCOL_NAME)) MAX_PROTOCOL_NAME id in
    match r with
    | (E_NONE, Some mem) => symmetricstate_new cipher hash (take (c_strlen mem) mem) p
    | (e, _) => Ok (e, None)
    end
  end.
(** src/protocol/symmetricstate.c:176-197 (state not NULL); [name] holds a
    NUL-terminated string.  The algorithms are looked up from the parsed id. *)
Definition symmetricstate_new_by_name (cipher : Z -> option cipher_alg) (hash : Z -> option (hash_alg * hctx))
    (name : cptr) : outcome (err * option symmetricstate) :=
  match name with
  | None => Ok (E_INVALID_PARAM, None)
  | Some mem =>
    let name_len := c_strlen mem in
    let! r := noise_protocol_name_to_id name name_len in
    match r with
    | (E_NONE, Some id) => symmetricstate_new (cipher (pi_cipher id)) (hash (pi_hash id)) (take name_len mem) id
    | (e, _) => Ok (e, None)
    end
  end.
