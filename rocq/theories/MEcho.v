(** Model of parts of examples/echo/echo-server/echo-common.c: the mapping
    between echo protocol identifiers and Noise protocol identifiers, and the
    two key file loaders.  The sockets are not modelled. *)
From Verif Require Import Base MSymm MNames.

(** examples/echo/echo-server/echo-common.h:69-77 *)
Record echo_id : Type := EchoId { ei_psk : Z; ei_pattern : Z; ei_cipher : Z; ei_dh : Z; ei_hash : Z }.

(** A switch statement whose cases all assign a constant and break: the list of
    (case label, constant); None is the default case, ok = 0. *)
Fixpoint switch (cases : list (Z * Z)) (v : Z) : option Z :=
  match cases with
  | [] => None
  | (label, c) :: r => if v =? label then Some c else switch r v
  end.
Definition assigned (r : option Z) : Z := match r with Some c => c | None => 0 end.
Definition is_some (r : option Z) : bool := match r with Some _ => true | None => false end.

(** echo-common.h:48, 56, 62 *)
Definition ECHO_PATTERN_HFS : Z := 0x80.
Definition ECHO_DH_MASK : Z := 0x0F.
Definition ECHO_HYBRID_MASK : Z := 0xF0.

(** echo-common.c:72-76 *)
Definition get_psk : list (Z * Z) := [(NOISE_ID 78 1, 0x00); (NOISE_ID 78 2, 0x01)].
(** echo-common.c:78-104, in the order of the code: NN KN NK KK NX KX XN IN XK IK
    XX IX and the same with hfs *)
Definition get_pattern : list (Z * Z) :=
  [(NOISE_ID 80 4, 0x00); (NOISE_ID 80 10, 0x01); (NOISE_ID 80 5, 0x02); (NOISE_ID 80 11, 0x03);
   (NOISE_ID 80 6, 0x04); (NOISE_ID 80 12, 0x05); (NOISE_ID 80 7, 0x06); (NOISE_ID 80 13, 0x07);
   (NOISE_ID 80 8, 0x08); (NOISE_ID 80 14, 0x09); (NOISE_ID 80 9, 0x0A); (NOISE_ID 80 15, 0x0B);
   (NOISE_ID 80 48, Z.lor 0x00 ECHO_PATTERN_HFS); (NOISE_ID 80 54, Z.lor 0x01 ECHO_PATTERN_HFS);
   (NOISE_ID 80 49, Z.lor 0x02 ECHO_PATTERN_HFS); (NOISE_ID 80 55, Z.lor 0x03 ECHO_PATTERN_HFS);
   (NOISE_ID 80 50, Z.lor 0x04 ECHO_PATTERN_HFS); (NOISE_ID 80 56, Z.lor 0x05 ECHO_PATTERN_HFS);
   (NOISE_ID 80 51, Z.lor 0x06 ECHO_PATTERN_HFS); (NOISE_ID 80 57, Z.lor 0x07 ECHO_PATTERN_HFS);
   (NOISE_ID 80 52, Z.lor 0x08 ECHO_PATTERN_HFS); (NOISE_ID 80 58, Z.lor 0x09 ECHO_PATTERN_HFS);
   (NOISE_ID 80 53, Z.lor 0x0A ECHO_PATTERN_HFS); (NOISE_ID 80 59, Z.lor 0x0B ECHO_PATTERN_HFS)].
(** echo-common.c:106-110 *)
Definition get_cipher : list (Z * Z) := [(NOISE_ID 67 1, 0x00); (NOISE_ID 67 2, 0x01)].
(** echo-common.c:112-117 *)
Definition get_dh : list (Z * Z) := [(NOISE_ID 68 1, 0x00); (NOISE_ID 68 2, 0x01); (NOISE_ID 68 3, 0x02)].
(** echo-common.c:119-125; the case NOISE_DH_NONE leaves id->dh as it is *)
Definition get_hybrid : list (Z * Z) := [(NOISE_ID 68 1, 0x10); (NOISE_ID 68 2, 0x20); (NOISE_ID 68 3, 0x30); (0, 0)].
(** echo-common.c:127-133 *)
Definition get_hash : list (Z * Z) :=
  [(NOISE_ID 72 3, 0x00); (NOISE_ID 72 4, 0x01); (NOISE_ID 72 1, 0x02); (NOISE_ID 72 2, 0x03)].

(** echo-common.c:64-136; [name] is the memory at the name pointer *)
Definition echo_get_protocol_id (name : list Z) : outcome (bool * echo_id) :=
  let! r := noise_protocol_name_to_id (Some name) (c_strlen name) in
  match r with
  | (E_NONE, Some nid) =>
    let psk := switch get_psk (pi_prefix nid) in
    let pattern := switch get_pattern (pi_pattern nid) in
    let cipher := switch get_cipher (pi_cipher nid) in
    let dh := switch get_dh (pi_dh nid) in
    let hybrid := switch get_hybrid (pi_hybrid nid) in
    let hash := switch get_hash (pi_hash nid) in
    Ok (is_some psk && is_some pattern && is_some cipher && is_some dh && is_some hybrid && is_some hash,
        EchoId (assigned psk) (assigned pattern) (assigned cipher) (Z.lor (assigned dh) (assigned hybrid)) (assigned hash))
  | _ => Ok (false, EchoId 0 0 0 0 0)
  end.

(** echo-common.c:145-149 *)
Definition to_psk : list (Z * Z) := [(0x00, NOISE_ID 78 1); (0x01, NOISE_ID 78 2)].
(** echo-common.c:151-177 *)
Definition to_pattern : list (Z * Z) :=
  [(0x00, NOISE_ID 80 4); (0x01, NOISE_ID 80 10); (0x02, NOISE_ID 80 5); (0x03, NOISE_ID 80 11);
   (0x04, NOISE_ID 80 6); (0x05, NOISE_ID 80 12); (0x06, NOISE_ID 80 7); (0x07, NOISE_ID 80 13);
   (0x08, NOISE_ID 80 8); (0x09, NOISE_ID 80 14); (0x0A, NOISE_ID 80 9); (0x0B, NOISE_ID 80 15);
   (Z.lor 0x00 ECHO_PATTERN_HFS, NOISE_ID 80 48); (Z.lor 0x01 ECHO_PATTERN_HFS, NOISE_ID 80 54);
   (Z.lor 0x02 ECHO_PATTERN_HFS, NOISE_ID 80 49); (Z.lor 0x03 ECHO_PATTERN_HFS, NOISE_ID 80 55);
   (Z.lor 0x04 ECHO_PATTERN_HFS, NOISE_ID 80 50); (Z.lor 0x05 ECHO_PATTERN_HFS, NOISE_ID 80 56);
   (Z.lor 0x06 ECHO_PATTERN_HFS, NOISE_ID 80 51); (Z.lor 0x07 ECHO_PATTERN_HFS, NOISE_ID 80 57);
   (Z.lor 0x08 ECHO_PATTERN_HFS, NOISE_ID 80 52); (Z.lor 0x09 ECHO_PATTERN_HFS, NOISE_ID 80 58);
   (Z.lor 0x0A ECHO_PATTERN_HFS, NOISE_ID 80 53); (Z.lor 0x0B ECHO_PATTERN_HFS, NOISE_ID 80 59)].
(** echo-common.c:179-183 *)
Definition to_cipher : list (Z * Z) := [(0x00, NOISE_ID 67 1); (0x01, NOISE_ID 67 2)].
(** echo-common.c:185-190 *)
Definition to_dh : list (Z * Z) := [(0x00, NOISE_ID 68 1); (0x01, NOISE_ID 68 2); (0x02, NOISE_ID 68 3)].
(** echo-common.c:192-198 *)
Definition to_hybrid : list (Z * Z) := [(0x10, NOISE_ID 68 1); (0x20, NOISE_ID 68 2); (0x30, NOISE_ID 68 3); (0x00, 0)].
(** echo-common.c:200-206 *)
Definition to_hash : list (Z * Z) :=
  [(0x00, NOISE_ID 72 3); (0x01, NOISE_ID 72 4); (0x02, NOISE_ID 72 1); (0x03, NOISE_ID 72 2)].

(** echo-common.c:139-209; the reserved fields are zeroed by the memset *)
Definition echo_to_noise_protocol_id (id : echo_id) : bool * protocol_id :=
  let prefix := switch to_psk (ei_psk id) in
  let pattern := switch to_pattern (ei_pattern id) in
  let cipher := switch to_cipher (ei_cipher id) in
  let dh := switch to_dh (Z.land (ei_dh id) ECHO_DH_MASK) in
  let hybrid := switch to_hybrid (Z.land (ei_dh id) ECHO_HYBRID_MASK) in
  let hash := switch to_hash (ei_hash id) in
  (is_some prefix && is_some pattern && is_some cipher && is_some dh && is_some hybrid && is_some hash,
   ProtocolId (assigned prefix) (assigned pattern) (assigned dh) (assigned cipher) (assigned hash) (assigned hybrid)).

(** echo-common.c:58 *)
Definition MAX_DH_KEY_LEN : Z := 2048.

(** echo-common.c:225-239: the loop and what follows; [file] is what is left to
    read, [key] the caller's storage.  Result: the int returned and the storage. *)
Fixpoint load_private_loop (file : list Z) (key : list Z) (len posn : Z) : outcome (bool * list Z) :=
  match file with
  | [] => Ok (negb (posn <? len), key)
  | ch :: r =>
    if len <=? posn then Ok (false, key)
    else let! key := store key posn [ch] in load_private_loop r key len (posn + 1)
  end.
(** echo-common.c:212-240; None: the file cannot be opened *)
Definition echo_load_private_key (file : option (list Z)) (key : list Z) (len : Z) : outcome (bool * list Z) :=
  if MAX_DH_KEY_LEN <? len then Ok (false, key)
  else match file with
       | None => Ok (false, key)
       | Some f => load_private_loop f key len 0
       end.

(** echo-common.c:290-312, after the loop.  (len - posn) is a size_t; group a uint32_t. *)
Definition load_public_end (key : list Z) (len group group_size posn : Z) : outcome (bool * list Z) :=
  let finish (key : list Z) (posn : Z) := Ok (negb (posn <? len), key) in
  if group_size =? 3 then
    if (len - posn) mod 2^64 <? 2 then Ok (false, key)
    else
      let! key := store key posn [Z.shiftr group 10 mod 256] in
      let! key := store key (posn + 1) [Z.shiftr group 2 mod 256] in
      finish key (posn + 2)
  else if group_size =? 2 then
    if (len - posn) mod 2^64 <? 1 then Ok (false, key)
    else
      let! key := store key posn [Z.shiftr group 4 mod 256] in
      finish key (posn + 1)
  else finish key posn.

(** echo-common.c:259-289.  White space leaves [digit] as it was and goes on to
    line 277. *)
Fixpoint load_public_loop (file : list Z) (key : list Z) (len group group_size digit posn : Z) : outcome (bool * list Z) :=
  match file with
  | [] => load_public_end key len group group_size posn
  | ch :: r =>
    let add (digit : Z) :=
      let group := Z.lor (Z.shiftl group 6 mod 2^32) digit in
      let group_size := group_size + 1 in
      if 4 <=? group_size then
        if (len - posn) mod 2^64 <? 3 then Ok (false, key)
        else
          let! key := store key posn [Z.shiftr group 16 mod 256] in
          let! key := store key (posn + 1) [Z.shiftr group 8 mod 256] in
          let! key := store key (posn + 2) [group mod 256] in
          load_public_loop r key len group 0 digit (posn + 3)
      else load_public_loop r key len group group_size digit posn in
    if (65 <=? ch) && (ch <=? 90) then add (ch - 65)
    else if (97 <=? ch) && (ch <=? 122) then add (ch - 97 + 26)
    else if (48 <=? ch) && (ch <=? 57) then add (ch - 48 + 52)
    else if ch =? 43 then add 62
    else if ch =? 47 then add 63
    else if ch =? 61 then load_public_end key len group group_size posn
    else if negb (ch =? 32) && negb (ch =? 9) && negb (ch =? 13) && negb (ch =? 10) then Ok (false, key)
    else add digit
  end.
(** echo-common.c:243-313 *)
Definition echo_load_public_key (file : option (list Z)) (key : list Z) (len : Z) : outcome (bool * list Z) :=
  if MAX_DH_KEY_LEN <? len then Ok (false, key)
  else match file with
       | None => Ok (false, key)
       | Some f => load_public_loop f key len 0 0 0 0
       end.
