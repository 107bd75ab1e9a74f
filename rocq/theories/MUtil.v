(** Model of parts of src/protocol/util.c and of src/protocol/errors.c *)
From Coq Require Import String.
From Verif Require Import Base Str MHash MSha2.

(** src/protocol/util.c:188-200.  The two blocks are lists of the same length
    [size]; [temp] is a uint8_t, the result an int. *)
Definition is_equal_temp (s1 s2 : list Z) : Z :=
  fold_left (fun temp p => Z.lor temp (Z.lxor (fst p) (snd p))) (combine s1 s2) 0.
Definition noise_is_equal (s1 s2 : list Z) : Z := Z.shiftr (256 - is_equal_temp s1 s2) 8.

(** src/protocol/util.c:211-220 *)
Definition is_zero_temp (d : list Z) : Z := fold_left Z.lor d 0.
Definition noise_is_zero (d : list Z) : Z := Z.shiftr (256 - is_zero_temp d) 8.

(** include/noise/protocol/constants.h:130-131 *)
Definition FINGERPRINT_BASIC : Z := NOISE_ID 70 1.
Definition FINGERPRINT_FULL : Z := NOISE_ID 70 2.

(** src/protocol/util.c:249 *)
Definition hexchars : list Z := str "0123456789abcdef".

(** src/protocol/util.c:282-287, the body of the loop: three bytes at posn * 3 *)
Definition fingerprint_step (hash : list Z) (mem : outcome (list Z)) (posn : Z) : outcome (list Z) :=
  let! m := mem in
  let byte := byte_at hash posn in
  let! m := store m (posn * 3) [byte_at hexchars (Z.land (Z.shiftr byte 4) 15)] in
  let! m := store m (posn * 3 + 1) [byte_at hexchars (Z.land byte 15)] in
  store m (posn * 3 + 2) [58].

(** src/protocol/util.c:245-292.  [buffer] is the caller's storage; the result
    is the error code and its contents afterwards.  The SHA-256 context is a
    local variable with arbitrary contents, here [sha256_new]; sha256_reset
    initialises what is read later. *)
Definition noise_format_fingerprint (fingerprint_type : Z) (buffer : cptr) (len : Z)
    (public_key : cptr) (public_key_len : Z) : outcome (err * cptr) :=
  match buffer with
  | None => Ok (E_INVALID_PARAM, buffer)
  | Some mem =>
    if len =? 0 then Ok (E_INVALID_LENGTH, buffer)
    else
      let! mem := store mem 0 [0] in
      match public_key with
      | None => Ok (E_INVALID_PARAM, Some mem)
      | Some _ =>
        let go (f_len : Z) :=
          if len <? f_len * 3 then Ok (E_INVALID_LENGTH, Some mem)
          else
            let! key := read_ptr public_key public_key_len in
            let hash := snd (sha256_finish (sha256_update (sha256_reset sha256_new) key)) in
            let! mem := fold_left (fingerprint_step hash) (map Z.of_nat (seq 0 (Z.to_nat f_len))) (Ok mem) in
            let! mem := store mem (f_len * 3 - 1) [0] in
            Ok (E_NONE, Some mem) in
        if fingerprint_type =? FINGERPRINT_BASIC then go 16
        else if fingerprint_type =? FINGERPRINT_FULL then go 32
        else Ok (E_INVALID_PARAM, Some mem)
      end
  end.

(** src/protocol/errors.c:46-66 *)
Definition error_strings : list (list Z) :=
  map str
  [ "No error"; "Out of memory"; "Unknown identifier"; "Unknown name"; "MAC failure";
    "Not applicable"; "System error"; "Remote public key required";
    "Local keypair required"; "Pre shared key required"; "Invalid length";
    "Invalid parameter"; "Invalid state"; "Invalid nonce"; "Invalid private key";
    "Invalid public key"; "Invalid format"; "Invalid signature"; "END" ]%string.
(** src/protocol/errors.c:66 *)
Definition num_error_strings : Z := zlen error_strings - 1.

(** src/protocol/errors.c:76-83; [err] is any int *)
Definition noise_errstr (err : Z) : option (list Z) :=
  if err =? 0 then nth_error error_strings 0
  else if (err <? NOISE_ID 69 1) || (NOISE_ID 69 num_error_strings <=? err) then None
  else nth_error error_strings (Z.to_nat (err - NOISE_ID 69 0)).

(** C library: strncpy(buf, s, size) writes the characters of [s], cut off or
    padded with NUL to exactly [size] bytes. *)
Definition strncpy_bytes (s : list Z) (size : Z) : list Z := take size (s ++ zeros size).

(** C library: the digits printed by "%x" for an unsigned int. *)
Fixpoint hex_digits (fuel : nat) (v : Z) : list Z :=
  match fuel with
  | O => []
  | S f => (if v / 16 =? 0 then [] else hex_digits f (v / 16)) ++ [byte_at hexchars (v mod 16)]
  end.
(** C library: snprintf(buf, size, "Unknown error 0x%x", err): the text cut off
    to size - 1 characters and a NUL.  [err] is converted to unsigned int. *)
Definition snprintf_unknown (err size : Z) : list Z :=
  take (size - 1) (str "Unknown error 0x" ++ hex_digits 8 (err mod 2^32)) ++ [0].

(** src/protocol/errors.c:116-127; returns the int result and the buffer *)
Definition noise_strerror (err : Z) (buf : cptr) (size : Z) : outcome (Z * cptr) :=
  let errstr := noise_errstr err in
  match buf with
  | None => Ok (-1, buf)
  | Some mem =>
    if size =? 0 then Ok (-1, buf)
    else
      let! mem := match errstr with
                  | Some s => store mem 0 (strncpy_bytes s size)
                  | None => store mem 0 (snprintf_unknown err size)
                  end in
      let! mem := store mem (size - 1) [0] in
      Ok (0, Some mem)
  end.
