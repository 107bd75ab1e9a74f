(** Specification for fingerprints and error strings. *)
From Coq Require Import String.
From Verif Require Import Base Str SSha2.

(** A lower-case hexadecimal digit. *)
Definition hex_digit (v : Z) : Z := if v <? 10 then 48 + v else 97 + (v - 10).
Definition hex_byte (b : Z) : list Z := [hex_digit (b / 16); hex_digit (b mod 16)].

(** Bytes separated by colons. *)
Fixpoint colon_hex (l : list Z) : list Z :=
  match l with
  | [] => []
  | [b] => hex_byte b
  | b :: r => hex_byte b ++ [58] ++ colon_hex r
  end.

(** The fingerprint of a public key: the first [n] bytes of its SHA-256 digest. *)
Definition fingerprint (n : Z) (key : list Z) : list Z := colon_hex (take n (SHA256 key)).

(** The memory holds the NUL-terminated string [s] (which has no NUL in it) and
    is otherwise as before. *)
Definition holds_string (mem : list Z) (s : list Z) : Prop := exists rest, mem = s ++ 0 :: rest.
Definition c_string (s : list Z) : Prop := Forall (fun b => 1 <= b < 256) s.

(** The documented error codes and their descriptions. *)
Definition error_text (code : Z) : option (list Z) :=
  match code - 69 * 256 with
  | 1 => Some (str "Out of memory")
  | 2 => Some (str "Unknown identifier")
  | 3 => Some (str "Unknown name")
  | 4 => Some (str "MAC failure")
  | 5 => Some (str "Not applicable")
  | 6 => Some (str "System error")
  | 7 => Some (str "Remote public key required")
  | 8 => Some (str "Local keypair required")
  | 9 => Some (str "Pre shared key required")
  | 10 => Some (str "Invalid length")
  | 11 => Some (str "Invalid parameter")
  | 12 => Some (str "Invalid state")
  | 13 => Some (str "Invalid nonce")
  | 14 => Some (str "Invalid private key")
  | 15 => Some (str "Invalid public key")
  | 16 => Some (str "Invalid format")
  | 17 => Some (str "Invalid signature")
  | _ => if code =? 0 then Some (str "No error") else None
  end.

(** Reading a string of hexadecimal digits back. *)
Definition hex_value (c : Z) : Z := if c <? 58 then c - 48 else c - 97 + 10.
Definition hex_number (s : list Z) : Z := fold_left (fun n c => n * 16 + hex_value c) s 0.

(** What noise_strerror should print for an int: the description, or
    "Unknown error 0x" followed by the value as an unsigned 32-bit number in
    lower-case hexadecimal without leading zeros. *)
Definition unknown_text (code : Z) (s : list Z) : Prop :=
  exists digits, s = str "Unknown error 0x" ++ digits /\
    digits <> [] /\ Forall (fun c => 48 <= c <= 57 \/ 97 <= c <= 102) digits /\
    hex_number digits = code mod 2^32 /\ (1 < zlen digits -> hd 48 digits <> 48).
Definition strerror_text (code : Z) (s : list Z) : Prop :=
  match error_text code with Some t => s = t | None => unknown_text code s end.
