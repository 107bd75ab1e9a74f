(** Specification of the echo protocol's identifiers and of base64. *)
From Coq Require Import String.
From Verif Require Import Base Str MEcho.

(** The bytes of the echo protocol
    (github.com/centromere/cacophony, example code) and what they stand for. *)
Definition echo_prefixes : list (Z * string) := [(0, "Noise"); (1, "NoisePSK")]%string.
Definition echo_base_patterns : list string :=
  ["NN"; "KN"; "NK"; "KK"; "NX"; "KX"; "XN"; "IN"; "XK"; "IK"; "XX"; "IX"]%string.
Definition echo_patterns : list (Z * string) :=
  combine (map Z.of_nat (seq 0 12)) echo_base_patterns ++
  combine (map Z.of_nat (seq 128 12)) (map (fun s => s ++ "hfs")%string echo_base_patterns).
Definition echo_ciphers : list (Z * string) := [(0, "ChaChaPoly"); (1, "AESGCM")]%string.
Definition echo_dhs : list (Z * string) :=
  [(0x00, "25519"); (0x01, "448"); (0x02, "NewHope");
   (0x10, "25519+25519"); (0x11, "448+25519"); (0x12, "NewHope+25519");
   (0x20, "25519+448"); (0x21, "448+448"); (0x22, "NewHope+448");
   (0x30, "25519+NewHope"); (0x31, "448+NewHope"); (0x32, "NewHope+NewHope")]%string.
Definition echo_hashes : list (Z * string) := [(0, "SHA256"); (1, "SHA512"); (2, "BLAKE2s"); (3, "BLAKE2b")]%string.

(** [text] is the name of the protocol with the echo identifier [id]. *)
Definition echo_name (id : echo_id) (text : list Z) : Prop :=
  exists prefix pattern dh cipher hash,
    In (ei_psk id, prefix) echo_prefixes /\ In (ei_pattern id, pattern) echo_patterns /\
    In (ei_dh id, dh) echo_dhs /\ In (ei_cipher id, cipher) echo_ciphers /\ In (ei_hash id, hash) echo_hashes /\
    text = str prefix ++ str "_" ++ str pattern ++ str "_" ++ str dh ++ str "_" ++ str cipher ++ str "_" ++ str hash.

(** All fields are bytes. *)
Definition echo_id_ok (id : echo_id) : Prop :=
  is_byte (ei_psk id) /\ is_byte (ei_pattern id) /\ is_byte (ei_cipher id) /\ is_byte (ei_dh id) /\ is_byte (ei_hash id).

(** ** Base64 (RFC 4648, section 4) *)
Definition alphabet : list Z := str "ABCDEFGHIJKLMNOPQRSTUVWXYZabcdefghijklmnopqrstuvwxyz0123456789+/".
(** The digit values of the groups of three bytes; a short last group gives two
    or three digits. *)
Fixpoint base64_digits (key : list Z) : list Z :=
  match key with
  | a :: b :: c :: r => a / 4 :: (a mod 4) * 16 + b / 16 :: (b mod 16) * 4 + c / 64 :: c mod 64 :: base64_digits r
  | [a; b] => [a / 4; (a mod 4) * 16 + b / 16; (b mod 16) * 4]
  | [a] => [a / 4; (a mod 4) * 16]
  | [] => []
  end.
Definition base64_padding (key : list Z) : list Z :=
  if zlen key mod 3 =? 1 then str "==" else if zlen key mod 3 =? 2 then str "=" else [].
Definition base64 (key : list Z) : list Z := map (byte_at alphabet) (base64_digits key) ++ base64_padding key.

(** White space inserted anywhere *)
Definition space (c : Z) : Prop := In c [32; 9; 13; 10].
Inductive spaced : list Z -> list Z -> Prop :=
| sp_nil : spaced [] []
| sp_char : forall c l m, spaced l m -> spaced (c :: l) (c :: m)
| sp_space : forall c l m, space c -> spaced l m -> spaced l (c :: m).

(** The bytes a sequence of digits stands for; two or three digits at the end
    give one or two bytes, left-over bits are dropped, a single digit gives none. *)
Fixpoint base64_bytes (ds : list Z) : list Z :=
  match ds with
  | a :: b :: c :: d :: r => a * 4 + b / 16 :: (b mod 16) * 16 + c / 4 :: (c mod 4) * 64 + d :: base64_bytes r
  | [a; b; c] => [a * 4 + b / 16; (b mod 16) * 16 + c / 4]
  | [a; b] => [a * 4 + b / 16]
  | _ => []
  end.

(** What the loader reads: the digits up to the first equals sign or the end of
    the file.  (White space does not separate: it counts as the digit [prev]
    read before it.)  None: a character that is neither. *)
Definition digit_value (c d : Z) : Prop := 0 <= d < 64 /\ byte_at alphabet d = c.
Inductive reads (prev : Z) : list Z -> option (list Z) -> Prop :=
| rd_end : reads prev [] (Some [])
| rd_equals : forall r, reads prev (61 :: r) (Some [])
| rd_digit : forall c d r ds, digit_value c d -> reads d r ds -> reads prev (c :: r) (option_map (cons d) ds)
| rd_space : forall c r ds, space c -> reads prev r ds -> reads prev (c :: r) (option_map (cons prev) ds)
| rd_other : forall c r, c <> 61 -> ~ space c -> (forall d, ~ digit_value c d) -> reads prev (c :: r) None.
