(** Specification of algorithm and protocol names. *)
From Coq Require Import String.
From Verif Require Import Base Str MSymm.

(** The registered names of each category, with their numbers. *)
Definition cipher_names : list (Z * string) := [(1, "ChaChaPoly"); (2, "AESGCM")]%string.
Definition hash_names : list (Z * string) := [(1, "BLAKE2s"); (2, "BLAKE2b"); (3, "SHA256"); (4, "SHA512")]%string.
Definition dh_names : list (Z * string) := [(1, "25519"); (2, "448"); (3, "NewHope")]%string.
Definition prefix_names : list (Z * string) := [(1, "Noise"); (2, "NoisePSK")]%string.
Definition sign_names : list (Z * string) := [(1, "Ed25519")]%string.
Definition interactive : list string :=
  ["NN"; "NK"; "NX"; "XN"; "XK"; "XX"; "KN"; "KK"; "KX"; "IN"; "IK"; "IX"]%string.
Definition noidh : list string := ["NX"; "XX"; "KX"; "IK"; "IX"]%string.
Definition number_from (k : nat) (l : list string) : list (Z * string) :=
  combine (map Z.of_nat (seq k (List.length l))) l.
Definition pattern_names : list (Z * string) :=
  number_from 1 ["N"; "X"; "K"]%string ++
  number_from 4 interactive ++
  [(16, "XXfallback")]%string ++
  [(32, "Xnoidh")]%string ++
  number_from 33 (map (fun s => s ++ "noidh")%string noidh) ++
  number_from 48 (map (fun s => s ++ "hfs")%string interactive) ++
  [(60, "XXfallback+hfs")]%string ++
  number_from 80 (map (fun s => s ++ "noidh+hfs")%string noidh).

(** An identifier is the category's letter times 256 plus the number. *)
Definition in_category (letter : Z) (l : list (Z * string)) : list (Z * list Z) :=
  map (fun e => (letter * 256 + fst e, str (snd e))) l.
Definition registry : list (Z * list Z) :=
  in_category 67 cipher_names ++ in_category 72 hash_names ++ in_category 68 dh_names ++
  in_category 80 pattern_names ++ in_category 78 prefix_names ++ in_category 83 sign_names.

(** [name] is the registered name of [id], and [id] belongs to [category]
    (0 for any, otherwise the letter times 256). *)
Definition registered (category id : Z) (name : list Z) : Prop :=
  In (id, name) registry /\ (category = 0 \/ category = id - id mod 256).

(** The text of a protocol identifier:
    prefix_pattern_dh_cipher_hash or prefix_pattern_dh+hybrid_cipher_hash. *)
Definition protocol_text (id : protocol_id) (text : list Z) : Prop :=
  exists prefix pattern dh cipher hash,
    registered (78 * 256) (pi_prefix id) prefix /\
    registered (80 * 256) (pi_pattern id) pattern /\
    registered (68 * 256) (pi_dh id) dh /\
    registered (67 * 256) (pi_cipher id) cipher /\
    registered (72 * 256) (pi_hash id) hash /\
    ((pi_hybrid id = 0 /\
      text = prefix ++ str "_" ++ pattern ++ str "_" ++ dh ++ str "_" ++ cipher ++ str "_" ++ hash) \/
     (exists hybrid, registered (68 * 256) (pi_hybrid id) hybrid /\
      text = prefix ++ str "_" ++ pattern ++ str "_" ++ dh ++ str "+" ++ hybrid ++ str "_" ++ cipher ++ str "_" ++ hash)).
