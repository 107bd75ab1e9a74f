(** Specification vocabulary for CipherState properties (C01-C08). *)
From Verif Require Import Base MCipher.
From Coq Require Import Sorted.

(** What every cipher backend has to guarantee about shapes: MAC length at most
    65535, output of encryption is [mac_len] bytes longer, decryption works in
    place, bytes go to bytes. *)
Record cipher_shape (alg : cipher_alg) : Prop := {
  shape_mac : 0 <= ca_mac_len alg <= MAX_PAYLOAD_LEN;
  shape_key : 0 <= ca_key_len alg;
  shape_enc : forall k n ad pt,
    zlen (snd (ca_encrypt alg k n ad pt)) = zlen pt + ca_mac_len alg;
  shape_enc_bytes : forall k n ad pt, bytes k -> bytes ad -> bytes pt ->
    bytes (snd (ca_encrypt alg k n ad pt));
  shape_dec : forall k n ad ct,
    ca_mac_len alg <= zlen ct -> zlen (snd (ca_decrypt alg k n ad ct)) = zlen ct;
  shape_dec_bytes : forall k n ad ct, bytes k -> bytes ad -> bytes ct ->
    bytes (snd (ca_decrypt alg k n ad ct))
}.

(** An AEAD: encryption of a legal packet succeeds and decryption of its output
    under the same key, nonce and associated data gives the plaintext back. *)
Record cipher_correct (alg : cipher_alg) : Prop := {
  correct_shape : cipher_shape alg;
  correct_enc : forall k n ad pt,
    zlen k = ca_key_len alg -> bytes k -> bytes ad -> bytes pt -> 0 <= n < 2^64 - 1 ->
    zlen pt + ca_mac_len alg <= MAX_PAYLOAD_LEN ->
    fst (ca_encrypt alg k n ad pt) = E_NONE;
  correct_dec : forall k n ad pt,
    zlen k = ca_key_len alg -> bytes k -> bytes ad -> bytes pt -> 0 <= n < 2^64 - 1 ->
    zlen pt + ca_mac_len alg <= MAX_PAYLOAD_LEN ->
    exists rest, ca_decrypt alg k n ad (snd (ca_encrypt alg k n ad pt)) = (E_NONE, pt ++ rest)
}.

(** Decryption accepts nothing but encryptions: only a packet that encryption
    would produce for the resulting plaintext is accepted. *)
Definition cipher_genuine (alg : cipher_alg) : Prop :=
  forall k n ad ct,
    zlen k = ca_key_len alg -> bytes k -> bytes ad -> bytes ct -> 0 <= n < 2^64 - 1 ->
    ca_mac_len alg <= zlen ct -> zlen ct <= MAX_PAYLOAD_LEN ->
    fst (ca_decrypt alg k n ad ct) = E_NONE ->
    ct = snd (ca_encrypt alg k n ad
                (take (zlen ct - ca_mac_len alg) (snd (ca_decrypt alg k n ad ct)))).

(** ** Calls on one CipherState *)
Inductive cs_op : Type :=
| OpInit (key : cptr) (key_len : Z)
| OpEnc (ad : cptr) (ad_len : Z) (b : nbuf)
| OpDec (ad : cptr) (ad_len : Z) (b : nbuf)
| OpSetNonce (nonce : Z).

(** One call; the buffer component is the caller's buffer afterwards. *)
Definition cs_step (s : cipherstate) (op : cs_op) : outcome (err * cipherstate * option nbuf) :=
  match op with
  | OpInit k n => let! r := cipherstate_init_key s k n in Ok (r, None)
  | OpEnc ad n b => let! r := cipherstate_encrypt_with_ad s ad n b in
                    let '(e, s', b') := r in Ok (e, s', Some b')
  | OpDec ad n b => let! r := cipherstate_decrypt_with_ad s ad n b in
                    let '(e, s', b') := r in Ok (e, s', Some b')
  | OpSetNonce n => let '(e, s') := cipherstate_set_nonce s n in Ok (e, s', None)
  end.

(** What the caller observes of one call. *)
Record obs : Type := Obs { o_op : cs_op; o_err : err; o_buf : option nbuf }.

Fixpoint cs_run (s : cipherstate) (ops : list cs_op) : outcome (list obs * cipherstate) :=
  match ops with
  | [] => Ok ([], s)
  | op :: ops' =>
    let! r := cs_step s op in
    let '(e, s', b') := r in
    let! r' := cs_run s' ops' in
    Ok (Obs op e b' :: fst r', snd r')
  end.

(** The caller's obligations: pointers are readable for the given lengths,
    integers are in range of their C types. *)
Definition ptr_ok (p : cptr) (len : Z) : Prop :=
  0 <= len /\ match p with None => True | Some l => len <= zlen l /\ bytes l end.
Definition op_ok (op : cs_op) : Prop :=
  match op with
  | OpInit k n => ptr_ok k n
  | OpEnc ad n b | OpDec ad n b => ptr_ok ad n /\ buf_ok b
  | OpSetNonce n => 0 <= n < 2^64
  end.

(** The bytes a pointer argument stands for. *)
Definition ptr_bytes (p : cptr) (len : Z) : list Z :=
  match p with None => [] | Some l => take len l end.
(** The packet or plaintext currently in a buffer. *)
Definition contents (b : nbuf) : list Z :=
  match b_data b with None => [] | Some mem => take (b_size b) mem end.

(** [explained alg key epoch hist used]: the observed history [hist] is one in
    which the encryptions reached the cipher [alg] exactly with the (epoch,
    nonce) pairs listed in [used]; [epoch] counts successful init_key calls and
    [key] is the current key.  An encryption under a key was either refused, or the buffer now
    holds the cipher's output for the current key and the listed nonce. *)
Inductive explained (alg : cipher_alg)
  : option (list Z) -> nat -> list obs -> list (nat * Z) -> Prop :=
| ex_nil : forall key ep, explained alg key ep [] []
| ex_init_ok : forall key ep k n b h used,
    explained alg (Some (ptr_bytes k n)) (S ep) h used ->
    explained alg key ep (Obs (OpInit k n) E_NONE b :: h) used
| ex_init_fail : forall key ep k n e b h used,
    e <> E_NONE -> explained alg key ep h used ->
    explained alg key ep (Obs (OpInit k n) e b :: h) used
| ex_set : forall key ep n e b h used,
    explained alg key ep h used ->
    explained alg key ep (Obs (OpSetNonce n) e b :: h) used
| ex_dec : forall key ep ad n b e b' h used,
    explained alg key ep h used ->
    explained alg key ep (Obs (OpDec ad n b) e b' :: h) used
| ex_enc_clear : forall ep ad n b e h used,
    explained alg None ep h used ->
    explained alg None ep (Obs (OpEnc ad n b) e (Some b) :: h) used
| ex_enc_refused : forall k ep ad n b e h used,
    e <> E_NONE -> explained alg (Some k) ep h used ->
    explained alg (Some k) ep (Obs (OpEnc ad n b) e (Some b) :: h) used
| ex_enc_used : forall k ep ad n b e b' nonce h used,
    (e, take (b_size b + ca_mac_len alg) (match b_data b' with None => [] | Some m => m end))
      = ca_encrypt alg k nonce (ptr_bytes ad n) (contents b) ->
    explained alg (Some k) ep h used ->
    explained alg (Some k) ep (Obs (OpEnc ad n b) e (Some b') :: h) ((ep, nonce) :: used).

(** Lexicographic order: a later epoch, or the same epoch and a larger nonce. *)
Definition nonce_lt (a b : nat * Z) : Prop :=
  (fst a < fst b)%nat \/ (fst a = fst b /\ snd a < snd b).

(** ** Packet streams
    [stream alg k i msgs arrivals]: the packets [arrivals] (associated data and
    bytes) are the encryptions of [msgs] under nonces i, i+1, ... with any
    number of packets mixed in that the cipher rejects under the nonce
    that is due. *)
Inductive stream (alg : cipher_alg) (k : list Z)
  : Z -> list (list Z * list Z) -> list (bool * list Z * list Z) -> Prop :=
| st_nil : forall i, stream alg k i [] []
| st_genuine : forall i ad pt ms ps,
    stream alg k (i + 1) ms ps ->
    stream alg k i ((ad, pt) :: ms)
                   ((true, ad, snd (ca_encrypt alg k i ad pt)) :: ps)
| st_junk : forall i ad p ms ps,
    (zlen p < ca_mac_len alg \/ MAX_PAYLOAD_LEN < zlen p \/
     fst (ca_decrypt alg k i ad p) <> E_NONE) ->
    stream alg k i ms ps ->
    stream alg k i ms ((false, ad, p) :: ps).

(** Receiving a list of packets through the API, each in a buffer of exactly its
    size; returns what the application sees (error code and buffer contents)
    for each packet, and the final CipherState. *)
Fixpoint receive_all (s : cipherstate) (ps : list (bool * list Z * list Z))
  : outcome (list (err * list Z) * cipherstate) :=
  match ps with
  | [] => Ok ([], s)
  | (_, ad, p) :: ps' =>
    let! r := cipherstate_decrypt_with_ad s (Some ad) (zlen ad)
                (NBuf (Some p) (zlen p) (zlen p)) in
    let '(e, s', b') := r in
    let! r' := receive_all s' ps' in
    Ok ((e, contents b') :: fst r', snd r')
  end.

(** Sending a list of messages, each in a buffer with [room] spare bytes whose
    contents are arbitrary. *)
Fixpoint send_all (s : cipherstate) (spare : list Z) (ms : list (list Z * list Z))
  : outcome (list (err * list Z) * cipherstate) :=
  match ms with
  | [] => Ok ([], s)
  | (ad, pt) :: ms' =>
    let! r := cipherstate_encrypt_with_ad s (Some ad) (zlen ad)
                (NBuf (Some (pt ++ spare)) (zlen pt) (zlen pt + zlen spare)) in
    let '(e, s', b') := r in
    let! r' := send_all s' spare ms' in
    Ok ((e, contents b') :: fst r', snd r')
  end.
