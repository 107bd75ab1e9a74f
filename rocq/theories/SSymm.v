(** Specification: SymmetricState, section 5.2 of the Noise specification
    (and the CipherState of section 5.1 it contains). *)
From Verif Require Import Base MCipher MHash SHash SCipher MSymm.

(** The variables of a SymmetricState: ck, h, and the CipherState's k and n. *)
Record noise_sym : Type := NSym { ns_ck : list Z; ns_h : list Z; ns_k : option (list Z); ns_n : Z }.

Section Noise.
(** HASH, HASHLEN, BLOCKLEN; key length; ENCRYPT(k,n,ad,plaintext) and
    DECRYPT(k,n,ad,ciphertext) (None: authentication failure). *)
Variable H : list Z -> list Z.
Variables HASHLEN BLOCKLEN KEYLEN : Z.
Variable ENCRYPT : list Z -> Z -> list Z -> list Z -> list Z.
Variable DECRYPT : list Z -> Z -> list Z -> list Z -> option (list Z).

Definition max_nonce : Z := 2^64 - 1.

(** InitializeSymmetric(protocol_name) *)
Definition InitializeSymmetric (name : list Z) : noise_sym :=
  let h := if zlen name <=? HASHLEN then name ++ zeros (HASHLEN - zlen name) else H name in
  NSym h h None 0.

(** MixKey(input_key_material): temp_k is truncated to the key length *)
Definition MixKey (s : noise_sym) (ikm : list Z) : noise_sym :=
  let '(ck, temp_k) := HKDF H BLOCKLEN (ns_ck s) ikm in
  NSym ck (ns_h s) (Some (take KEYLEN temp_k)) 0.

(** MixHash(data) *)
Definition MixHash (s : noise_sym) (data : list Z) : noise_sym :=
  NSym (ns_ck s) (H (ns_h s ++ data)) (ns_k s) (ns_n s).

(** EncryptAndHash(plaintext): EncryptWithAd(h, plaintext), then MixHash.
    None: the nonce is used up. *)
Definition EncryptAndHash (s : noise_sym) (plaintext : list Z) : option (list Z * noise_sym) :=
  match ns_k s with
  | None => Some (plaintext, MixHash s plaintext)
  | Some k =>
    if ns_n s =? max_nonce then None
    else
      let c := ENCRYPT k (ns_n s) (ns_h s) plaintext in
      Some (c, MixHash (NSym (ns_ck s) (ns_h s) (ns_k s) (ns_n s + 1)) c)
  end.

(** DecryptAndHash(ciphertext) *)
Definition DecryptAndHash (s : noise_sym) (c : list Z) : option (list Z * noise_sym) :=
  match ns_k s with
  | None => Some (c, MixHash s c)
  | Some k =>
    if ns_n s =? max_nonce then None
    else
      match DECRYPT k (ns_n s) (ns_h s) c with
      | None => None
      | Some p => Some (p, MixHash (NSym (ns_ck s) (ns_h s) (ns_k s) (ns_n s + 1)) c)
      end
  end.

(** Split(): the two transport keys *)
Definition Split (s : noise_sym) : list Z * list Z :=
  let '(k1, k2) := HKDF H BLOCKLEN (ns_ck s) [] in (take KEYLEN k1, take KEYLEN k2).
End Noise.

(** The AEAD functions a cipher backend provides. *)
Definition aead_encrypt (ca : cipher_alg) (k : list Z) (n : Z) (ad pt : list Z) : list Z :=
  snd (ca_encrypt ca k n ad pt).
Definition aead_decrypt (ca : cipher_alg) (k : list Z) (n : Z) (ad ct : list Z) : option (list Z) :=
  if zlen ct <? ca_mac_len ca then None
  else if is_none (fst (ca_decrypt ca k n ad ct))
  then Some (take (zlen ct - ca_mac_len ca) (snd (ca_decrypt ca k n ad ct))) else None.

(** ** Calls on one SymmetricState *)
Inductive sym_op : Type :=
| SMixKey (p : cptr) (n : Z)
| SMixHash (p : cptr) (n : Z)
| SEncrypt (b : nbuf)
| SDecrypt (b : nbuf)
| SSplit (want1 want2 : bool).

(** What the caller gets back: the error code, the buffer afterwards, *c1, *c2. *)
Record sym_res : Type := SRes {
  sr_err : err; sr_buf : option nbuf; sr_c1 : option cipherstate; sr_c2 : option cipherstate }.

Definition sym_step (s : symmetricstate) (op : sym_op) : outcome (sym_res * symmetricstate) :=
  match op with
  | SMixKey p n => let! r := symmetricstate_mix_key s p n in
                   let '(e, s') := r in Ok (SRes e None None None, s')
  | SMixHash p n => let! r := symmetricstate_mix_hash s p n in
                    let '(e, s') := r in Ok (SRes e None None None, s')
  | SEncrypt b => let! r := symmetricstate_encrypt_and_hash s b in
                  let '(e, s', b') := r in Ok (SRes e (Some b') None None, s')
  | SDecrypt b => let! r := symmetricstate_decrypt_and_hash s b in
                  let '(e, s', b') := r in Ok (SRes e (Some b') None None, s')
  | SSplit w1 w2 => let! r := symmetricstate_split s w1 w2 true in
                    let '(e, s', c1, c2) := r in Ok (SRes e None c1 c2, s')
  end.

Fixpoint sym_run (s : symmetricstate) (ops : list sym_op) : outcome (list (sym_op * sym_res) * symmetricstate) :=
  match ops with
  | [] => Ok ([], s)
  | op :: ops' =>
    let! r := sym_step s op in
    let! r' := sym_run (snd r) ops' in
    Ok ((op, fst r) :: fst r', snd r')
  end.

(** The caller's obligations.  For decryption [size] bytes must be readable:
    the code hashes them before it compares size with max_size. *)
Definition sym_op_ok (op : sym_op) : Prop :=
  match op with
  | SMixKey p n | SMixHash p n => ptr_ok p n
  | SEncrypt b => buf_ok b
  | SDecrypt b => buf_ok b /\ match b_data b with None => True | Some m => b_size b <= zlen m end
  | SSplit _ _ => True
  end.

(** ** The histories the Noise specification allows
    A state is [None] after Split.  Calls either do what the specification
    says, or are refused for one of the listed reasons and change nothing. *)
Section Histories.
Variable ca : cipher_alg.
Variable H : list Z -> list Z.
Variables HASHLEN BLOCKLEN : Z.

(** MAC length added to a message in state [s]. *)
Definition overhead (s : noise_sym) : Z := match ns_k s with None => 0 | Some _ => ca_mac_len ca end.

(** A CipherState of this cipher holding key [k] at nonce zero. *)
Definition keyed (k : list Z) (c : cipherstate) : Prop :=
  cs_alg c = ca /\ cs_has_key c = true /\ cs_key c = k /\ cs_n c = 0.
Definition keyed_if (want : bool) (k : list Z) (c : option cipherstate) : Prop :=
  if want then exists cs, c = Some cs /\ keyed k cs else c = None.

(** Reasons to refuse a call, with the error code. *)
Inductive refused : option noise_sym -> sym_op -> err -> Prop :=
| ref_mixkey_null : forall st n, refused st (SMixKey None n) E_INVALID_PARAM
| ref_mixhash_null : forall st n, refused st (SMixHash None n) E_INVALID_PARAM
| ref_enc_null : forall st b, b_data b = None -> refused st (SEncrypt b) E_INVALID_PARAM
| ref_dec_null : forall st b, b_data b = None -> refused st (SDecrypt b) E_INVALID_PARAM
| ref_split_null : forall st, refused st (SSplit false false) E_INVALID_PARAM
| ref_after_split : forall op, refused None op E_INVALID_STATE
| ref_enc_long : forall s b,
    (b_max b < b_size b + overhead s \/ MAX_PAYLOAD_LEN < b_size b + overhead s) ->
    refused (Some s) (SEncrypt b) E_INVALID_LENGTH
| ref_enc_nonce : forall s b, ns_k s <> None -> ns_n s = max_nonce -> refused (Some s) (SEncrypt b) E_INVALID_NONCE
| ref_dec_length : forall s b,
    (b_max b < b_size b \/ MAX_PAYLOAD_LEN < b_size b \/ b_size b < overhead s) ->
    refused (Some s) (SDecrypt b) E_INVALID_LENGTH
| ref_dec_nonce : forall s b, ns_k s <> None -> ns_n s = max_nonce -> refused (Some s) (SDecrypt b) E_INVALID_NONCE
| ref_dec_forged : forall s b k e, ns_k s = Some k -> e <> E_NONE ->
    e = fst (ca_decrypt ca k (ns_n s) (ns_h s) (contents b)) ->
    aead_decrypt ca k (ns_n s) (ns_h s) (contents b) = None ->
    refused (Some s) (SDecrypt b) e.

Inductive noise_history : option noise_sym -> list (sym_op * sym_res) -> option noise_sym -> Prop :=
| nh_nil : forall st, noise_history st [] st
| nh_mixkey : forall s m n h st,
    noise_history (Some (MixKey H BLOCKLEN (ca_key_len ca) s (take n m))) h st ->
    noise_history (Some s) ((SMixKey (Some m) n, SRes E_NONE None None None) :: h) st
| nh_mixhash : forall s m n h st,
    noise_history (Some (MixHash H s (take n m))) h st ->
    noise_history (Some s) ((SMixHash (Some m) n, SRes E_NONE None None None) :: h) st
| nh_encrypt : forall s b ct s' b' h st,
    EncryptAndHash H (aead_encrypt ca) s (contents b) = Some (ct, s') ->
    contents b' = ct -> b_size b' = zlen ct -> b_max b' = b_max b ->
    noise_history (Some s') h st ->
    noise_history (Some s) ((SEncrypt b, SRes E_NONE (Some b') None None) :: h) st
| nh_decrypt : forall s b pt s' b' h st,
    DecryptAndHash H (aead_decrypt ca) s (contents b) = Some (pt, s') ->
    contents b' = pt -> b_size b' = zlen pt -> b_max b' = b_max b ->
    noise_history (Some s') h st ->
    noise_history (Some s) ((SDecrypt b, SRes E_NONE (Some b') None None) :: h) st
| nh_split : forall s w1 w2 k1 k2 c1 c2 h st,
    w1 || w2 = true ->
    Split H BLOCKLEN (ca_key_len ca) s = (k1, k2) ->
    keyed_if w1 k1 c1 -> keyed_if w2 k2 c2 ->
    noise_history None h st ->
    noise_history (Some s) ((SSplit w1 w2, SRes E_NONE None c1 c2) :: h) st
| nh_refused : forall st0 op e b h st,
    refused st0 op e ->
    noise_history st0 h st ->
    noise_history st0 ((op, SRes e b None None) :: h) st.
End Histories.

(** The specification state that a SymmetricState object represents. *)
Definition sym_view (s : symmetricstate) : option noise_sym :=
  match ss_cipher s with
  | None => None
  | Some cs => Some (NSym (ss_ck s) (ss_h s) (if cs_has_key cs then Some (cs_key cs) else None) (cs_n cs))
  end.
