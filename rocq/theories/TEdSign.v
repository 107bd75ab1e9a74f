(** C79: Ed25519 public keys and signatures are those of RFC 8032. *)
From Verif Require Import Base MHash SHash SBlake2 MSha2 MBlake2 PSha2b PBlake2 SEd25519 MPoly1305 PPoly1305 MEdTable MEd25519 MEdSlide MEdSign PEdSign.

(** No addition, subtraction, multiplication or left shift of the numbers overflows its
    type, unless it is meant to wrap; the result is the public key of RFC 8032; the
    arithmetic of the machine gives the same.  [junk] is the hash context before. *)
Theorem C79_public_key : forall junk sk, hctx_ok sha512_alg junk -> bytes sk -> zlen sk = 32 ->
  ed25519_publickey strict junk sk = Ok (ed_public sk) /\ ed25519_publickey wrap junk sk = Ok (ed_public sk).
Proof. intros. split; apply publickey_ok; auto. apply strict_exact. apply wrap_exact. Qed.
Print Assumptions C79_public_key.

(** The same for signatures of messages of every length below 2^61 - 64 bytes, with
    every public key *)
Theorem C79_signature : forall junk m sk pk, hctx_ok sha512_alg junk -> bytes sk -> zlen sk = 32 -> bytes pk -> zlen pk = 32 ->
  bytes m -> zlen m < 2 ^ 61 - 64 ->
  ed25519_sign strict junk m sk pk = Ok (ed_signature sk pk m) /\ ed25519_sign wrap junk m sk pk = Ok (ed_signature sk pk m).
Proof. intros. split; apply sign_ok; auto; try lia. apply strict_exact. apply wrap_exact. Qed.
Print Assumptions C79_signature.

(** Test 1 of RFC 8032, section 7.1 *)
Definition rfc_sk : list Z :=
  [0x9d;0x61;0xb1;0x9d;0xef;0xfd;0x5a;0x60;0xba;0x84;0x4a;0xf4;0x92;0xec;0x2c;0xc4;0x44;0x49;0xc5;0x69;0x7b;0x32;0x69;0x19;0x70;0x3b;0xac;0x03;0x1c;0xae;0x7f;0x60].
Definition rfc_pk : list Z :=
  [0xd7;0x5a;0x98;0x01;0x82;0xb1;0x0a;0xb7;0xd5;0x4b;0xfe;0xd3;0xc9;0x64;0x07;0x3a;0x0e;0xe1;0x72;0xf3;0xda;0xa6;0x23;0x25;0xaf;0x02;0x1a;0x68;0xf7;0x07;0x51;0x1a].
Definition rfc_sig : list Z :=
  [0xe5;0x56;0x43;0x00;0xc3;0x60;0xac;0x72;0x90;0x86;0xe2;0xcc;0x80;0x6e;0x82;0x8a;0x84;0x87;0x7f;0x1e;0xb8;0xe5;0xd9;0x74;0xd8;0x73;0xe0;0x65;0x22;0x49;0x01;0x55;
   0x5f;0xb8;0x82;0x15;0x90;0xa3;0x3b;0xac;0xc6;0x1e;0x39;0x70;0x1c;0xf9;0xb4;0x6b;0xd2;0x5b;0xf5;0xf0;0x59;0x5b;0xbe;0x24;0x65;0x51;0x41;0x43;0x8e;0x7a;0x10;0x0b].
Definition stack : hctx := HCtx (repeat 0 8) (zeros 128) 0 0.
Definition same_bytes (r : outcome (list Z)) (l : list Z) : bool :=
  match r with Ok r => (zlen r =? zlen l) && forallb (fun x => fst x =? snd x) (combine r l) | UB => false end.
(** (a test only: prints true twice) *)
Eval vm_compute in same_bytes (ed25519_publickey wrap stack rfc_sk) rfc_pk.
Eval vm_compute in same_bytes (ed25519_sign wrap stack [] rfc_sk rfc_pk) rfc_sig.
Lemma byte_list : forall l, forallb (fun x => (0 <=? x) && (x <? 256)) l = true -> bytes l.
Proof.
  intros l H. rewrite forallb_forall in H. apply Forall_forall. intros x Hx. specialize (H x Hx). apply andb_true_iff in H. unfold is_byte. lia.
Qed.
Example C79_example : hctx_ok sha512_alg stack /\ bytes rfc_sk /\ zlen rfc_sk = 32 /\ bytes rfc_pk /\ zlen rfc_pk = 32 /\ bytes rfc_sig /\ zlen rfc_sig = 64.
Proof. repeat split; try reflexivity; apply byte_list; reflexivity. Qed.
