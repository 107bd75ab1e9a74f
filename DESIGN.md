# Formal model of noise-c in Rocq: design

The code under study is `/repo` (rweather/noise-c, C). It is read as text; nothing is built or run.
Everything is proved about a hand-written Gallina transcription of the C functions. This file says what
is transcribed, how each property of `properties.jsonl` is stated and proved, and what has to be trusted.

## 1. Layout

All files live in `rocq/theories`.

| kind | files | content |
|---|---|---|
| base | `Base.v` | bytes and words as `Z`, buffers, error codes, the outcome type with undefined behaviour |
| model | `M*.v` | the C functions, one definition per function, each citing file and lines; no proofs |
| specification | `S*.v` | independent specifications (Noise spec, RFCs, FIPS), written without looking at the model's helpers |
| proofs | `P*.v` | lemmas |
| theorems | `T*.v` | the property theorems, each closed with `exact`, followed by `Print Assumptions` and an `Example` showing that the hypotheses are met |

## 2. Modelling conventions

* **Numbers.** A C `uint8_t`, `uint16_t`, `uint32_t`, `uint64_t` or `size_t` is a `Z`. Wherever C reduces
  modulo 2^w the model writes the reduction (`mod 2^w`). `size_t` is 64 bits. `int` is a `Z` used only where no overflow
  is possible, or with an explicit wrap or undefined-behaviour outcome where it is.
* **Bytes and memory.** A byte array is a `list Z`; `bytes l` says all elements are in [0,256).
  A caller's buffer is its storage plus `size` and `max_size`; storage may be longer than `max_size`, so that
  writes past `max_size` would be visible. Writes go through checked primitives; a write outside
  storage gives the separate outcome `UB`.
* **NULL.** Pointer arguments that the C code compares with NULL are `option`. Objects are assumed live otherwise.
* **Errors.** The `NOISE_ERROR_*` codes are an inductive type with the numeric value as a function.
* **Algorithm tables.** A cipher, hash, DH or signature backend is a record of functions (the C struct of function pointers).
  Generic results quantify over the record and state the laws they need as explicit hypotheses;
  where a backend is transcribed too the laws are proved for it, so the hypotheses are known to be satisfiable.
* **Randomness, files and malloc.** Random bytes are an input. Allocation failure is an input where a property is about it,
  and otherwise assumed not to happen (noted per definition).
* **Aliasing.** The payload and message buffers given to one handshake call are assumed disjoint.
* **Secrets.** Zeroing of memory, timing and constant-time behaviour are not modelled.

## 3. Plan per property

| id | modelled | proved by |
|---|---|---|
| C01, C02, C08 | the CipherState API as a transition system logging the nonces handed to the cipher | invariant over traces |
| C03, C04 | two CipherStates with a correct AEAD record | induction on the message list, with forged packets interleaved |
| C05, C06, C07 | encrypt_with_ad and decrypt_with_ad on checked buffers | case analysis; frame lemma for storage |
| C09, C10, C11 | hashstate.c over a streaming hash record | equality with RFC 2104 / Noise HKDF / RFC 8018 specifications |
| C12-C15 | the SHA-2 and BLAKE2 code on words | invariant of the streaming buffer, equality with the block specification |
| C16-C18 | symmetricstate.c | refinement to the Noise specification |
| C19, C20 | the byte tables of patterns.c | decidable checks over the finite table, lifted to statements; table computed from specification notation |
| C21, C31, C32 | handshakestate.c, two parties | simulation invariant over tokens |
| C22-C26, C29, C30, C33 | handshakestate.c as a transition system | case analysis and invariants |
| C27, C28, C33, C36 | the same | expected false of the code: a witness theorem `_refuted`, plus the part that holds |
| C34-C36 | dhstate.c | invariants over call sequences |
| C37-C39 | names.c | finite table plus string induction |
| C40, C41 | util.c | induction |
| C42, C43 | randstate.c with a log of events | invariants |
| C44-C53, C68 | protobufs.c | induction on varints and lists, invariants over call sequences; C50-C53 expected partly false |
| C54, C57, C70 | certificate.c | structural induction on message trees; C57 expected false |
| C55, C56 | loader.c | composition of C03, C10, C54; C56 expected false |
| C58-C62 | chacha.c, poly1305-donna-64.h, cipher-chachapoly.c, ghash.c, cipher-aesgcm.c | word-level arithmetic, limb invariants |
| C63 | curve25519-donna-c64.c | limb arithmetic modulo 2^255-19, ladder equality with RFC 7748 |
| C64, C65 | signstate.c, errors.c | case analysis, invariants |
| C66, C67 | echo-common.c | finite case analysis; C67 expected false |
| C69 | handshakestate.c | refinement of every call log to WriteMessage, ReadMessage and Split of the Noise specification |
| C71 | protobufs.c | case analysis on the next field; induction on varints |
| C72, C73 | loader.c with a file as input and output | composition of C54, C55 with the tag tests; C73 expected partly false |
| C74 | rijndael-alg-fst.c | table entries checked against the field arithmetic of FIPS 197 by computation, lifted to all words; induction on rounds |
| C75 | echo-common.c | case analysis |
| C76 | the X25519 function | points of the curve as a group (complete Edwards law over the field record), Montgomery ladder computes multiples, order of the base point by Pocklington primality |
| C77 | ed25519-donna 64-bit field, group and base table | limb intervals, representation predicates for the four kinds of coordinates, table rows checked against the group law, signed radix-16 digits |
| C78 | the new_by_id switches | instantiation of C21, C31, C32 with C09-C15, C60, C62, C63, C76, C77 |
| C79 | modm-donna-64bit.h, packing of points, ed25519_publickey and ed25519_sign | columns of the products and Barrett's error bound by linear arithmetic, order of the base point (L B = O by a ladder computed in the kernel), embedding of the RFC's points into the curve of C76 |
| C80 | sliding windows, double scalar multiplication, decoding of keys, ed25519_sign_open; SignState with these functions | recoding invariant on bits, table of odd multiples, loop invariant (n1 A + n2 B), square roots modulo p, uniqueness of the decoded point |
| C81 | ed25519_sign_open | false: C81_one_signature_refuted, C81_keys_refuted. S is only checked against 2^253 (ed25519.c:101), y is taken modulo p and the sign of x = 0 is ignored (ed25519-donna-impl-base.h:190-235) |
| C82 | poly1305-donna-32.h, poly1305-donna.c, unsigned long of 32 or 64 bits | limb invariants (26-bit limbs); checked arithmetic for the overflow claim. Not linked to the cipher model, which uses the 64-bit code |
| C83 | newhope/poly.c (codec, pointwise, add, noise from a stream), reduce.c, encode_a/decode_a, encode_b/decode_b | exact bounds on the approximate divisions; induction over groups of coefficients. The stream bytes of the noise are an argument, the machine is little-endian |
| C84 | newhope/error_correction.c (helprec, rec) | distance of helprec's lattice point is at most 2q + 16 (in eighths), decoding cell is 8q; a witness shows the bound on the noise is the best. Assumes what the noise is: that the protocol's noise is that small except with negligible probability is a statement on distributions and is not in the model |
| C85 | newhope/fips202.c: permutation, sha3256, shake128 | the two unrolled rounds equal the five steps on lanes by computation with the word operations kept abstract; the steps on lanes show the steps of FIPS 202 on bits; round constants and rotations come from the standard's generators; induction over blocks |
| C86 | newhope/batcher.c: batcher84 with its 904 comparators; newhope/poly.c: discardtopoly | the network is cut into merges of two sorted blocks (PBatcher.v); each merge is checked by computation for all sorted blocks of bits, which is complete because a comparator only looks at whether a word is below 5q; induction over the merges gives the whole network; each exchange is a permutation of the array and leaves the other columns alone |

## 4. Trusted base

* The kernel of Coq 8.16.1 (the gate also runs coqchk over all modules).
* Axioms: none. `Print Assumptions` below every theorem in the `T*.v` files prints `Closed under the global context`,
  for all of them. coqchk lists `Coq.ssr.ssrunder.Under_rel.*` in its context; those are parameters of a module of
  Coq's ssreflect plugin library that is loaded with the `lia` support files, no theorem depends on them.
* `vm_compute` is used for closed computations (tables, primality certificates); coqchk re-checks them without it.
* The transcription: that the definitions in `M*.v` say what the cited C lines say. No tool links the two.
* C semantics: two's complement, 8-bit bytes, `int` of 32 bits, `size_t` of 64 bits, no reordering visible to the caller, no concurrency.

Modelled (file in `/repo/src` unless said otherwise; each definition cites its lines):

| code | model |
|---|---|
| protocol/cipherstate.c, hashstate.c, symmetricstate.c, handshakestate.c, dhstate.c, signstate.c, patterns.c, names.c, randstate.c (build without libsodium), util.c, errors.c | MCipher, MHash, MSymm, MHandshake, MDh, MSign, MPatterns, MNames, MRand, MUtil, MLibrary |
| backend/ref/: all cipher, hash, dh and sign files | MChaChaPoly, MAesGcm, MSha2, MBlake2, MDh, MSign |
| crypto/sha2, blake2, chacha, ghash, aes (encryption) | MSha2, MBlake2, MChaCha, MGhash, MAes |
| crypto/donna: poly1305-donna-64, poly1305-donna-32, curve25519-donna-c64 | MPoly1305, MPoly32, MX25519 |
| crypto/ed25519: 64-bit field and group code, base point multiplication; numbers modulo the order, keys, signatures and their check | MEd25519, MEdTable, MEdSlide, MEdSign |
| crypto/newhope: coefficient arithmetic, codec, reconciliation, SHA3 and SHAKE, choice of the public coefficients from a stream | MNewhope, MSha3, MBatcher |
| protobufs/protobufs.c | MProto, MArray |
| keys/certificate.c, loader.c | MCert, MLoader |
| examples/echo/echo-server/echo-common.c (ids and key files) | MEcho |

Not modelled: backend/sodium and backend/openssl; crypto/goldilocks (Curve448) and the NewHope exchange as a whole, which are parameters of
`MDh.v` with their laws as hypotheses; the 32-bit variants of the curve25519 and ed25519 donna code and the x86 assembly of ed25519;
in crypto/newhope the number theoretic transform, the loop of poly_uniform that asks for another stream when one is refused; the tools and the network code of the examples; the free functions beyond what C33, C70 need; timing and
zeroing of memory.

## 5. Status

78 properties; `MANIFEST.json` lists the theorems for each. A property is marked partial where its full statement is
false of the code or a part is missing; the note says which. Statements found to be false of the code, each with a theorem
exhibiting a witness:

* C15: on big-endian machines blake2b.c advances by four bytes per eight-byte word (`C15_blake2b_big_endian_refuted`).
* C25: Proved for every handshake begun with start without fallback; the full statement is refuted for XXfallback+hfs (C25_dh_keys_known_refuted): start does not insist on a fallback for that pattern.
* C27: Refuted: a handshake message longer than 65535 bytes is produced (C27_messages_over_the_limit_refuted). The bound the library does ensure is C26.
* C28: Refuted after fallback and for static keys; proved for the ephemeral key of every handshake without fallback.
* C31: For XK, KK, IK and all their variants (hfs, noidh, PSK), with any first message whose ephemeral keys arrive. The combination PSK + hfs is excluded and shown impossible (C31_psk_hybrid_refuted); a fallback from NK leaves an object that cannot start (C31_no_static_refuted).
* C33: Refuted: failures found after allocation leave a dangling pointer; the partial theorems say exactly which failures those are.
* C34: The key kind reported always matches the last successful call, failing calls change nothing, and a curve key pair is always consistent. 'Key lengths never change' holds for the curves and for New Hope unless its role is set (refuted in general: C34_lengths_never_change_refuted).
* C35: Exact for the curve algorithms. For New Hope, which does not allow null keys, the claimed rejection is refuted: an all-zero key is accepted and not reported as null.
* C36: Refuted in full (a DH with an object holding no public key succeeds with an all-zero secret). The guards the function does implement are proved.
* C42: C42_schedule: every call sequence corresponds to actions of a ChaCha20 generator that keep to the schedule (at most 17 blocks of output per key, at most 1600064 bytes between entropy reads, each generate ends with a rekey, entropy used in order). C42_overwrites: the buffer is completely overwritten. C42_sixteen_refuted: seventeen blocks per key are reached although the constant says sixteen. Build without libsodium; not the scalar build on big-endian machines.
* C48: Proved for failures other than NOISE_ERROR_INVALID_PARAM. Refuted in full: write_start_element with a bad end position fails without leaving an error behind (C48_errors_are_sticky_refuted).
* C50: Accepted strings are strict UTF-8, with the exact set characterised. Refuted: characters of three or four bytes are accepted only at the end of the string (C50_exactly_strict_utf8_refuted: E2 82 AC 61).
* C51: Tags up to 15 and sizes up to 127. Refuted beyond: the position is not advanced past the first byte (C51_peeking_refuted, C51_peek_size_refuted).
* C52: Proved only if an error was recorded before; otherwise a negative tag acts as tag 0 for numbers (proved). Refuted in full: C52_negative_tag_refuted.
* C53: All read functions except read_string, read_bytes, read_alloc_string and read_alloc_bytes with tag <= 0, which dereference NULL (C53_null_is_reported_refuted).
* C56: Refuted as stated: C56_never_returns_refuted (an object of more than 65535 bytes less the MAC is encrypted again and again for ever). C56_returns_partial: with smaller objects it returns as soon as one salt does not give the reserved nonce.
* C57: false as stated: three witnesses (element dropped without error, NULL element without error, reader never returns); proved for the four object types without sub-objects
* C58: Proved for the vector and little endian scalar builds, every key, nonce, length below 2^32 and every contents of the uninitialised local array; refuted for big endian machines, where the constants are copied in native byte order.
* C67: Proved: the exact behaviour for every file, and loading of every encoding without white space before its end. Missing and false: white space inside the encoding; C67_loads_refuted shows that for every key length of 2 modulo 3 (32, 56, 2048) any white space before the padding makes the loader refuse the file, C67_wrong_key_refuted that a wrong key may be loaded.
* C72: Proved for every certificate and every chain with at least one certificate; C72_empty_chain_refuted: a saved chain with no certificate is loaded as a chain with one empty certificate.
* C73: Proved for all objects but three kinds: C73_empty_object_refuted (an empty object is saved as an empty file, which is refused on loading), C73_never_returns_refuted (a private key whose message has more than 65535 - MAC bytes but at most 65535: the function does not return).

The theorems were tested against edited models; `seeded/LOG.jsonl` has one line per edit with the theorems that failed and
the theorems that were tightened.
