{"id": "C01", "title": "An encryption nonce is never reused under one key", "statement": "Between two calls of noise_cipherstate_init_key on one CipherState, no two calls of noise_cipherstate_encrypt_with_ad that reach the cipher use the same nonce, whatever calls of encrypt, decrypt and set_nonce happen in between and whether or not they succeed; the nonces used are strictly increasing.", "quantifier": "all ciphers, keys and finite sequences of CipherState calls with arbitrary arguments", "why_tests_cant": "the property is about every history; a test runs a handful of short histories", "anchors": ["src/protocol/cipherstate.c:noise_cipherstate_encrypt_with_ad", "src/protocol/cipherstate.c:noise_cipherstate_set_nonce", "src/protocol/cipherstate.c:noise_cipherstate_init_key"]}
{"id": "C02", "title": "The reserved nonce 2^64-1 is never used", "statement": "When the nonce counter is 2^64-1, encrypt_with_ad and decrypt_with_ad on a keyed CipherState return NOISE_ERROR_INVALID_NONCE and change neither the CipherState nor the buffer; the counter never wraps to zero, so every nonce handed to a cipher is below 2^64-1.", "quantifier": "all reachable CipherStates, all buffers and associated data", "why_tests_cant": "the state is 2^64-1 encryptions away; wrap-around cannot be reached by testing through the API without set_nonce", "anchors": ["src/protocol/cipherstate.c:noise_cipherstate_encrypt_with_ad", "src/protocol/cipherstate.c:noise_cipherstate_decrypt_with_ad"]}
{"id": "C03", "title": "A transport channel delivers every message unchanged", "statement": "If two CipherStates of the same algorithm are initialised with the same key, then any finite sequence of (associated data, plaintext) messages of legal size encrypted by one and given to the other in order decrypts to exactly the original plaintexts, and both sides stay at the same nonce.", "quantifier": "all keys, all message sequences of any length, all plaintext and AD contents and sizes up to the limit", "why_tests_cant": "unbounded message sequences and contents", "anchors": ["src/protocol/cipherstate.c:noise_cipherstate_encrypt_with_ad", "src/protocol/cipherstate.c:noise_cipherstate_decrypt_with_ad"]}
{"id": "C04", "title": "A rejected packet leaves the receiver untouched", "statement": "If noise_cipherstate_decrypt_with_ad returns an error, the CipherState (key and nonce) is exactly as before and the buffer size is unchanged, so any number of forged or truncated packets can be interleaved with a genuine stream without losing a genuine message.", "quantifier": "all CipherStates, packets and interleavings of forged packets in a genuine stream", "why_tests_cant": "all interleavings and all forged contents", "anchors": ["src/protocol/cipherstate.c:noise_cipherstate_decrypt_with_ad"]}
{"id": "C05", "title": "Packet size limits are exact", "statement": "With a key, encrypt_with_ad accepts a buffer exactly when size <= max_size, size <= 65535-maclen and max_size-size >= maclen (and the nonce is not reserved) and then grows it by exactly maclen; decrypt_with_ad never succeeds on fewer than maclen or more than 65535 bytes and shrinks by exactly maclen. No packet longer than 65535 bytes is ever produced.", "quantifier": "all sizes, capacities and ciphers", "why_tests_cant": "boundary sizes interact with capacity and MAC length; a test picks a few", "anchors": ["src/protocol/cipherstate.c:noise_cipherstate_encrypt_with_ad", "src/protocol/cipherstate.c:noise_cipherstate_decrypt_with_ad"]}
{"id": "C06", "title": "Without a key the CipherState is transparent", "statement": "Before a key is set, encrypt_with_ad and decrypt_with_ad return success on any buffer of at most 65535 bytes without changing data, size or state, and set_nonce is refused with NOISE_ERROR_INVALID_STATE.", "quantifier": "all buffers, AD and sequences of calls before init_key", "why_tests_cant": "all contents and call sequences", "anchors": ["src/protocol/cipherstate.c:noise_cipherstate_encrypt_with_ad", "src/protocol/cipherstate.c:noise_cipherstate_set_nonce"]}
{"id": "C07", "title": "CipherState calls stay inside the caller's buffer", "statement": "encrypt_with_ad and decrypt_with_ad never read or write outside the first max_size bytes of the caller's buffer and leave all bytes past the resulting packet (encrypt) or past the input packet (decrypt) unchanged, whether they succeed or fail.", "quantifier": "all buffers whose storage holds max_size bytes, all sizes including inconsistent ones", "why_tests_cant": "memory contents outside the buffer are not observed by tests", "anchors": ["src/protocol/cipherstate.c:noise_cipherstate_encrypt_with_ad", "src/protocol/cipherstate.c:noise_cipherstate_decrypt_with_ad"]}
{"id": "C08", "title": "The nonce can only be moved forward", "statement": "noise_cipherstate_set_nonce succeeds exactly when a key is present and the requested nonce is at least the current one, and then sets it; otherwise nothing changes. Only init_key sets the nonce back to zero.", "quantifier": "all CipherStates and all 64-bit nonces", "why_tests_cant": "all pairs of 64-bit values", "anchors": ["src/protocol/cipherstate.c:noise_cipherstate_set_nonce", "src/protocol/cipherstate.c:noise_cipherstate_init_key"]}
{"id": "C09", "title": "HMAC and HKDF match their standards", "statement": "noise_hashstate_hkdf with any hash of the library returns the first output1_len and output2_len bytes of the two-output Noise HKDF built from RFC 2104 HMAC, for keys of any length (shorter than, equal to or longer than the block), any data and any permitted output lengths; too long outputs are refused with NOISE_ERROR_INVALID_LENGTH and nothing is written.", "quantifier": "all hash algorithms, keys, data and output lengths", "why_tests_cant": "test vectors cover a few key lengths", "anchors": ["src/protocol/hashstate.c:noise_hashstate_hmac", "src/protocol/hashstate.c:noise_hashstate_hkdf"]}
{"id": "C10", "title": "PBKDF2 matches RFC 8018", "statement": "noise_hashstate_pbkdf2 fills the output with the first output_len bytes of PBKDF2-HMAC of the passphrase, salt and iteration count, for every output length (including lengths that are not multiples of the hash length) and every iteration count of at least one.", "quantifier": "all passphrases, salts, iteration counts >= 1 and output lengths", "why_tests_cant": "iteration counts and lengths are unbounded", "anchors": ["src/protocol/hashstate.c:noise_hashstate_pbkdf2"]}
{"id": "C11", "title": "Hashing does not depend on how the input is split", "statement": "For every hash algorithm, reset followed by any sequence of updates and finalize gives the same digest as one update with the concatenation; hash_two(d1,d2) equals hash_one(d1||d2), including when the output buffer is one of the inputs.", "quantifier": "all messages and all ways to cut them into updates", "why_tests_cant": "exponentially many cuts", "anchors": ["src/protocol/hashstate.c:noise_hashstate_hash_two", "src/protocol/hashstate.c:noise_hashstate_update", "src/crypto/sha2/sha256.c:sha256_update", "src/crypto/blake2/blake2s.c:BLAKE2s_update"]}
{"id": "C12", "title": "The SHA256 backend computes FIPS 180-4 SHA-256", "statement": "noise_hashstate_hash_one on a SHA256 HashState returns the FIPS 180-4 SHA-256 digest of its input.", "quantifier": "all byte strings shorter than 2^61 bytes", "why_tests_cant": "all messages", "anchors": ["src/crypto/sha2/sha256.c", "src/backend/ref/hash-sha256.c"]}
{"id": "C13", "title": "The SHA512 backend computes FIPS 180-4 SHA-512", "statement": "noise_hashstate_hash_one on a SHA512 HashState returns the FIPS 180-4 SHA-512 digest of its input.", "quantifier": "all byte strings shorter than 2^61 bytes", "why_tests_cant": "all messages", "anchors": ["src/crypto/sha2/sha512.c", "src/backend/ref/hash-sha512.c"]}
{"id": "C14", "title": "The BLAKE2s backend computes RFC 7693 BLAKE2s-256", "statement": "noise_hashstate_hash_one on a BLAKE2s HashState returns the unkeyed 32-byte BLAKE2s digest of RFC 7693.", "quantifier": "all byte strings shorter than 2^64 bytes", "why_tests_cant": "all messages", "anchors": ["src/crypto/blake2/blake2s.c", "src/backend/ref/hash-blake2s.c"]}
{"id": "C15", "title": "The BLAKE2b backend computes RFC 7693 BLAKE2b-512", "statement": "noise_hashstate_hash_one on a BLAKE2b HashState returns the unkeyed 64-byte BLAKE2b digest of RFC 7693.", "quantifier": "all byte strings shorter than 2^64 bytes", "why_tests_cant": "all messages", "anchors": ["src/crypto/blake2/blake2b.c", "src/backend/ref/hash-blake2b.c"]}
{"id": "C16", "title": "SymmetricState implements the Noise specification", "statement": "Creating a SymmetricState and calling mix_key, mix_hash, encrypt_and_hash, decrypt_and_hash and split produces the chaining key, handshake hash, cipher key, nonce, ciphertext and split keys that section 5.2 of the Noise specification defines, for every algorithm combination.", "quantifier": "all protocol names, algorithms and sequences of operations", "why_tests_cant": "all histories of mixed data", "anchors": ["src/protocol/symmetricstate.c"]}
{"id": "C17", "title": "A rejected handshake payload does not change the handshake hash or keys", "statement": "If noise_symmetricstate_decrypt_and_hash returns an error, the chaining key, handshake hash, cipher key and nonce are exactly as before.", "quantifier": "all SymmetricStates and all buffers", "why_tests_cant": "all forged contents", "anchors": ["src/protocol/symmetricstate.c:noise_symmetricstate_decrypt_and_hash"]}
{"id": "C18", "title": "Split happens once and gives both sides matching keys", "statement": "noise_symmetricstate_split succeeds at most once on a SymmetricState; the first CipherState is keyed with the first HKDF output and the second with the second one, both at nonce zero; after a split every mix, encrypt, decrypt and further split returns NOISE_ERROR_INVALID_STATE.", "quantifier": "all SymmetricStates and call sequences", "why_tests_cant": "all histories", "anchors": ["src/protocol/symmetricstate.c:noise_symmetricstate_split"]}
{"id": "C19", "title": "The built-in pattern table is the Noise specification's pattern list", "statement": "For every pattern identifier the messages executed by a HandshakeState (tokens of each message, direction, pre-messages) are those of the Noise specification (and of the hybrid forward secrecy extension and the noidh variants) for that pattern name.", "quantifier": "all forty pattern identifiers", "why_tests_cant": "a transcription error in a rarely used pattern is not hit by tests of common ones", "anchors": ["src/protocol/patterns.c"]}
{"id": "C20", "title": "Every built-in pattern is a valid Noise pattern", "statement": "In every built-in pattern each DH token only uses keys which both parties hold at that point, no public key is sent twice, no DH is performed twice, and the pattern's key flags name exactly the keys the tokens use.", "quantifier": "all forty patterns and both roles", "why_tests_cant": "a validity condition on every prefix of every pattern", "anchors": ["src/protocol/patterns.c", "src/protocol/handshakestate.c:noise_handshakestate_requirements"]}
{"id": "C21", "title": "Two honest parties agree", "statement": "For every non-fallback pattern, algorithm choice, PSK and prologue, if both parties hold the keys the pattern requires and alternate write_message/read_message with any payloads, then every read returns the payload written, both reach NOISE_ACTION_SPLIT after the same number of messages, and both have the same handshake hash.", "quantifier": "all patterns, keys, payload contents and sizes within limits, assuming the DH backend is commutative and the AEAD decrypts what it encrypts", "why_tests_cant": "the product of patterns, algorithms, keys and payloads is unbounded", "anchors": ["src/protocol/handshakestate.c:noise_handshakestate_write_message", "src/protocol/handshakestate.c:noise_handshakestate_read_message"]}
{"id": "C22", "title": "The action state machine admits only the documented transitions", "statement": "noise_handshakestate_get_action only ever moves NONE -> WRITE/READ, alternates between WRITE and READ, and ends in SPLIT then COMPLETE, or FAILED; start, write_message, read_message, split and set-up calls made in any other action return an error and change nothing observable.", "quantifier": "all HandshakeStates and all sequences of API calls", "why_tests_cant": "all call sequences", "anchors": ["src/protocol/handshakestate.c:noise_handshakestate_get_action", "src/protocol/handshakestate.c:noise_handshakestate_start", "src/protocol/handshakestate.c:noise_handshakestate_split"]}
{"id": "C23", "title": "A failed handshake stays failed", "statement": "If write_message or read_message fails while processing a message, the action becomes FAILED, the output message or payload is emptied, and afterwards write_message, read_message, split, start and set-up calls all return an error; only fallback can leave FAILED.", "quantifier": "all failing messages and all later call sequences", "why_tests_cant": "all malformed messages and later histories", "anchors": ["src/protocol/handshakestate.c:noise_handshakestate_write_message", "src/protocol/handshakestate.c:noise_handshakestate_read_message"]}
{"id": "C24", "title": "A handshake cannot start without the keys it needs", "statement": "noise_handshakestate_start succeeds only if the local keypair, remote public key and pre-shared key that the pattern requires for this role are present, and otherwise returns the documented error and leaves the action NONE; needs_local_keypair, needs_remote_public_key and needs_pre_shared_key report exactly this requirement.", "quantifier": "all patterns, both roles, all combinations of keys present", "why_tests_cant": "forty patterns, two roles, all key subsets", "anchors": ["src/protocol/handshakestate.c:noise_handshakestate_start", "src/protocol/handshakestate.c:noise_handshakestate_needs_local_keypair"]}
{"id": "C25", "title": "No handshake mixes the DH of a key that was never set", "statement": "Whenever write_message or read_message performs a DH, both the local private key and the remote public key involved were set or received earlier in this handshake.", "quantifier": "all patterns, roles and message histories started through the API", "why_tests_cant": "all patterns and all histories", "anchors": ["src/protocol/handshakestate.c:noise_handshakestate_mix_dh", "src/protocol/handshakestate.c:noise_handshakestate_start"]}
{"id": "C26", "title": "write_message stays inside the message buffer and read_message inside the message", "statement": "noise_handshakestate_write_message never writes outside the first max_size bytes of the message buffer and returns NOISE_ERROR_INVALID_LENGTH when the handshake data does not fit; read_message never reads outside the received message and rejects every message too short for the keys and authentication tags of its message pattern.", "quantifier": "all patterns, states, buffer capacities and received byte strings", "why_tests_cant": "all capacities and truncations", "anchors": ["src/protocol/handshakestate.c:noise_handshakestate_write", "src/protocol/handshakestate.c:noise_handshakestate_read"]}
{"id": "C27", "title": "Handshake messages respect the 65535-byte limit", "statement": "noise_handshakestate_write_message never produces a handshake message of more than 65535 bytes.", "quantifier": "all patterns, states, payloads and capacities", "why_tests_cant": "needs payloads near the limit in every pattern", "anchors": ["src/protocol/handshakestate.c:noise_handshakestate_write"]}
{"id": "C28", "title": "A null remote public key is never used in a key exchange", "statement": "If a peer sends an all-zero ephemeral or static public key, the handshake in which it was received (including a fallback continuing from it) never performs a DH with that key.", "quantifier": "all patterns, all histories including fallback", "why_tests_cant": "adversarial histories", "anchors": ["src/protocol/handshakestate.c:noise_handshakestate_read", "src/protocol/handshakestate.c:noise_handshakestate_fallback_to", "src/protocol/dhstate.c:noise_dhstate_set_public_key"]}
{"id": "C29", "title": "Pre-shared key and prologue are bound to the handshake", "statement": "For a NoisePSK protocol the pre-shared key is mixed into the chaining key and hash before the first message and every ephemeral key sent is also mixed into the key, exactly as the specification of that revision says; the prologue is hashed first (as empty if none was given); both can only be set before start.", "quantifier": "all PSKs, prologues, patterns and set-up call sequences", "why_tests_cant": "all histories of set-up calls", "anchors": ["src/protocol/handshakestate.c:noise_handshakestate_start", "src/protocol/handshakestate.c:noise_handshakestate_set_pre_shared_key", "src/protocol/handshakestate.c:noise_handshakestate_set_prologue"]}
{"id": "C30", "title": "The handshake hash is only exposed after the handshake and is the Noise h", "statement": "noise_handshakestate_get_handshake_hash fails with NOISE_ERROR_INVALID_STATE before the handshake reaches SPLIT or COMPLETE, and then fills any buffer with the hash value truncated to or zero-padded to max_len.", "quantifier": "all states and all buffer lengths", "why_tests_cant": "all lengths and states", "anchors": ["src/protocol/handshakestate.c:noise_handshakestate_get_handshake_hash"]}
{"id": "C31", "title": "Noise Pipes fallback agrees", "statement": "If the responder cannot process the first IK message and both parties call fallback and restart, then the XXfallback handshake completes with both parties having the same handshake hash and matching transport keys.", "quantifier": "all keys, payloads, prologues and failing first messages", "why_tests_cant": "all histories through fallback", "anchors": ["src/protocol/handshakestate.c:noise_handshakestate_fallback_to"]}
{"id": "C32", "title": "The transport CipherStates of the two parties match", "statement": "After both parties call noise_handshakestate_split, whatever either party encrypts with its send CipherState the other decrypts with its receive CipherState to the same plaintext, and the two directions have different HKDF outputs as keys; a party that does not need one of the two ciphers (as in one-way patterns) may pass NULL for it, and the other one is unaffected.", "quantifier": "all patterns, keys and transport messages", "why_tests_cant": "all histories", "anchors": ["src/protocol/handshakestate.c:noise_handshakestate_split"]}
{"id": "C33", "title": "A failed construction leaves no object behind", "statement": "If noise_handshakestate_new_by_id or new_by_name returns an error, the caller's pointer is NULL afterwards, so that freeing it is harmless.", "quantifier": "all protocol identifiers and roles", "why_tests_cant": "error paths depend on every combination of unsupported algorithms and patterns", "anchors": ["src/protocol/handshakestate.c:noise_handshakestate_new"]}
{"id": "C34", "title": "A DHState always knows what kind of key it holds", "statement": "After any sequence of generate, set_keypair, set_keypair_private, set_public_key, clear_key, copy and set_role calls, has_keypair and has_public_key report exactly whether a keypair or public key was successfully installed last; a failed call that the documentation says leaves the state alone does so, and key lengths never change.", "quantifier": "all DH algorithms and all call sequences", "why_tests_cant": "all histories", "anchors": ["src/protocol/dhstate.c"]}
{"id": "C35", "title": "A null public key is reported but recognised", "statement": "noise_dhstate_set_public_key with an all-zero key returns NOISE_ERROR_INVALID_PUBLIC_KEY when null keys are not allowed and otherwise stores it; is_null_public_key is true exactly when a public key is held and all its bytes are zero.", "quantifier": "all public keys", "why_tests_cant": "2^256 keys", "anchors": ["src/protocol/dhstate.c:noise_dhstate_set_public_key", "src/protocol/dhstate.c:noise_dhstate_is_null_public_key"]}
{"id": "C36", "title": "DH with an object that holds no public key is refused", "statement": "noise_dhstate_calculate returns an error when the public-key argument has no public key.", "quantifier": "all DHStates", "why_tests_cant": "histories where a key was cleared or never set", "anchors": ["src/protocol/dhstate.c:noise_dhstate_calculate"]}
{"id": "C37", "title": "Algorithm names and identifiers correspond one to one", "statement": "noise_name_to_id and noise_id_to_name are inverse to each other inside each category, names in other categories are never found, and matching is exact in length and content.", "quantifier": "all identifiers and all byte strings of any length", "why_tests_cant": "all strings", "anchors": ["src/protocol/names.c:noise_name_to_id", "src/protocol/names.c:noise_id_to_name"]}
{"id": "C38", "title": "Protocol names survive formatting and parsing", "statement": "For every protocol identifier structure accepted by noise_protocol_id_to_name, parsing the produced name with noise_protocol_name_to_id gives back the same structure; for every string accepted by the parser, formatting the result gives back the same string.", "quantifier": "all identifier structures, all strings of any length", "why_tests_cant": "all strings and 2^192 identifier structures", "anchors": ["src/protocol/names.c:noise_protocol_name_to_id", "src/protocol/names.c:noise_protocol_id_to_name"]}
{"id": "C39", "title": "Name formatting never overruns the caller's buffer", "statement": "noise_protocol_id_to_name writes at most name_len bytes, always NUL-terminates when it succeeds, and reports NOISE_ERROR_INVALID_LENGTH when the name does not fit, leaving an empty string.", "quantifier": "all identifier structures and buffer lengths", "why_tests_cant": "all lengths", "anchors": ["src/protocol/names.c:noise_protocol_id_to_name"]}
{"id": "C40", "title": "Constant-time comparisons are correct", "statement": "noise_is_equal returns 1 exactly when the two byte strings are equal and noise_is_zero returns 1 exactly when all bytes are zero.", "quantifier": "all byte strings of any length", "why_tests_cant": "all lengths and contents", "anchors": ["src/protocol/util.c:noise_is_equal", "src/protocol/util.c:noise_is_zero"]}
{"id": "C41", "title": "Fingerprints are exact and fit the buffer", "statement": "noise_format_fingerprint writes exactly the lower-case hexadecimal digits of the first 16 or 32 bytes of the SHA-256 hash of the key separated by colons and NUL-terminated, when the buffer holds it, and otherwise returns NOISE_ERROR_INVALID_LENGTH leaving an empty string; distinct digests give distinct fingerprints.", "quantifier": "all public keys, fingerprint types and buffer lengths", "why_tests_cant": "all keys", "anchors": ["src/protocol/util.c:noise_format_fingerprint"]}
{"id": "C42", "title": "The random number generator rekeys and reseeds on schedule", "statement": "Whatever sequence of generate, pad and reseed calls is made, at most 17 ChaCha20 blocks are produced under one key, at most 1600064 bytes are produced between two reads of system entropy, and every generate call ends with a rekey; the output buffer is always completely overwritten.", "quantifier": "all call sequences and request lengths", "why_tests_cant": "request lengths are unbounded and schedules depend on history", "anchors": ["src/protocol/randstate.c:noise_randstate_generate"]}
{"id": "C43", "title": "Padding changes only the padding", "statement": "noise_randstate_pad leaves the first orig_len bytes of the payload alone, fills exactly the bytes from orig_len to padded_len (with zeros in zero mode), and does nothing if padded_len <= orig_len.", "quantifier": "all payloads, lengths and modes", "why_tests_cant": "all lengths", "anchors": ["src/protocol/randstate.c:noise_randstate_pad"]}
{"id": "C44", "title": "Protobuf integers round-trip", "statement": "Every value written by noise_protobuf_write_int32/uint32/int64/uint64/sint32/sint64/fixed32/fixed64/sfixed32/sfixed64/bool with any non-negative tag (0: no tag) is read back unchanged by the corresponding read function with that tag, which consumes exactly the bytes written.", "quantifier": "all 64-bit values, all non-negative tags, all surrounding buffer contents", "why_tests_cant": "2^64 values and all tags", "anchors": ["src/protobufs/protobufs.c:noise_protobuf_write_integer", "src/protobufs/protobufs.c:noise_protobuf_read_integer"]}
{"id": "C45", "title": "Protobuf byte strings round-trip", "statement": "Every byte array written by noise_protobuf_write_bytes, and every string accepted by noise_protobuf_write_string, is read back unchanged by read_bytes, read_alloc_bytes, read_string and read_alloc_string when the destination is large enough; when it is not large enough the read fails and writes at most the terminating NUL.", "quantifier": "all contents and sizes, all destination sizes", "why_tests_cant": "all contents and sizes", "anchors": ["src/protobufs/protobufs.c:noise_protobuf_write_bytes", "src/protobufs/protobufs.c:noise_protobuf_read_string"]}
{"id": "C46", "title": "Protobuf access stays inside the buffer", "statement": "No noise_protobuf read function reads outside the data given to prepare_input and no write function writes outside the buffer given to prepare_output, for any sequence of calls and any input bytes; the position never leaves the buffer.", "quantifier": "all input byte strings and all sequences of reader and writer calls", "why_tests_cant": "adversarial inputs", "anchors": ["src/protobufs/protobufs.c"]}
{"id": "C47", "title": "Measuring predicts writing", "statement": "The size reported by noise_protobuf_finish_measure for a sequence of writes is exactly the size produced by the same sequence of writes into a buffer, and a buffer of that size always suffices while a smaller one fails with NOISE_ERROR_INVALID_LENGTH.", "quantifier": "all sequences of write calls", "why_tests_cant": "all structures", "anchors": ["src/protobufs/protobufs.c:noise_protobuf_prepare_measure", "src/protobufs/protobufs.c:noise_protobuf_finish_measure"]}
{"id": "C48", "title": "Protobuf errors are sticky", "statement": "Once a read or write on a protobuf has failed, every later read or write returns an error, the position no longer changes and finish reports an error.", "quantifier": "all sequences of calls after an error", "why_tests_cant": "all histories", "anchors": ["src/protobufs/protobufs.c"]}
{"id": "C49", "title": "Skipping a field lands exactly on the next one", "statement": "noise_protobuf_read_skip on a field produced by any of the write functions consumes exactly that field.", "quantifier": "all fields with all tags and contents", "why_tests_cant": "all contents", "anchors": ["src/protobufs/protobufs.c:noise_protobuf_read_skip"]}
{"id": "C50", "title": "String fields are exactly strict UTF-8", "statement": "noise_protobuf_write_string and read_string accept a string exactly when it is strict UTF-8 (RFC 3629) without embedded NUL.", "quantifier": "all byte strings of any length", "why_tests_cant": "all strings", "anchors": ["src/protobufs/protobufs.c:noise_protobuf_is_utf8"]}
{"id": "C51", "title": "Peeking agrees with reading", "statement": "noise_protobuf_peek_tag returns the tag of the next field and peek_size the length of the next length-delimited field, so that a read with that tag succeeds and a buffer of that size suffices.", "quantifier": "all tags and sizes", "why_tests_cant": "tags and sizes above one varint byte", "anchors": ["src/protobufs/protobufs.c:noise_protobuf_peek_tag", "src/protobufs/protobufs.c:noise_protobuf_peek_size", "src/protobufs/protobufs.c:noise_protobuf_peek_varint"]}
{"id": "C52", "title": "Reading with a negative tag is always an error", "statement": "Every noise_protobuf read function given a negative tag fails.", "quantifier": "all inputs and negative tags", "why_tests_cant": "all inputs", "anchors": ["src/protobufs/protobufs.c:noise_protobuf_read_tag"]}
{"id": "C53", "title": "NULL arguments are reported, not dereferenced", "statement": "Every read function given a NULL protobuf returns NOISE_ERROR_INVALID_PARAM.", "quantifier": "all read functions and arguments", "why_tests_cant": "a crash on rarely used argument combinations", "anchors": ["src/protobufs/protobufs.c:noise_protobuf_read_string", "src/protobufs/protobufs.c:noise_protobuf_read_bytes"]}
{"id": "C54", "title": "Certificates and keys survive saving and loading", "statement": "Any certificate, certificate chain, encrypted key or private key object whose strings are accepted by the library is read back with the same fields in the same order after being written, and the reader consumes exactly the bytes written; unknown fields are skipped.", "quantifier": "all object trees of any size", "why_tests_cant": "all objects", "anchors": ["src/keys/certificate.c", "src/keys/loader.c"]}
{"id": "C55", "title": "A saved private key loads with the same passphrase", "statement": "noise_load_private_key_from_buffer with the passphrase used by noise_save_private_key_to_buffer returns the key object that was saved, for every supported protection algorithm.", "quantifier": "all private keys, passphrases, salts and algorithms", "why_tests_cant": "all contents", "anchors": ["src/keys/loader.c:noise_save_private_key_to_buffer", "src/keys/loader.c:noise_load_private_key_from_buffer"]}
{"id": "C56", "title": "Saving a private key terminates", "statement": "noise_save_private_key_to_buffer returns for every private key object and buffer.", "quantifier": "all key objects and buffer sizes", "why_tests_cant": "non-termination needs an unusually large key", "anchors": ["src/keys/loader.c:noise_save_private_key_to_buffer"]}
{"id": "C57", "title": "Running out of memory while loading is reported", "statement": "If any allocation fails while a certificate or key is read, the read function returns an error.", "quantifier": "all inputs and all points of allocation failure", "why_tests_cant": "tests do not inject allocation failures at every point", "anchors": ["src/keys/certificate.c:Noise_Certificate_read", "src/protobufs/protobufs.c:noise_protobuf_add_to_array"]}
{"id": "C58", "title": "The ChaCha20 core is RFC 7539 ChaCha20", "statement": "Encrypting with the ChaCha20 reference code at 64-bit nonce n equals XOR with the RFC 7539 keystream for the 96-bit nonce consisting of 32 zero bits and n in little endian, for messages within the Noise size limit, and is its own inverse.", "quantifier": "all keys, nonces and messages", "why_tests_cant": "all keys and messages", "anchors": ["src/crypto/chacha/chacha.c"]}
{"id": "C59", "title": "The Poly1305 core computes the Poly1305 polynomial", "statement": "poly1305_init, any sequence of updates and finish return ((sum of clamped-r powers times blocks) mod 2^130-5 plus s) mod 2^128 as in RFC 7539, with no intermediate overflow.", "quantifier": "all keys, messages and ways to split the message", "why_tests_cant": "limb overflow occurs with negligible probability on random inputs", "anchors": ["src/crypto/donna/poly1305-donna-64.h", "src/crypto/donna/poly1305-donna.c"]}
{"id": "C60", "title": "ChaChaPoly is the Noise AEAD and accepts exactly genuine packets", "statement": "The ChaChaPoly backend's encryption equals RFC 7539 AEAD_CHACHA20_POLY1305 with the Noise nonce; decryption succeeds exactly when the tag equals the tag of the ciphertext and AD, and then inverts encryption.", "quantifier": "all keys, nonces, AD and packets", "why_tests_cant": "all packets", "anchors": ["src/backend/ref/cipher-chachapoly.c"]}
{"id": "C61", "title": "GHASH multiplies in GF(2^128)", "statement": "ghash_update over any splitting of the input followed by finish computes the SP 800-38D GHASH function.", "quantifier": "all keys, inputs and splittings", "why_tests_cant": "2^128 keys", "anchors": ["src/crypto/ghash/ghash.c"]}
{"id": "C62", "title": "AESGCM is SP 800-38D GCM for every legal packet and accepts exactly genuine packets", "statement": "The AESGCM backend equals GCM with the Noise nonce for every packet up to 65535 bytes: its 16-bit block counter never wraps, decryption succeeds exactly on the right tag, and decryption inverts encryption.", "quantifier": "all keys, nonces, AD and packets of legal size", "why_tests_cant": "counter wrap only shows on long packets; all packets", "anchors": ["src/backend/ref/cipher-aesgcm.c"]}
{"id": "C63", "title": "The 25519 backend computes RFC 7748 X25519", "statement": "noise_dhstate_calculate with 25519 states returns the X25519 function of RFC 7748 of the private and public key, with no limb overflow.", "quantifier": "all private and public keys", "why_tests_cant": "carry bugs occur with negligible probability on random inputs", "anchors": ["src/crypto/donna/curve25519-donna-c64.c", "src/backend/ref/dh-curve25519.c"]}
{"id": "C64", "title": "A SignState always knows what kind of key it holds", "statement": "After any sequence of SignState calls, sign succeeds only when a keypair is held and verify only when at least a public key is held; failed calls leave the documented state.", "quantifier": "all call sequences", "why_tests_cant": "all histories", "anchors": ["src/protocol/signstate.c"]}
{"id": "C65", "title": "Error strings are total and NUL-terminated", "statement": "For every error code, known or not, noise_strerror fills a usable buffer with the documented description (or the text Unknown error 0x followed by the code in hexadecimal), truncated to size - 1 characters and NUL-terminated, never writes beyond size bytes, and returns -1 exactly when the buffer is NULL or its size is 0.", "quantifier": "all integer codes and buffer sizes", "why_tests_cant": "all codes and sizes", "anchors": ["src/protocol/errors.c"]}
{"id": "C66", "title": "The echo protocol identifier mapping is invertible", "statement": "For every Echo protocol id accepted by echo_to_noise_protocol_id, formatting it as a name and mapping back with echo_get_protocol_id gives the same Echo id.", "quantifier": "all 2^40 Echo ids", "why_tests_cant": "finite but too large to enumerate in tests", "anchors": ["examples/echo/echo-server/echo-common.c"]}
{"id": "C67", "title": "Base64 public key files load the key they encode", "statement": "echo_load_public_key returns the key for every base64 encoding of it, including encodings broken by white space.", "quantifier": "all keys and all placements of white space", "why_tests_cant": "all layouts", "anchors": ["examples/echo/echo-server/echo-common.c:echo_load_public_key"]}
{"id": "C68", "title": "Objects in arrays keep their order and are never lost", "statement": "noise_protobuf_add_to_array and insert_into_array keep all earlier elements in order, insert the new one at the given index (or at the end), never write past the allocated capacity and never read uninitialised elements, for any sequence of operations.", "quantifier": "all sequences of insertions and allocation failures", "why_tests_cant": "all sequences", "anchors": ["src/protobufs/protobufs.c:noise_protobuf_add_to_array", "src/protobufs/protobufs.c:noise_protobuf_insert_into_array"]}
{"id": "C69", "title": "Handshake calls follow the Noise specification", "statement": "After a successful start, every sequence of write_message, read_message, split and get_handshake_hash calls behaves as WriteMessage, ReadMessage and Split of section 5.3 of the Noise specification prescribe for the pattern, keys, prologue and pre-shared key: the same messages byte for byte, the same payloads, the same messages rejected, the same transport keys and handshake hash.", "quantifier": "all patterns, algorithms, keys, random bytes, messages (honest or not) and call sequences", "why_tests_cant": "all histories and all adversarial messages", "anchors": ["src/protocol/handshakestate.c:noise_handshakestate_write", "src/protocol/handshakestate.c:noise_handshakestate_read", "src/protocol/handshakestate.c:noise_handshakestate_split", "src/protocol/handshakestate.c:noise_handshakestate_start"]}
{"id": "C70", "title": "Loading certificates and keys from arbitrary bytes is safe and ends", "statement": "Whatever bytes are given to the certificate, chain, key and other object readers, and whichever allocations fail, they never read outside the input; if memory is available they return after at most as many rounds as there are bytes, with either an error and no object or a complete object that can be saved again.", "quantifier": "all byte strings, all object types, all allocation failures", "why_tests_cant": "arbitrary (hostile) input", "anchors": ["src/keys/certificate.c"]}
{"id": "C71", "title": "Fields that are not the expected ones are refused, and every encoding of an integer is understood", "statement": "A noise_protobuf_read function for a given tag fails with NOISE_ERROR_INVALID_FORMAT, delivers nothing and leaves the error set when the next field has another tag or another wire type; an integer or boolean field is read with the value Protocol Buffers define for it in whatever varint encoding of up to ten bytes the sender chose, the shortest or not, values too large for the type being truncated (sint32 fields being only specified for 32 bit values), and every value but zero being true.", "quantifier": "all tags, wire types, kinds of numbers and encodings", "why_tests_cant": "encodings made by other implementations", "anchors": ["src/protobufs/protobufs.c:noise_protobuf_read_tag", "src/protobufs/protobufs.c:noise_protobuf_read_varint", "src/protobufs/protobufs.c:noise_protobuf_read_bool"]}
{"id": "C72", "title": "Certificates and chains can be loaded as one another", "statement": "noise_load_certificate_from_buffer returns the certificate that was saved, or the first certificate if a chain was saved; noise_load_certificate_chain_from_buffer returns the chain that was saved, or the chain with just that certificate if a single certificate was saved.", "quantifier": "all certificates and chains with any number of elements and any contents", "why_tests_cant": "the decision rests on the first tag of a variable-length message; tests have one or two certificates", "anchors": ["src/keys/loader.c: noise_load_certificate_from_buffer, noise_load_certificate_chain_from_buffer, noise_save_certificate_to_buffer, noise_save_certificate_chain_to_buffer"]}
{"id": "C73", "title": "Objects saved to a file are loaded from it", "statement": "noise_save_certificate_to_file, noise_save_certificate_chain_to_file and noise_save_private_key_to_file either report an error and write no file, or write a file of at most 65535 bytes from which the corresponding load function returns an equal object; they always return; the memory estimated for a private key is enough.", "quantifier": "all objects of all sizes, all protection algorithms and passphrases; file operations succeed", "why_tests_cant": "sizes from empty to beyond the limit, including the exact bytes around the limit, are never all tried", "anchors": ["src/keys/loader.c: noise_load_file, noise_save_to_file, noise_save_private_key_to_file"]}
{"id": "C74", "title": "The AES block cipher is FIPS 197", "statement": "The AES code of the reference back end, with its tables combining SubBytes, ShiftRows and MixColumns, encrypts every block under every key of 128, 192 or 256 bits to what FIPS 197 defines, stays within the array of round keys, and does not depend on what that array contained before.", "quantifier": "all keys of the three sizes, all blocks", "why_tests_cant": "2^384 pairs of key and block; a wrong table entry only shows for some inputs", "anchors": ["src/crypto/aes/rijndael-alg-fst.c: rijndaelKeySetupEnc, rijndaelEncrypt"]}
{"id": "C75", "title": "Binary private key files load the key they hold", "statement": "echo_load_private_key succeeds exactly when the file has the length of the key; the buffer then holds the contents of the file, and never is anything written beyond the key.", "quantifier": "all file contents, buffers and lengths up to 2048", "why_tests_cant": "all file lengths and contents", "anchors": ["examples/echo/echo-server/echo-common.c:echo_load_private_key"]}
{"id": "C76", "title": "Two holders of 25519 key pairs compute the same shared key", "statement": "X25519 with two scalars gives the same result in either order, for every u-coordinate. The public key of a private key is never the null key. Consequently, for two DHState objects of Curve25519 that hold key pairs after any calls, calculate of one with the other and of the other with the one both succeed and return the same shared key; and the requirement that the handshake properties C21, C31 and C32 make on the DH functions is met by Curve25519.", "quantifier": "all private keys (32 bytes), all u-coordinates, all call sequences leaving two DHState objects with key pairs", "why_tests_cant": "2^512 pairs of keys; the equality rests on the group law of the curve, which tests on vectors do not exercise beyond a few points.", "anchors": [{"file": "src/backend/ref/dh-curve25519.c", "symbol": "noise_curve25519_calculate"}, {"file": "src/crypto/donna/curve25519-donna-c64.c", "symbol": "curve25519_donna"}, {"file": "src/protocol/dhstate.c", "symbol": "noise_dhstate_calculate"}]}
{"id": "C77", "title": "A 25519 public key is X25519 of the private key and 9", "statement": "noise_dhstate_generate_keypair, set_keypair_private and set_keypair of a Curve25519 object compute the public key with the Edwards form of the curve and a table of 256 multiples of the base point; for every private key the result is X25519(k, 9) of RFC 7748, no intermediate value overflows its C type, and an accepted key pair always has that public key.", "quantifier": "all private keys of 32 bytes, all call sequences leaving a DHState object with a key pair", "why_tests_cant": "2^256 keys; a wrong entry or a missing carry only shows for the keys that use it.", "anchors": [{"file": "src/crypto/ed25519/ed25519.c", "symbol": "curved25519_scalarmult_basepoint"}, {"file": "src/crypto/ed25519/ed25519-donna-impl-base.h", "symbol": "ge25519_scalarmult_base_niels"}, {"file": "src/crypto/ed25519/curve25519-donna-64bit.h", "symbol": "curve25519_mul"}, {"file": "src/crypto/ed25519/ed25519-donna-basepoint-table.h", "symbol": "ge25519_niels_base_multiples"}, {"file": "src/backend/ref/dh-curve25519.c", "symbol": "noise_curve25519_generate_keypair"}]}
{"id": "C78", "title": "Handshakes of the real 25519 protocols succeed", "statement": "For every protocol with 25519, ChaChaPoly or AESGCM, and BLAKE2s, BLAKE2b, SHA256 or SHA512, without a hybrid algorithm, as implemented by the reference backend: two parties set up for the two roles with matching keys that exchange messages in turns accept every message, receive every payload, end with the same handshake hash and with matching transport CipherStates; the same holds after fallback. Nothing is assumed about the cryptographic algorithms: their C code is part of the statement.", "quantifier": "all such protocol identifiers, patterns, keys, prologues, pre-shared keys, random bytes, payloads and buffers", "why_tests_cant": "all combinations of protocols, keys and payloads; test vectors cover one key set per protocol.", "anchors": [{"file": "src/protocol/handshakestate.c", "symbol": "noise_handshakestate_write_message"}, {"file": "src/protocol/cipherstate.c", "symbol": "noise_cipherstate_new_by_id"}, {"file": "src/protocol/hashstate.c", "symbol": "noise_hashstate_new_by_id"}, {"file": "src/protocol/dhstate.c", "symbol": "noise_dhstate_new_by_id"}]}
{"id": "C79", "title": "Ed25519 keys and signatures follow RFC 8032", "statement": "For every private key, the Ed25519 public key that the library computes is the one of RFC 8032, section 5.1.5, and for every message of less than 2^61 - 64 bytes the signature is the one of section 5.1.6 (with SHA-512 as in FIPS 180-4). No arithmetic operation overflows except those that are meant to wrap.", "quantifier": "all private keys, public keys, messages, and contents of the stack", "why_tests_cant": "2^256 keys and all messages; a carry or reduction step that is wrong shows for a tiny fraction of the inputs.", "anchors": [{"file": "src/crypto/ed25519/ed25519.c", "symbol": "ed25519_publickey"}, {"file": "src/crypto/ed25519/ed25519.c", "symbol": "ed25519_sign"}, {"file": "src/crypto/ed25519/modm-donna-64bit.h", "symbol": "barrett_reduce256_modm"}, {"file": "src/crypto/ed25519/ed25519-donna-impl-base.h", "symbol": "ge25519_pack"}]}
{"id": "C80", "title": "Ed25519 verification accepts exactly the signatures that satisfy the equation", "statement": "For every key, message of less than 2^61 - 64 bytes and signature, the verification ends without overflow or access outside its arrays and accepts exactly when S < 2^253, the key decodes to a point A of the curve and R is the encoding of the point with S B = R + k A. With keys made as RFC 8032 says, every signature that RFC 8032 accepts is accepted, and what is accepted with S < L is a signature of RFC 8032. What a SignState object with a key pair signs, every SignState object that holds the same public key verifies.", "quantifier": "all keys, messages, signatures, contents of the stack, call sequences on SignState objects", "why_tests_cant": "2^768 pairs of key and signature for each message; wrong digits of the sliding window or a wrong case of the square root show for a fraction of the inputs.", "anchors": [{"file": "src/crypto/ed25519/ed25519.c", "symbol": "ed25519_sign_open"}, {"file": "src/crypto/ed25519/ed25519-donna-impl-base.h", "symbol": "ge25519_double_scalarmult_vartime"}, {"file": "src/crypto/ed25519/ed25519-donna-impl-base.h", "symbol": "ge25519_unpack_negative_vartime"}, {"file": "src/crypto/ed25519/modm-donna-64bit.h", "symbol": "contract256_slidingwindow_modm"}, {"file": "src/protocol/signstate.c", "symbol": "noise_signstate_verify"}]}
{"id": "C81", "title": "Only the keys and signatures of RFC 8032 are accepted", "statement": "Ed25519 verification refuses every key that RFC 8032, section 5.1.3, does not decode and every signature with S >= L, so that nobody can turn an accepted signature into another one with the same R.", "quantifier": "all keys, messages and signatures", "why_tests_cant": "the counterexamples lie outside what the signing function produces, so that no round trip test finds them", "anchors": [{"file": "src/crypto/ed25519/ed25519.c", "symbol": "ed25519_sign_open"}, {"file": "src/crypto/ed25519/ed25519-donna-impl-base.h", "symbol": "ge25519_unpack_negative_vartime"}]}
{"id": "C82", "title": "Poly1305 is the same on machines without 128-bit integers", "statement": "Built for a machine without 128-bit integers, with unsigned long of 32 or 64 bits, poly1305_init, any sequence of updates and finish return the RFC 7539 MAC of the whole message, equal to the MAC the 64-bit build computes; no sum, product or conversion overflows, and finish clears the key material.", "quantifier": "all keys, messages, ways to split the message and both sizes of unsigned long", "why_tests_cant": "limb overflow and lost carries occur with negligible probability on random inputs, and the test machine runs only one of the two variants", "anchors": [{"file": "src/crypto/donna/poly1305-donna-32.h", "symbol": "poly1305_blocks"}, {"file": "src/crypto/donna/poly1305-donna.c", "symbol": "poly1305_update"}]}
{"id": "C83", "title": "NewHope polynomials survive the wire and coefficient arithmetic is exact modulo q", "statement": "A polynomial of 1024 coefficients is sent as 1792 bytes that depend only on its residues modulo q = 12289, and decodes to these residues; any 1792 received bytes decode to coefficients of 14 bits; the responder's message of 2048 bytes returns its polynomial and help data; multiplication of coefficients is exact modulo q for all 16-bit operands and addition for all operands below 2^15, with no signed overflow; a noise coefficient is q plus the number of ones in 16 random bits minus that in 16 others.", "quantifier": "all polynomials, byte strings, operands and random words", "why_tests_cant": "the reductions are approximate divisions whose error cases are a few operands out of 2^32; a test of key agreement passes although some coefficient is off by q or encodes in two ways", "anchors": [{"file": "src/crypto/newhope/poly.c", "symbol": "poly_tobytes"}, {"file": "src/crypto/newhope/poly.c", "symbol": "poly_frombytes"}, {"file": "src/crypto/newhope/poly.c", "symbol": "poly_pointwise"}, {"file": "src/crypto/newhope/poly.c", "symbol": "poly_add"}, {"file": "src/crypto/newhope/reduce.c", "symbol": "montgomery_reduce"}, {"file": "src/crypto/newhope/newhope.c", "symbol": "encode_b"}]}
{"id": "C84", "title": "NewHope reconciliation gives both parties the same key", "statement": "If the polynomials that the two parties of a NewHope exchange compute differ modulo q by noise whose absolute values in each group of four coefficients add up to less than 3/4 q - 2, then for all random bits the responder's help data leads both parties to the same 32 bytes; each bit of the key is determined by the distance of the four corrected coefficients to the multiples of q; nothing overflows for any received help data; with noise of one more the keys can differ.", "quantifier": "all pairs of polynomials, noise, random bits and received help data", "why_tests_cant": "failing cases have negligible probability in an honest run, so that tests of the exchange never reach the edge of the decoding cells", "anchors": [{"file": "src/crypto/newhope/error_correction.c", "symbol": "helprec"}, {"file": "src/crypto/newhope/error_correction.c", "symbol": "rec"}, {"file": "src/crypto/newhope/newhope.c", "symbol": "newhope_sharedb"}, {"file": "src/crypto/newhope/newhope.c", "symbol": "newhope_shareda"}]}
{"id": "C85", "title": "The hash functions inside NewHope are SHA3-256 and SHAKE128", "statement": "The unrolled permutation is Keccak-f[1600] of FIPS 202 on every state; sha3256 returns SHA3-256 of messages of every length; absorbing a seed with SHAKE128 and squeezing any number of blocks, in one call or several, gives the SHAKE128 output stream of the seed.", "quantifier": "all states, messages of all lengths and numbers of blocks", "why_tests_cant": "test vectors cover a few lengths; the padding differs when the message ends one byte before the end of a block, and a wrong rotation or constant that changes both parties alike goes unnoticed in tests of the exchange", "anchors": [{"file": "src/crypto/newhope/fips202.c", "symbol": "KeccakF1600_StatePermute"}, {"file": "src/crypto/newhope/fips202.c", "symbol": "sha3256"}, {"file": "src/crypto/newhope/fips202.c", "symbol": "shake128_absorb"}, {"file": "src/crypto/newhope/fips202.c", "symbol": "shake128_squeezeblocks"}]}
{"id": "C86", "title": "The public polynomial of NewHope uses exactly the words of the stream below 5q", "statement": "When a stream of 16 SHAKE128 blocks is turned into the public polynomial, the 1024 coefficients are all below 5q and are words of the stream, none used twice; the stream is accepted exactly when each of its 16 columns of 84 words holds at least 64 words below 5q, and refused otherwise.", "quantifier": "all streams of 2688 bytes", "why_tests_cant": "the sorting network has 904 comparators and 2^84 cases per column; a word above the limit occurs in one of 16 positions, and a missing comparator shows only for few of their arrangements", "anchors": [{"file": "src/crypto/newhope/batcher.c", "symbol": "batcher84"}, {"file": "src/crypto/newhope/poly.c", "symbol": "discardtopoly"}]}
