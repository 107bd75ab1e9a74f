{
 "claims": [
  {
   "property": "C01",
   "status": "proved",
   "theorems": [
    "C01_nonce_never_reused"
   ],
   "note": "For every cipher backend of the stated shape and every call sequence from a new CipherState."
  },
  {
   "property": "C02",
   "status": "proved",
   "theorems": [
    "C02_reserved_nonce_never_used",
    "C02_reserved_nonce_refused"
   ],
   "note": "Both halves: never used, and refused without effect once reached."
  },
  {
   "property": "C03",
   "status": "proved",
   "theorems": [
    "C03_channel_round_trip"
   ],
   "note": "For every backend satisfying the AEAD law (shown for the concrete ciphers separately)."
  },
  {
   "property": "C04",
   "status": "proved",
   "theorems": [
    "C04_rejected_packet_changes_nothing",
    "C04_junk_does_not_disturb_stream"
   ],
   "note": "State unchanged on failure, and stream form with arbitrary rejected packets mixed in."
  },
  {
   "property": "C05",
   "status": "proved",
   "theorems": [
    "C05_encrypt_size_limits",
    "C05_decrypt_size_limits"
   ],
   "note": "Encryption: exact acceptance condition; decryption: bounds on success."
  },
  {
   "property": "C06",
   "status": "proved",
   "theorems": [
    "C06_transparent_without_key"
   ],
   "note": "Any history without a successful init_key."
  },
  {
   "property": "C07",
   "status": "proved",
   "theorems": [
    "C07_encrypt_stays_in_buffer",
    "C07_decrypt_stays_in_buffer"
   ],
   "note": "No undefined behaviour for any well-formed caller buffer, and frame condition."
  },
  {
   "property": "C08",
   "status": "proved",
   "theorems": [
    "C08_set_nonce_forward_only",
    "C08_counter_monotone_without_init_key"
   ],
   "note": "Exact condition for set_nonce; monotone counter otherwise."
  },
  {
   "property": "C09",
   "status": "proved",
   "theorems": [
    "C09_hkdf_is_noise_hkdf",
    "C09_hkdf_refuses_long_outputs"
   ],
   "note": "For the four hash backends of the library; HMAC/HKDF spec over the FIPS/RFC hash functions; lengths below the hash functions' message limits."
  },
  {
   "property": "C10",
   "status": "proved",
   "theorems": [
    "C10_pbkdf2_is_rfc8018",
    "C10_pbkdf2_refuses_long_output"
   ],
   "note": "Every iteration count >= 1 and output length up to (2^32-1)*hLen; longer outputs refused."
  },
  {
   "property": "C11",
   "status": "proved",
   "theorems": [
    "C11_any_chunking",
    "C11_hash_two",
    "C11_hash_two_overlap"
   ],
   "note": "Any list of chunks; hash_two; hash_two with overlapping buffers in one memory."
  },
  {
   "property": "C12",
   "status": "proved",
   "theorems": [
    "C12_sha256_is_fips180"
   ],
   "note": "Against an independent FIPS 180-4 specification whose constants are computed from primes."
  },
  {
   "property": "C13",
   "status": "proved",
   "theorems": [
    "C13_sha512_is_fips180"
   ],
   "note": "Against an independent FIPS 180-4 specification whose constants are computed from primes."
  },
  {
   "property": "C14",
   "status": "proved",
   "theorems": [
    "C14_blake2s_is_rfc7693"
   ],
   "note": "All three builds (vector, scalar little endian, scalar big endian)."
  },
  {
   "property": "C15",
   "status": "proved",
   "theorems": [
    "C15_blake2b_is_rfc7693",
    "C15_blake2b_big_endian_refuted"
   ],
   "note": "Little endian builds; the big endian branch is refuted (C15_blake2b_big_endian_refuted), see DESIGN.md."
  },
  {
   "property": "C16",
   "status": "proved",
   "theorems": [
    "C16_symmetricstate_is_noise",
    "C16_symmetricstate_is_noise_std"
   ],
   "note": "Every sequence of operations; for every cipher and hash satisfying the laws, and instantiated for the library's hashes."
  },
  {
   "property": "C17",
   "status": "proved",
   "theorems": [
    "C17_rejected_payload_changes_nothing"
   ],
   "note": "Every state and buffer."
  },
  {
   "property": "C18",
   "status": "proved",
   "theorems": [
    "C18_split_once_with_specified_keys"
   ],
   "note": "First split gives the HKDF keys at nonce zero; everything afterwards is refused."
  },
  {
   "property": "C19",
   "status": "proved",
   "theorems": [
    "C19_table_is_specification",
    "C19_no_other_entries",
    "C19_encoding_unambiguous"
   ],
   "note": "Table entry of each of the forty identifiers is the written form of the specification's pattern; no other entries; the writing is unambiguous."
  },
  {
   "property": "C20",
   "status": "proved",
   "theorems": [
    "C20_patterns_valid",
    "C20_flags_exact"
   ],
   "note": "Validity rules over all events of each pattern, and key flags exact."
  },
  {
   "property": "C21",
   "status": "proved",
   "theorems": [
    "C21_two_honest_parties_agree"
   ],
   "note": "For every pattern except the two fallback patterns (those: C31), both roles, every choice of algorithms with working backends, every payload that fits. The DH functions are assumed to agree (dh_agrees); agrees_25519, agrees_448 and agrees_newhope derive that from the mathematical properties of the primitives."
  },
  {
   "property": "C22",
   "status": "proved",
   "theorems": [
    "C22_only_documented_transitions"
   ],
   "note": "all calls on a HandshakeState, every state; calls that are not allowed change nothing"
  },
  {
   "property": "C23",
   "status": "proved",
   "theorems": [
    "C23_failed_stays_failed",
    "C23_failure_empties_buffers"
   ],
   "note": "any sequence of calls; buffers emptied on failure"
  },
  {
   "property": "C24",
   "status": "proved",
   "theorems": [
    "C24_start_exactly_when_ready",
    "C24_fallback_needs_a_first_handshake"
   ],
   "note": "Exact condition for start to succeed, exact error otherwise, for every non-fallback pattern; fallback patterns need a first handshake except XXfallback+hfs (see C25)."
  },
  {
   "property": "C25",
   "status": "partial",
   "theorems": [
    "C25_dh_keys_known_partial",
    "C25_dh_keys_known_refuted"
   ],
   "note": "Proved for every handshake begun with start without fallback; the full statement is refuted for XXfallback+hfs (C25_dh_keys_known_refuted): start does not insist on a fallback for that pattern."
  },
  {
   "property": "C26",
   "status": "proved",
   "theorems": [
    "C26_write_stays_inside",
    "C26_write_invalid_length",
    "C26_read_stays_inside"
   ],
   "note": "Bounds and error codes for write_message and read_message at every point of every handshake."
  },
  {
   "property": "C27",
   "status": "partial",
   "theorems": [
    "C27_messages_over_the_limit_refuted"
   ],
   "note": "Refuted: a handshake message longer than 65535 bytes is produced (C27_messages_over_the_limit_refuted). The bound the library does ensure is C26."
  },
  {
   "property": "C28",
   "status": "partial",
   "theorems": [
    "C28_null_ephemeral_rejected_partial",
    "C28_null_key_never_used_refuted",
    "C28_null_static_key_refuted"
   ],
   "note": "Refuted after fallback and for static keys; proved for the ephemeral key of every handshake without fallback."
  },
  {
   "property": "C29",
   "status": "proved",
   "theorems": [
    "C29_only_before_start",
    "C29_prologue_then_psk_before_the_first_message"
   ],
   "note": "Set only before start; the exact symmetric state before the first message; messages then follow the specification (C69)."
  },
  {
   "property": "C30",
   "status": "proved",
   "theorems": [
    "C30_refused_before_the_end",
    "C30_truncated_or_padded",
    "C30_value_is_final"
   ],
   "note": "any state; any buffer size; value is final"
  },
  {
   "property": "C31",
   "status": "proved",
   "theorems": [
    "C31_fallback_agrees",
    "C31_psk_hybrid_refuted",
    "C31_no_static_refuted"
   ],
   "note": "For XK, KK, IK and all their variants (hfs, noidh, PSK), with any first message whose ephemeral keys arrive. The combination PSK + hfs is excluded and shown impossible (C31_psk_hybrid_refuted); a fallback from NK leaves an object that cannot start (C31_no_static_refuted)."
  },
  {
   "property": "C32",
   "status": "proved",
   "theorems": [
    "C32_transport_ciphers_match"
   ],
   "note": "Same setting as C21. The two CipherStates of one party decrypt what the other's encrypt, keys are the two outputs of HKDF, asking for only one cipher gives the same cipher."
  },
  {
   "property": "C33",
   "status": "partial",
   "theorems": [
    "C33_new_by_id_left_behind_partial",
    "C33_new_by_name_left_behind_partial",
    "C33_failed_new_leaves_null_refuted"
   ],
   "note": "Refuted: failures found after allocation leave a dangling pointer; the partial theorems say exactly which failures those are."
  },
  {
   "property": "C34",
   "status": "partial",
   "theorems": [
    "C34_reports_what_is_held",
    "C34_failure_changes_nothing",
    "C34_lengths_constant",
    "C34_lengths_never_change_refuted",
    "C34_keypair_matches_25519"
   ],
   "note": "The key kind reported always matches the last successful call, failing calls change nothing, and a curve key pair is always consistent. 'Key lengths never change' holds for the curves and for New Hope unless its role is set (refuted in general: C34_lengths_never_change_refuted)."
  },
  {
   "property": "C35",
   "status": "partial",
   "theorems": [
    "C35_set_public_key_partial",
    "C35_is_null_exact_partial",
    "C35_null_rejected_refuted"
   ],
   "note": "Exact for the curve algorithms. For New Hope, which does not allow null keys, the claimed rejection is refuted: an all-zero key is accepted and not reported as null."
  },
  {
   "property": "C36",
   "status": "partial",
   "theorems": [
    "C36_no_public_key_refused_refuted",
    "C36_calculate_guards_partial"
   ],
   "note": "Refuted in full (a DH with an object holding no public key succeeds with an all-zero secret). The guards the function does implement are proved."
  },
  {
   "property": "C37",
   "status": "proved",
   "theorems": [
    "C37_lookup_exact",
    "C37_lookup_inverse"
   ],
   "note": "Lookups equal the registry for every category value, identifier and byte string; inverse to each other."
  },
  {
   "property": "C38",
   "status": "proved",
   "theorems": [
    "C38_parse_exact",
    "C38_format_then_parse",
    "C38_parse_then_format",
    "C38_new_by_id_is_new_by_name"
   ],
   "note": "Parser accepts exactly the protocol names; both round trips; new_by_id and new_by_name give the same SymmetricState."
  },
  {
   "property": "C39",
   "status": "proved",
   "theorems": [
    "C39_format_exact",
    "C39_format_null"
   ],
   "note": "Exact success condition, frame, NUL termination, empty string on failure, for buffers below 2^64 bytes."
  },
  {
   "property": "C40",
   "status": "proved",
   "theorems": [
    "C40_is_zero_exact",
    "C40_is_equal_exact"
   ],
   "note": "Exact, for byte strings of any length."
  },
  {
   "property": "C41",
   "status": "proved",
   "theorems": [
    "C41_fingerprint_exact",
    "C41_fingerprint_null",
    "C41_fingerprint_injective"
   ],
   "note": "Keys below 2^61 bytes (the SHA-256 length field)."
  },
  {
   "property": "C42",
   "status": "proved",
   "theorems": [
    "C42_schedule",
    "C42_sixteen_refuted",
    "C42_overwrites"
   ],
   "note": "C42_schedule: every call sequence corresponds to actions of a ChaCha20 generator that keep to the schedule (at most 17 blocks of output per key, at most 1600064 bytes between entropy reads, each generate ends with a rekey, entropy used in order). C42_overwrites: the buffer is completely overwritten. C42_sixteen_refuted: seventeen blocks per key are reached although the constant says sixteen. Build without libsodium; not the scalar build on big-endian machines."
  },
  {
   "property": "C43",
   "status": "proved",
   "theorems": [
    "C43_pad"
   ],
   "note": "For every state, lengths and mode; also the call with a NULL state."
  },
  {
   "property": "C44",
   "status": "proved",
   "theorems": [
    "C44_numbers_round_trip"
   ],
   "note": "Thirteen kinds of numbers (floats by their bits), any tag >= 0, any surrounding bytes; also that the bytes written are the Protocol Buffers wire format."
  },
  {
   "property": "C45",
   "status": "proved",
   "theorems": [
    "C45_bytes_round_trip",
    "C45_strings_round_trip"
   ],
   "note": "Bytes and strings, all four read functions, all destination sizes."
  },
  {
   "property": "C46",
   "status": "proved",
   "theorems": [
    "C46_inside_the_buffer",
    "C46_results_inside"
   ],
   "note": "Any sequence of 21 kinds of calls on a prepared object; no undefined behaviour, position in range, bytes beyond the size untouched. One out-of-memory flag per allocation."
  },
  {
   "property": "C47",
   "status": "proved",
   "theorems": [
    "C47_measuring_predicts_writing"
   ],
   "note": "Messages given as trees of fields of any depth and size."
  },
  {
   "property": "C48",
   "status": "partial",
   "theorems": [
    "C48_errors_are_sticky_partial",
    "C48_errors_are_sticky_refuted"
   ],
   "note": "Proved for failures other than NOISE_ERROR_INVALID_PARAM. Refuted in full: write_start_element with a bad end position fails without leaving an error behind (C48_errors_are_sticky_refuted)."
  },
  {
   "property": "C49",
   "status": "proved",
   "theorems": [
    "C49_skip_lands_on_the_next_field"
   ],
   "note": "Every field with a positive tag, nested elements included."
  },
  {
   "property": "C50",
   "status": "partial",
   "theorems": [
    "C50_accepted_is_strict_utf8_partial",
    "C50_accepted_by_write_and_read",
    "C50_exactly_strict_utf8_refuted"
   ],
   "note": "Accepted strings are strict UTF-8, with the exact set characterised. Refuted: characters of three or four bytes are accepted only at the end of the string (C50_exactly_strict_utf8_refuted: E2 82 AC 61)."
  },
  {
   "property": "C51",
   "status": "partial",
   "theorems": [
    "C51_peeking_partial",
    "C51_peeking_refuted",
    "C51_peek_size_refuted"
   ],
   "note": "Tags up to 15 and sizes up to 127. Refuted beyond: the position is not advanced past the first byte (C51_peeking_refuted, C51_peek_size_refuted)."
  },
  {
   "property": "C52",
   "status": "partial",
   "theorems": [
    "C52_negative_tag_partial",
    "C52_negative_tag_refuted"
   ],
   "note": "Proved only if an error was recorded before; otherwise a negative tag acts as tag 0 for numbers (proved). Refuted in full: C52_negative_tag_refuted."
  },
  {
   "property": "C53",
   "status": "partial",
   "theorems": [
    "C53_null_is_reported_partial",
    "C53_null_is_reported_refuted"
   ],
   "note": "All read functions except read_string, read_bytes, read_alloc_string and read_alloc_bytes with tag <= 0, which dereference NULL (C53_null_is_reported_refuted)."
  },
  {
   "property": "C54",
   "status": "proved",
   "theorems": [
    "C54_object_written",
    "C54_writes_below_position",
    "C54_any_message_read",
    "C54_read_back",
    "C54_saved_and_loaded"
   ],
   "note": "all ten object types; writing produces the protobuf encoding of doc/noise-certificate.proto, reading accepts fields in any order with unknown fields, reading back gives the same object and consumes exactly the bytes"
  },
  {
   "property": "C55",
   "status": "proved",
   "theorems": [
    "C55_saved_and_loaded",
    "C55_any_protected_key_loads",
    "C55_only_with_the_key",
    "C55_protection_names",
    "C55_no_plaintext_left"
   ],
   "note": "For every cipher that decrypts what it encrypts and the four hash functions of the library (C16-C18). The condition on salts: saving uses the first salt whose derived nonce is not 2^64-1."
  },
  {
   "property": "C56",
   "status": "partial",
   "theorems": [
    "C56_never_returns_refuted",
    "C56_returns_partial",
    "C56_unknown_names_refused"
   ],
   "note": "Refuted as stated: C56_never_returns_refuted (an object of more than 65535 bytes less the MAC is encrypted again and again for ever). C56_returns_partial: with smaller objects it returns as soon as one salt does not give the reserved nonce."
  },
  {
   "property": "C57",
   "status": "partial",
   "theorems": [
    "C57_element_lost_refuted",
    "C57_null_element_refuted",
    "C57_never_returns_refuted",
    "C57_flat_objects_partial"
   ],
   "note": "false as stated: three witnesses (element dropped without error, NULL element without error, reader never returns); proved for the four object types without sub-objects"
  },
  {
   "property": "C58",
   "status": "partial",
   "theorems": [
    "C58_is_rfc7539",
    "C58_continues",
    "C58_own_inverse",
    "C58_big_endian_refuted"
   ],
   "note": "Proved for the vector and little endian scalar builds, every key, nonce, length below 2^32 and every contents of the uninitialised local array; refuted for big endian machines, where the constants are copied in native byte order."
  },
  {
   "property": "C59",
   "status": "proved",
   "theorems": [
    "C59_is_rfc7539",
    "C59_no_overflow",
    "C59_state_cleared"
   ],
   "note": "Any key, any splitting of any message, any leftover contents of the context; arithmetic modelled with wrap-around, and a second run with overflow as an error shows that nothing overflows. 64-bit limb variant; the 32-bit variant is not modelled."
  },
  {
   "property": "C60",
   "status": "proved",
   "theorems": [
    "C60_is_rfc7539",
    "C60_correct",
    "C60_genuine"
   ],
   "note": "Every sequence of key settings, encryptions and decryptions on one backend object answers as RFC 7539 AEAD_CHACHA20_POLY1305 (C60_is_rfc7539); the backend satisfies cipher_correct and cipher_genuine assumed by the CipherState theorems. For builds other than the scalar build on big-endian machines (see C58)."
  },
  {
   "property": "C61",
   "status": "proved",
   "theorems": [
    "C61_is_sp800_38d",
    "C61_splitting",
    "C61_field"
   ],
   "note": "Every sequence of reset, update, pad and finalize calls gives the GHASH of SP 800-38D, for both word sizes and byte orders; and the block product is the product of polynomials modulo t^128+t^7+t^2+t+1."
  },
  {
   "property": "C62",
   "status": "proved",
   "theorems": [
    "C62_is_sp800_38d",
    "C62_correct",
    "C62_genuine"
   ],
   "note": "Model of cipher-aesgcm.c over the AES and GHASH models. Any sequence of init_key/encrypt/decrypt calls answers as SP 800-38D with AES-256, for texts up to 16*65534 bytes (packets are at most 65535); the backend meets the interface the CipherState theorems assume."
  },
  {
   "property": "C63",
   "status": "proved",
   "theorems": [
    "C63_no_overflow",
    "C63_zero_key",
    "C63_calculate_is_x25519"
   ],
   "note": "The 64-bit curve25519-donna-c64 code, run with overflow-checking arithmetic and with wrapping machine arithmetic, equals RFC 7748 X25519 for every 32-byte scalar and u-coordinate; lifted to dhstate_calculate on any reachable 25519 object, null key included, for any base-point multiplication (C77 has the library's). The 32-bit curve25519-donna.c variant is not modelled."
  },
  {
   "property": "C64",
   "status": "proved",
   "theorems": [
    "C64_reports_exactly",
    "C64_sign_needs_keypair",
    "C64_verify_needs_public_key",
    "C64_failed_calls_change_nothing",
    "C64_no_secret_left"
   ],
   "note": "Every program over any number of SignState objects sees exactly what the specification expects (all 14 calls, NULL pointers, wrong lengths, buffers); sign succeeds exactly with a held key pair, verify only with a public key; a failing call changes no object; no private byte remains without a key pair. The Ed25519 arithmetic is a parameter; noise_signstate_free and new_by_name (C44 covers the name table) are not modelled."
  },
  {
   "property": "C65",
   "status": "proved",
   "theorems": [
    "C65_strerror_total",
    "C65_strerror_unusable"
   ],
   "note": "All 32-bit codes and all buffers; NULL or size 0 gives -1."
  },
  {
   "property": "C66",
   "status": "proved",
   "theorems": [
    "C66_to_noise_exact",
    "C66_get_exact",
    "C66_round_trip",
    "C66_round_trip_fits"
   ],
   "note": "For all 2^40 echo ids: accepted exactly when the echo protocol defines them; a name maps back exactly when it is the name of an echo id; the round trip through the formatted name is the identity in every buffer the name fits in (128 bytes always suffice)."
  },
  {
   "property": "C67",
   "status": "partial",
   "theorems": [
    "C67_load_exact",
    "C67_loads_partial",
    "C67_loads_refuted",
    "C67_wrong_key_refuted",
    "C67_limit"
   ],
   "note": "Proved: the exact behaviour for every file, and loading of every encoding without white space before its end. Missing and false: white space inside the encoding; C67_loads_refuted shows that for every key length of 2 modulo 3 (32, 56, 2048) any white space before the padding makes the loader refuse the file, C67_wrong_key_refuted that a wrong key may be loaded."
  },
  {
   "property": "C68",
   "status": "proved",
   "theorems": [
    "C68_arrays_keep_order",
    "C68_failed_call_changes_nothing",
    "C68_inserted_at_index",
    "C68_element_read_back",
    "C68_string_arrays",
    "C68_bytes_arrays",
    "C68_next_call_allocates"
   ],
   "note": "All sequences of add and insert calls with any allocation failures; arrays of strings and byte strings too. Objects are at most PTRDIFF_MAX bytes large."
  },
  {
   "property": "C69",
   "status": "proved",
   "theorems": [
    "C69_messages_follow_the_specification"
   ],
   "note": "Every non-fallback pattern and any sequence of calls with proper arguments; wrong messages included."
  },
  {
   "property": "C70",
   "status": "proved",
   "theorems": [
    "C70_any_input_safe",
    "C70_any_input_ends"
   ],
   "note": "no undefined behaviour for any input and any allocation failures; with memory available the readers end and return an error or a savable object"
  },
  {
   "property": "C71",
   "status": "proved",
   "theorems": [
    "C71_other_fields_refused",
    "C71_every_encoding_understood"
   ],
   "note": "Other fields are refused, for every read function; every varint encoding is understood by the integer and boolean functions."
  },
  {
   "property": "C72",
   "status": "partial",
   "theorems": [
    "C72_certificate_given",
    "C72_chain_given",
    "C72_empty_chain_refuted"
   ],
   "note": "Proved for every certificate and every chain with at least one certificate; C72_empty_chain_refuted: a saved chain with no certificate is loaded as a chain with one empty certificate."
  },
  {
   "property": "C73",
   "status": "partial",
   "theorems": [
    "C73_file_contents",
    "C73_certificate_file",
    "C73_chain_file",
    "C73_empty_object_refuted",
    "C73_private_key_file",
    "C73_private_key_loaded",
    "C73_never_returns_refuted"
   ],
   "note": "Proved for all objects but three kinds: C73_empty_object_refuted (an empty object is saved as an empty file, which is refused on loading), C73_never_returns_refuted (a private key whose message has more than 65535 - MAC bytes but at most 65535: the function does not return)."
  },
  {
   "property": "C74",
   "status": "proved",
   "theorems": [
    "C74_is_fips197"
   ],
   "note": "Model of rijndaelKeySetupEnc and rijndaelEncrypt with the five tables transcribed; equal to a specification of FIPS 197 written from the standard (field arithmetic, S-box as inverse and affine map, key expansion)."
  },
  {
   "property": "C75",
   "status": "proved",
   "theorems": [
    "C75_load_private_exact"
   ],
   "note": "Exact for every file, buffer and length up to 2048."
  },
  {
   "property": "C76",
   "status": "proved",
   "theorems": [
    "C76_scalars_commute",
    "C76_public_key_not_null",
    "C76_both_calculate_the_same",
    "C76_handshake_dh_agrees",
    "C76_shared_key",
    "C76_dh_agrees"
   ],
   "note": "For the X25519 function, for the API, and with the library's own base point multiplication (C77) in place of a parameter: C76_shared_key, C76_dh_agrees."
  },
  {
   "property": "C77",
   "status": "proved",
   "theorems": [
    "C77_no_overflow",
    "C77_base_is_x25519",
    "C77_public_key"
   ],
   "note": "Model of the 64-bit ed25519-donna field and group code and of the table of base point multiples (transcribed; all 256 rows checked against the group law). The portable C version of the constant-time table lookup is modelled, not the x86 assembly one."
  },
  {
   "property": "C78",
   "status": "proved",
   "theorems": [
    "C78_handshake_succeeds",
    "C78_fallback_succeeds"
   ],
   "note": "Every 25519 protocol without hybrid algorithm; little-endian or vector builds of chacha.c (C58 shows the big-endian build wrong). Curve448 and New Hope protocols: C21, C31, C32 with their primitives as parameters."
  },
  {
   "property": "C79",
   "status": "proved",
   "theorems": [
    "C79_public_key",
    "C79_signature"
   ],
   "note": "64-bit code; messages below 2^61 - 64 bytes; the hash context on the stack has its C size"
  },
  {
   "property": "C80",
   "status": "proved",
   "theorems": [
    "C80_verdict",
    "C80_rfc_8032",
    "C80_own_signatures",
    "C80_objects"
   ],
   "note": "Exact characterisation of ed25519_sign_open, relation to RFC 8032, own signatures, SignState objects with the library's functions"
  },
  {
   "property": "C81",
   "status": "partial",
   "theorems": [
    "C81_second_signature",
    "C81_one_signature_refuted",
    "C81_keys_refuted"
   ],
   "note": "False as stated: C81_one_signature_refuted and C81_keys_refuted give counterexamples; C81_second_signature shows that (R, S+L) is accepted beside (R, S). C80_rfc_8032 has what holds: with RFC keys and S < L exactly the RFC signatures are accepted."
  },
  {
   "property": "C82",
   "status": "proved",
   "theorems": [
    "C82_is_rfc7539",
    "C82_no_overflow",
    "C82_interoperates",
    "C82_state_cleared"
   ],
   "note": "Both sizes of unsigned long, any split of the message. The ChaChaPoly model of C60 uses the 64-bit variant; C82_interoperates links the two."
  },
  {
   "property": "C83",
   "status": "proved",
   "theorems": [
    "C83_codec_roundtrip",
    "C83_codec_canonical",
    "C83_codec_total",
    "C83_response_roundtrip",
    "C83_initiation_roundtrip",
    "C83_pointwise",
    "C83_add",
    "C83_noise_binomial",
    "C83_noise_polynomial"
   ],
   "note": "Coefficient functions and codec. The number theoretic transform, poly_uniform and the expansion of seeds are not modelled."
  },
  {
   "property": "C84",
   "status": "proved",
   "theorems": [
    "C84_same_key",
    "C84_key_bits",
    "C84_help_total",
    "C84_noise_bound_best"
   ],
   "note": "For any two polynomials with small difference; the random bits of helprec are an argument. That the exchange produces such polynomials needs the transform, which is not modelled."
  },
  {
   "property": "C85",
   "status": "proved",
   "theorems": [
    "C85_permutation",
    "C85_sha3_256",
    "C85_shake128"
   ],
   "note": "Bit-level FIPS 202 as specification. fips202.c only; its use in the exchange is not modelled."
  },
  {
   "property": "C86",
   "status": "proved",
   "theorems": [
    "C86_coefficients",
    "C86_accepted"
   ],
   "note": "The network sorts every column by the test below 5q, proved merge by merge; coefficients come from the stream without reuse; exact condition of acceptance. The retry loop of poly_uniform is not modelled."
  }
 ]
}