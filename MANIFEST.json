{
 "claims": [
  {
   "property": "C01",
   "status": "proved",
   "theorems": [
    "C01_base64_roundtrip",
    "C01_base64_roundtrip_unicode"
   ],
   "note": "For byte strings and for the unicode strings JSON yields."
  },
  {
   "property": "C02",
   "status": "proved",
   "theorems": [
    "C02_rfc4648",
    "C02_base64_canonical"
   ],
   "note": "Alphabet, exact length and injectivity. Each character is the RFC 4648 sextet at its position."
  },
  {
   "property": "C03",
   "status": "proved",
   "theorems": [
    "C03_unicode_whitespace",
    "C03_unicode_agrees",
    "C03_whitespace_ignored",
    "C03_insert_whitespace",
    "C03_reflowed_text"
   ],
   "note": "Any insertion of SP/CR/LF; reflowed text decodes. For unicode text every character Python counts as white space may be inserted."
  },
  {
   "property": "C04",
   "status": "partial",
   "theorems": [
    "C04_decodes_exactly",
    "C04_readings",
    "C04_reject_foreign_refuted",
    "C04_decode_rejection_partial",
    "C04_distinct_texts_refuted"
   ],
   "note": "REFUTED as stated: binascii skips foreign characters (\"YWJj!!!!\" decodes to \"abc\") and ignores unused low bits. Proved: length 1 mod 4 is refused, only Base64DecodingError escapes, acceptance of '='-free text is characterised exactly, and C04_decodes_exactly gives, for every text, the condition for acceptance and the result in terms of the letters read."
  },
  {
   "property": "C05",
   "status": "proved",
   "theorems": [
    "C05_big_endian",
    "C05_trim"
   ],
   "note": "All conversions against a base-256 specification."
  },
  {
   "property": "C06",
   "status": "proved",
   "theorems": [
    "C06_positions",
    "C06_bits"
   ],
   "note": "Bit string round trip and IntToBin value. Digit j is bit j, most significant first."
  },
  {
   "property": "C07",
   "status": "proved",
   "theorems": [
    "C07_format",
    "C07_pack_unpack_in_context",
    "C07_pack_multiple_roundtrip",
    "C07_pack_domain_and_injective"
   ],
   "note": "Packing in any context, multiple arrays, injectivity and domain. Big-endian four-byte counts, stated directly."
  },
  {
   "property": "C08",
   "status": "partial",
   "theorems": [
    "C08_exactly",
    "C08_unpack_terminates_refuted",
    "C08_unpack_terminates_partial"
   ],
   "note": "REFUTED: a length field of -4 makes UnpackMultipleByteArrays loop forever. Proved: without length fields <= -4 it ends within len(data) rounds and raises only struct.error/AssertionError; and C08_exactly gives the outcome for every text: it does not end exactly when a position is come back to, and otherwise ends within 2 len(data) + 1 rounds."
  },
  {
   "property": "C09",
   "status": "proved",
   "theorems": [
    "C09_xor"
   ],
   "note": "Length, commutativity, cancellation, left zero extension, bytewise definition."
  },
  {
   "property": "C10",
   "status": "proved",
   "theorems": [
    "C10_mgf1"
   ],
   "note": "Byte-exact MGF1 specification, length, prefix property and refusal bound."
  },
  {
   "property": "C11",
   "status": "proved",
   "theorems": [
    "C11_emsa"
   ],
   "note": "Exact RFC 3447 layout, length for all RSA sizes, digest recovery."
  },
  {
   "property": "C12",
   "status": "partial",
   "theorems": [
    "C12_oaep_domain",
    "C12_oaep_roundtrip_partial",
    "C12_when_it_fails",
    "C12_42_byte_modulus_refuted",
    "C12_oaep_format"
   ],
   "note": "Round trip for every message, seed and modulus length as long as at least 42 bytes of the encoded block remain after PyCrypto drops leading zeros; the failing blocks are characterised (masked seed zero). REFUTED for a 42-byte modulus. The encoded block is the one of RFC 8017, 7.1.1."
  },
  {
   "property": "C13",
   "status": "partial",
   "theorems": [
    "C13_dsa_sig_roundtrip",
    "C13_make_total",
    "C13_malformed_raises_refuted",
    "C13_only_two_integers_verify",
    "C13_accepted",
    "C13_other_encodings",
    "C13_malformed_outcomes"
   ],
   "note": "Encoding round trip, injectivity, totality. REFUTED: malformed signatures raise pyasn1/Type/AttributeErrors from Verify instead of returning False. The outcome for every input is given. The accepted encodings of a signature are exactly the BER encodings of two integers, with anything behind them; so a DSA signature can be replaced by other bytes."
  },
  {
   "property": "C14",
   "status": "proved",
   "theorems": [
    "C14_rsa_pkcs8_roundtrip",
    "C14_dsa_pkcs8_roundtrip",
    "C14_rsa_x509_roundtrip",
    "C14_dsa_x509_roundtrip"
   ],
   "note": "All four export/parse pairs, for every integer value of every parameter."
  },
  {
   "property": "C15",
   "status": "proved",
   "theorems": [
    "C15_pkcs5_padding"
   ],
   "note": "Exact padding layout, inverse, injectivity, length."
  },
  {
   "property": "C16",
   "status": "proved",
   "theorems": [
    "C16_hmac_verify_is_equality",
    "C16_no_undecodable_key_verifies"
   ],
   "note": "Verify accepts exactly the one 20-byte tag, any candidate of any length."
  },
  {
   "property": "C17",
   "status": "proved",
   "theorems": [
    "C17_cbc",
    "C17_aes_roundtrip",
    "C17_aes_wire_format",
    "C17_generated_keys",
    "C17_bad_key_length_refused"
   ],
   "note": "Full FIPS-197 AES and CBC inside the model; wire format header, IV, ciphertext, tag. The body is the CBC chaining of SP 800-38A, block by block."
  },
  {
   "property": "C18",
   "status": "proved",
   "theorems": [
    "C18_only_authentic_is_decrypted",
    "C18_refusal_is_independent_of_aes_key",
    "C18_modification_needs_forgery"
   ],
   "note": "Integrity check precedes decryption; any accepted ciphertext carries the HMAC of its other bytes."
  },
  {
   "property": "C19",
   "status": "partial",
   "theorems": [
    "C19_rsa_roundtrip_partial",
    "C19_long_messages_refused",
    "C19_generated_keys",
    "C19_ciphertext_format",
    "C19_reread_keys",
    "C19_large_numbers"
   ],
   "note": "Full RSA-CRT arithmetic over valid key pairs (Fermat proved in the model); the failing case is the OAEP one of C12 (23 leading zero bytes). Longer messages refused. The ciphertext is the header and the number em^e mod n. For hostile input (C19_large_numbers): a ciphertext whose number is not below the modulus is refused with ValueError, not with a KeyczarError."
  },
  {
   "property": "C20",
   "status": "proved",
   "theorems": [
    "C20_rsa_verify_characterised",
    "C20_rsa_sign_verify"
   ],
   "note": "Signatures have size/8 bytes and verify; Verify characterised as sig^e mod n = EMSA."
  },
  {
   "property": "C21",
   "status": "partial",
   "theorems": [
    "C21_dsa_sign_verify_partial",
    "C21_dsa_sign_total",
    "C21_zero_signature_refuted",
    "C21_signature_format",
    "C21_verify_characterised"
   ],
   "note": "Accepted unless r or s is 0; PyCrypto's signer does not retry in that case, and such keys/messages exist (refuted theorem). The signature is the DER form of the FIPS 186 pair, and Verify accepts exactly the pairs meeting the FIPS 186 equation."
  },
  {
   "property": "C22",
   "status": "proved",
   "theorems": [
    "C22_read_keys_roundtrip",
    "C22_generated_keys_roundtrip",
    "C22_public_halves_roundtrip",
    "C22_member_order"
   ],
   "note": "For every key read back from text, every generated key and every public half: the text of str(key) reads to the same key; any member order gives the same key."
  },
  {
   "property": "C23",
   "status": "proved",
   "theorems": [
    "C23_identifier_format",
    "C23_identifier_formula",
    "C23_private_and_public_agree",
    "C23_leading_zeros_ignored"
   ],
   "note": "Identifier = web-safe Base64 of the first 4 bytes of SHA-1 over the documented length-prefixed fields; independent of leading zeros; a private key and its public half share it."
  },
  {
   "property": "C24",
   "status": "proved",
   "theorems": [
    "C24_back_ends_agree"
   ],
   "note": "Both cipher adaptors compute CBC on the same inputs."
  },
  {
   "property": "C25",
   "status": "proved",
   "theorems": [
    "C25_sizes_and_types",
    "C25_material"
   ],
   "note": "Types, sizes and material of generated keys; the strength of the random source is outside the model."
  },
  {
   "property": "C26",
   "status": "proved",
   "theorems": [
    "C26_at_most_one_primary",
    "C26_primary_key_of_primary_version",
    "C26_ring_is_metadata"
   ],
   "note": "For every reader and every sequence of operations, including ones that raise."
  },
  {
   "property": "C27",
   "status": "partial",
   "theorems": [
    "C27_after_reload_partial",
    "C27_number_reused_after_reload_refuted",
    "C27_new_number_is_max_plus_one",
    "C27_numbers_never_rebound"
   ],
   "note": "One above every number ever known to the object, never rebound; also above every version in the set after a reload. REFUTED across reloads for revoked numbers: the highest number, once revoked and reloaded, is given to another key."
  },
  {
   "property": "C28",
   "status": "partial",
   "theorems": [
    "C28_promote_demote_revoke",
    "C28_add",
    "C28_attributes_kept",
    "C28_failed_add_changes_state_refuted"
   ],
   "note": "Refinement of the key-ring specification (KeyRing.v). REFUTED for AddVersion: on a set of public keys it raises after demoting the primary version."
  },
  {
   "property": "C29",
   "status": "partial",
   "theorems": [
    "C29_identifiers_stay_distinct",
    "C29_empty_sets_qualify",
    "C29_clash_on_load_refuted"
   ],
   "note": "Distinctness is preserved by every history. REFUTED on loading: two keys with the same identifier (exhibited) load without error and one shadows the other."
  },
  {
   "property": "C30",
   "status": "proved",
   "theorems": [
    "C30_data_stays_decryptable",
    "C30_signatures_stay_verifiable"
   ],
   "note": "Any interleaving of operations, writes (plain or encrypted) and reloads. AES data always decrypts; for other key types the result is that of the key itself."
  },
  {
   "property": "C31",
   "status": "partial",
   "theorems": [
    "C31_gone_after_reload",
    "C31_still_used_in_memory_refuted",
    "C31_revoke_command"
   ],
   "note": "After writing and reloading the version is gone: data refused with KeyNotFoundError, key neither written nor exported. REFUTED in memory: the object goes on decrypting, verifying, writing and exporting the revoked key. The revoke command rewrites the set and deletes the key file."
  },
  {
   "property": "C32",
   "status": "partial",
   "theorems": [
    "C32_primary_key_is_used",
    "C32_no_primary_error_refuted"
   ],
   "note": "REFUTED part: KeyNotFoundError is raised instead of the documented NoPrimaryKeyError."
  },
  {
   "property": "C33",
   "status": "proved",
   "theorems": [
    "C33_refused_before_reading_keys",
    "C33_opened_sets_have_the_purpose",
    "C33_accepted_sets_reach_their_keys",
    "C33_types_are_not_checked"
   ],
   "note": "Exact purpose table; the refusal does not depend on the keys in any way. Not part of the claim (C33_types_are_not_checked): the type of the keys is not checked against the purpose, so a Crypter of HMAC keys opens and its calls raise AttributeError."
  },
  {
   "property": "C34",
   "status": "proved",
   "theorems": [
    "C34_decrypt_dispatch",
    "C34_verify_dispatch",
    "C34_named_key_unique"
   ],
   "note": "Exact dispatch for Decrypt and Verify, and which errors can only come from the header. For a set with any history of operations: the keys considered are all those the set has held since it was opened, so a revoked key still answers."
  },
  {
   "property": "C35",
   "status": "partial",
   "theorems": [
    "C35_detached_signatures",
    "C35_signing_succeeds",
    "C35_dsa_zero_refuted"
   ],
   "note": "Proved for every reachable signer and every verifier (of any purpose) that holds the signing key or its public half, with and without the base64 codec; signing is shown to succeed. For DSA the side condition r, s <> 0 is needed: PyCrypto does not retry and a signature with s = 0 is made but rejected (C35_dsa_zero_refuted)."
  },
  {
   "property": "C36",
   "status": "partial",
   "theorems": [
    "C36_unversioned_verify",
    "C36_exact_for_hmac_and_rsa",
    "C36_roundtrip",
    "C36_dsa_malformed_refuted"
   ],
   "note": "Exact for HMAC and RSA sets and, for every set, whenever no key raises; refuted for DSA sets, where a malformed signature raises a pyasn1 error instead of giving False. Over any history of operations on the opened set."
  },
  {
   "property": "C37",
   "status": "proved",
   "theorems": [
    "C37_attached_roundtrip",
    "C37_nonce_binding"
   ],
   "note": "Round trip with both codecs for every signer/verifier pair; a blob accepted under another nonce (including None) exhibits a collision of the two texts data|len(nonce)|nonce|0: the same HMAC under the key, with RSA keys the same SHA-1, with DSA keys two powers of g with the same remainder (see dsa_reuse; the same SHA-1 modulo q is one case)."
  },
  {
   "property": "C38",
   "status": "partial",
   "theorems": [
    "C38_payload_ambiguous_refuted",
    "C38_attached_is_detached_refuted",
    "C38_equal_length_nonces_partial",
    "C38_recut_partial",
    "C38_detached_partial"
   ],
   "note": "Refuted: data|len(nonce)|nonce|0 does not delimit the data, so a blob for one (data, nonce) can be recut for another, and any attached signature is a detached signature of data|len(nonce)|nonce. Proved: a recut blob is accepted exactly when the text data'|len(nonce')|nonce'|0 is the one signed, or on a collision of the two texts (defined per key type, DSA included); among nonces of equal length, and among detached signatures, the text determines data and nonce. Missing: that a DSA collision is rare, which is no property of the code."
  },
  {
   "property": "C39",
   "status": "partial",
   "theorems": [
    "C39_exactly",
    "C39_outcomes_partial",
    "C39_short_blob_refuted",
    "C39_dsa_refuted",
    "C39_accepted_form_partial",
    "C39_negative_length_refuted"
   ],
   "note": "Refuted: blobs shorter than nine bytes raise struct.error, DSA sets raise pyasn1 errors, and negative length fields are accepted. Proved: HMAC and RSA sets give data, None or a KeyczarError on all other blobs, and an accepted blob with a non-negative length field has the documented form. Over any history of operations on the opened set. C39_exactly gives the outcome for every blob of at least nine bytes, negative lengths included."
  },
  {
   "property": "C40",
   "status": "partial",
   "theorems": [
    "C40_session_roundtrip",
    "C40_material_format",
    "C40_material_is_read",
    "C40_other_material",
    "C40_aes",
    "C40_rsa_partial",
    "C40_small_rsa_refuted",
    "C40_other_session",
    "C40_hostile_material_refuted"
   ],
   "note": "Proved for every encrypter/crypter pair in which the crypter reads the material; AES sets always, RSA sets from 1024 bits except for OAEP blocks starting with 23 zero bytes (C19). Another session's messages are refused. REFUTED: with 512- and 768-bit RSA keys no session can be made; hostile material makes SessionDecrypter run forever."
  },
  {
   "property": "C41",
   "status": "partial",
   "theorems": [
    "C41_material_format",
    "C41_message_roundtrip",
    "C41_signed_session_roundtrip",
    "C41_aes_hmac",
    "C41_rejection",
    "C41_accepts_only",
    "C41_altered_ciphertext",
    "C41_other_session",
    "C41_short_message_refuted",
    "C41_rsa_partial",
    "C41_small_rsa_refuted",
    "C41_material_is_read",
    "C41_one_session",
    "C41_other_material"
   ],
   "note": "Round trip proved for every sound signer; with AES+HMAC sets it succeeds end to end; a plaintext is only returned for an accepted signature under the session's nonce, rejection does not use the session key, replaced ciphertexts and other sessions' messages are refused up to a collision of the two explicit texts signed (HMAC, RSA: SHA-1, DSA as in C37). REFUTED: messages shorter than 9 bytes raise struct.error instead of giving None; RSA keys up to 1024 bits cannot make signed sessions. RSA partial as in C19. The format of the material (key, nonce of 16 bytes) is given. Every JSON text with the two documented members, whoever wrote it, opens the session with that key and nonce; other material is refused with the error of Decrypt, ValueError, TypeError or KeyError, as stated. Two texts of the same session give the same session to both receivers."
  },
  {
   "property": "C42",
   "status": "proved",
   "theorems": [
    "C42_metadata_roundtrip",
    "C42_keyset_metadata_roundtrip"
   ],
   "note": "For every metadata value, and for the metadata of every key set reached by operations."
  },
  {
   "property": "C43",
   "status": "proved",
   "theorems": [
    "C43_plain_roundtrip",
    "C43_encrypted_roundtrip",
    "C43_aes_sets_decrypt_what_they_encrypt",
    "C43_writing_with_aes_succeeds"
   ],
   "note": "Every key set reached by operations, plain and encrypted, read back by any accepting class; write with AES always succeeds."
  },
  {
   "property": "C44",
   "status": "proved",
   "theorems": [
    "C44_only_ciphertext_is_written",
    "C44_encrypted_sets",
    "C44_opened_only_by_decrypting",
    "C44_metadata_has_no_key_material"
   ],
   "note": "Every file written is exactly metadata or Encrypt(key text); reading uses only Decrypt of the file."
  },
  {
   "property": "C45",
   "status": "proved",
   "theorems": [
    "C45_public_export",
    "C45_pubkey_command",
    "C45_symmetric_sets_refused",
    "C45_independent_of_private_material"
   ],
   "note": "Exactly the public half of every version, same numbers and statuses; symmetric sets refused; files independent of private material."
  },
  {
   "property": "C46",
   "status": "proved",
   "theorems": [
    "C46_create_fresh",
    "C46_create_never_overwrites",
    "C46_letter_case"
   ],
   "note": "Fresh location: set with the implied type and no versions; existing metadata is never touched. The flag rsa is recognised whatever its letter case."
  },
  {
   "property": "C47",
   "status": "partial",
   "theorems": [
    "C47_command",
    "C47_histories",
    "C47_addkey_encrypted",
    "C47_encrypted_sets_refuse_changes",
    "C47_failed_encryption_refuted"
   ],
   "note": "Every addkey/promote/demote/revoke command and every history of them leaves a loadable set that is the abstract ring; failing commands change nothing. Encrypted sets: addkey with the crypter refines the ring, promote/demote/revoke refuse. REFUTED for addkey with a crypter that cannot encrypt: it fails after the metadata was rewritten."
  },
  {
   "property": "C48",
   "status": "partial",
   "theorems": [
    "C48_failing_commands",
    "C48_metadata_lost_refuted",
    "C48_key_material_lost_refuted",
    "C48_every_moment_partial"
   ],
   "note": "REFUTED: at some moments the metadata file is empty, or a key file is empty while the key exists nowhere else. Proved for every moment: other locations untouched; failing commands never write; and the set is loadable as old or new ring unless the file being written is caught between opening and writing or a new key's file is still missing."
  },
  {
   "property": "C49",
   "status": "partial",
   "theorems": [
    "C49_lost_update_refuted",
    "C49_different_locations_partial"
   ],
   "note": "REFUTED on one location for any two successful commands: if one has loaded when the other runs, both succeed and the other's effect is lost. Proved: any interleaving of commands on different locations equals both serial orders."
  },
  {
   "property": "C50",
   "status": "partial",
   "theorems": [
    "C50_integers",
    "C50_flags",
    "C50_unknown_command",
    "C50_unknown_flag",
    "C50_bad_number",
    "C50_runs",
    "C50_malformed_flag_refuted",
    "C50_bad_size_refuted",
    "C50_status_names",
    "C50_refusals"
   ],
   "note": "Unknown commands and flags, and non-integer numbers the command needs, change nothing; well-formed lines run the named command. REFUTED: malformed flags are passed over and the command runs; a bad size does not stop promote/demote/revoke. The lines that are refused for a missing location, destination, purpose or version change nothing."
  },
  {
   "property": "C51",
   "status": "proved",
   "theorems": [
    "C51_writes_then_flush",
    "C51_output_decrypts",
    "C51_rsa_sets_cannot_stream"
   ],
   "note": "Proved for every AES set, every chunking, raw and Base64 output. Key sets of other types have no streaming writer: making one raises AttributeError (C51_rsa_sets_cannot_stream)."
  },
  {
   "property": "C52",
   "status": "proved",
   "theorems": [
    "C52_any_schedule",
    "C52_any_schedule_base64"
   ],
   "note": "Proved for every ciphertext Encrypt makes with an AES set, every channel schedule (short reads, None) and every sequence of read(chars), raw and through the default Base64 decoder."
  },
  {
   "property": "C53",
   "status": "partial",
   "theorems": [
    "C53_forged_streams",
    "C53_forged_streams_base64",
    "C53_changed_tag",
    "C53_truncated",
    "C53_truncated_inside_a_block",
    "C53_reads_after_a_bad_header",
    "C53_header_errors",
    "C53_stream_after_refused_headers",
    "C53_clean_end_is_authentic_partial",
    "C53_short_streams_refuted",
    "C53_truncation_to_41_bytes_refuted",
    "C53_error_then_clean_end_refuted"
   ],
   "note": "Proved for streams of more than 41 bytes and runs without an earlier exception: a clean end implies a correct tag and the full plaintext. REFUTED: streams of at most 41 bytes (including truncations) end cleanly at once with no ShortCiphertextError; after the one exception for a bad tag the next read reports a clean end. A wrong version byte, an unknown key and a key of another type are reported by the first read. For longer streams that are not authentic, read in any way and as raw bytes or Base64, the outcome is described: pieces of the blocks before the last, no clean end, then the exception, at the latest after as many calls as there are bytes; a changed tag and a truncation are instances, with what was delivered a beginning of the data. A refused header does not stop the reader: on every channel a whole stream behind refused five-byte pieces is read like the stream alone by a caller who goes on after the exceptions."
  },
  {
   "property": "C54",
   "status": "proved",
   "theorems": [
    "C54_flush_between",
    "C54_close",
    "C54_writes_then_flush",
    "C54_at_most_three_characters_pending"
   ],
   "note": "Proved for every sequence of writes followed by one or more flushes; at most three characters are pending before. A flush in between starts a new text: the output is then the texts of the groups one after the other. close writes the rest but raises AttributeError."
  },
  {
   "property": "C55",
   "status": "partial",
   "theorems": [
    "C55_pieces_partial",
    "C55_any_line_break_refuted",
    "C55_reader_decodes_partial",
    "C55_reader_rejects_partial",
    "C55_line_breaks_refuted",
    "C55_read_of_size_0_refuted",
    "C55_chars_is_no_bound_refuted"
   ],
   "note": "Proved for texts over the Base64 alphabet, every channel and every reads with size other than 0: exactly what Base64WSDecode gives, or its exception. For arbitrary text, C55_pieces_partial gives what is delivered: separately decoded pieces of the text, cut by position at multiples of four. REFUTED: every text of whole groups of four with one line break before its end loses its last byte and then raises (C55_any_line_break_refuted); read(0) puts the decoder out of step; read(chars=1) can return two bytes."
  },
  {
   "property": "C56",
   "status": "partial",
   "theorems": [
    "C56_reader_spins_refuted",
    "C56_None_is_never_returned_refuted",
    "C56_decrypting_reader_spins_refuted"
   ],
   "note": "REFUTED: on a stream that has no data the loop never ends, and None is never returned by the Base64 reader; the decrypting reader spins as well."
  },
  {
   "property": "C57",
   "status": "partial",
   "theorems": [
    "C57_closed_writer",
    "C57_close_succeeds",
    "C57_closed_reader",
    "C57_second_flush_refuted"
   ],
   "note": "Proved: after close every writer and reader operation raises ValueError and has no effect. REFUTED: a second flush appends another block and tag, whose tag does not cover the first tag, so the result does not decrypt unless two explicit texts have the same HMAC."
  },
  {
   "property": "C58",
   "status": "proved",
   "theorems": [
    "C58_factories",
    "C58_read_location"
   ],
   "note": "Factories and read_location accept exactly the suitable purposes."
  },
  {
   "property": "C59",
   "status": "partial",
   "theorems": [
    "C59_no_base64_refuted",
    "C59_no_identifier_refuted",
    "C59_no_key_set_opens_refuted",
    "C59_empty_sets_open_partial",
    "C59_no_symmetric_key_refuted",
    "C59_no_key_can_be_added_refuted",
    "C59_nothing_works_refuted",
    "C59_no_session_refuted",
    "C59_good_sets_refuted",
    "C59_AddVersion_error_refuted",
    "C59_errors_refuted",
    "C59_no_version_changes_refuted"
   ],
   "note": "REFUTED, for all inputs: under Python 3 no key has an identifier, no set with a version opens, AddVersion always fails, and every operation on every reachable set raises; no signature is accepted. Left over: a set without keys opens (C59_empty_sets_open_partial). Key methods, readers, codecs and library constructors are arbitrary functions in these theorems. C59_good_sets_refuted: whatever opens under Python 2 and has a key gives TypeError (or the exception of PyCrypto's constructor for a key without numbers); C59_AddVersion_error_refuted and C59_errors_refuted give the exceptions of the operations exactly."
  },
  {
   "property": "C60",
   "status": "partial",
   "theorems": [
    "C60_symmetric_equality",
    "C60_equality_ignores_material_refuted"
   ],
   "note": "For symmetric keys equality is type, size and key string. REFUTED: two asymmetric keys of the same type and size always compare equal, and AES keys differing only in their HMAC key do too."
  },
  {
   "property": "C61",
   "status": "proved",
   "theorems": [
    "C61_generated",
    "C61_writes_only_there",
    "C61_public_sets",
    "C61_clean",
    "C61_succeeds",
    "C61_no_location",
    "C61_command"
   ],
   "note": "Proved for every disk and every outcome of the random generators; the answers of RSA and DSA keys under the conditions of C19 and C35. C61_succeeds assumes that the second draw has another identifier and that drawn RSA and DSA keys can encrypt or sign."
  },
  {
   "property": "C62",
   "status": "partial",
   "theorems": [
    "C62_keys_lost_refuted",
    "C62_lost_by_a_failing_run_refuted"
   ],
   "note": "REFUTED: the directory is emptied before the new set is made, so a crash loses the old keys and leaves nothing that loads; a run that fails later has already replaced them."
  },
  {
   "property": "C63",
   "status": "proved",
   "theorems": [
    "C63_decoder",
    "C63_unambiguous",
    "C63_der_is_accepted",
    "C63_private_texts",
    "C63_public_texts",
    "C63_private_refused",
    "C63_public_refused",
    "C63_encoder",
    "C63_rsa_private_format",
    "C63_dsa_private_format",
    "C63_rsa_public_format",
    "C63_dsa_public_format",
    "C63_pkcs8_accepted",
    "C63_x509_accepted",
    "C63_export_succeeds",
    "C63_missing_parameter",
    "C63_private_errors",
    "C63_public_errors"
   ],
   "note": "Proved. The encoding is specified by the inductive relation der (X.690), the accepted structures by pkcs8 and x509. Surplus members after the RSA or DSA integers of a private key, surplus integers in DSA algorithm parameters and bytes after the structure are ignored by the parsers, as the relations show. Stated again over octets: the decoder accepts exactly the definite-length basic encoding (relation ber), no byte string starts with two encodings, and KeyczarError is raised exactly for the structures pkcs8_refused and x509_refused. Every error of the two parsers is characterised by the texts it is raised for (C63_private_errors, C63_public_errors; TypeError and AttributeError are what remains)."
  },
  {
   "property": "C64",
   "status": "proved",
   "theorems": [
    "C64_reads_hmac",
    "C64_reads_aes",
    "C64_reads_rsa_public",
    "C64_reads_rsa_private",
    "C64_reads_dsa_public",
    "C64_reads_dsa_private",
    "C64_writes_hmac",
    "C64_writes_aes",
    "C64_writes_rsa",
    "C64_writes_dsa",
    "C64_reads_metadata",
    "C64_writes_metadata",
    "C64_names",
    "C64_missing_member",
    "C64_other_size",
    "C64_size_is_a_label",
    "C64_rsa_size_matters",
    "C64_other_mode"
   ],
   "note": "Proved. Reading: any JSON text (grammar of JsonSpec.v) for an object with the listed members. Writing: generated keys of all four kinds, their public halves, and metadata. The member order of the text is that of the model (Python 2 dictionaries have an arbitrary one), so exact texts are not claimed. A file that lacks one of the members is refused with KeyczarError; the tables of names are exact. Another size in the file is kept if the type has it and replaced by the default otherwise, without an error; only RSA signatures depend on it, and there every other size makes good signatures fail. Another cipher mode is refused."
  },
  {
   "property": "C65",
   "status": "partial",
   "theorems": [
    "C65_only_the_destination",
    "C65_private_set_intact",
    "C65_same_location_refuted"
   ],
   "note": "Proved for a destination other than the location. Refuted for pubkey with the location itself as destination: it succeeds and replaces the private keys by their public halves."
  },
  {
   "property": "C66",
   "status": "partial",
   "theorems": [
    "C66_plain_sets_refuse_the_crypter",
    "C66_never_half_encrypted",
    "C66_encrypted_sets_need_the_crypter",
    "C66_unable_crypter_refuted"
   ],
   "note": "Proved for crypting keys that can encrypt (AES sets with a primary key): histories, and the refusals. A plain key file is refused by every crypter because the first Base64 letter of its text is not A, so that the version byte it decodes to is not 0. Refuted for crypting keys without a primary key: the first addkey fails after announcing the version, and nothing opens the set afterwards."
  },
  {
   "property": "C67",
   "status": "partial",
   "theorems": [
    "C67_failures_are_reported",
    "C67_when_exists_fails",
    "C67_opening",
    "C67_key_sets_after_failures_partial",
    "C67_full_disk_refuted",
    "C67_create_overwrites_refuted"
   ],
   "note": "Proved: every failure is reported, for all commands (with a failing os.path.exists too, except create and genkey, which use its answer to decide whether metadata are there), and opening never gives a wrong set. Partial: after failures the set is the old or the new one unless a file is torn or the file of a new key is missing. Refuted: with a full disk every changing command loses the metadata and with them the set; create with a failing os.path.exists replaces metadata and reports success."
  },
  {
   "property": "C68",
   "status": "partial",
   "theorems": [
    "C68_same_sets",
    "C68_command",
    "C68_create",
    "C68_histories",
    "C68_pubkey",
    "C68_queries",
    "C68_has_pub_key_refuted",
    "C68_create_again_refuted",
    "C68_crypter_ignored_refuted",
    "C68_missing_versions",
    "C68_status"
   ],
   "note": "Proved for create in a new place, addkey without --crypter, promote, demote, revoke and pubkey, and for the mock's queries. Refuted: create on a mock that has a set replaces its metadata where the tool refuses; --crypter is ignored; HasPubKey accepts any public key of the same type and size. What the mock answers about versions it does not have. A status is refused exactly for the versions the metadata does not have."
  },
  {
   "property": "C69",
   "status": "proved",
   "theorems": [
    "C69_encrypted_data",
    "C69_signatures",
    "C69_exported_verifiers",
    "C69_exported_encrypters",
    "C69_revoked"
   ],
   "note": "Sets kept plain on disk, made by create and any lines afterwards other than genkey and pubkey into the set's own location. RSA decryption is related to the private key operation (C19 says when that returns the data). C69_revoked assumes that later addkey lines draw no key with the identifier of the revoked one."
  },
  {
   "property": "C70",
   "status": "proved",
   "theorems": [
    "C70_primitives",
    "C70_ciphertexts",
    "C70_decryption",
    "C70_tags",
    "C70_identifiers",
    "C70_signatures"
   ],
   "note": "AES and SHA-1 themselves live in PyCrypto and hashlib; Aes.v and Sha1.v model them, and these theorems relate the model to independent transcriptions of FIPS 197, FIPS 180-4 and RFC 2104 (AesSpec.v, ShaSpec.v) in both directions: the result meets the standard and no other result does. Messages shorter than 2^61 bytes. C70_decryption leaves out what comes of padding other than PKCS #5 (an authentic message has none, C18)."
  },
  {
   "property": "C71",
   "status": "proved",
   "theorems": [
    "C71_numbers_distinct",
    "C71_add",
    "C71_get",
    "C71_remove",
    "C71_set_status",
    "C71_remove_returns_nothing",
    "C71_read",
    "C71_read_exactly",
    "C71_refused",
    "C71_missing_member",
    "C71_unknown_name",
    "C71_version_missing_member",
    "C71_version_unknown_status"
   ],
   "note": "Proved for objects made by the constructor or read from a text and changed by any calls. C71_read_exactly: which texts are metadata, given by the JSON value they stand for (last member of a name, first version of a number). C71_refused and the four theorems after it: the errors for all others; a member that is missing gives KeyError, which is not a KeyczarError. Values of another JSON type are refused with TypeError in this model, where Python may accept them: see C84. Not part of the claim (C71_remove_returns_nothing): RemoveVersion returns None where its comment promises the removed version."
  },
  {
   "property": "C72",
   "status": "proved",
   "theorems": [
    "C72_aes_ciphertexts",
    "C72_rsa_ciphertexts",
    "C72_rsa_can_be_shorter",
    "C72_signatures",
    "C72_announced_sizes",
    "C72_sessions",
    "C72_streams"
   ],
   "note": "Exact sizes for AES, sessions, streams, HMAC and RSA signatures. RSA ciphertexts are written without leading zero bytes, so some are shorter than the modulus (C72_rsa_can_be_shorter exhibits one). The output sizes announced by keyinfo are exact for HMAC, an upper bound for DSA and right for RSA of 2048 bits only (C72_announced_sizes)."
  },
  {
   "property": "C73",
   "status": "proved",
   "theorems": [
    "C73_aes",
    "C73_rsa",
    "C73_streams",
    "C73_keys",
    "C73_sessions"
   ],
   "note": "Equivalences: equal results iff equal data and equal fresh random bytes (AES 16, RSA 20, sessions 48 and 16, key material per type). The random generator itself is a parameter."
  },
  {
   "property": "C74",
   "status": "proved",
   "theorems": [
    "C74_reads_json",
    "C74_key_files",
    "C74_metadata",
    "C74_writes_json"
   ],
   "note": "The parser is the library's (simplejson), modelled in Json.v and proved equivalent to an inductive transcription of the RFC 8259 grammar (JsonSpec.v), in both directions. Left out: rounding of fractions to floats (keyczar reads none) and Python's nesting limit. NaN and Infinity are accepted, as in Python."
  },
  {
   "property": "C75",
   "status": "proved",
   "theorems": [
    "C75_opens_iff",
    "C75_contents",
    "C75_identifiers",
    "C75_error_iff",
    "C75_directory"
   ],
   "note": "Proved as equivalences, for success and for each error. One missing or broken key file, even of an INACTIVE version, keeps the whole set from opening."
  },
  {
   "property": "C76",
   "status": "proved",
   "theorems": [
    "C76_same_functions",
    "C76_tag_comparison",
    "C76_hmac_signatures",
    "C76_aes_ciphertexts",
    "C76_refused_before_decryption"
   ],
   "note": "Steps.v repeats the functions with a record of the lines executed and of the library calls with the lengths of their arguments; C76_same_functions proves the results equal to those of the model. Equality of steps is not equality of time: what the interpreter and the C libraries do within a step is not modelled."
  },
  {
   "property": "C77",
   "status": "partial",
   "theorems": [
    "C77_exactly",
    "C77_accepts_partial",
    "C77_encrypt_makes_leading_zeros",
    "C77_leading_byte_refuted",
    "C77_errors_partial",
    "C77_IndexError_refuted",
    "C77_steps_refuted"
   ],
   "note": "C77_accepts_partial: an accepted ciphertext is one of Encrypt, or its block has no leading zero byte; C77_leading_byte_refuted exhibits one of the latter (keyczar drops the check RFC 8017 demands). C77_errors_partial lists the errors. C77_IndexError_refuted and C77_steps_refuted: the refusals can be told apart by class (KeyczarError, IndexError, ValueError for numbers over the modulus) and by the steps. C77_exactly gives the outcome for every ciphertext, in terms of the block it opens to."
  },
  {
   "property": "C78",
   "status": "partial",
   "theorems": [
    "C78_history_partial",
    "C78_no_revocation",
    "C78_one_command",
    "C78_reader_disturbs_nothing",
    "C78_tidy",
    "C78_reused_number_refuted",
    "C78_leftover_file_refuted"
   ],
   "note": "C78_history_partial: the opened set is that of a moment between commands if no version number is used for two keys in that time (shown for commands without revoke, and for one command of any kind) and no key file is left over at the start (kept by complete commands: C78_tidy). C78_reused_number_refuted and C78_leftover_file_refuted: without them a process gets a new key under an old status, or a revoked key as the new primary. One process runs the commands; for two see C49."
  },
  {
   "property": "C79",
   "status": "proved",
   "theorems": [
    "C79_streams",
    "C79_read_as_stream",
    "C79_sessions",
    "C79_exported_sessions",
    "C79_signed_sessions"
   ],
   "note": "Through the life of the sets as in C69 (any command lines short of genkey, pubkey into the set, and revocation of the version used). With RSA sets a later process makes of the material what the set made of it at the start; that this is the session is C40_rsa_partial. C79_exported_case shows a 1024-bit set where it is."
  },
  {
   "property": "C80",
   "status": "partial",
   "theorems": [
    "C80_history_partial",
    "C80_no_revocation",
    "C80_one_command",
    "C80_each_file",
    "C80_whole_files",
    "C80_all_keys_lost_refuted",
    "C80_revoke_refuted",
    "C80_every_moment",
    "C80_reused_number_refuted"
   ],
   "note": "C80_one_command, C80_no_revocation and C80_history_partial: what opens is one of the states; proved for histories in which no number is used for two keys and no key file is left over at the start. C80_each_file and C80_whole_files say what the files hold. C80_all_keys_lost_refuted: every command rewrites all key files without making sure that they reach the disk, so all keys may be lost after it has reported success. C80_revoke_refuted: the removal of a key file may come before the metadata. C80_reused_number_refuted: with a number used again a revoked key comes back in use."
  },
  {
   "property": "C81",
   "status": "partial",
   "theorems": [
    "C81_opened_partial",
    "C81_final_partial",
    "C81_elsewhere",
    "C81_garbled_refuted"
   ],
   "note": "C81_opened_partial, C81_final_partial and C81_elsewhere: every statement about what opens, for any number of commands and any interleaving in which a system call happens at one moment. Missing, and REFUTED by C81_garbled_refuted: any two commands whose metadata texts differ in length may both succeed and leave a set that no class opens, because both open the file before either writes. Lost updates are C49."
  },
  {
   "property": "C82",
   "status": "partial",
   "theorems": [
    "C82_memoize",
    "C82_computed_once",
    "C82_transparent",
    "C82_pickles_must_differ",
    "C82_one_entry_each",
    "C82_keys_are_kept_refuted",
    "C82_grows_refuted"
   ],
   "note": "C82_transparent and C82_memoize for every pickled form that tells arguments apart (C82_pickles_must_differ: this is needed). False of the code: C82_keys_are_kept_refuted (the key set of a session stays in the memory of the decorator for ever) and C82_grows_refuted (one entry for each session ever used, without bound)."
  },
  {
   "property": "C83",
   "status": "partial",
   "theorems": [
    "C83_existing_location",
    "C83_other_location",
    "C83_imported",
    "C83_plugged_in",
    "C83_again",
    "C83_same_name_refuted",
    "C83_broken_file_refuted",
    "C83_classes",
    "C83_unversioned_refuted"
   ],
   "note": "The import of a module is modelled as the search of sys.path for a file of that name; packages, compiled and built-in modules are not. False of the code: C83_same_name_refuted (a plug-in with the name of a module already loaded is ignored) and C83_broken_file_refuted (one file that cannot be imported stops every CreateReader and CreateWriter, also for existing directories); and C83_unversioned_refuted (UnversionedVerifier.Read and UnversionedSigner.Read know no plug-ins, C83_classes)."
  },
  {
   "property": "C84",
   "status": "partial",
   "theorems": [
    "C84_documented",
    "C84_metadata",
    "C84_metadata_refused",
    "C84_encrypted",
    "C84_keys",
    "C84_files",
    "C84_plain_files",
    "C84_other_files_refuted",
    "C84_private_keys",
    "C84_unexpected_material"
   ],
   "note": "A second model of reading and opening with values of any JSON type (Loose.v); C84_documented shows that it extends Keyczar.v. Numbers with a fraction or exponent are kept as written, so 1.0 is not the same version number as 1, and is no valid size. For the public key inside a private key file see C84_private_keys, which leaves out files with fractions or split surrogate pairs. False of the code: C84_other_files_refuted (a version \"number\" that is a string such as /other/1 makes the file reader load the key from that path)."
  },
  {
   "property": "C85",
   "status": "partial",
   "theorems": [
    "C85_either_library",
    "C85_m2crypto_pieces",
    "C85_pycrypto_pieces",
    "C85_both_ways_refuted",
    "C85_bad_keys",
    "C85_final_of",
    "C85_final_default"
   ],
   "note": "The last sentence is REFUTED for PyCrypto: after encrypting, decrypt goes on from the last block encrypted, so that it gives the text back only if that block equals the IV (C85_both_ways_refuted, for every key, IV and text); M2Crypto's object gives it back, and final() then raises AssertionError. Everything else is proved, the outputs against FIPS 197 and the definition of CBC."
  },
  {
   "property": "C86",
   "status": "partial",
   "theorems": [
    "C86_same_functions",
    "C86_decrypt_text",
    "C86_verify_text",
    "C86_aes_sentences",
    "C86_verify_sentences",
    "C86_rsa_text_refuted"
   ],
   "note": "Proved for signatures of all keys and for ciphertexts under every kind of key but RSA private keys. REFUTED for those (C86_rsa_text_refuted, for every key and ciphertext): the texts of the OAEP errors tell how many bytes the decrypted number has if fewer than 42, whether the hash in its data block is right, and whether the separating byte is. Texts made by the interpreter or a library are not modelled; those errors are told apart by class only."
  },
  {
   "property": "C87",
   "status": "proved",
   "theorems": [
    "C87_key",
    "C87_numbers",
    "C87_other_members",
    "C87_written",
    "C87_same_answers",
    "C87_source_intact",
    "C87_metadata_last",
    "C87_converts",
    "C87_failure",
    "C87_not_convertible",
    "C87_encrypted",
    "C87_in_place",
    "C87_numbers_again",
    "C87_in_place_stopped",
    "C87_in_place_can_lose_the_set",
    "C87_command_line"
   ],
   "note": "Props_Convert takes different directories for source and destination (the script asks for an empty destination); Props_Convert2 takes one directory for both, failures and encrypted sets. Key files with fractional numbers or half surrogate pairs are excluded by json_ok. A key whose numbers contain line breaks is read by the library but refused by the script (C87_line_breaks_case)."
  },
  {
   "property": "C88",
   "status": "partial",
   "theorems": [
    "C88_encrypt",
    "C88_encrypt_foreign",
    "C88_rsa_encrypt_refuted",
    "C88_decrypt",
    "C88_sign",
    "C88_verify",
    "C88_foreign",
    "C88_attached_sign_exactly",
    "C88_attached_sign_refuted",
    "C88_attached_verify",
    "C88_nonce_refuted",
    "C88_foreign_nonce",
    "C88_stream",
    "C88_stream_ascii",
    "C88_stream_mixed",
    "C88_stream_late_refuted"
   ],
   "note": "Holds for AES encryption, detached and unversioned signatures, decryption, and streams that are written and flushed without an exception. Refuted in four points: RSA keys encrypt no unicode text at all (C88_rsa_encrypt_refuted); AttachedSign refuses ASCII texts when the header or signature has a byte over 127, which is nearly always (C88_attached_sign_refuted, exact outcome in C88_attached_sign_exactly); AttachedVerify with a unicode nonce refuses good signatures of data with a byte over 127 (C88_nonce_refuted); the stream writer takes a text with other characters and reports it later (C88_stream_late_refuted). A Base64 text given as unicode is assumed to have no control characters that only unicode.splitlines treats as line ends (11, 12, 28-30). What M2Crypto's C functions take from a unicode object is a parameter, so the theorems on encrypting unicode texts are about PyCrypto. Unicode ciphertexts and signatures without a decoder are not modelled."
  },
  {
   "property": "C89",
   "status": "proved",
   "theorems": [
    "C89_opening",
    "C89_any_order",
    "C89_written",
    "C89_clash_depends_on_order",
    "C89_metadata_members",
    "C89_key_members",
    "C89_members"
   ],
   "note": "Proved. The orders are arbitrary and may change before every call; ids_distinct is the condition on identifiers, and C89_clash_depends_on_order shows that it cannot be dropped. The theorem justifies the insertion order used by the rest of the model. Which exception an opening that fails raises may depend on the order and is not compared. C89_members: the order of the members in JSON files, at every depth, for files without fractional numbers and half surrogate pairs."
  },
  {
   "property": "C90",
   "status": "partial",
   "theorems": [
    "C90_alone",
    "C90_shared",
    "C90_uses",
    "C90_history",
    "C90_one_adder",
    "C90_two_promotes_refuted",
    "C90_promote_demote_refuted",
    "C90_two_adds_refuted",
    "C90_sign_mixes",
    "C90_sign_refuted",
    "C90_long_uses",
    "C90_long_history",
    "C90_one_manager",
    "C90_use_during_add_refuted"
   ],
   "note": "Proved for sets that threads only use (C90_shared), for what changing threads cannot spoil (C90_history, C90_uses) and for one adding thread (C90_one_adder); C90_long_history and C90_long_uses say the same of threads that make several calls each, and C90_one_manager: if one thread makes all changes, its outcomes and the object are those of the calls one after the other. C90_alone ties the model of threads to the sequential one. The last sentence of the property is false of the code. C90_two_promotes_refuted: two promotions leave two primary versions and metadata that no class opens. C90_promote_demote_refuted: a promotion fails halfway with AttributeError. C90_two_adds_refuted: of two added keys one gets no version. C90_sign_mixes and C90_sign_refuted: Sign reads primary_key twice (keyczar.py:599, 625) and can join the identifier of one key with the signature of another. C90_use_during_add_refuted: while AddVersion draws the key of a new primary version, Encrypt and Sign raise KeyNotFoundError (keyczar.py:176-188). Accesses to attributes and dictionaries are atomic, as under the global interpreter lock of CPython; the log and the random generator are not shared state of the model."
  },
  {
   "property": "C91",
   "status": "proved",
   "theorems": [
    "C91_covers",
    "C91_decrypt",
    "C91_verify",
    "C91_attached",
    "C91_unversioned",
    "C91_one_object",
    "C91_signing",
    "C91_session",
    "C91_any_type"
   ],
   "note": "The computation of HMAC-SHA1 is concrete (C70); that it cannot be forged is an assumption on cryptography that the theorems name as their last case and do not make. The texts that two ways of signing have in common are those of C38. Hypotheses: one type of keys, and for AES that keys with equal identifiers are equal, which C91_one_object shows for the life of one object whose keys have different identifiers."
  },
  {
   "property": "C92",
   "status": "proved",
   "theorems": [
    "C92_reading",
    "C92_making",
    "C92_bare",
    "C92_stored",
    "C92_streams",
    "C92_streams_base64",
    "C92_any_stream",
    "C92_new",
    "C92_sessions"
   ],
   "note": "Keys of one identifier in one set are excluded where the header is used (C29): with two of them the last one loaded is used. The last sentence is for HMAC keys; a DSA or RSA key can raise on a signature before a later key is tried (C36). For streams whose header no key of one of the sets has, the first read is the same (C53_header_errors); the later reads, after the exception, are covered only for sets with the same keys (C92_any_stream)."
  }
 ]
}