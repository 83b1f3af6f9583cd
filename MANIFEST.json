{
 "claims": [
  {
   "property": "C01",
   "status": "proved",
   "theorems": [
    "c01_int_to_2byte",
    "c01_int_to_4byte",
    "c01_int_to_8byte",
    "c01_bytes_to_int_value"
   ],
   "note": ""
  },
  {
   "property": "C02",
   "status": "proved",
   "theorems": [
    "c02_mpi_round_trip",
    "c02_mpi_exact",
    "c02_negative_rejected",
    "c02_mpi_undershoot_refuted",
    "c02_mpi_too_long_refuted"
   ],
   "note": "Proved for every logarithm that does not undershoot; c02_mpi_exact gives the exact value for any logarithm; the _refuted theorems show the two ways the code violates the property (undershooting float log, more than 65535 bits)."
  },
  {
   "property": "C03",
   "status": "partial",
   "theorems": [
    "c03_mpi_canonical_partial",
    "c03_rfc_mpi_unique",
    "c03_mpi_canonical_refuted"
   ],
   "note": "Canonical when the floating-point log2 is exact; refuted when it rounds up (doubles do at 2^48-1)."
  },
  {
   "property": "C04",
   "status": "proved",
   "theorems": [
    "c04_s2k_count_round_trip",
    "c04_s2k_count_accepts_exactly",
    "c04_s2k_count_rejects",
    "c04_s2k_count_value"
   ],
   "note": ""
  },
  {
   "property": "C05",
   "status": "proved",
   "theorems": [
    "c05_hex_round_trip",
    "c05_hex_at_offset",
    "c05_hex_expected_length",
    "c05_int_to_hex",
    "c05_hex_of_octets_is_hex_of_value",
    "c05_lower_case"
   ],
   "note": ""
  },
  {
   "property": "C06",
   "status": "proved",
   "theorems": [
    "c06_new_length_round_trip",
    "c06_new_length_conforms",
    "c06_new_length_reads_every_rfc_length",
    "c06_new_length_rejects"
   ],
   "note": ""
  },
  {
   "property": "C07",
   "status": "proved",
   "theorems": [
    "c07_old_length_round_trip",
    "c07_old_length_indeterminate"
   ],
   "note": ""
  },
  {
   "property": "C08",
   "status": "proved",
   "theorems": [
    "c08_packet_round_trip",
    "c08_parser_reads_rfc_packets",
    "c08_indeterminate_round_trip",
    "c08_old_header_big_type_refuted"
   ],
   "note": "Bodies under 2^24 (old) / 2^32 (new). Indeterminate lengths and old-format types above 15 are characterised separately."
  },
  {
   "property": "C09",
   "status": "partial",
   "theorems": [
    "c09_empty_old_packet_partial",
    "c09_empty_new_packet_refuted",
    "c09_empty_new_packet_swallows_refuted"
   ],
   "note": "Holds for old format; refuted for every new-format empty packet."
  },
  {
   "property": "C10",
   "status": "proved",
   "theorems": [
    "c10_parse_concatenation",
    "c10_parse_rfc_sequence",
    "c10_parse_stream_concatenation"
   ],
   "note": ""
  },
  {
   "property": "C11",
   "status": "proved",
   "theorems": [
    "c11_progress",
    "c11_framing_errors",
    "c11_parse_loop_terminates"
   ],
   "note": ""
  },
  {
   "property": "C12",
   "status": "partial",
   "theorems": [
    "c12_truncation_behaviour_partial",
    "c12_truncated_accepted_refuted"
   ],
   "note": "Exact behaviour on every cut is proved; the property itself is refuted: a cut in the body is accepted."
  },
  {
   "property": "C13",
   "status": "proved",
   "theorems": [
    "c13_stream_agrees",
    "c13_indeterminate_disagrees_refuted"
   ],
   "note": "Definite lengths; the indeterminate-length disagreement is exhibited."
  },
  {
   "property": "C14",
   "status": "partial",
   "theorems": [
    "c14_partial_lengths_buffer_partial",
    "c14_partial_lengths_stream_refuted"
   ],
   "note": "Proved for the buffer parser; refuted for the stream parser."
  },
  {
   "property": "C15",
   "status": "partial",
   "theorems": [
    "c15_serialisation_terminates_partial",
    "c15_serialisation_diverges_refuted"
   ],
   "note": "Terminates except for new-format data packets above 4294967295 octets, where divergence is proved."
  },
  {
   "property": "C16",
   "status": "proved",
   "theorems": [
    "c16_crc24_is_rfc"
   ],
   "note": ""
  },
  {
   "property": "C17",
   "status": "proved",
   "theorems": [
    "c17_crc24_detects_window"
   ],
   "note": ""
  },
  {
   "property": "C18",
   "status": "proved",
   "theorems": [
    "c18_base64",
    "c18_armor_round_trip",
    "c18_armor_layout",
    "c18_line_ends",
    "c18_round_trip_line_ends",
    "c18_total_without_part_refuted",
    "c18_line_break_refuted",
    "c18_line_breaks",
    "c18_comment_characters"
   ],
   "note": "Round trip for every armor the format can express (c18_armor_round_trip); the _refuted theorems show the inputs outside it (a part total without a part, line breaks in header values)."
  },
  {
   "property": "C19",
   "status": "proved",
   "theorems": [
    "c19_accepts_exactly",
    "c19_corrupted_data_rejected",
    "c19_wrong_checksum_rejected",
    "c19_wrong_tail_rejected"
   ],
   "note": "Exact characterisation of accepted texts plus rejection theorems."
  },
  {
   "property": "C20",
   "status": "partial",
   "theorems": [
    "c20_extra_headers_refuted",
    "c20_extra_headers_never_kept",
    "c20_extra_headers_write_refuted"
   ],
   "note": "The code violates the property: parsed extra headers are dropped, writing them raises. Proved as refutations."
  },
  {
   "property": "C21",
   "status": "proved",
   "theorems": [
    "c21_s2k_round_trip",
    "c21_s2k_reserialise",
    "c21_unknown_type_rejected",
    "c21_gnupg_refuted",
    "c21_truncated_salt_refuted"
   ],
   "note": "Simple, salted and iterated specifiers; the GnuPG extension cannot be written (refuted)."
  },
  {
   "property": "C22",
   "status": "partial",
   "theorems": [
    "c22_to_key_is_rfc",
    "c22_long_passphrase_refuted",
    "c22_gnupg_no_key"
   ],
   "note": "RFC key whenever the count covers salt and passphrase; refuted otherwise (passphrase is cut)."
  },
  {
   "property": "C23",
   "status": "partial",
   "theorems": [
    "c23_key_length",
    "c23_hash_and_block_tables",
    "c23_table_partial",
    "c23_twofish_refuted"
   ],
   "note": "Exactly the table's length always; the table itself is wrong for Twofish (refuted)."
  },
  {
   "property": "C24",
   "status": "partial",
   "theorems": [
    "c24_block_round_trip",
    "c24_only_good_checksum",
    "c24_bad_checksum_rejected",
    "c24_too_short_rejected",
    "c24_one_octet_noticed",
    "c24_two_octets_refuted"
   ],
   "note": "Round trip, acceptance and rejection proved for all blocks of 3 or more octets; refuted at the block 00 00, accepted with an empty key."
  },
  {
   "property": "C25",
   "status": "partial",
   "theorems": [
    "c25_parse_back",
    "c25_only_bodies",
    "c25_reserialise_iff_canonical",
    "c25_unknown_algorithm_rejected",
    "c25_old_version_rejected",
    "c25_noncanonical_refuted"
   ],
   "note": "Parsing and reserialising proved for every RFC 4880 body; refuted where MPIs are not canonical (they are normalised) and trailing octets are dropped"
  },
  {
   "property": "C26",
   "status": "partial",
   "theorems": [
    "c26_gnupg_refuted",
    "c26_parse_partial",
    "c26_reserialise_partial",
    "c26_unencrypted_refuted",
    "c26_cipher_usage_refuted"
   ],
   "note": "Proved for S2K-protected (usage 254/255) packets; usage 0/101 and bare cipher numbers never parse, and GnuPG specifiers parse but can never be written (refuted theorems)"
  },
  {
   "property": "C27",
   "status": "partial",
   "theorems": [
    "c27_rfc_material_decrypts",
    "c27_only_good_sha1",
    "c27_bad_sha1_rejected",
    "c27_checksum_refuted",
    "c27_own_encryption_refuted",
    "c27_own_octets_partial",
    "c27_packet_decrypts",
    "c27_version3_refuted",
    "c27_version3_encrypt_refuted",
    "c27_too_few_values"
   ],
   "note": "Decryption of RFC material proved exact for SHA-1 usage, including which attribute each value is put in (c27_packet_decrypts); refuted: checksum usage, the code's own encryption, and versions 2 and 3, whose material can be neither decrypted nor encrypted (the cipher objects have no sync)."
  },
  {
   "property": "C28",
   "status": "partial",
   "theorems": [
    "c28_gnupg_refuted",
    "c28_no_session_key",
    "c28_pkesk_reserialise",
    "c28_pkesk_parse",
    "c28_pkesk_short_rejected",
    "c28_pkesk_parse_back",
    "c28_wildcard_refuted",
    "c28_skesk_reserialise",
    "c28_skesk_parse_back",
    "c28_skesk_truncates_refuted"
   ],
   "note": "Proved for packets with a key id and for passphrase packets within their key length, with or without an encrypted key; refuted for the wildcard key id, for encrypted keys longer than the wrapping key plus one octet, and for GnuPG specifiers, which cannot be written."
  },
  {
   "property": "C29",
   "status": "partial",
   "theorems": [
    "c29_key_id_halved_refuted",
    "c29_other_fields_partial",
    "c29_same_octets_only_zero"
   ],
   "note": "Refuted: only half of the key id is kept; exact behaviour proved."
  },
  {
   "property": "C30",
   "status": "partial",
   "theorems": [
    "c30_readable_bodies",
    "c30_stable_bodies_partial",
    "c30_literal_refuted",
    "c30_literal_written",
    "c30_literal_name_refuted",
    "c30_changed_refuted"
   ],
   "note": "Exact characterisation of the data-bearing packets that survive re-serialisation; literal data is never rewritten; non-UTF-8 user ids and long trust packets do change (refuted)"
  },
  {
   "property": "C31",
   "status": "partial",
   "theorems": [
    "c31_written_partial",
    "c31_read",
    "c31_terminates",
    "c31_unwritable_refuted"
   ],
   "note": "RFC v4 bodies parse to their fields and representable signatures round-trip, embedded ones included; signatures holding a regex, revocation key, target or additional-recipient subpacket cannot be written (refuted)"
  },
  {
   "property": "C32",
   "status": "partial",
   "theorems": [
    "c32_read_partial",
    "c32_key_id_refuted",
    "c32_write_refuted"
   ],
   "note": "All fields but the key id are read; the key id is cut to four octets and no v2/v3 signature can be written (refuted)"
  },
  {
   "property": "C33",
   "status": "partial",
   "theorems": [
    "c33_survives_partial",
    "c33_regex_revkey_refuted",
    "c33_altered_refuted"
   ],
   "note": "Exact characterisation of the contents that survive, by type; the others are refuted"
  },
  {
   "property": "C34",
   "status": "partial",
   "theorems": [
    "c34_written_area",
    "c34_any_list",
    "c34_any_list_refuted",
    "c34_area_read",
    "c34_types",
    "c34_round_trip_partial"
   ],
   "note": "Every RFC area is read to its list and consumed exactly. c34_written_area, c34_any_list: any list of subpacket objects that is written (types below 128) is an RFC area, consumed exactly when read, with the type and critical bit of each, and refused only when a class does not read what it wrote; the list itself comes back for the classes of c34_round_trip_partial, and c34_any_list_refuted names what does not"
  },
  {
   "property": "C35",
   "status": "partial",
   "theorems": [
    "c35_image",
    "c35_stable_partial",
    "c35_packet_round_trip",
    "c35_packet_read",
    "c35_altered_refuted"
   ],
   "note": "RFC images and lists of attributes round-trip; exact characterisation of surviving contents; truncated headers and unknown attributes are altered (refuted)"
  },
  {
   "property": "C36",
   "status": "partial",
   "theorems": [
    "c36_v4_octets_determine_signature_partial",
    "c36_v3_octets_determine_signature_partial",
    "c36_v3_algorithms_unbound_refuted",
    "c36_v3_user_data_kind_unbound_refuted",
    "c36_long_keys_collide_refuted"
   ],
   "note": "Equal hashed octets imply the same version, type, algorithms, hashed area (v4) or type and time (v3) and the same item, for items of the same kind and key bodies within the two-octet length; refuted: v3 does not bind the algorithms, v3 does not separate user IDs from attributes, keys over 65535 octets collide."
  },
  {
   "property": "C37",
   "status": "partial",
   "theorems": [
    "c37_fingerprint_v4_partial",
    "c37_key_id",
    "c37_hashed_octets_determine_key",
    "c37_v3_refuted"
   ],
   "note": "Version 4 fingerprint and key id proved; version 2/3 fingerprints refuted"
  },
  {
   "property": "C38",
   "status": "partial",
   "theorems": [
    "c38_accepts_iff",
    "c38_rfc_partial",
    "c38_subkey_revocation_refuted",
    "c38_no_user_id_refuted",
    "c38_trailing_subkey"
   ],
   "note": "The accepted language is characterised exactly (c38_accepts_iff). It is not RFC 4880 11.1: every RFC list without subkey revocations is accepted (c38_rfc_partial), lists with a 0x28 signature are always refused, a key without user id is accepted, and a trailing subkey raises IndexError."
  },
  {
   "property": "C39",
   "status": "partial",
   "theorems": [
    "c39_round_trip_partial",
    "c39_trust_refuted",
    "c39_version3_key_refuted",
    "c39_version3_sig_refuted",
    "c39_attribute_refuted"
   ],
   "note": "Identity for accepted lists of version 4 keys and signatures, user ids and JPEG attributes without trust packets; after the first trust packet everything is lost, version 3 keys lose their lifetime, version 3 signatures cannot be written, other attributes are changed or refused (refuted theorems)."
  },
  {
   "property": "C40",
   "status": "partial",
   "theorems": [
    "c40_last_wins",
    "c40_latest_partial",
    "c40_latest_refuted",
    "c40_version3_refuted",
    "c40_expiration_refuted",
    "c40_types",
    "c40_types_all",
    "c40_target_expiration_refuted"
   ],
   "note": "The governing self-signature is the last of its kind in the list (proved for every list); it is the latest when the list is in order of time, refuted otherwise; with a version 3 signature no attribute can be read (refuted); the key expiration of a single self-signature is never reported (refuted)."
  },
  {
   "property": "C41",
   "status": "partial",
   "theorems": [
    "c41_flags_partial",
    "c41_storage_refuted",
    "c41_set_get",
    "c41_set_refuted"
   ],
   "note": "Proved for certify, sign, encrypt-communications, split and multiple-owners, for every combination of flags, and for assignment; refuted for storage, authentication and modification detection, which report other flags."
  },
  {
   "property": "C42",
   "status": "partial",
   "theorems": [
    "c42_no_passphrase_no_use",
    "c42_locked_means_clean_partial",
    "c42_use_iff_unlocked",
    "c42_lock_clears_everything",
    "c42_context_locks_on_exit",
    "c42_loaded_keys_meet_the_conditions",
    "c42_failed_unlock_leaves_primary_open_refuted",
    "c42_short_material_leaks_refuted",
    "c42_public_copy_keeps_secret_prime_refuted"
   ],
   "note": "Proved for every program over lock/unlock/sign/decrypt/with/try; refuted: a half failed unlock leaves the primary open, short material leaves values behind, the public copy of an unlocked RSA key keeps p. Missing: the object's attributes beyond the secret values."
  },
  {
   "property": "C43",
   "status": "partial",
   "theorems": [
    "c43_protected_partial",
    "c43_unprotected_encrypt_refuted",
    "c43_unprotected_decrypt_refuted",
    "c43_literal_partial"
   ],
   "note": "Integrity-protected data is proved to be RFC 4880 5.13 and to decrypt to the packets that went in, for every cipher, key, prefix and message; refuted without integrity protection (encrypting always raises ValueError, decrypting never yields a message)."
  },
  {
   "property": "C44",
   "status": "proved",
   "theorems": [
    "c44_accepted",
    "c44_exact",
    "c44_wrong_digest_rejected",
    "c44_short_rejected"
   ],
   "note": "Acceptance characterised exactly; every accepted ciphertext carries a matching MDC packet as its last packet; wrong digest, missing MDC and short data rejected."
  },
  {
   "property": "C45",
   "status": "proved",
   "theorems": [
    "c45_decrypt_inverts",
    "c45_modes_are_sp800_38a",
    "c45_ctr_is_sp800_38a",
    "c45_bad_length_rejected",
    "c45_new_validates"
   ],
   "note": "For every block cipher E/D and counter; independent splits on both sides; modes shown equal to SP 800-38A."
  },
  {
   "property": "C46",
   "status": "proved",
   "theorems": [
    "c46_encrypt_is_idea",
    "c46_decrypt_inverts",
    "c46_mul_is_mod_65537",
    "c46_mul_inverse",
    "c46_group",
    "c46_bad_block_rejected",
    "c46_idea_is_block_cipher"
   ],
   "note": "Includes functional correctness against the published cipher."
  },
  {
   "property": "C47",
   "status": "partial",
   "theorems": [
    "c47_literal",
    "c47_compressed",
    "c47_encrypted",
    "c47_signed",
    "c47_plain_round_trip",
    "c47_signed_round_trip_partial",
    "c47_signature_first_refuted",
    "c47_trailing_ignored_refuted",
    "c47_unpaired_refuted",
    "c47_one_pass_order_refuted",
    "c47_v3_unwritable_refuted",
    "c47_signed_octets_partial",
    "c47_one_pass_written_partial",
    "c47_nested_flag_refuted",
    "c47_unannounced_refuted",
    "c47_no_issuer_refuted"
   ],
   "note": "Exact characterisation of the accepted packet lists. Refuted parts: signature before message, trailing packets ignored, one-pass packets and signatures not paired, one-pass order and nested flags reversed, v3 signatures unwritable. A signed message with one-pass packets survives octets and armor (c47_signed_octets_partial)."
  },
  {
   "property": "C48",
   "status": "partial",
   "theorems": [
    "c48_only_canonical_partial",
    "c48_other_types",
    "c48_octet_lost_refuted",
    "c48_not_idempotent_refuted",
    "c48_spec_idempotent"
   ],
   "note": "Holds exactly for texts that are already canonical (proved as an equivalence); otherwise refuted: the octet before a bare LF is lost, not idempotent."
  },
  {
   "property": "C49",
   "status": "partial",
   "theorems": [
    "c49_rejected",
    "c49_accepted_partial",
    "c49_revocation",
    "c49_expired_refuted",
    "c49_local_refuted",
    "c49_designated_refuted",
    "c49_never_refuted",
    "c49_exceptions",
    "c49_version3_signature_refuted",
    "c49_revokers"
   ],
   "note": "Chronology checks proved in both directions; key expiration and self-revocation reported. Refuted: the signature's own expiration is not checked, revocations are skipped for non-exportable signatures, designated revokers are not recognised, a key expiration of 0 cannot be compared. check_signature itself (which passes current_time twice) is in C86."
  },
  {
   "property": "C50",
   "status": "partial",
   "theorems": [
    "c50_set_get",
    "c50_other_attributes_partial",
    "c50_survives_packet",
    "c50_flags_granted_refuted",
    "c50_revocable_refuted",
    "c50_trust_refuted",
    "c50_revocation_refuted",
    "c50_none_refuted",
    "c50_issuer_clear",
    "c50_issuer_assign",
    "c50_issuer_replace_refuted",
    "c50_expiration",
    "c50_expiration_none_refuted",
    "c50_creation_time_refuted",
    "c50_notations_clear",
    "c50_notations_assign",
    "c50_notations_replace_refuted",
    "c50_critical_notation_refuted",
    "c50_revocation_keys_read",
    "c50_notations_read",
    "c50_embedded_read",
    "c50_revocation_keys_refuted",
    "c50_no_revocation_keys",
    "c50_embedded_clear_partial",
    "c50_embedded_assign_partial",
    "c50_embedded_critical_refuted",
    "c50_regexes_clear",
    "c50_regexes_assign",
    "c50_regexes_replace_refuted",
    "c50_key_expiration_partial",
    "c50_key_expiration_zero_refuted",
    "c50_truth_partial",
    "c50_value_kinds"
   ],
   "note": "Attributes with a subpacket of their own and the key flags: assignment succeeds, reads back, survives the packet, other attributes unchanged; issuer key ids: clearing and assigning characterised for every enumeration order of the set; expiration time. Refuted parts: one flag assigned on a signature without flags grants all others; revocable is exportable; trust amount/depth and revocation reason/code; None does not clear; issuer key ids are never replaced; creation time cannot be assigned. Notations, regular expressions and embedded signatures: clearing and assigning characterised for every enumeration of the set, nothing else changes; refuted: they are never replaced, a critical notation blocks reading and assigning, a critical embedded signature cannot be cleared, revocation keys can never be assigned. Key expiration: read back to the second; refuted below one second (stored as never). c50_revocation_keys_read, c50_notations_read and c50_embedded_read fix which subpackets each list reads."
  },
  {
   "property": "C51",
   "status": "partial",
   "theorems": [
    "c51_encryption_key_accepts_nothing",
    "c51_accepted_only_if_valid_partial",
    "c51_valid_accepted_partial"
   ],
   "note": "verify() answers True only for a mathematically valid signature (PKCS#1 v1.5 RSA, DSA) over the right octets by a listed issuer, and accepts every such one of full size; ElGamal verification is an oracle. The hash, PyCrypto primitives are parameters with their documented behaviour."
  },
  {
   "property": "C52",
   "status": "partial",
   "theorems": [
    "c52_merge_refuted",
    "c52_direct_signature_refuted",
    "c52_other_key_partial",
    "c52_merge_key_refuted",
    "c52_again_refuted",
    "c52_by_hash_refuted"
   ],
   "note": "Only keys that are not versions of each other are left alone (c52_other_key_partial). Merging two versions of a key loses every user id, attribute, subkey and signature, a second version with a direct signature is refused with TypeError, and a merged key cannot be merged again (refuted theorems)."
  },
  {
   "property": "C53",
   "status": "partial",
   "theorems": [
    "c53_open_and_lookup",
    "c53_history",
    "c53_map_partial",
    "c53_delete_refuted",
    "c53_update_refuted",
    "c53_add_twice_refuted",
    "c53_short_id_refuted",
    "c53_version3_refuted",
    "c53_key_survives_partial",
    "c53_keys_survive_partial"
   ],
   "note": "Every history of operations is characterised exactly as operations on a list of keys (c53_history). It is a map only for histories that add new keys and change the last key of the file, with distinct short ids (c53_map_partial); otherwise deleting or replacing a key loses all keys after it, adding twice is not refused, keys with equal last 8 digits alias, and version 3 keys make the file unreadable (refuted theorems). c53_key_survives_partial and c53_keys_survive_partial say it for the library's own key objects: a key read from packets can be added, is found again under its fingerprint as the same key (in the header format of the ring), and the others are left alone."
  },
  {
   "property": "C54",
   "status": "partial",
   "theorems": [
    "c54_secret_rings_untouched",
    "c54_secret_key_refuted",
    "c54_no_public_ring_refuted"
   ],
   "note": "No operation ever changes a secret keyring (c54_secret_rings_untouched); secret keys are written to the first public keyring instead, or dropped silently if there is none (refuted theorems)."
  },
  {
   "property": "C55",
   "status": "partial",
   "theorems": [
    "c55_address_ends",
    "c55_address_list_ends",
    "c55_parsing_ends_partial",
    "c55_no_address_refuted",
    "c55_deep_nesting_refuted"
   ],
   "note": "Proved for every string within the recursion limit (modelled by two depth bounds): the parser ends, stays within the string, advances; parse_user_id fails only with an IndexError when no address is found. Refuted: the empty string raises IndexError; deeply nested parentheses raise RuntimeError."
  },
  {
   "property": "C56",
   "status": "partial",
   "theorems": [
    "c56_every_text_is_a_listing",
    "c56_one_entry_per_pub_partial",
    "c56_user_ids_in_order",
    "c56_listing_round_trip",
    "c56_blank_date_fails_refuted",
    "c56_empty_listing_refuted"
   ],
   "note": "Listing parser: every text is a listing or a ValueError; entries, user ids in order, round trip of a written listing. Refuted: blank dates fail, an empty listing. int()/unquote/datetime are parameters."
  },
  {
   "property": "C57",
   "status": "partial",
   "theorems": [
    "c57_deflate_compresses_all",
    "c57_deflate_expands_all",
    "c57_zlib_expands_all",
    "c57_zlib_compresses_first_partial",
    "c57_zlib_later_pieces_lost_refuted",
    "c57_packets_round_trip_partial",
    "c57_formats",
    "c57_message_round_trip_partial",
    "c57_bzip2_unreadable_refuted",
    "c57_unknown_algorithm_refuted"
   ],
   "note": "zlib/bz2 objects are parameters with their documented contract. Proved for deflate and ZLIB decompression and single-piece ZLIB; refuted: bzip2 messages cannot be read, pieces after the first are lost when ZLIB-compressing in pieces. c57_message_round_trip_partial holds of every message that survives being written and read."
  },
  {
   "property": "C58",
   "status": "partial",
   "theorems": [
    "c58_rsa_recovered_partial",
    "c58_short_ciphertext_refuted"
   ],
   "note": "Recovered exactly when the ciphertext has no leading zero octet; refuted otherwise. RSA is an abstract permutation pair."
  },
  {
   "property": "C59",
   "status": "partial",
   "theorems": [
    "c59_elgamal_in_clear_refuted",
    "c59_owner_recovers_partial"
   ],
   "note": "Refuted for every ElGamal key: the code encrypts with ephemeral exponent 0, so the packet holds the padded session key in clear."
  },
  {
   "property": "C60",
   "status": "proved",
   "theorems": [
    "c60_passphrase_round_trip",
    "c60_no_encrypted_key"
   ],
   "note": "For every block cipher with whole-block output; Plaintext (0) cipher excluded."
  },
  {
   "property": "C61",
   "status": "partial",
   "theorems": [
    "c61_gnupg_refuted",
    "c61_sequence_round_trip_partial",
    "c61_type_kept",
    "c61_empty_packet_refuted",
    "c61_one_pass_partial"
   ],
   "note": "Proved for every packet class; literal dates come back as integers, one-pass packets with the first half of their key id (C29). Refuted: packets with empty content (C09) and with GnuPG specifiers (c61_gnupg_refuted)."
  },
  {
   "property": "C62",
   "status": "partial",
   "theorems": [
    "c62_armored_round_trip_partial"
   ],
   "note": "As C61, through armor."
  },
  {
   "property": "C63",
   "status": "partial",
   "theorems": [
    "c63_passphrase_message_partial",
    "c63_through_packets_partial",
    "c63_other_s2k_cipher_refuted",
    "c63_no_session_key_partial",
    "c63_specifier",
    "c63_second_passphrase_refuted",
    "c63_not_encrypted",
    "c63_through_armor_partial"
   ],
   "note": "Proved with integrity protection for every message that survives being written and read (literal and compressed: plain_survives; signed: C109; compressed or encrypted again: C108), in memory and through packets, when the specifier uses the data's cipher; refuted when it uses another. c63_through_armor_partial: the same through read_message, from octets or any armor of them."
  },
  {
   "property": "C64",
   "status": "partial",
   "theorems": [
    "c64_v4_octets_rfc_partial",
    "c64_v3_octets_rfc_partial",
    "c64_signature_of_signature_not_rfc_refuted",
    "c64_objects_rfc_partial",
    "c64_secret_subkey_not_rfc_refuted"
   ],
   "note": "Refuted: a signature over a signature writes a one-octet length; a secret subkey hashes the primary key twice."
  },
  {
   "property": "C65",
   "status": "partial",
   "theorems": [
    "c65_sign_then_verify_partial",
    "c65_short_rsa_signature_refused_refuted",
    "c65_raw_data_refused_refuted",
    "c65_version_3_refused_refuted"
   ],
   "note": "Proved for key pairs satisfying the RSA/DSA equations, full-size RSA signatures; refuted: short RSA signatures are refused, octets and text cannot be signed, version 3 unusable."
  },
  {
   "property": "C66",
   "status": "partial",
   "theorems": [
    "c66_white_space_partial",
    "c66_name_and_address_partial",
    "c66_bare_address",
    "c66_comment_partial",
    "c66_comment_in_name_refuted"
   ],
   "note": "Proved for names without comment and bare addresses; with a comment the address and the comment are exact but the name always keeps an empty pair of parentheses (refuted)."
  },
  {
   "property": "C67",
   "status": "partial",
   "theorems": [
    "c67_revoked_partial",
    "c67_unverified_refuted"
   ],
   "note": "Exactly the unexpired self-issued revocations, by their claims; refuted: the signature values and the recorded validity are never consulted."
  },
  {
   "property": "C68",
   "status": "partial",
   "theorems": [
    "c68_open_partial",
    "c68_create_refuted",
    "c68_empty_refuted",
    "c68_prefix_refuted",
    "c68_prefixes",
    "c68_keybox_refused",
    "c68_other_formats"
   ],
   "note": "Existing keyrings open (c68_open_partial); missing ones are never created, empty files are taken for databases, and the gnupg-keyring: prefix opens another file (refuted theorems)."
  },
  {
   "property": "C69",
   "status": "partial",
   "theorems": [
    "c69_binary_partial",
    "c69_armored_partial",
    "c69_attribute_refuted",
    "c69_other_data"
   ],
   "note": "Holds for keys read from packets that keep everything (C39) and whose packets can be written with the chosen header format. With the default (old) header format a key with a user attribute is written but can never be read again, and empty data is an IndexError (refuted / c69_other_data)."
  },
  {
   "property": "C70",
   "status": "partial",
   "theorems": [
    "c70_public_label",
    "c70_secret_label_refuted",
    "c70_public_copy_type"
   ],
   "note": "Public keys are labelled correctly; every secret key is labelled PUBLIC KEY BLOCK, because TransferableSecretKey is a subclass of TransferablePublicKey (c70_secret_label_refuted)."
  },
  {
   "property": "C71",
   "status": "partial",
   "theorems": [
    "c71_public_copy_partial",
    "c71_nothing_secret_partial"
   ],
   "note": "For keys read from packets that keep everything (C39); the contents of secret packets are not modelled past the octets they hold and the prime_p attribute."
  },
  {
   "property": "C72",
   "status": "partial",
   "theorems": [
    "c72_read_message_partial",
    "c72_armored_octets_refuted",
    "c72_str_refuted",
    "c72_blank_octets_refuted",
    "c72_armor_transparent",
    "c72_written_not_armor"
   ],
   "note": "Text with the dashes first and binary octets are read as stated; octets of an armor that does not start with the dashes, and binary data given as text, are TypeErrors (refuted theorems). c72_armor_transparent: any armor of any octets is read exactly like the octets; c72_written_not_armor: no written message is mistaken for armor."
  },
  {
   "property": "C73",
   "status": "partial",
   "theorems": [
    "c73_exclusion_partial",
    "c73_threads_refuted",
    "c73_nested_refuted",
    "c73_exit_refuted"
   ],
   "note": "Proved for every schedule in which each Lock object is used by one thread, without nesting, and no process that uses the keyring ends or crashes. Threads that share an object, nested use (as in add_transferrable_key through get_resource), and the end of any process that has Lock objects break the exclusion (refuted theorems)."
  },
  {
   "property": "C74",
   "status": "partial",
   "theorems": [
    "c74_exceptions_partial",
    "c74_release_partial",
    "c74_acquire_partial",
    "c74_wait_refuted",
    "c74_same_address_refuted",
    "c74_same_address_release_refuted"
   ],
   "note": "A free lock is acquired and the holder's release frees it, from every reachable state, when the call is not disturbed; the only exceptions are listed. acquire never waits, whatever the timeout, and leaves the object's reentrant lock taken when it fails (refuted theorem)."
  },
  {
   "property": "C75",
   "status": "partial",
   "theorems": [
    "c75_stale_refuted"
   ],
   "note": "Refuted: after a crash of the holder no acquire ever succeeds again."
  },
  {
   "property": "C76",
   "status": "partial",
   "theorems": [
    "c76_adds_partial",
    "c76_known_keys_partial",
    "c76_stale_refuted"
   ],
   "note": "For interleaved additions nothing is lost, and each resource still finds the keys it knows. With deletions by others a resource with an old offset table returns and deletes a different key (refuted theorem). Each operation is one step."
  },
  {
   "property": "C77",
   "status": "partial",
   "theorems": [
    "c77_completed_partial",
    "c77_old_or_new_partial",
    "c77_crash_refuted",
    "c77_cut_key_refuted",
    "c77_cut_packet_refuted"
   ],
   "note": "Holds for crashes before the file is opened for writing and after the last octet. In between: an empty file that cannot be opened, a key without its last packets, a packet cut short (refuted theorems). Written octets reach the file in order."
  },
  {
   "property": "C78",
   "status": "partial",
   "theorems": [
    "c78_sound_partial",
    "c78_complete_partial",
    "c78_position_partial",
    "c78_bar_refuted",
    "c78_trailing_refuted",
    "c78_bracket_refuted",
    "c78_newline_refuted"
   ],
   "note": "For texts whose backslashes are followed by a character other than a newline or a closing bracket: everything accepted is in the grammar, and every expression that does not repeat a range with a vertical bar in it is accepted. Refuted: such a repetition raises AttributeError; a trailing backslash is accepted; a backslash before the closing bracket of a range is rejected. The limit on the depth of Python's recursion is not modelled."
  },
  {
   "property": "C79",
   "status": "partial",
   "theorems": [
    "c79_every_recipient_partial",
    "c79_hidden_recipient_named_refuted",
    "c79_first_usable_session_key",
    "c79_locked_or_passphrase_refused",
    "c79_mixed_session_keys_refuted",
    "c79_other_exception_stops_refuted",
    "c79_arguments",
    "c79_unprotected_refuted",
    "c79_no_recipients",
    "c79_through_armor_partial"
   ],
   "note": "c79_every_recipient_partial: true of every message that survives being written and read (literal, compressed, signed, already encrypted: C108, C109) if the session keys before the recipient's own fail with ValueError (the RSA case: C58) or are recovered too; public-key decryption is a parameter, integrity protection on. Refuted: hidden recipients are named by key id (c79_hidden_recipient_named_refuted), a passphrase session key in front (c79_mixed_session_keys_refuted) or an earlier one failing with another exception (c79_other_exception_stops_refuted) keeps the recipient out. c79_through_armor_partial: the same through read_message, from octets or any armor of them."
  },
  {
   "property": "C80",
   "status": "partial",
   "theorems": [
    "c80_user_id_octets_partial",
    "c80_user_attribute_octets_partial",
    "c80_subkey_octets_partial",
    "c80_user_id_determined",
    "c80_secret_key_octets_refuted",
    "c80_signature_octets_refuted",
    "c80_v3_signature_octets_refuted"
   ],
   "note": "True for public keys, user ids and user attributes. Refuted for secret key packets, which contribute their secret part (c80_secret_key_octets_refuted), and for signature packets: AttributeError from version 4 on (c80_signature_octets_refuted), type and time instead of the body before (c80_v3_signature_octets_refuted)."
  },
  {
   "property": "C81",
   "status": "proved",
   "theorems": [
    "c81_accepts_exactly",
    "c81_errors",
    "c81_revoked_certification_refuted",
    "c81_two_bindings_refuted",
    "c81_no_user_id_refuted"
   ],
   "note": "The statement is proved in full; in addition the differences from RFC 4880 11.1 are proved: certification revocations (0x30) are never accepted, two binding signatures are rejected, keys without a user id are accepted. pgpdump's packet objects are represented by the attributes read."
  },
  {
   "property": "C82",
   "status": "partial",
   "theorems": [
    "c82_all_keys_in_order",
    "c82_first_failure_ends",
    "c82_read_error_is_silent_refuted",
    "c82_recovery_always_fails_refuted",
    "c82_skips_to_the_next_key",
    "c82_default_yields_nothing_refuted"
   ],
   "note": "Fault-free behaviour, first failure and skip_to_next_key proved. Refuted: a read error with no key after it drops the unfinished key without any exception; with a key after it that key's first packet is duplicated so it is always InvalidKeyPacketOrder; with the default builder nothing is ever yielded. The text written to the error stream is not modelled; a StopIteration in a generator is taken to end it."
  },
  {
   "property": "C83",
   "status": "partial",
   "theorems": [
    "c83_concatenation_is_injective",
    "c83_concatenation_is_defined",
    "c83_comparison_is_an_order",
    "c83_no_canonical_hash_refuted"
   ],
   "note": "Injectivity and order proved. Refuted: hash_key_data always raises TypeError on Python 3."
  },
  {
   "property": "C84",
   "status": "proved",
   "theorems": [
    "c84_covered_values",
    "c84_creation_time",
    "c84_critical_unknown",
    "c84_local",
    "c84_hashed_unknown_refuted",
    "c84_embedded_refuted",
    "c84_unhashed_lifetime_refuted",
    "c84_issuer_refuted",
    "c84_self_signature_refuted",
    "c84_covered_values_16",
    "c84_values",
    "c84_header",
    "c84_notations",
    "c84_critical_notation",
    "c84_regexes",
    "c84_version_3",
    "c84_other_versions",
    "c84_issuers_read_refuted",
    "c84_text_replaced"
   ],
   "note": "UTF-8, base64 and pgpdump's packet objects are given; the hash2 text of the dictionary is left out."
  },
  {
   "property": "C85",
   "status": "proved",
   "theorems": [
    "c85_single_image",
    "c85_octet_too_many_refuted",
    "c85_ends",
    "c85_headers"
   ],
   "note": "libmagic is a parameter. What is reported after the first of several subpackets is not specified (it is misread)."
  },
  {
   "property": "C86",
   "status": "proved",
   "theorems": [
    "c86_unknown_digest_refuted",
    "c86_other_exception",
    "c86_nothing_verified_refuted",
    "c86_marks",
    "c86_forged_revocation_refuted",
    "c86_certification_revocation",
    "c86_certification_fails_refuted",
    "c86_unknown_issuers",
    "c86_foreign_binding",
    "c86_unexpected_type_refuted",
    "c86_unexpected_after_refuted"
   ],
   "note": "What the code does is proved as stated, including the deviations (the marks do not say what the signatures are worth). Digest computation is an abstract outcome per signature here (its content is C40-C43)."
  },
  {
   "property": "C87",
   "status": "proved",
   "theorems": [
    "c87_typed_and_confirmed",
    "c87_no_ask",
    "c87_cache",
    "c87_after_any_history",
    "c87_error_shown_refuted"
   ],
   "note": "The terminal itself (getpass.getpass, echo) is outside the model: typed lines are a list."
  },
  {
   "property": "C88",
   "status": "partial",
   "theorems": [
    "c88_request",
    "c88_request_unambiguous",
    "c88_passphrase",
    "c88_refused",
    "c88_not_ascii_refuted",
    "c88_long_refuted",
    "c88_status_refuted",
    "c88_hangs_refuted",
    "c88_cache_refuted",
    "c88_clear_partial",
    "c88_clear_unchecked_refuted",
    "c88_percent_stays"
   ],
   "note": "urllib.parse quote/unquote are modelled; socket.send is taken to send everything; connection set-up not modelled."
  },
  {
   "property": "C89",
   "status": "partial",
   "theorems": [
    "c89_by_id_partial",
    "c89_by_key_id_partial",
    "c89_by_user_id_partial",
    "c89_every_key_partial",
    "c89_hidden_refuted",
    "c89_eight_digits_refuted",
    "c89_fingerprint_first",
    "c89_no_criterion",
    "c89_empty_criterion_refuted",
    "c89_register"
   ],
   "note": "Proved for resources that are keyring files whose keys load; str.lower and the key constructor are parameters."
  },
  {
   "property": "C90",
   "status": "proved",
   "theorems": [
    "c90_first_not_disabled",
    "c90_own_preferences",
    "c90_history_refuted",
    "c90_lists_needed",
    "c90_disabled_refuted",
    "c90_codes",
    "c90_offers_refuted",
    "c90_level"
   ],
   "note": "Every sentence of the statement, including the deviations (the _refuted theorems), is proved."
  },
  {
   "property": "C91",
   "status": "proved",
   "theorems": [
    "c91_without_groups",
    "c91_groups_replace_recipients_refuted",
    "c91_group_members",
    "c91_unusable_refuted",
    "c91_group_syntax",
    "c91_key_choice",
    "c91_no_key",
    "c91_cipher_choice"
   ],
   "note": "Every sentence of the statement, including the deviations (the _refuted theorems), is proved. The trust check and the keyring lookup are parameters; the constructor of encrypt.Command itself always fails (not modelled), so the choice is that of its run method. c91_group_members: a group holds the members of every definition of it, earlier ones first."
  },
  {
   "property": "C92",
   "status": "proved",
   "theorems": [
    "c92_limit",
    "c92_no_limit_refuted",
    "c92_limit_exceeded_refuted"
   ],
   "note": "Every sentence of the statement is proved. Output to a binary file that accepts all that is written; reads give full chunks until the end."
  },
  {
   "property": "C93",
   "status": "partial",
   "theorems": [
    "c93_reads_back",
    "c93_set_name",
    "c93_set_email",
    "c93_set_comment",
    "c93_history",
    "c93_foreign_address",
    "c93_comment_in_name_refuted",
    "c93_foreign_name_refuted",
    "c93_usual_layout_refuted"
   ],
   "note": "Proved for names that are empty, words separated by single spaces, or ASCII texts with a special character; addresses local@domain; comments without parentheses, backslash and CR. Refuted: a comment occurring in the name removes it there; a non-ASCII name is read back as the MIME encoded word; on the usual layout Name (comment) <address> a new address also writes empty parentheses into the name. email.utils.formataddr is modelled from CPython's source; header_encode is a parameter."
  },
  {
   "property": "C94",
   "status": "proved",
   "theorems": [
    "c94_survives_iff",
    "c94_jpeg_survives",
    "c94_private_format_refuted",
    "c94_unknown_refuted",
    "c94_unwritable_refuted"
   ],
   "note": "The magic module is a parameter. The wish that every attribute survives is refuted for private formats other than 101, for unknown attribute types (AttributeError) and for unrecognised images (TypeError)."
  },
  {
   "property": "C95",
   "status": "proved",
   "theorems": [
    "c95_same",
    "c95_signature",
    "c95_kinds",
    "c95_equivalence",
    "c95_order_refuted",
    "c95_version_3_refuted",
    "c95_version_3",
    "c95_versions_differ",
    "c95_content_refuted",
    "c95_one_pass"
   ],
   "note": "c95_same: for all but signatures, one-pass signatures and unknown types, == is identity of all fields. c95_signature: exact meaning for version 4. c95_equivalence: total, reflexive, symmetric, transitive on comparable packets. c95_kinds, c95_one_pass, c95_version_3; the exceptions are c95_order_refuted, c95_version_3_refuted, c95_content_refuted."
  },
  {
   "property": "C96",
   "status": "proved",
   "theorems": [
    "c96_passes",
    "c96_missing",
    "c96_present_refuted"
   ],
   "note": "c96_passes (exact), c96_missing, c96_present_refuted (a correct back signature is never accepted: the property target is called)."
  },
  {
   "property": "C97",
   "status": "partial",
   "theorems": [
    "c97_search_then_get_partial",
    "c97_server_partial",
    "c97_https_refuted",
    "c97_other_scheme",
    "c97_submit_then_get_partial",
    "c97_secret_sent_refuted",
    "c97_public_copy_sent",
    "c97_no_key_on_error",
    "c97_leading_line_refuted"
   ],
   "note": "Proved: the URL that is asked, submit then get, no key on errors, the public copy reveals nothing secret. Refuted of the code: https is rewritten to http (only hkps stays encrypted); a secret key is uploaded with its secret packets, labelled PUBLIC KEY BLOCK; an answer with a line before the armor is a TypeError; a last directory without a slash is dropped. urllib.parse is modelled (Url.v), the requests library is a function from requests to answers."
  },
  {
   "property": "C98",
   "status": "partial",
   "theorems": [
    "c98_sign_read_verify_partial",
    "c98_chosen_hash",
    "c98_default_md5_refuted",
    "c98_unsupported_preference_refuted",
    "c98_locked",
    "c98_other_messages_refuted",
    "c98_accepted_only_if_valid_partial",
    "c98_text_substitution_refuted",
    "c98_binary_text_mode_refuted",
    "c98_stranger_verifies_partial",
    "c98_old_signature_refuted",
    "c98_not_signed",
    "c98_wrong_data_refuted"
   ],
   "note": "Proved under the conditions of C65 (full-size RSA integers, non-zero DSA components), for text and binary messages whose packets the format can hold. Refuted of the code: without preferences the hash is MD5; an unsupported first preference is an error even if a later one is supported; compressed, encrypted and already signed messages cannot be signed at all. c98_stranger_verifies_partial joins it to C69 and C71: the holder exports the public copy of the key armored, the reader reads that armor and the message (binary or armored) and verifies with the key read."
  },
  {
   "property": "C99",
   "status": "partial",
   "theorems": [
    "c99_command_partial",
    "c99_percent_refuted",
    "c99_never_shown_refuted",
    "c99_started"
   ],
   "note": "The command is exact when no value holds a percent sign and no %% is followed by an escape letter or a percent sign; refuted otherwise. The photo itself never reaches the viewer: TypeError with %i and %I, leaving the temporary file, and no input without (c99_never_shown_refuted). shlex.split is a parameter."
  },
  {
   "property": "C100",
   "status": "partial",
   "theorems": [
    "c100_status",
    "c100_faults",
    "c100_log_refuted",
    "c100_attribute_refuted",
    "c100_log_partial",
    "c100_attribute_partial",
    "c100_text_stdout_refuted"
   ],
   "note": "True for status lines. Refuted for log and attribute lines: their options take effect only where the status options are given, and lines are lost if only the status option is given; refuted for a text stream as standard output: every line is lost."
  },
  {
   "property": "C101",
   "status": "partial",
   "theorems": [
    "c101_binary",
    "c101_from_partial",
    "c101_from_refuted",
    "c101_text",
    "c101_encoding_refuted",
    "c101_stdin_refuted"
   ],
   "note": "Binary files and texts in a given encoding proved. The escape is exact if and only if no line after the first starts with From (c101_from_partial); the detected encoding is not used, and without file name an AttributeError is raised (refuted theorems). bytes.decode is a parameter."
  },
  {
   "property": "C102",
   "status": "partial",
   "theorems": [
    "c102_order",
    "c102_combination_iff",
    "c102_repeated_refuted",
    "c102_no_parser_refuted",
    "c102_program_refuted",
    "c102_nothing_done_refuted",
    "c102_success_refuted",
    "c102_multifile_refuted",
    "c102_parameters",
    "c102_usage_error_refuted",
    "c102_options_partial",
    "c102_module_partial",
    "c102_module_missing_refuted",
    "c102_mixed_refuted",
    "c102_multifile_combination_refuted"
   ],
   "note": "Proved: the choice of the class by the set of commands (c102_order, c102_combination_iff) and the parameters passed (c102_parameters). Refuted of the code: the parser cannot be built because --options is defined twice, so the program always ends with an ArgumentError; with any other parser single commands are looked up in the wrong package (ImportError), encrypt-and-sign exits with 0 without doing anything, --multifile commands are refused or raise, usage errors raise NameError. argparse itself is a parameter."
  },
  {
   "property": "C103",
   "status": "partial",
   "theorems": [
    "c103_arguments_partial",
    "c103_texts_lost_refuted",
    "c103_never_parsed_refuted"
   ],
   "note": "Octets are decoded in order with the encoding in force (c103_arguments_partial); texts, the only kind on Python 3, are dropped (c103_texts_lost_refuted), and parse_known_args never returns (c103_never_parsed_refuted)."
  },
  {
   "property": "C104",
   "status": "partial",
   "theorems": [
    "c104_never_signs_refuted",
    "c104_files_partial",
    "c104_no_key",
    "c104_output_emptied_refuted"
   ],
   "note": "Proved: no file but the output file changes, and nothing is written without a key (c104_files_partial, c104_no_key). Refuted: the commands never succeed, since the signed message is dropped; with a key and no compression, and for clearsign always, the output file is emptied before the failure."
  },
  {
   "property": "C105",
   "status": "partial",
   "theorems": [
    "c105_rsa_partial",
    "c105_elgamal_anybody_refuted",
    "c105_encrypt_only_refuted"
   ],
   "note": "Proved: the whole chain export, read, encrypt, write, read, decrypt for RSA (c105_rsa_partial) with the exact condition: it works if and only if the encrypted number needs as many octets as the modulus, otherwise it is a ValueError. Refuted of the code: an ElGamal message is readable with every secret exponent (c105_elgamal_anybody_refuted), RSA encrypt-only keys are refused (c105_encrypt_only_refuted). RSA arithmetic correctness is a hypothesis on the key pair (rsa_pair), met by an example."
  },
  {
   "property": "C106",
   "status": "partial",
   "theorems": [
    "c106_same_numbers",
    "c106_different_numbers",
    "c106_other_algorithms",
    "c106_public_copy",
    "c106_not_the_modulus_digest_refuted",
    "c106_missing_numbers_refuted"
   ],
   "note": "Same numbers, same keygrip and (up to SHA-1 collisions) conversely, for public copies and subkeys too. Refuted: it is not GnuPG's keygrip (SHA-1 of the octets of n) for any RSA key; missing numbers are hashed as the word None instead of being refused."
  },
  {
   "property": "C107",
   "status": "partial",
   "theorems": [
    "c107_key_partial",
    "c107_shown_once",
    "c107_constant",
    "c107_key_refuted",
    "c107_fixed_zone_partial",
    "c107_expired_partial",
    "c107_expired_refuted",
    "c107_order_refuted",
    "c107_future_refuted"
   ],
   "note": "Holds for keys whose creation times the local clock shows once (characterised for a clock set once), and verdicts hold in every zone with a constant offset, expiry whenever the offset is that of the signature's creation. Refuted: of two keys made when the clock showed the same time one changes its creation time and fingerprint, whatever mktime does; expiry is wrong for as long as the clock was set by; a signature made after its key is called older than it, or from the future, after the clock was set back."
  },
  {
   "property": "C108",
   "status": "partial",
   "theorems": [
    "c108_any_depth_partial"
   ],
   "note": "c108_any_depth_partial, by induction on the layers, under the conditions of C57, C63 and C79 for each layer (algorithms 0, 1, 2 for compression; integrity protection on; no layer of 4 GiB). The parts refuted in those properties (bzip2, unprotected data, another cipher in the specifier, foreign session keys in front) are the missing ones."
  },
  {
   "property": "C109",
   "status": "partial",
   "theorems": [
    "c109_signed_survives_partial",
    "c109_signed_in_layers_partial",
    "c109_exchange_partial"
   ],
   "note": "c109_exchange_partial joins C69/C71 (export and read), C98 (sign), C105 (encrypt and decrypt, RSA) under their conditions, in particular the session key's size (C58) and the signature's (C65). c109_signed_in_layers_partial: the same through any layers (C108). c109_signed_survives_partial: signed messages survive being written and read, which is what the layers need."
  },
  {
   "property": "C110",
   "status": "proved",
   "theorems": [
    "c110_content",
    "c110_content_all",
    "c110_octets",
    "c110_octets_all",
    "c110_stream",
    "c110_stream_all",
    "c110_armor",
    "c110_armor_all",
    "c110_message",
    "c110_key",
    "c110_shortcuts_all"
   ],
   "note": "exact sets, both directions, per packet type and for whole inputs; exceptions of the interpreter itself (recursion depth, memory) are outside the model"
  },
  {
   "property": "C111",
   "status": "partial",
   "theorems": [
    "c111_prefixes",
    "c111_bound_partial",
    "c111_edit_partial",
    "c111_unhashed_edit_refuted",
    "c111_kind_refuted",
    "c111_more_integers_refuted"
   ],
   "note": "Proved for RSA keys when each signature type fits the kind of object it is checked against (c111_bound_partial, c111_edit_partial). Refuted: verify() ignores the signature type, so a document signature passes as a certification (c111_kind_refuted); attributes in the unhashed area are read like the others but can be changed freely (c111_unhashed_edit_refuted); surplus integers are ignored. Missing: DSA, whose equation does not determine the digest."
  },
  {
   "property": "C112",
   "status": "partial",
   "theorems": [
    "c112_reference_counts",
    "c112_primary",
    "c112_answers",
    "c112_own_parts",
    "c112_read_kept",
    "c112_as_read_works",
    "c112_part_alone_refuted",
    "c112_shared_lists_refuted",
    "c112_public_copy_refuted",
    "c112_answer_means",
    "c112_subkey_alone_refuted",
    "c112_up"
   ],
   "note": "Proved for all histories: exactly when a part finds its key (c112_primary), that a held key as read works (c112_as_read_works, c112_own_parts, c112_read_kept), that every signature has one answer (c112_answers), and that counting references frees exactly what no variable leads to (c112_reference_counts). Refuted: a part does not keep its key (c112_part_alone_refuted); read().to_public_key() gives, for every key, a public key whose parts have no primary key and whose signatures all raise AttributeError (c112_public_copy_refuted); the copy shares its lists with the secret key (c112_shared_lists_refuted)."
  },
  {
   "property": "C113",
   "status": "partial",
   "theorems": [
    "c113_accepted",
    "c113_reports_partial",
    "c113_times",
    "c113_no_creation_time_refuted",
    "c113_issuers",
    "c113_notations_partial",
    "c113_binary_notation_refuted",
    "c113_regexes",
    "c113_regex_written_refuted",
    "c113_last_refuted",
    "c113_trust_refuted",
    "c113_revocable_refuted",
    "c113_half_refuted"
   ],
   "note": "Proved from the octets to the attributes: exact acceptance, 18 attributes, times, issuers, notations, regular expressions. Refuted: the RFC prefers the last of several subpackets (the first is reported); trust depth, trust amount raise AttributeError; revocable repeats exportable; the revocation reason is None; binary notations are reported as human readable; half of a target digest or recipient fingerprint is read; regular expressions are written without their final zero."
  },
  {
   "property": "C114",
   "status": "partial",
   "theorems": [
    "c114_size_partial",
    "c114_size_refuted",
    "c114_version3_key_id",
    "c114_expiration_set_partial",
    "c114_expiration_read_refuted",
    "c114_expiration_set_refuted"
   ],
   "note": "Proved: the size when the number is not a power of two and the floating point logarithm has the right ceiling; key ids below version 4; setting then getting. Refuted: powers of two are one bit short, 0 raises ValueError; a version 2 or 3 key does not report the expiration its packet carries; an assigned expiration is refused (version 4, AttributeError) or makes the key unexportable (TypeError). c39_version3_key_refuted says that a version 3 key cannot be written at all, c37_v3_refuted that it has no fingerprint."
  },
  {
   "property": "C115",
   "status": "partial",
   "theorems": [
    "c115_parts",
    "c115_user_id_text",
    "c115_key_id",
    "c115_reports_partial",
    "c115_unsaid",
    "c115_expiration_refuted"
   ],
   "note": "c115_parts: the parts and signatures of a certificate's octets, whatever the header forms; c115_user_id_text, c115_key_id: user id texts, and the key id of a version 4 key object as the last eight octets of the fingerprint of the octets it was read from; c115_reports_partial: each of thirteen attributes of each part is what the governing self-signature's octets say; c115_unsaid: the default otherwise; c115_expiration_refuted: a key expiration in the only signature of a part is not reported. Missing from partial: attributes that read a different flag (C40), expiration_time in general, keys whose numbers are not canonically written, signatures without a creation time, which make every attribute fail (c113_no_creation_time_refuted)"
  },
  {
   "property": "C116",
   "status": "partial",
   "theorems": [
    "c116_other_modes",
    "c116_in_step",
    "c116_register",
    "c116_whole_blocks",
    "c116_odd_call",
    "c116_resync_refuted"
   ],
   "note": "c116_in_step (every mode, every history), c116_other_modes, c116_register (exactly what the register is after calls and a resynchronisation), c116_whole_blocks, c116_odd_call; the intended effect is false: c116_resync_refuted"
  },
  {
   "property": "C117",
   "status": "partial",
   "theorems": [
    "c117_octets_partial",
    "c117_not_positive",
    "c117_octets_refuted",
    "c117_byte"
   ],
   "note": "c117_octets_partial assumes floor(log(i, 2)) is exact at i; c117_octets_refuted says what is written whatever the logarithm says; c117_not_positive, c117_byte"
  },
  {
   "property": "C118",
   "status": "partial",
   "theorems": [
    "c118_fields",
    "c118_valid_iff_partial",
    "c118_altered_refuted",
    "c118_message_read",
    "c118_signed_message_partial"
   ],
   "note": "c118_valid_iff_partial, c118_signed_message_partial: hashed subpackets must be kept ones (C33) in their shortest length form, text in the document has canonical line ends, an RSA integer has the full size for acceptance (C65), algorithm 20 is excluded; c118_altered_refuted: with a subpacket that is not kept the valid signature is refused unless digests coincide; c118_message_read, c118_fields without such limits"
  },
  {
   "property": "C119",
   "status": "partial",
   "theorems": [
    "c119_unlock_partial",
    "c119_certificate_partial",
    "c119_other_passphrase",
    "c119_sign_partial",
    "c119_stops",
    "c119_checksum_refuted",
    "c119_longer_passphrase_refuted",
    "c119_twofish_refuted"
   ],
   "note": "c119_unlock_partial, c119_certificate_partial: an iterated count must cover salt and passphrase (C22: the code handles others differently), usage 254 only; c119_checksum_refuted: with usage 255 no passphrase opens the key, whatever follows the IV (usage 0: C26); c119_twofish_refuted: a Twofish key refuses its own passphrase; c119_sign_partial under the conditions of C65; c119_other_passphrase for passphrases that the count covers; c119_longer_passphrase_refuted: when the right passphrase fills the iterated count, every continuation of it opens the key too"
  },
  {
   "property": "C120",
   "status": "partial",
   "theorems": [
    "c120_offline_read",
    "c120_card_read_partial",
    "c120_card_odd_refuted",
    "c120_card_serial_refuted",
    "c120_never_opens",
    "c120_never_signs",
    "c120_subkeys_refuted"
   ],
   "note": "c120_offline_read, c120_never_opens, c120_never_signs hold as stated; c120_card_read_partial (an even number of serial octets; half of them told); refuted: c120_card_serial_refuted, c120_card_odd_refuted, c120_subkeys_refuted; writing such a packet always fails (C26: c26_gnupg_refuted)"
  },
  {
   "property": "C121",
   "status": "partial",
   "theorems": [
    "c121_rsa_partial",
    "c121_elgamal_partial",
    "c121_passphrase_partial",
    "c121_longer_passphrase_refuted",
    "c121_order_refuted",
    "c121_locked",
    "c121_unlocked_partial"
   ],
   "note": "c121_rsa_partial (iff the integer fills the modulus, else ValueError), c121_elgamal_partial, c121_passphrase_partial (its packet first; the session key no longer than the passphrase cipher's own; the count at least as long as salt and passphrase, and no cipher numbered 10, as in C23), c121_locked holds as stated, c121_unlocked_partial (together with C119: from the octets of the protected key and the passphrase); refuted: c121_order_refuted. Messages in the old packet without integrity protection (tag 9) never open: c43_unprotected_decrypt_refuted; c121_longer_passphrase_refuted: likewise for a message"
  },
  {
   "property": "C122",
   "status": "partial",
   "theorems": [
    "c122_equal",
    "c122_equivalence",
    "c122_version_3_refuted",
    "c122_other_class_refuted",
    "c122_unknown_refuted",
    "c122_notations",
    "c122_revocation_key_refuted"
   ],
   "note": "c122_equal (version 4 with subpackets that can be written), c122_equivalence, c122_notations hold as stated; refuted: c122_version_3_refuted, c122_other_class_refuted, c122_unknown_refuted, c122_revocation_key_refuted"
  }
 ]
}