{"C01": ["proved", ""], "C02": ["proved", "Proved for every logarithm that does not undershoot; c02_mpi_exact gives the exact value for any logarithm; the _refuted theorems show the two ways the code violates the property (undershooting float log, more than 65535 bits)."], "C03": ["partial", "Canonical when the floating-point log2 is exact; refuted when it rounds up (doubles do at 2^48-1)."], "C04": ["proved", ""], "C05": ["proved", ""], "C06": ["proved", ""], "C07": ["proved", ""], "C08": ["proved", "Bodies under 2^24 (old) / 2^32 (new). Indeterminate lengths and old-format types above 15 are characterised separately."], "C09": ["partial", "Holds for old format; refuted for every new-format empty packet."], "C10": ["proved", ""], "C11": ["proved", ""], "C12": ["partial", "Exact behaviour on every cut is proved; the property itself is refuted: a cut in the body is accepted."], "C13": ["proved", "Definite lengths; the indeterminate-length disagreement is exhibited."], "C14": ["partial", "Proved for the buffer parser; refuted for the stream parser."], "C15": ["partial", "Terminates except for new-format data packets above 4294967295 octets, where divergence is proved."], "C16": ["proved", ""], "C17": ["proved", ""], "C18": ["proved", "Round trip for every armor the format can express (c18_armor_round_trip); the _refuted theorems show the inputs outside it (a part total without a part, line breaks in header values)."], "C19": ["proved", "Exact characterisation of accepted texts plus rejection theorems."], "C20": ["partial", "The code violates the property: parsed extra headers are dropped, writing them raises. Proved as refutations."], "C21": ["proved", "Simple, salted and iterated specifiers; the GnuPG extension cannot be written (refuted)."], "C22": ["partial", "RFC key whenever the count covers salt and passphrase; refuted otherwise (passphrase is cut)."], "C23": ["partial", "Exactly the table's length always; the table itself is wrong for Twofish (refuted)."], "C45": ["proved", "For every block cipher E/D and counter; independent splits on both sides; modes shown equal to SP 800-38A."], "C46": ["proved", "Includes functional correctness against the published cipher."], "C24": ["partial", "Round trip, acceptance and rejection proved for all blocks of 3 or more octets; refuted at the block 00 00, accepted with an empty key."], "C28": ["partial", "Proved for packets with a key id and for passphrase packets within their key length, with or without an encrypted key; refuted for the wildcard key id, for encrypted keys longer than the wrapping key plus one octet, and for GnuPG specifiers, which cannot be written."], "C29": ["partial", "Refuted: only half of the key id is kept; exact behaviour proved."], "C58": ["partial", "Recovered exactly when the ciphertext has no leading zero octet; refuted otherwise. RSA is an abstract permutation pair."], "C59": ["partial", "Refuted for every ElGamal key: the code encrypts with ephemeral exponent 0, so the packet holds the padded session key in clear."], "C60": ["proved", "For every block cipher with whole-block output; Plaintext (0) cipher excluded."], "C25": ["partial", "Parsing and reserialising proved for every RFC 4880 body; refuted where MPIs are not canonical (they are normalised) and trailing octets are dropped"], "C26": ["partial", "Proved for S2K-protected (usage 254/255) packets; usage 0/101 and bare cipher numbers never parse, and GnuPG specifiers parse but can never be written (refuted theorems)"], "C27": ["partial", "Decryption of RFC material proved exact for SHA-1 usage, including which attribute each value is put in (c27_packet_decrypts); refuted: checksum usage, the code's own encryption, and versions 2 and 3, whose material can be neither decrypted nor encrypted (the cipher objects have no sync)."], "C37": ["partial", "Version 4 fingerprint and key id proved; version 2/3 fingerprints refuted"], "C30": ["partial", "Exact characterisation of the data-bearing packets that survive re-serialisation; literal data is never rewritten; non-UTF-8 user ids and long trust packets do change (refuted)"], "C31": ["partial", "RFC v4 bodies parse to their fields and representable signatures round-trip, embedded ones included; signatures holding a regex, revocation key, target or additional-recipient subpacket cannot be written (refuted)"], "C32": ["partial", "All fields but the key id are read; the key id is cut to four octets and no v2/v3 signature can be written (refuted)"], "C33": ["partial", "Exact characterisation of the contents that survive, by type; the others are refuted"], "C34": ["partial", "Every RFC area is read to its list and consumed exactly. c34_written_area, c34_any_list: any list of subpacket objects that is written (types below 128) is an RFC area, consumed exactly when read, with the type and critical bit of each, and refused only when a class does not read what it wrote; the list itself comes back for the classes of c34_round_trip_partial, and c34_any_list_refuted names what does not"], "C35": ["partial", "RFC images and lists of attributes round-trip; exact characterisation of surviving contents; truncated headers and unknown attributes are altered (refuted)"], "C43": ["partial", "Integrity-protected data is proved to be RFC 4880 5.13 and to decrypt to the packets that went in, for every cipher, key, prefix and message; refuted without integrity protection (encrypting always raises ValueError, decrypting never yields a message)."], "C44": ["proved", "Acceptance characterised exactly; every accepted ciphertext carries a matching MDC packet as its last packet; wrong digest, missing MDC and short data rejected."], "C47": ["partial", "Exact characterisation of the accepted packet lists. Refuted parts: signature before message, trailing packets ignored, one-pass packets and signatures not paired, one-pass order and nested flags reversed, v3 signatures unwritable. A signed message with one-pass packets survives octets and armor (c47_signed_octets_partial)."], "C48": ["partial", "Holds exactly for texts that are already canonical (proved as an equivalence); otherwise refuted: the octet before a bare LF is lost, not idempotent."], "C61": ["partial", "Proved for every packet class; literal dates come back as integers, one-pass packets with the first half of their key id (C29). Refuted: packets with empty content (C09) and with GnuPG specifiers (c61_gnupg_refuted)."], "C62": ["partial", "As C61, through armor."], "C63": ["partial", "Proved with integrity protection for every message that survives being written and read (literal and compressed: plain_survives; signed: C109; compressed or encrypted again: C108), in memory and through packets, when the specifier uses the data's cipher; refuted when it uses another. c63_through_armor_partial: the same through read_message, from octets or any armor of them."], "C36": ["partial", "Equal hashed octets imply the same version, type, algorithms, hashed area (v4) or type and time (v3) and the same item, for items of the same kind and key bodies within the two-octet length; refuted: v3 does not bind the algorithms, v3 does not separate user IDs from attributes, keys over 65535 octets collide."], "C42": ["partial", "Proved for every program over lock/unlock/sign/decrypt/with/try; refuted: a half failed unlock leaves the primary open, short material leaves values behind, the public copy of an unlocked RSA key keeps p. Missing: the object's attributes beyond the secret values."], "C51": ["partial", "verify() answers True only for a mathematically valid signature (PKCS#1 v1.5 RSA, DSA) over the right octets by a listed issuer, and accepts every such one of full size; ElGamal verification is an oracle. The hash, PyCrypto primitives are parameters with their documented behaviour."], "C64": ["partial", "Refuted: a signature over a signature writes a one-octet length; a secret subkey hashes the primary key twice."], "C65": ["partial", "Proved for key pairs satisfying the RSA/DSA equations, full-size RSA signatures; refuted: short RSA signatures are refused, octets and text cannot be signed, version 3 unusable."], "C55": ["partial", "Proved for every string within the recursion limit (modelled by two depth bounds): the parser ends, stays within the string, advances; parse_user_id fails only with an IndexError when no address is found. Refuted: the empty string raises IndexError; deeply nested parentheses raise RuntimeError."], "C56": ["partial", "Listing parser: every text is a listing or a ValueError; entries, user ids in order, round trip of a written listing. Refuted: blank dates fail, an empty listing. int()/unquote/datetime are parameters."], "C57": ["partial", "zlib/bz2 objects are parameters with their documented contract. Proved for deflate and ZLIB decompression and single-piece ZLIB; refuted: bzip2 messages cannot be read, pieces after the first are lost when ZLIB-compressing in pieces. c57_message_round_trip_partial holds of every message that survives being written and read."], "C66": ["partial", "Proved for names without comment and bare addresses; with a comment the address and the comment are exact but the name always keeps an empty pair of parentheses (refuted)."], "C50": ["partial", "Attributes with a subpacket of their own and the key flags: assignment succeeds, reads back, survives the packet, other attributes unchanged; issuer key ids: clearing and assigning characterised for every enumeration order of the set; expiration time. Refuted parts: one flag assigned on a signature without flags grants all others; revocable is exportable; trust amount/depth and revocation reason/code; None does not clear; issuer key ids are never replaced; creation time cannot be assigned. Notations, regular expressions and embedded signatures: clearing and assigning characterised for every enumeration of the set, nothing else changes; refuted: they are never replaced, a critical notation blocks reading and assigning, a critical embedded signature cannot be cleared, revocation keys can never be assigned. Key expiration: read back to the second; refuted below one second (stored as never). c50_revocation_keys_read, c50_notations_read and c50_embedded_read fix which subpackets each list reads."], "C40": ["partial", "The governing self-signature is the last of its kind in the list (proved for every list); it is the latest when the list is in order of time, refuted otherwise; with a version 3 signature no attribute can be read (refuted); the key expiration of a single self-signature is never reported (refuted)."], "C41": ["partial", "Proved for certify, sign, encrypt-communications, split and multiple-owners, for every combination of flags, and for assignment; refuted for storage, authentication and modification detection, which report other flags."], "C49": ["partial", "Chronology checks proved in both directions; key expiration and self-revocation reported. Refuted: the signature's own expiration is not checked, revocations are skipped for non-exportable signatures, designated revokers are not recognised, a key expiration of 0 cannot be compared. check_signature itself (which passes current_time twice) is in C86."], "C67": ["partial", "Exactly the unexpired self-issued revocations, by their claims; refuted: the signature values and the recorded validity are never consulted."], "C38": ["partial", "The accepted language is characterised exactly (c38_accepts_iff). It is not RFC 4880 11.1: every RFC list without subkey revocations is accepted (c38_rfc_partial), lists with a 0x28 signature are always refused, a key without user id is accepted, and a trailing subkey raises IndexError."], "C39": ["partial", "Identity for accepted lists of version 4 keys and signatures, user ids and JPEG attributes without trust packets; after the first trust packet everything is lost, version 3 keys lose their lifetime, version 3 signatures cannot be written, other attributes are changed or refused (refuted theorems)."], "C53": ["partial", "Every history of operations is characterised exactly as operations on a list of keys (c53_history). It is a map only for histories that add new keys and change the last key of the file, with distinct short ids (c53_map_partial); otherwise deleting or replacing a key loses all keys after it, adding twice is not refused, keys with equal last 8 digits alias, and version 3 keys make the file unreadable (refuted theorems). c53_key_survives_partial and c53_keys_survive_partial say it for the library's own key objects: a key read from packets can be added, is found again under its fingerprint as the same key (in the header format of the ring), and the others are left alone."], "C54": ["partial", "No operation ever changes a secret keyring (c54_secret_rings_untouched); secret keys are written to the first public keyring instead, or dropped silently if there is none (refuted theorems)."], "C68": ["partial", "Existing keyrings open (c68_open_partial); missing ones are never created, empty files are taken for databases, and the gnupg-keyring: prefix opens another file (refuted theorems)."], "C52": ["partial", "Only keys that are not versions of each other are left alone (c52_other_key_partial). Merging two versions of a key loses every user id, attribute, subkey and signature, a second version with a direct signature is refused with TypeError, and a merged key cannot be merged again (refuted theorems)."], "C69": ["partial", "Holds for keys read from packets that keep everything (C39) and whose packets can be written with the chosen header format. With the default (old) header format a key with a user attribute is written but can never be read again, and empty data is an IndexError (refuted / c69_other_data)."], "C70": ["partial", "Public keys are labelled correctly; every secret key is labelled PUBLIC KEY BLOCK, because TransferableSecretKey is a subclass of TransferablePublicKey (c70_secret_label_refuted)."], "C71": ["partial", "For keys read from packets that keep everything (C39); the contents of secret packets are not modelled past the octets they hold and the prime_p attribute."], "C72": ["partial", "Text with the dashes first and binary octets are read as stated; octets of an armor that does not start with the dashes, and binary data given as text, are TypeErrors (refuted theorems). c72_armor_transparent: any armor of any octets is read exactly like the octets; c72_written_not_armor: no written message is mistaken for armor."], "C73": ["partial", "Proved for every schedule in which each Lock object is used by one thread, without nesting, and no process that uses the keyring ends or crashes. Threads that share an object, nested use (as in add_transferrable_key through get_resource), and the end of any process that has Lock objects break the exclusion (refuted theorems)."], "C74": ["partial", "A free lock is acquired and the holder's release frees it, from every reachable state, when the call is not disturbed; the only exceptions are listed. acquire never waits, whatever the timeout, and leaves the object's reentrant lock taken when it fails (refuted theorem)."], "C75": ["partial", "Refuted: after a crash of the holder no acquire ever succeeds again."], "C76": ["partial", "For interleaved additions nothing is lost, and each resource still finds the keys it knows. With deletions by others a resource with an old offset table returns and deletes a different key (refuted theorem). Each operation is one step."], "C77": ["partial", "Holds for crashes before the file is opened for writing and after the last octet. In between: an empty file that cannot be opened, a key without its last packets, a packet cut short (refuted theorems). Written octets reach the file in order."], "C78": ["partial", "For texts whose backslashes are followed by a character other than a newline or a closing bracket: everything accepted is in the grammar, and every expression that does not repeat a range with a vertical bar in it is accepted. Refuted: such a repetition raises AttributeError; a trailing backslash is accepted; a backslash before the closing bracket of a range is rejected. The limit on the depth of Python's recursion is not modelled."], "C79": ["partial", "c79_every_recipient_partial: true of every message that survives being written and read (literal, compressed, signed, already encrypted: C108, C109) if the session keys before the recipient's own fail with ValueError (the RSA case: C58) or are recovered too; public-key decryption is a parameter, integrity protection on. Refuted: hidden recipients are named by key id (c79_hidden_recipient_named_refuted), a passphrase session key in front (c79_mixed_session_keys_refuted) or an earlier one failing with another exception (c79_other_exception_stops_refuted) keeps the recipient out. c79_through_armor_partial: the same through read_message, from octets or any armor of them."], "C80": ["partial", "True for public keys, user ids and user attributes. Refuted for secret key packets, which contribute their secret part (c80_secret_key_octets_refuted), and for signature packets: AttributeError from version 4 on (c80_signature_octets_refuted), type and time instead of the body before (c80_v3_signature_octets_refuted)."], "C81": ["proved", "The statement is proved in full; in addition the differences from RFC 4880 11.1 are proved: certification revocations (0x30) are never accepted, two binding signatures are rejected, keys without a user id are accepted. pgpdump's packet objects are represented by the attributes read."], "C82": ["partial", "Fault-free behaviour, first failure and skip_to_next_key proved. Refuted: a read error with no key after it drops the unfinished key without any exception; with a key after it that key's first packet is duplicated so it is always InvalidKeyPacketOrder; with the default builder nothing is ever yielded. The text written to the error stream is not modelled; a StopIteration in a generator is taken to end it."], "C83": ["partial", "Injectivity and order proved. Refuted: hash_key_data always raises TypeError on Python 3."], "C84": ["proved", "UTF-8, base64 and pgpdump's packet objects are given; the hash2 text of the dictionary is left out."], "C85": ["proved", "libmagic is a parameter. What is reported after the first of several subpackets is not specified (it is misread)."], "C86": ["proved", "What the code does is proved as stated, including the deviations (the marks do not say what the signatures are worth). Digest computation is an abstract outcome per signature here (its content is C40-C43)."], "C87": ["proved", "The terminal itself (getpass.getpass, echo) is outside the model: typed lines are a list."], "C88": ["partial", "urllib.parse quote/unquote are modelled; socket.send is taken to send everything; connection set-up not modelled."], "C89": ["partial", "Proved for resources that are keyring files whose keys load; str.lower and the key constructor are parameters."], "C90": ["proved", "Every sentence of the statement, including the deviations (the _refuted theorems), is proved."], "C91": ["proved", "Every sentence of the statement, including the deviations (the _refuted theorems), is proved. The trust check and the keyring lookup are parameters; the constructor of encrypt.Command itself always fails (not modelled), so the choice is that of its run method. c91_group_members: a group holds the members of every definition of it, earlier ones first."], "C92": ["proved", "Every sentence of the statement is proved. Output to a binary file that accepts all that is written; reads give full chunks until the end."], "C93": ["partial", "Proved for names that are empty, words separated by single spaces, or ASCII texts with a special character; addresses local@domain; comments without parentheses, backslash and CR. Refuted: a comment occurring in the name removes it there; a non-ASCII name is read back as the MIME encoded word; on the usual layout Name (comment) <address> a new address also writes empty parentheses into the name. email.utils.formataddr is modelled from CPython's source; header_encode is a parameter."], "C94": ["proved", "The magic module is a parameter. The wish that every attribute survives is refuted for private formats other than 101, for unknown attribute types (AttributeError) and for unrecognised images (TypeError)."], "C95": ["proved", "c95_same: for all but signatures, one-pass signatures and unknown types, == is identity of all fields. c95_signature: exact meaning for version 4. c95_equivalence: total, reflexive, symmetric, transitive on comparable packets. c95_kinds, c95_one_pass, c95_version_3; the exceptions are c95_order_refuted, c95_version_3_refuted, c95_content_refuted."], "C96": ["proved", "c96_passes (exact), c96_missing, c96_present_refuted (a correct back signature is never accepted: the property target is called)."], "C97": ["partial", "Proved: the URL that is asked, submit then get, no key on errors, the public copy reveals nothing secret. Refuted of the code: https is rewritten to http (only hkps stays encrypted); a secret key is uploaded with its secret packets, labelled PUBLIC KEY BLOCK; an answer with a line before the armor is a TypeError; a last directory without a slash is dropped. urllib.parse is modelled (Url.v), the requests library is a function from requests to answers."], "C98": ["partial", "Proved under the conditions of C65 (full-size RSA integers, non-zero DSA components), for text and binary messages whose packets the format can hold. Refuted of the code: without preferences the hash is MD5; an unsupported first preference is an error even if a later one is supported; compressed, encrypted and already signed messages cannot be signed at all. c98_stranger_verifies_partial joins it to C69 and C71: the holder exports the public copy of the key armored, the reader reads that armor and the message (binary or armored) and verifies with the key read."], "C99": ["partial", "The command is exact when no value holds a percent sign and no %% is followed by an escape letter or a percent sign; refuted otherwise. The photo itself never reaches the viewer: TypeError with %i and %I, leaving the temporary file, and no input without (c99_never_shown_refuted). shlex.split is a parameter."], "C100": ["partial", "True for status lines. Refuted for log and attribute lines: their options take effect only where the status options are given, and lines are lost if only the status option is given; refuted for a text stream as standard output: every line is lost."], "C101": ["partial", "Binary files and texts in a given encoding proved. The escape is exact if and only if no line after the first starts with From (c101_from_partial); the detected encoding is not used, and without file name an AttributeError is raised (refuted theorems). bytes.decode is a parameter."], "C102": ["partial", "Proved: the choice of the class by the set of commands (c102_order, c102_combination_iff) and the parameters passed (c102_parameters). Refuted of the code: the parser cannot be built because --options is defined twice, so the program always ends with an ArgumentError; with any other parser single commands are looked up in the wrong package (ImportError), encrypt-and-sign exits with 0 without doing anything, --multifile commands are refused or raise, usage errors raise NameError. argparse itself is a parameter."], "C103": ["partial", "Octets are decoded in order with the encoding in force (c103_arguments_partial); texts, the only kind on Python 3, are dropped (c103_texts_lost_refuted), and parse_known_args never returns (c103_never_parsed_refuted)."], "C104": ["partial", "Proved: no file but the output file changes, and nothing is written without a key (c104_files_partial, c104_no_key). Refuted: the commands never succeed, since the signed message is dropped; with a key and no compression, and for clearsign always, the output file is emptied before the failure."], "C105": ["partial", "Proved: the whole chain export, read, encrypt, write, read, decrypt for RSA (c105_rsa_partial) with the exact condition: it works if and only if the encrypted number needs as many octets as the modulus, otherwise it is a ValueError. Refuted of the code: an ElGamal message is readable with every secret exponent (c105_elgamal_anybody_refuted), RSA encrypt-only keys are refused (c105_encrypt_only_refuted). RSA arithmetic correctness is a hypothesis on the key pair (rsa_pair), met by an example."], "C106": ["partial", "Same numbers, same keygrip and (up to SHA-1 collisions) conversely, for public copies and subkeys too. Refuted: it is not GnuPG's keygrip (SHA-1 of the octets of n) for any RSA key; missing numbers are hashed as the word None instead of being refused."], "C107": ["partial", "Holds for keys whose creation times the local clock shows once (characterised for a clock set once), and verdicts hold in every zone with a constant offset, expiry whenever the offset is that of the signature's creation. Refuted: of two keys made when the clock showed the same time one changes its creation time and fingerprint, whatever mktime does; expiry is wrong for as long as the clock was set by; a signature made after its key is called older than it, or from the future, after the clock was set back."], "C108": ["partial", "c108_any_depth_partial, by induction on the layers, under the conditions of C57, C63 and C79 for each layer (algorithms 0, 1, 2 for compression; integrity protection on; no layer of 4 GiB). The parts refuted in those properties (bzip2, unprotected data, another cipher in the specifier, foreign session keys in front) are the missing ones."], "C109": ["partial", "c109_exchange_partial joins C69/C71 (export and read), C98 (sign), C105 (encrypt and decrypt, RSA) under their conditions, in particular the session key's size (C58) and the signature's (C65). c109_signed_in_layers_partial: the same through any layers (C108). c109_signed_survives_partial: signed messages survive being written and read, which is what the layers need."], "C110": ["proved", "exact sets, both directions, per packet type and for whole inputs; exceptions of the interpreter itself (recursion depth, memory) are outside the model"], "C111": ["partial", "Proved for RSA keys when each signature type fits the kind of object it is checked against (c111_bound_partial, c111_edit_partial). Refuted: verify() ignores the signature type, so a document signature passes as a certification (c111_kind_refuted); attributes in the unhashed area are read like the others but can be changed freely (c111_unhashed_edit_refuted); surplus integers are ignored. Missing: DSA, whose equation does not determine the digest."], "C112": ["partial", "Proved for all histories: exactly when a part finds its key (c112_primary), that a held key as read works (c112_as_read_works, c112_own_parts, c112_read_kept), that every signature has one answer (c112_answers), and that counting references frees exactly what no variable leads to (c112_reference_counts). Refuted: a part does not keep its key (c112_part_alone_refuted); read().to_public_key() gives, for every key, a public key whose parts have no primary key and whose signatures all raise AttributeError (c112_public_copy_refuted); the copy shares its lists with the secret key (c112_shared_lists_refuted)."], "C113": ["partial", "Proved from the octets to the attributes: exact acceptance, 18 attributes, times, issuers, notations, regular expressions. Refuted: the RFC prefers the last of several subpackets (the first is reported); trust depth, trust amount raise AttributeError; revocable repeats exportable; the revocation reason is None; binary notations are reported as human readable; half of a target digest or recipient fingerprint is read; regular expressions are written without their final zero."], "C114": ["partial", "Proved: the size when the number is not a power of two and the floating point logarithm has the right ceiling; key ids below version 4; setting then getting. Refuted: powers of two are one bit short, 0 raises ValueError; a version 2 or 3 key does not report the expiration its packet carries; an assigned expiration is refused (version 4, AttributeError) or makes the key unexportable (TypeError). c39_version3_key_refuted says that a version 3 key cannot be written at all, c37_v3_refuted that it has no fingerprint."], "C115": ["partial", "c115_parts: the parts and signatures of a certificate's octets, whatever the header forms; c115_user_id_text, c115_key_id: user id texts, and the key id of a version 4 key object as the last eight octets of the fingerprint of the octets it was read from; c115_reports_partial: each of thirteen attributes of each part is what the governing self-signature's octets say; c115_unsaid: the default otherwise; c115_expiration_refuted: a key expiration in the only signature of a part is not reported. Missing from partial: attributes that read a different flag (C40), expiration_time in general, keys whose numbers are not canonically written, signatures without a creation time, which make every attribute fail (c113_no_creation_time_refuted)"], "C116": ["partial", "c116_in_step (every mode, every history), c116_other_modes, c116_register (exactly what the register is after calls and a resynchronisation), c116_whole_blocks, c116_odd_call; the intended effect is false: c116_resync_refuted"], "C117": ["partial", "c117_octets_partial assumes floor(log(i, 2)) is exact at i; c117_octets_refuted says what is written whatever the logarithm says; c117_not_positive, c117_byte"], "C118": ["partial", "c118_valid_iff_partial, c118_signed_message_partial: hashed subpackets must be kept ones (C33) in their shortest length form, text in the document has canonical line ends, an RSA integer has the full size for acceptance (C65), algorithm 20 is excluded; c118_altered_refuted: with a subpacket that is not kept the valid signature is refused unless digests coincide; c118_message_read, c118_fields without such limits"], "C119": ["partial", "c119_unlock_partial, c119_certificate_partial: an iterated count must cover salt and passphrase (C22: the code handles others differently), usage 254 only; c119_checksum_refuted: with usage 255 no passphrase opens the key, whatever follows the IV (usage 0: C26); c119_twofish_refuted: a Twofish key refuses its own passphrase; c119_sign_partial under the conditions of C65; c119_other_passphrase for passphrases that the count covers; c119_longer_passphrase_refuted: when the right passphrase fills the iterated count, every continuation of it opens the key too"], "C120": ["partial", "c120_offline_read, c120_never_opens, c120_never_signs hold as stated; c120_card_read_partial (an even number of serial octets; half of them told); refuted: c120_card_serial_refuted, c120_card_odd_refuted, c120_subkeys_refuted; writing such a packet always fails (C26: c26_gnupg_refuted)"], "C121": ["partial", "c121_rsa_partial (iff the integer fills the modulus, else ValueError), c121_elgamal_partial, c121_passphrase_partial (its packet first; the session key no longer than the passphrase cipher's own; the count at least as long as salt and passphrase, and no cipher numbered 10, as in C23), c121_locked holds as stated, c121_unlocked_partial (together with C119: from the octets of the protected key and the passphrase); refuted: c121_order_refuted. Messages in the old packet without integrity protection (tag 9) never open: c43_unprotected_decrypt_refuted; c121_longer_passphrase_refuted: likewise for a message"], "C122": ["partial", "c122_equal (version 4 with subpackets that can be written), c122_equivalence, c122_notations hold as stated; refuted: c122_version_3_refuted, c122_other_class_refuted, c122_unknown_refuted, c122_revocation_key_refuted"]}