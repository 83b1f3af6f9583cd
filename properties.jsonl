{"id": "C01", "title": "Fixed-width integers survive encoding", "statement": "Encoding a non-negative integer with int_to_2byte / int_to_4byte / int_to_8byte gives exactly 2 / 4 / 8 octets, and reading the same width with bytes_to_int at the place they were written (at any offset of any buffer) gives back the integer when it fits the width, and the integer reduced modulo 2^(8*width) when it does not.", "quantifier": "every non-negative integer, every prefix and suffix around the encoded octets", "why_tests_cant": "the integers and surrounding buffers are unbounded; tests sample a handful of values", "anchors": ["pgp/utils.py:bytes_to_int", "pgp/utils.py:int_to_2byte", "pgp/utils.py:int_to_4byte", "pgp/utils.py:int_to_8byte"]}
{"id": "C02", "title": "MPIs survive encoding", "statement": "mpi_to_int applied where int_to_mpi(i) was written returns i and the offset just after it, for every i of at most 65535 bits, whatever precedes or follows it in the buffer; int_to_mpi rejects negative integers.", "quantifier": "every non-negative integer up to 65535 bits, every surrounding buffer, every result the platform's floating-point log2 may return", "why_tests_cant": "big integers are unbounded in practice and the implementation goes through floating point, which is wrong only on sparse inputs", "anchors": ["pgp/utils.py:int_to_mpi", "pgp/utils.py:mpi_to_int", "pgp/utils.py:mpi_length"]}
{"id": "C03", "title": "MPI encodings are canonical", "statement": "The two-octet length written by int_to_mpi is the exact bit length of the integer and the first value octet is non-zero (RFC 4880 3.2), so two different encodings of one integer are never produced.", "quantifier": "every positive integer up to 65535 bits", "why_tests_cant": "the failure needs integers within 2^-48 of a power of two, which random tests never draw", "anchors": ["pgp/utils.py:int_to_mpi", "pgp/utils.py:int_to_bytes"]}
{"id": "C04", "title": "S2K iteration counts survive encoding", "statement": "For every octet c, int_to_s2k_count(s2k_count_to_int(c)) is c; int_to_s2k_count accepts exactly the 256 representable counts and raises ValueError on every other integer.", "quantifier": "all octets and all integers", "why_tests_cant": "the rejection half ranges over all integers", "anchors": ["pgp/utils.py:s2k_count_to_int", "pgp/utils.py:int_to_s2k_count"]}
{"id": "C05", "title": "Hexadecimal codecs are mutually inverse", "statement": "bytearray_to_hex of any octet string is an even-length upper-case hex string from which hex_to_bytes recovers the octets; hex_to_bytes with an expected length always returns exactly that many octets, keeping the low-order ones; int_to_hex with a size returns the integer modulo 16^size in exactly that many digits.", "quantifier": "every octet string, every expected length, every non-negative integer", "why_tests_cant": "unbounded octet strings and widths", "anchors": ["pgp/utils.py:hex_to_bytes", "pgp/utils.py:bytearray_to_hex", "pgp/utils.py:int_to_hex"]}
{"id": "C06", "title": "New-format length octets survive encoding", "statement": "new_packet_length at the place where new_packet_length_to_bytes(n) was written returns n, not partial, and the offset just after the length octets, for every n up to 4294967295; the encoding uses 1, 2 or 5 octets exactly on the ranges of RFC 4880 4.2.2; larger n is rejected when partial lengths are not allowed.", "quantifier": "every length 0..4294967295 (and above for the rejection), every surrounding buffer", "why_tests_cant": "4 billion lengths times every buffer", "anchors": ["pgp/utils.py:new_packet_length_to_bytes", "pgp/utils.py:new_packet_length"]}
{"id": "C07", "title": "Old-format length octets survive encoding", "statement": "old_packet_length at the tag octet carrying the length type chosen by old_packet_length_to_bytes(n), followed by its octets and then exactly n octets of body, returns n and the offset of the body, for every n (including the indeterminate-length type, which is correct only when the packet is the last in the buffer).", "quantifier": "every length n and every surrounding buffer", "why_tests_cant": "unbounded lengths; the indeterminate case depends on what follows", "anchors": ["pgp/utils.py:old_packet_length_to_bytes", "pgp/utils.py:old_packet_length"]}
{"id": "C08", "title": "A serialised packet parses back to itself", "statement": "For every packet whose body is non-empty and shorter than 2^32 octets, in old or new header format, parsing bytes(packet) from any position of a buffer yields the same tag and the same body and stops exactly after the packet.", "quantifier": "every tag, header format, body, prefix and suffix", "why_tests_cant": "bodies and positions are unbounded and the length classes have boundaries at 192, 8384, 256, 65536, 2^24, 2^32", "anchors": ["pgp/packets/packets.py:Packet.__bytes__", "pgp/packets/packets.py:packet_from_packet_data"]}
{"id": "C09", "title": "Empty packets can be serialised", "statement": "A packet with an empty body is serialised with a zero length octet, so that it parses back to an empty packet and never swallows octets of the next packet.", "quantifier": "every tag and header format, every following data", "why_tests_cant": "the damage depends on the arbitrary data that follows the packet", "anchors": ["pgp/packets/packets.py:Packet.__bytes__"]}
{"id": "C10", "title": "A concatenation of packets parses to exactly that sequence", "statement": "Parsing the concatenation of the serialisations of any list of packets gives back that list in order, with nothing lost, merged or left over.", "quantifier": "every finite list of packets with definite lengths", "why_tests_cant": "needs induction over the length of the list", "anchors": ["pgp/packets/parsers.py:parse_binary_packet_data", "pgp/packets/packets.py:packet_from_packet_data"]}
{"id": "C11", "title": "Parsing always makes progress", "statement": "Whenever the packet parser returns a packet, the new offset is strictly beyond the old one, so the parse loop over any input whatsoever ends after at most one iteration per octet, with a list of packets or an exception.", "quantifier": "every octet string, including malicious ones", "why_tests_cant": "termination on all inputs is not testable", "anchors": ["pgp/packets/packets.py:packet_from_packet_data", "pgp/packets/parsers.py:parse_binary_packet_data"]}
{"id": "C12", "title": "Truncated packets are rejected", "statement": "If the buffer ends before the announced body length of a packet, parsing does not return a packet as if it were complete.", "quantifier": "every packet and every proper prefix of its serialisation", "why_tests_cant": "every cut point of every packet", "anchors": ["pgp/packets/packets.py:packet_from_packet_data"]}
{"id": "C13", "title": "Stream and buffer parsers agree", "statement": "Reading a packet from a stream and from a buffer holding the same definite-length data give the same tag and body and consume the same number of octets.", "quantifier": "every octet string starting with a complete definite-length packet", "why_tests_cant": "unbounded data", "anchors": ["pgp/packets/packets.py:packet_from_packet_stream", "pgp/packets/packets.py:packet_from_packet_data"]}
{"id": "C14", "title": "Partial body lengths are reassembled", "statement": "A packet sent in partial-length chunks followed by a final definite chunk is parsed to the packet whose body is the concatenation of the chunks.", "quantifier": "every list of chunk sizes and every body", "why_tests_cant": "unbounded chunk lists", "anchors": ["pgp/packets/packets.py:packet_from_packet_data", "pgp/packets/packets.py:packet_from_packet_stream", "pgp/utils.py:new_packet_length"]}
{"id": "C15", "title": "Serialising a packet always terminates", "statement": "bytes(packet) ends with a result or an exception whatever the size of the body.", "quantifier": "every body size", "why_tests_cant": "the failing sizes (4 GiB and more) cannot be tested", "anchors": ["pgp/packets/packets.py:Packet.__bytes__"]}
{"id": "C16", "title": "CRC-24 is the RFC 4880 CRC-24", "statement": "crc24(data) equals the bit-by-bit algorithm of RFC 4880 6.1 for every octet string, and is a 24-bit value.", "quantifier": "every octet string", "why_tests_cant": "unbounded data; the table has 256 entries whose joint correctness is an algebraic fact", "anchors": ["pgp/crc24.py:crc24", "pgp/crc24.py:CRC_24_TABLE"]}
{"id": "C17", "title": "CRC-24 detects localised corruption", "statement": "If two octet strings of equal length differ only inside a window of at most three consecutive octets, their crc24 values differ.", "quantifier": "every octet string, every position, every change confined to three consecutive octets", "why_tests_cant": "2^24 changes at unboundedly many positions", "anchors": ["pgp/crc24.py:crc24"]}
{"id": "C18", "title": "ASCII armor survives a round trip", "statement": "ASCIIArmor.from_ascii(str(armor)) gives back the data type, the data, the part numbers and the standard headers of the armor.", "quantifier": "every octet string and all header values free of line breaks", "why_tests_cant": "unbounded data with line-length boundaries every 54 octets and padding every 3", "anchors": ["pgp/armor.py:ASCIIArmor.__str__", "pgp/armor.py:ASCIIArmor.from_ascii"]}
{"id": "C19", "title": "Armor with a wrong checksum or tail is rejected", "statement": "If from_ascii returns, then the CRC-24 of the returned data equals the checksum on the '=' line and the tail line is the header line with BEGIN replaced by END; in particular changing up to three consecutive octets of the data while keeping the checksum makes it raise ValueError.", "quantifier": "every armored text and every localised corruption", "why_tests_cant": "unbounded texts and corruptions", "anchors": ["pgp/armor.py:ASCIIArmor.from_ascii"]}
{"id": "C20", "title": "Unknown armor headers are preserved", "statement": "Armor headers with unknown keys are kept on the parsed object and written back by str().", "quantifier": "every unknown header key and value", "why_tests_cant": "arbitrary keys and values", "anchors": ["pgp/armor.py:ASCIIArmor.from_ascii", "pgp/armor.py:ASCIIArmor.__str__"]}
{"id": "C21", "title": "S2K specifiers survive encoding", "statement": "parse_s2k_bytes applied to bytes(s2k), anywhere in a buffer, returns an equal specifier and the offset just after it, for simple, salted and iterated-salted specifiers; unknown specifier types raise ValueError.", "quantifier": "every hash algorithm octet, 8-octet salt, representable count and surrounding buffer", "why_tests_cant": "2^64 salts times all buffers", "anchors": ["pgp/s2k.py:parse_s2k_bytes", "pgp/s2k.py:SimpleS2K.__bytes__", "pgp/s2k.py:IteratedAndSaltedS2K.__bytes__"]}
{"id": "C22", "title": "S2K derives the RFC 4880 key", "statement": "to_key(passphrase) is the prefix of the required length of H(P) || H(00 P) || H(00 00 P) ... where P is the passphrase (simple), salt||passphrase (salted) or salt||passphrase repeated and cut to max(count, its length) octets (iterated).", "quantifier": "every hash function, passphrase, salt and count", "why_tests_cant": "unbounded passphrases and counts, every hash and key size", "anchors": ["pgp/s2k.py:SimpleS2K.to_key"]}
{"id": "C23", "title": "S2K keys have exactly the cipher's key length", "statement": "to_key returns exactly as many octets as the symmetric algorithm requires.", "quantifier": "every passphrase, hash of any positive digest length and cipher key length", "why_tests_cant": "unbounded passphrases", "anchors": ["pgp/s2k.py:SimpleS2K.to_key", "pgp/utils.py:symmetric_cipher_key_lengths"]}
{"id": "C24", "title": "Session key blocks survive and are checked", "statement": "The session-key block built for public-key encryption decodes to the same algorithm and key, and a block is accepted only if its two-octet checksum is the sum of the key octets modulo 65536.", "quantifier": "every algorithm octet, session key and block", "why_tests_cant": "all keys and all corruptions", "anchors": ["pgp/packets/packets.py:PublicKeyEncryptedSessionKeyPacket"]}
{"id": "C25", "title": "Public key packets survive encoding", "statement": "Parsing the body of a public key or public subkey packet and serialising it gives back the same octets, and serialising any key and parsing gives back the same key material, for versions 2, 3 and 4 and RSA, DSA and ElGamal.", "quantifier": "every version, algorithm, creation time, expiration and list of MPIs", "why_tests_cant": "unbounded integers", "anchors": ["pgp/packets/packets.py:PublicKeyPacket"]}
{"id": "C26", "title": "Secret key packets survive encoding", "statement": "A secret key packet re-serialises to the octets it was parsed from, whether its secret material is encrypted or not.", "quantifier": "every S2K usage octet, cipher, S2K specifier, IV and encrypted material", "why_tests_cant": "unbounded material; many branches", "anchors": ["pgp/packets/packets.py:SecretKeyPacket"]}
{"id": "C27", "title": "Secret key material can be unlocked by the right passphrase only if its check passes", "statement": "Encrypting secret values and decrypting the result with the same key gives the same values; decryption with the SHA-1 check accepts only plaintexts whose trailing 20 octets are the SHA-1 of the rest.", "quantifier": "every key, IV, list of secret integers and block cipher", "why_tests_cant": "all keys, ciphers and integers", "anchors": ["pgp/packets/packets.py:SecretKeyPacket"]}
{"id": "C28", "title": "Session key packets survive encoding", "statement": "Public-key and symmetric-key encrypted session key packets re-serialise to the octets they were parsed from, and parse back to the values they were built from.", "quantifier": "every key id, algorithm, list of MPIs, S2K specifier and encrypted key", "why_tests_cant": "unbounded integers and keys", "anchors": ["pgp/packets/packets.py:PublicKeyEncryptedSessionKeyPacket", "pgp/packets/packets.py:SymmetricKeyEncryptedSessionKeyPacket"]}
{"id": "C29", "title": "One-pass signature packets keep the signer's key id", "statement": "A one-pass signature packet parsed from octets reports the full 8-octet key id that was in them and re-serialises to the same octets.", "quantifier": "every one-pass signature body", "why_tests_cant": "2^64 key ids", "anchors": ["pgp/packets/packets.py:OnePassSignaturePacket"]}
{"id": "C30", "title": "Simple data packets survive encoding", "statement": "Compressed, symmetrically encrypted, integrity-protected, modification-detection, trust, user ID, literal and control packets re-serialise to the body they were parsed from.", "quantifier": "every packet body of each type", "why_tests_cant": "unbounded bodies", "anchors": ["pgp/packets/packets.py:CompressedDataPacket", "pgp/packets/packets.py:SymmetricallyEncryptedIntegrityProtectedDataPacket", "pgp/packets/packets.py:LiteralDataPacket", "pgp/packets/packets.py:UserIDPacket"]}
{"id": "C31", "title": "Version 4 signature packets survive encoding", "statement": "A version 4 signature packet serialised from its fields parses back to the same type, algorithms, hashed and unhashed subpackets, digest prefix and signature integers.", "quantifier": "every list of subpackets and MPIs within the field widths", "why_tests_cant": "unbounded nested lists", "anchors": ["pgp/packets/packets.py:SignaturePacket"]}
{"id": "C32", "title": "Version 3 signature packets survive encoding", "statement": "A version 2 or 3 signature packet parsed from octets can be serialised again to the same octets, and reports the 8-octet issuer key id.", "quantifier": "every version 3 signature body", "why_tests_cant": "all bodies", "anchors": ["pgp/packets/packets.py:SignaturePacket"]}
{"id": "C33", "title": "Signature subpackets survive encoding", "statement": "Each signature subpacket type re-serialises to the octets (type, criticality, content) it was parsed from.", "quantifier": "every subpacket type, criticality and content", "why_tests_cant": "every content of 24 types", "anchors": ["pgp/packets/signature_subpackets.py"]}
{"id": "C34", "title": "A subpacket area parses to exactly the list that was serialised", "statement": "Parsing the concatenation of serialised subpackets returns that list, consuming the area exactly; the critical bit and the type of each are preserved.", "quantifier": "every list of subpackets", "why_tests_cant": "induction over the list", "anchors": ["pgp/packets/signature_subpackets.py:signature_subpacket_from_data"]}
{"id": "C35", "title": "Image attributes survive encoding", "statement": "A user attribute image subpacket re-serialises to the octets it was parsed from and parses back to the version, format and image data it was built from.", "quantifier": "every image octet string", "why_tests_cant": "unbounded data", "anchors": ["pgp/packets/user_attribute_subpackets.py"]}
{"id": "C36", "title": "Signed data binds the target", "statement": "The octet string hashed for a signature determines the signature type, the algorithms, the hashed subpackets and the document or key and user id it covers: two different signature computations of the same version never hash the same octets.", "quantifier": "every pair of targets, signature types and hashed subpacket areas", "why_tests_cant": "injectivity ranges over pairs of unbounded inputs", "anchors": ["pgp/utils.py:hash_packet_for_signature", "pgp/utils.py:hash_key", "pgp/utils.py:hash_user_data"]}
{"id": "C37", "title": "A v4 fingerprint and key id depend only on the public part", "statement": "The fingerprint hashes 0x99, the two-octet length and the public body, the key id is its last 16 hex digits, and a secret key and its public counterpart have the same fingerprint.", "quantifier": "every key", "why_tests_cant": "every key", "anchors": ["pgp/utils.py:key_packet_fingerprint", "pgp/transferrable_keys.py:BasePublicKey"]}
{"id": "C38", "title": "Only well-formed transferable keys are accepted", "statement": "validate_transferrable_key accepts a packet list only if it matches the RFC 4880 11.1 grammar (primary key, revocations and direct signatures, user ids with certifications, subkeys with binding signatures), and accepts every list of that grammar.", "quantifier": "every finite packet list", "why_tests_cant": "a language-inclusion statement over unbounded lists", "anchors": ["pgp/transferrable_keys.py:validate_transferrable_key"]}
{"id": "C39", "title": "Transferable keys survive packets", "statement": "Building a transferable key from packets and asking for its packets gives back the same packet sequence.", "quantifier": "every packet list accepted by the parser", "why_tests_cant": "unbounded nested structure", "anchors": ["pgp/transferrable_keys.py:TransferablePublicKey.from_packets", "pgp/transferrable_keys.py:TransferablePublicKey.to_packets"]}
{"id": "C40", "title": "The most recent self-signature wins", "statement": "Key properties (flags, expiration, preferences) are taken from the self-signature with the latest creation time.", "quantifier": "every list of signatures", "why_tests_cant": "every ordering of unboundedly many signatures", "anchors": ["pgp/transferrable_keys.py:SignedMixin.get_most_recent_selfsig"]}
{"id": "C41", "title": "Key flags are reported independently", "statement": "Each may_* property of a key reports its own flag of the governing self-signature.", "quantifier": "every combination of flags", "why_tests_cant": "combinations of flags and signatures", "anchors": ["pgp/transferrable_keys.py:SignedMixin"]}
{"id": "C42", "title": "A locked key never exposes or uses secret values", "statement": "After lock(), and at every point where the key was not unlocked with the right passphrase, signing and decrypting are refused and the secret values are gone; leaving the unlocked context locks the key again even when the body raises.", "quantifier": "every sequence of lock / unlock / sign / context-manager operations, including exceptions", "why_tests_cant": "histories of unbounded length", "anchors": ["pgp/transferrable_keys.py:BaseSecretKey", "pgp/context_managers.py:LockingContextManager"]}
{"id": "C43", "title": "Encrypted message data decrypts to itself", "statement": "Decrypting what SymmetricallyEncryptedMessageData produced with the same key returns the original octets, with and without integrity protection.", "quantifier": "every block cipher, key, random prefix and message", "why_tests_cant": "unbounded messages, all keys", "anchors": ["pgp/message.py:SymmetricallyEncryptedMessageData"]}
{"id": "C44", "title": "Integrity-protected data rejects a bad MDC", "statement": "Decrypting integrity-protected data succeeds only if the trailing packet is an MDC packet whose 20 octets are the SHA-1 of everything before them.", "quantifier": "every ciphertext, key and cipher", "why_tests_cant": "every possible tampering", "anchors": ["pgp/message.py:SymmetricallyEncryptedMessageData"]}
{"id": "C45", "title": "Cipher modes invert", "statement": "For ECB, CBC, CFB, OFB and CTR, decrypting with a fresh object what a fresh object encrypted with the same key and IV returns the plaintext, however the data was split across calls, and outputs have the length of the inputs.", "quantifier": "every block cipher (any permutation), IV, plaintext and split into calls", "why_tests_cant": "unbounded plaintexts and splits", "anchors": ["pgp/cipher/base.py:_InternalObj"]}
{"id": "C46", "title": "IDEA decryption inverts encryption", "statement": "For every 128-bit key and every 64-bit block, decrypt(encrypt(block)) = block, and multiplication modulo 65537 and its inverse behave as group operations.", "quantifier": "2^128 keys times 2^64 blocks", "why_tests_cant": "astronomically many keys and blocks", "anchors": ["pgp/cipher/aidea.py"]}
{"id": "C47", "title": "Messages are recognised by their grammar", "statement": "A packet list is turned into the message its first packets denote (literal, compressed, signed, encrypted), with every signature paired with its one-pass packet (innermost first) and no packet ignored.", "quantifier": "every packet list", "why_tests_cant": "unbounded nesting", "anchors": ["pgp/message.py:open_pgp_message_from_packets", "pgp/message.py:SignedMessageWrapper"]}
{"id": "C48", "title": "Text canonicalisation only changes line endings", "statement": "Canonicalising text for a text signature turns every line ending into CRLF, is idempotent, and changes nothing else.", "quantifier": "every text", "why_tests_cant": "unbounded texts", "anchors": ["pgp/message.py:INCOMPLETE_CRLF"]}
{"id": "C49", "title": "Signatures out of their validity period are flagged", "statement": "A signature is rejected when it was made before its key, when the target was created after it, when it has expired or when it is in the future, and is otherwise accepted by the time checks.", "quantifier": "every combination of instants", "why_tests_cant": "all orderings of unboundedly many instants", "anchors": ["pgp/signature_verification.py:check_signature_values"]}
{"id": "C50", "title": "Setting a subpacket-backed attribute replaces its value", "statement": "After assigning a signature attribute that is stored in subpackets, reading it returns the assigned value and no other attribute changes; assigning None or an empty list clears it.", "quantifier": "every prior subpacket list and every assigned value", "why_tests_cant": "arbitrary subpacket histories", "anchors": ["pgp/signature.py:BaseSignature"]}
{"id": "C51", "title": "Verification checks key id, algorithm and digest prefix", "statement": "A public key accepts a signature only if the issuer key id, the public key algorithm and the leading 16 bits of the digest match and the public-key operation succeeds on the digest of the signed data.", "quantifier": "every key, signature and target", "why_tests_cant": "all inputs", "anchors": ["pgp/transferrable_keys.py:BasePublicKey.verify"]}
{"id": "C52", "title": "Merging keys loses nothing", "statement": "Merging two versions of a key keeps every user id, subkey and signature of both.", "quantifier": "every pair of versions of a key", "why_tests_cant": "pairs of unbounded structures", "anchors": ["pgp/merge.py:merge_key", "pgp/merge.py:merge_sigpairs"]}
{"id": "C53", "title": "The keyring behaves as a map from fingerprint to key", "statement": "After any sequence of add, update and delete operations, looking up a key returns the last version stored and not deleted, and operations on one key never change another.", "quantifier": "every sequence of operations on every set of keys", "why_tests_cant": "unbounded histories", "anchors": ["pgp/db/gpg.py:Keyring"]}
{"id": "C54", "title": "Secret keys are stored in the secret keyring only", "statement": "Adding a transferable secret key writes it to a secret keyring, never to a public one.", "quantifier": "every key and configuration of resources", "why_tests_cant": "every configuration", "anchors": ["pgp/db/gpg.py:GPGDatabase.add_key"]}
{"id": "C55", "title": "User id parsing always terminates within bounds", "statement": "Parsing any user id string ends, never reads past the end, and never loops.", "quantifier": "every string", "why_tests_cant": "termination on all inputs", "anchors": ["pgp/user_id.py"]}
{"id": "C56", "title": "Key server listings keep every user id under its key", "statement": "Reading a machine-readable index yields one entry per pub record, each with exactly the uid records that follow it up to the next pub record, in order.", "quantifier": "every listing", "why_tests_cant": "unbounded listings", "anchors": ["pgp/keyserver/hkp.py"]}
{"id": "C57", "title": "Compression wrappers lose no data", "statement": "For zlib and deflate wrappers, feeding the data in any number of pieces and finishing gives a stream that decompresses to all of the data.", "quantifier": "every split of every data", "why_tests_cant": "all splits", "anchors": ["pgp/utils.py:ZlibCompression", "pgp/utils.py:DeflateCompression"]}
{"id": "C58", "title": "RSA-encrypted session keys can be decrypted", "statement": "A session key encrypted to an RSA public key is recovered by the holder of the secret key, whatever the padding octets drawn.", "quantifier": "every RSA key, session key, algorithm and random padding", "why_tests_cant": "the failing ciphertexts (leading zero octet) have probability about 1/256 and depend on the random padding", "anchors": ["pgp/packets/packets.py:PublicKeyEncryptedSessionKeyPacket._get_encrypted_key", "pgp/packets/packets.py:PublicKeyEncryptedSessionKeyPacket._get_key_and_cipher_algo"]}
{"id": "C59", "title": "ElGamal-encrypted session keys are not readable from the packet", "statement": "The session key encrypted to an ElGamal key cannot be computed from the packet and the public key alone.", "quantifier": "every ElGamal key, session key and random padding", "why_tests_cant": "secrecy is about all attackers, and a round-trip test passes even when nothing is hidden", "anchors": ["pgp/packets/packets.py:PKCS115_ElGamal_Cipher"]}
{"id": "C60", "title": "Passphrase-encrypted session keys can be decrypted", "statement": "A session key encrypted under a passphrase is the RFC 4880 CFB encryption of algorithm and key under the S2K-derived key, and the same passphrase recovers it.", "quantifier": "every cipher, S2K specifier, passphrase and session key of any length", "why_tests_cant": "every length relative to the block size and every passphrase", "anchors": ["pgp/packets/packets.py:SymmetricKeyEncryptedSessionKeyPacket"]}
{"id": "C61", "title": "Packet sequences survive serialisation", "statement": "Serialising a list of packet objects (of every class) one after the other and parsing the octets, from memory or from a stream, yields the same list of packet objects.", "quantifier": "every list of packet objects whose fields the format can hold", "why_tests_cant": "unbounded lists of packets with unbounded contents", "anchors": ["pgp/packets/packets.py:Packet.__bytes__", "pgp/packets/parsers.py:parse_binary_packet_data", "pgp/packets/parsers.py:parse_binary_packet_stream"]}
{"id": "C62", "title": "Armored packet sequences survive", "statement": "Wrapping the octets of a list of packet objects in ASCII armor and parsing the text yields the same list of packet objects.", "quantifier": "every list of packet objects and every armor object holding them", "why_tests_cant": "unbounded", "anchors": ["pgp/packets/parsers.py:parse_ascii_packet_data", "pgp/armor.py:ASCIIArmor"]}
{"id": "C63", "title": "Passphrase-encrypted messages open with the passphrase", "statement": "A message encrypted with symmetric_encrypt, in memory or written as packets and read again, is returned by get_message with the same passphrase.", "quantifier": "every message, passphrase, cipher, hash, specifier, salt, count, session key and random prefix", "why_tests_cant": "all parameters at once, unbounded messages", "anchors": ["pgp/message.py:BaseMessage.symmetric_encrypt", "pgp/message.py:EncryptedMessageWrapper.get_message"]}
{"id": "C64", "title": "The octets hashed for a signature are those of RFC 4880 5.2.4", "statement": "For every key, user ID, user attribute, literal document or signature that is signed, the octets fed to the hash are exactly the ones RFC 4880 section 5.2.4 prescribes for that kind of item, followed by the version's trailer.", "quantifier": "all items, key sizes, signature types, subpacket areas and signature versions", "why_tests_cant": "the layout must be right for every length of every field and every combination of packets", "anchors": ["pgp/transferrable_keys.py:to_signable_data", "pgp/signature.py:to_signable_data", "pgp/user_id.py"]}
{"id": "C65", "title": "What sign() produces is accepted by verify()", "statement": "For every key pair, item and hash algorithm, the signature returned by sign() on an unlocked key is accepted by verify() on the matching public key for the same item.", "quantifier": "all RSA and DSA key pairs, items, hash algorithms, nonces and caller-supplied subpackets", "why_tests_cant": "holds by number theory for all keys and messages; failures (short signatures) occur for one message in a few hundred", "anchors": ["pgp/transferrable_keys.py:BaseSecretKey.sign", "pgp/transferrable_keys.py:BasePublicKey.verify", "pgp/utils.py:sign_hash", "pgp/utils.py:verify_hash"]}
{"id": "C66", "title": "A conventional user id is split into its name, comment and address", "statement": "For every user id of the form 'Name Words (comment) <local@domain>', with or without the comment, or a bare address, parse_user_id returns exactly that name, that address and that comment.", "quantifier": "all names, comments and addresses built from ordinary characters", "why_tests_cant": "the split must be right for every combination of names, comments and addresses", "anchors": ["pgp/user_id.py:parse_user_id", "pgp/user_id.py:AddrlistClass"]}
{"id": "C67", "title": "Revocation is reported only on evidence", "statement": "A key, user id or subkey is reported as revoked exactly when it carries a revocation made by the key itself that verifies and has not expired.", "quantifier": "every list of signatures and every instant", "why_tests_cant": "any forged signature in any list of signatures", "anchors": ["pgp/transferrable_keys.py:SignedMixin.revoked", "pgp/transferrable_keys.py:SignedMixin.revocation_signatures", "pgp/transferrable_keys.py:SignedMixin.self_signatures"]}
{"id": "C68", "title": "Opening a keyring resource", "statement": "Opening a resource by name opens the file of that name: an existing keyring file (even an empty one) as a keyring with its keys, and with the force option a missing file as a new empty keyring; a type prefix in the name only selects the type.", "quantifier": "every file system state, resource name and set of options", "why_tests_cant": "every file content and name", "anchors": ["pgp/db/gpg.py:get_resource", "pgp/db/gpg.py:BaseResource._maybe_create", "pgp/db/gpg.py:Keyring.create_db"]}
{"id": "C69", "title": "Keys survive being written and read with the shortcuts", "statement": "A transferable key serialized with serialize_key, in binary or ASCII armor and with either packet header format, is read back by read_key as the same key, except that its parts carry the header format they were written with; armored data may be given as text or as octets. Data that does not start with a key packet is refused with ValueError.", "quantifier": "every public or secret transferable key that was read from packets, every header format, armored or not, every way of giving the data", "why_tests_cant": "keys have unboundedly many parts and fields", "anchors": ["pgp/shortcuts.py:serialize_key", "pgp/shortcuts.py:read_key", "pgp/transferrable_keys.py:to_packets", "pgp/armor.py:is_armor"]}
{"id": "C70", "title": "Armored keys carry the right label", "statement": "An armored public key starts with the line BEGIN PGP PUBLIC KEY BLOCK, and an armored secret key with the line BEGIN PGP PRIVATE KEY BLOCK.", "quantifier": "every key and header format", "why_tests_cant": "every key", "anchors": ["pgp/shortcuts.py:serialize_key", "pgp/armor.py:ASCIIArmor.__str__"]}
{"id": "C71", "title": "The public copy of a secret key contains nothing secret", "statement": "The export of to_public_key() of a secret key, locked or unlocked, in any format, is the export of the key made of the public parts of its packets: two secret keys that agree on their public parts have the same export whatever their secrets, and the export contains no secret key packet.", "quantifier": "every pair of secret keys that agree on their public parts, every lock state, format and armoring", "why_tests_cant": "noninterference: a statement about all pairs of secrets", "anchors": ["pgp/transferrable_keys.py:TransferableSecretKey.to_public_key", "pgp/transferrable_keys.py:to_packets", "pgp/shortcuts.py:serialize_key"]}
{"id": "C72", "title": "Reading messages with the shortcuts", "statement": "read_message of the binary encoding of a sequence of packets, or of any ASCII armor of it given as text or octets and with or without saying that it is armored, opens the message that consists of these packets.", "quantifier": "every sequence of packets, every armoring of it", "why_tests_cant": "unbounded data and texts", "anchors": ["pgp/shortcuts.py:read_message", "pgp/armor.py:is_armor", "pgp/message.py:open_pgp_message_from_packets"]}
{"id": "C73", "title": "The keyring lock excludes other users", "statement": "At any time at most one thread of one process is between a successful acquire() of a Lock on a given file and the corresponding release(): while it is inside, no other acquire() on the same file succeeds, in the same process or in another.", "quantifier": "every number of processes, threads and Lock objects; every schedule of their accesses to the file system; ends of processes at any time", "why_tests_cant": "the guarantee is about all interleavings", "anchors": ["pgp/db/gpg.py:Lock.acquire", "pgp/db/gpg.py:Lock.release", "pgp/db/gpg.py:BaseResource.lock_db"]}
{"id": "C74", "title": "Acquire and release finish as documented", "statement": "acquire() takes a free lock; on a taken lock it waits for the given time, or fails when no waiting is asked for, and raises nothing else; release() by the holder frees the lock; no other process is disturbed.", "quantifier": "every reachable state of any number of users, every timeout, every undisturbed run from there", "why_tests_cant": "ranges over reachable states of concurrent histories", "anchors": ["pgp/db/gpg.py:Lock.acquire", "pgp/db/gpg.py:Lock.release", "pgp/db/gpg.py:Lock._remove"]}
{"id": "C75", "title": "The lock of a crashed process is recovered", "statement": "After a process that holds the lock has crashed, other processes can acquire it.", "quantifier": "every history with a crash while the lock is held, every continuation", "why_tests_cant": "all continuations of all histories", "anchors": ["pgp/db/gpg.py:Lock.acquire"]}
{"id": "C76", "title": "Several resources on one keyring file", "statement": "Whatever resources, in one or several processes, are open on one keyring file and however their operations are interleaved, the file and the lookups are those of one sequence of the operations: no key that was added is lost, and a lookup or deletion affects the key asked for.", "quantifier": "every number of resources, every interleaving of complete operations", "why_tests_cant": "all interleavings of unbounded histories", "anchors": ["pgp/db/gpg.py:Keyring.add_transferrable_key", "pgp/db/gpg.py:Keyring.get_transferrable_key", "pgp/db/gpg.py:Keyring.delete_transferrable_key"]}
{"id": "C77", "title": "A crash leaves the old or the new keyring", "statement": "If the process crashes at any moment during add, update or delete, the keyring file afterwards is the one from before the operation or the one it would have written, and opens as such.", "quantifier": "every keyring, operation and crash point", "why_tests_cant": "all crash points", "anchors": ["pgp/db/gpg.py:Keyring.add_transferrable_key", "pgp/db/gpg.py:Keyring.update_transferrable_key", "pgp/db/gpg.py:Keyring.delete_transferrable_key"]}
{"id": "C78", "title": "Regular expressions are validated by the RFC grammar", "statement": "validate_subpacket_regex accepts exactly the regular expressions of RFC 4880 section 8; for any other text it raises RegexValueError with a position inside the text, such that what precedes the position is the beginning of a correct expression.", "quantifier": "every text", "why_tests_cant": "a grammar with unbounded nesting, over all texts", "anchors": ["pgp/regex.py:validate_subpacket_regex", "pgp/regex.py:validate_partial_subpacket_regex", "pgp/regex.py:re_tokenizer", "pgp/exceptions.py:RegexValueError"]}
{"id": "C79", "title": "Every recipient of a public-key encrypted message can read it", "statement": "For every message, every list of public keys and hidden public keys, session key and random octets: public_key_encrypt gives a message that can be serialised and parsed back to an equal object, and get_message with the unlocked secret key of any recipient returns the original message, hidden recipients are not named in the packets, and session keys that cannot be used with the given secret do not stand in the way of one that can.", "quantifier": "all messages, recipient lists, positions in the list, session keys, ciphers, IVs and secret keys", "why_tests_cant": "the result depends on the position of the recipient in the list, on how decryption with the wrong key fails and on all random octets; a test tries one recipient", "anchors": ["pgp/message.py: BaseMessage.public_key_encrypt, PublicKeySessionKey, EncryptedMessageWrapper.get_message", "pgp/packets/packets.py: PublicKeyEncryptedSessionKeyPacket"]}
{"id": "C80", "title": "A packet contributes the octets of RFC 4880 5.2.4 to a signature's hash", "statement": "For every packet, get_content_for_signature_hash gives the octets RFC 4880 5.2.4 prescribes for a signature of the given version: key packets with 0x99 and a two-octet length, user ids and user attributes with 0xB4 or 0xD1 and a four-octet length from version 4 on, signatures with 0x88.", "quantifier": "all key, user id, user attribute and signature packets and all signature versions", "why_tests_cant": "all contents, lengths and versions are concerned, and the claim is an equality of octet strings with a specification", "anchors": ["pgp/packets/packets.py: get_content_for_signature_hash of Packet, SignaturePacket, PublicKeyPacket, UserIDPacket, UserAttributePacket"]}
{"id": "C81", "title": "The packet-stream parser accepts exactly the documented order of a transferable public key", "statement": "validate_transferrable_public_key (pgp.parse) accepts a list of dump packets exactly when it is a public key, then direct-key signatures and key revocations, then user IDs each with its certifications, then user attributes each with its certifications, then (version 4 or later only) subkeys each with one binding signature and at most one revocation; everything else raises InvalidKeyPacketOrder or InvalidKeyPacketType (or IndexError for an empty list or a trailing subkey).", "quantifier": "all lists of packets of any length, types, signature types and key versions", "why_tests_cant": "The accepted language is infinite; the check looks at all earlier packets and one later one, so no finite set of lists settles it.", "anchors": ["pgp/parse.py: validate_transferrable_public_key"]}
{"id": "C82", "title": "Parsing a stream of keys yields every key once and in order", "statement": "parse(packets) yields one key for each public key packet in the stream, built from the packets up to the next public key packet, in order; the first key that is invalid or cannot be built ends the iteration with its exception; after a read error it skips to the next public key packet and goes on.", "quantifier": "all streams: any number of keys of any length, read errors at any point, any trailing garbage, any builder", "why_tests_cant": "Streams are unbounded and a fault may come at any position of any key; the loss after a fault is silent.", "anchors": ["pgp/parse.py: parse", "pgp/parse.py: skip_to_next_key"]}
{"id": "C83", "title": "The canonical form of a key's packets determines them", "statement": "concat_key maps different lists of packets to different octet strings; compare_packets is a total order on (type, content); hash_key_data returns the MD5 of the sorted concatenation.", "quantifier": "all lists of packets with types below 256 and contents below 4 GiB; all triples of packets", "why_tests_cant": "Injectivity and transitivity speak of all pairs and triples of inputs.", "anchors": ["pgp/utils.py: concat_key", "pgp/utils.py: compare_packets", "pgp/utils.py: sort_key", "pgp/utils.py: hash_key_data"]}
{"id": "C84", "title": "Signature dictionaries tell covered values from uncovered ones", "statement": "The packet-stream parser's dictionary for a version 4 signature: if two packets agree in their hashed subpackets, a value that both dictionaries list as hashed is the same in both, whatever the unhashed subpackets are (which anybody can change; for 16-digit key ids, or else if both count as self signatures or neither does); its creation time always comes from a hashed subpacket; each value is exactly what the last subpacket tells about it according to RFC 4880, given the signature's type, whether it is a self signature and what it is on, and there is none if no subpacket tells it; notations and regular expressions are those of the packet, in order; a critical subpacket of an unknown type, a critical notation and a non-exportable signature give no dictionary; version 2 and 3 signatures carry the packet's own creation time and issuer. Known deviations, proved as such: an unhashed subpacket that comes last sets the lifetime; a hashed non-critical subpacket of an unknown type, and any embedded signature, give an error; issuers are cut to 8 digits, so with 16-digit key ids no version 4 signature counts as a self signature and what only self signatures may say is never reported.", "quantifier": "all signature packets (any list of subpackets with any octets), all replacements of the unhashed part, all parent key ids, all UTF-8/base64/embedded-packet decoders", "why_tests_cant": "The claim compares two packets that agree on an arbitrary hashed part and differ arbitrarily in the unhashed part; tests can try a few forgeries only.", "anchors": ["pgp/parse.py:parse_signature_packet", "pgp/parse.py:parse_signature_subpacket", "pgp/parse.py:subpacket_type_to_keys", "pgp/parse.py:parse_notation"]}
{"id": "C85", "title": "Images in user attribute packets", "statement": "The packet-stream parser reads a user attribute that consists of one JPEG image subpacket (any length encoding allowed by RFC 4880) as exactly that image, with the type guessed from its first 1024 octets. A single subpacket of another type, or with a version 1 header that is not 16 octets long, has reserved octets set or a format that is neither JPEG nor private, yields nothing; one with another header version yields nothing unless unknown headers were asked for, and then what follows the header. On any octets it ends without an error or with IndexError. Known deviation, proved as such: if another subpacket follows, the image is reported with one octet too many.", "quantifier": "all images of any size, all RFC 4880 encodings of the length, all octet strings, all type guessers", "why_tests_cant": "Images have any size and three length encodings; termination must hold on every octet string.", "anchors": ["pgp/parse.py:parse_user_attribute_subpackets", "pgp/utils.py:new_packet_length"]}
{"id": "C86", "title": "What validating a key's signatures records", "statement": "validate_signatures over the signatures of a key, its user ids and subkeys: signatures by unknown issuers are left unmarked without error; a subkey binding that the primary key did not issue is marked invalid (if its issuer is known); only certification revocations (0x30) are ever marked as valid, and existing marks are kept, also when the call ends with an exception; a certification revocation that refers to the signature it revokes is marked valid exactly if its signer issued that signature or is a designated revoker, that signature is not irrevocable and is not newer, and is otherwise marked invalid. Known deviations, proved as such: no public-key operation has any influence on the result (for all verification functions the outcome is the same); a forged certification revocation naming the key as issuer is marked; certifications, direct-key signatures, bindings and revocations issued by the key itself always raise TypeError; a signature of an unexpected type raises, or takes the state of an earlier signature.", "quantifier": "all signature verification functions, all key databases, all lists of target signatures with any types, versions, issuers and marks", "why_tests_cant": "Independence from the verification result is a statement about all pairs of verification functions; the marks claim is about every list of signatures and every exception point.", "anchors": ["pgp/signature_verification.py:validate_signature", "pgp/signature_verification.py:validate_signatures"]}
{"id": "C87", "title": "Passphrases typed at the terminal", "statement": "The terminal pinentry returns (without cache) exactly a passphrase that was typed and then confirmed as often as asked for: rounds whose confirmation differs are skipped and nothing is read beyond the last confirmation; asking not to be asked reads and prints nothing and raises KeyError without a cached passphrase; after any history of calls a cache id yields p without asking iff the last call that concerned it returned p, and is asked for otherwise; calls with caching off leave the cache alone. Known deviation, proved as such: with no error message, Error. is shown.", "quantifier": "all inputs typed (any number of lines of any text), all requests, all histories of calls", "why_tests_cant": "Ranges over unbounded inputs with any number of failed rounds, and any history of cached and uncached calls and clears.", "anchors": ["pgp/pinentry/getpass.py:GetpassPinentry"]}
{"id": "C88", "title": "The dialogue with gpg-agent", "statement": "get_passphrase sends one line of words that stand for the options and the four texts, percent escaped, so that whatever the texts contain two requests with the same line are the same up to none/empty/X; a passphrase that the agent sends as one data line in escaped ASCII is returned unchanged; an ERR answer raises its explanation. clear_passphrase names the same word. Known deviations, proved as such: a passphrase sent in raw UTF-8 is returned as different text; of several data lines only the first is returned, and a status line before it is taken for it; when the agent goes away, the call never returns; use_cache is ignored; the answer to clear_passphrase is not read.", "quantifier": "all texts (any Unicode), all passphrases, all agent answers (octet streams)", "why_tests_cant": "Injection and unambiguity claims quantify over every text that could be mistaken for options or another command; answers are arbitrary octet streams.", "anchors": ["pgp/pinentry/gpg_agent.py:GPGAgentPinentry"]}
{"id": "C89", "title": "What a database search finds", "statement": "GPGDatabase.search: by fingerprint or key id it returns, for each resource in turn, the newest key under the last 8 digits (and only if it has the user id, when one is given too); by user id it returns exactly the newest keys under each id, in file order, with a user id containing the text regardless of case; when no two keys of a file share their last 8 digits this is every matching key; without a criterion it returns nothing. Registering a resource keeps the first resource of a name, leaves the others alone and puts a primary one first. Known deviations, proved as such: a key hidden by a later one with the same 8 digits is found by no search; fingerprints are compared by 8 digits only; an empty criterion raises AttributeError.", "quantifier": "all lists of resources with any keyring files (any number of keys, compressed packets in between), all criteria, all key constructors and case foldings", "why_tests_cant": "The result must be complete and sound for every set of keyring files and every query text; hidden keys show only with colliding ids.", "anchors": ["pgp/db/gpg.py:GPGDatabase.search", "pgp/db/gpg.py:GPGDatabase.register_resource", "pgp/db/gpg.py:GPGDatabase._matches_user_id", "pgp/db/gpg.py:BaseResource.values", "pgp/db/gpg.py:Keyring.keys"]}
{"id": "C90", "title": "The choice of algorithms for the gpg command", "statement": "AlgorithmHelper: without an explicit cipher the one chosen is the first of the personal preferences (else of the default list) that is not disabled; with preferences of one's own the result does not depend on the helpers made before in the same process; algorithm names are translated to the numbers of RFC 4880/5581; -z overrides the two compression levels. Known deviations, proved as such: disabling an algorithm with an empty preference list removes it from the module's default list for every later helper, until no helper can be made; a disabled cipher is used when asked for explicitly; disabling without preferences raises TypeError; only the first preference is offered and an unknown name is offered as number 0 (plaintext).", "quantifier": "all histories of helpers made in one process, all argument values, all names", "why_tests_cant": "The result depends on the whole history of constructions in the process and on arbitrary names and lists.", "anchors": ["pgp/commands/gpg/algorithm_helper.py:AlgorithmHelper", "pgp/commands/gpg/algorithm_helper.py:DEFAULT_CIPHERS"]}
{"id": "C91", "title": "Who a message is encrypted to, and with which cipher", "statement": "RecipientHelper without groups returns the recipients given, in order, followed by encrypt-to unless switched off, every recipient checked; a group is a name and members with exactly one = between; the key used for a recipient is not revoked, may encrypt communications, is the first such subkey, else the key itself, of a key not revoked; the cipher of a message is the first candidate that every recipient, named or hidden, prefers; throw-keys hides all recipients and loses none; integrity protection follows force, disable, then the recipients' features. Known deviations, proved as such: giving groups replaces the recipients by the members of the last group; a recipient that names a group, or any recipient with the shipped trust database helper, raises AttributeError; no usable key gives None instead of an error.", "quantifier": "all recipient lists, groups, keys with any subkeys and preferences", "why_tests_cant": "Soundness and completeness of the choice range over all lists of recipients, preferences and group definitions.", "anchors": ["pgp/commands/gpg/recipient_helper.py:RecipientHelper", "pgp/commands/gpg/encrypt.py:Command.run"]}
{"id": "C92", "title": "The limit on the output", "statement": "write_output with max-output: output within the limit is written completely and its size returned; longer output fails after a prefix of it has been written that exceeds the limit by at most 1024 octets. Known deviations, proved as such: the limit can be exceeded; without a limit every call fails after 1024 octets.", "quantifier": "all outputs of any length and all limits", "why_tests_cant": "The bound must hold for every length of output relative to the limit and chunk size.", "anchors": ["pgp/commands/gpg/io_helper.py:IOHelper.write_output"]}
{"id": "C93", "title": "Setting one part of a user id changes that part and no other", "statement": "For a user id from which the library reads a name, an e-mail address and a comment (in whatever spelling), assigning user_name, user_email or user_comment yields a user id from which the assigned part is read with its new value and the other two with their old values, for all parts that can be written in an address; so after any history of such assignments the parts read are those last written. A comment is read back together with its name exactly when it does not occur in the name. An address that is not ASCII is refused with an error.", "quantifier": "every current user id, every name, address and comment (quotes, backslashes and brackets in names included), every history of assignments", "why_tests_cant": "names, addresses and comments are unbounded texts that go through escaping when written and through an address grammar when read", "anchors": ["pgp/transferrable_keys.py:UserID._make_user_id", "pgp/transferrable_keys.py:UserID.user_name", "pgp/transferrable_keys.py:UserID.user_email", "pgp/transferrable_keys.py:UserID.user_comment", "pgp/user_id.py:parse_user_id"]}
{"id": "C94", "title": "User attributes keep their octets when read into a key", "statement": "A user attribute packet read into a key's UserAttribute and turned into a packet again (for writing, or to be hashed for a signature over it) has exactly the octets it had, if and only if each of its images is a JPEG (format 1), or has format 101 and is recognised as an image other than a JPEG. Images in other private formats are changed or cannot be written; an attribute that is not an image makes reading the key fail.", "quantifier": "every list of image attributes (formats, image octets, any number) and every answer of the file type recogniser", "why_tests_cant": "quantifies over all image octets, all formats and an external recogniser", "anchors": ["pgp/transferrable_keys.py:UserAttributeContentItem.from_subpacket", "pgp/transferrable_keys.py:UserAttributeContentItem.to_subpacket", "pgp/transferrable_keys.py:UserAttribute.from_packet", "pgp/transferrable_keys.py:UserAttribute.to_packet", "pgp/packets/packets.py:UserAttributePacket"]}
{"id": "C95", "title": "Comparing packets with ==", "statement": "Two packet objects compare equal exactly if they are of the same kind, header format and type and agree in all their fields - so that equal packets write the same octets - except that (a) signatures of version 4 compare their hashed and unhashed subpackets as sets of octet strings, so order and repetition are not seen; (b) one-pass signatures ignore their version and packets of an unknown type ignore their content; (c) two signatures of version 2 or 3 with the same fields raise AttributeError. On everything that can be compared, == always answers and is reflexive, symmetric and transitive.", "quantifier": "all pairs and triples of packet objects of every class, both header formats", "why_tests_cant": "it ranges over every pair of packets with every field combination; tests compare a few", "anchors": ["pgp/packets/packets.py:Packet.__eq__", "pgp/packets/packets.py:SignaturePacket.__eq__", "pgp/packets/packets.py:PublicKeyPacket.__eq__", "pgp/packets/packets.py:SecretKeyPacket.__eq__", "pgp/packets/signature_subpackets.py:SignatureSubpacket.__eq__", "pgp/packets/user_attribute_subpackets.py:ImageAttributeSubpacket.__eq__", "pgp/s2k.py:S2K.__eq__"]}
{"id": "C96", "title": "No subkey that may sign passes without its back signature", "statement": "check_back_signatures passes a binding signature read from a packet exactly if it does not allow the subkey to sign data and embeds no primary-key-binding (0x19) signature. A subkey that may sign and has no back signature is refused with MissingBackSignature; one that has a back signature, good or bad, is refused too (TypeError).", "quantifier": "all binding signatures with any subpackets, and all sets of signatures on the subkey", "why_tests_cant": "it is a claim about every list of subpackets and every set of signatures", "anchors": ["pgp/signature_verification.py:check_back_signatures", "pgp/signature_verification.py:get_hashed_subpacket_data", "pgp/signature.py:BaseSignature.embedded_signatures", "pgp/signature.py:BaseSignature.target"]}
{"id": "C97", "title": "The key server client asks the server that was named, and keys survive it", "statement": "get_keyserver(url) gives a client for hkp, hkps, http and https URLs, and None for others; its requests go to the host and directory of the URL, encrypted when the scheme is hkps or https. get, search and submit send one request each; an HTTP error is never taken for a key. A key that is submitted and then fetched from a server that keeps what it is sent is the same key, and no secret key material is ever sent.", "quantifier": "every URL of a host with directories, in any letter case of the scheme, every key read from packets, every key id, every server answer", "why_tests_cant": "hosts, directories, keys and answers are unbounded, and no test sees every URL that the library joins", "anchors": ["pgp/keyserver/__init__.py:get_keyserver", "pgp/keyserver/hkp.py:HKPKeyserverClient.get", "pgp/keyserver/hkp.py:HKPKeyserverClient.submit", "pgp/keyserver/hkp.py:HKPKeyserverClient.search"]}
{"id": "C98", "title": "Signing a message", "statement": "message.sign(secret_key) returns a message that contains the given one and a signature by that key over its data, with the hash algorithm asked for or else the first supported one that the key prefers; written as packets or armored and read back, it is the same message, and the public key accepts the signature. A locked key does not sign.", "quantifier": "every literal message, key pair, signature type, hash algorithm, list of preferences, nonce and time", "why_tests_cant": "messages, keys and nonces are unbounded, and the property spans signing, writing, armoring, reading and verifying", "anchors": ["pgp/message.py:BaseMessage.sign", "pgp/message.py:SignedMessageWrapper", "pgp/transferrable_keys.py:BaseSecretKey.sign", "pgp/message.py:TextMessage.to_signable_data"]}
{"id": "C99", "title": "Photo IDs are shown with the configured viewer", "statement": "For every photo viewer command, every photo and every key: showing the photo runs the command with each percent escape replaced by its value and %% by a percent sign, gives the viewer the photo in a temporary file (%i, %I) or on its standard input, and removes the temporary file unless %I asks to keep it.", "quantifier": "all viewer commands, all escape values, all photos", "why_tests_cant": "The escapes are replaced one after the other, so values and literal percent signs can combine to new escapes; only a proof over all templates shows when that does not happen.", "anchors": ["pgp/commands/gpg/io_helper.py:IOHelper.view_photo"]}
{"id": "C100", "title": "Status, log and attribute lines go to the chosen channel", "statement": "Status lines are written to the status file or descriptor, log lines to the logger file or descriptor, attribute data to the attribute file or descriptor, each to standard output if none is chosen; a line that cannot be written is dropped, or ends the program with code 1 if that option is set.", "quantifier": "all option combinations, all lines, all failures of opening, encoding and writing", "why_tests_cant": "Any combination of options and failures is possible; the claim is that no line ends up in a channel that was not chosen for it.", "anchors": ["pgp/commands/gpg/io_helper.py:IOHelper.write_status", "pgp/commands/gpg/io_helper.py:IOHelper.write_log", "pgp/commands/gpg/io_helper.py:IOHelper.write_attribute"]}
{"id": "C101", "title": "Files become literal messages unchanged", "statement": "For every file: read as binary, the message holds its octets, modification time and name (or the chosen name, or _CONSOLE); read as text, it holds the text decoded with the given or detected encoding, with every line that starts with From escaped if asked; standard input is read if no file is named.", "quantifier": "all files, names, encodings and options", "why_tests_cant": "It ranges over all texts: the escape must be applied to every line of every text and to nothing else.", "anchors": ["pgp/commands/gpg/message_.py:MessageCommand.file_to_literal_message", "pgp/commands/gpg/io_helper.py:IOHelper.get_timestamp"]}
{"id": "C102", "title": "The command line runs the commands it names", "statement": "main() runs exactly the command, or documented combination of commands, named on the command line, whatever their order and repetition, with the parameters its class asks for; anything else is refused with the usage and exit status 2, and exit status 0 is given only when the command was carried out.", "quantifier": "all argument lists, parsers, helper and command classes", "why_tests_cant": "The ways of combining, ordering and repeating commands, and of replacing parser and helpers, cannot be enumerated.", "anchors": ["pgp/commands/gpg/main.py:make_it_so", "pgp/commands/gpg/main.py:main", "pgp/commands/gpg/arguments.py:make_argparser", "pgp/commands/gpg/combinations.py"]}
{"id": "C103", "title": "Option values reach the program", "statement": "Every argument given on the command line, as text or as octets in the configured encoding, reaches the option it belongs to, in order and unchanged.", "quantifier": "all argument lists, encodings and options", "why_tests_cant": "Argument lists and encodings are unbounded.", "anchors": ["pgp/commands/gpg/arguments.py:ArgumentParser.decode_arg_strings", "pgp/commands/gpg/arguments.py:ArgumentParser.parse_known_args"]}
{"id": "C104", "title": "Signing a file from the command line", "statement": "The sign, clearsign and detach-sign commands write the signed message, or the signature, of the file to the output file, or fail and leave every file as it was.", "quantifier": "all files, keys, signers, options and file names", "why_tests_cant": "It is about every file system and every way the signing can fail.", "anchors": ["pgp/commands/gpg/sign.py:Command", "pgp/commands/gpg/clearsign.py:Command", "pgp/commands/gpg/detach_sign.py:Command", "pgp/commands/gpg/formatter.py:Formatter.make_output_filename"]}
{"id": "C105", "title": "A message encrypted to an exported key is read by the holder of the secret key", "statement": "The public copy of a secret key, exported as armor and read back by somebody else in any form serves to encrypt a message to any of its keys meant for encryption; the octets, or any armor of them, are read back to the message by the holder of that secret key, and by nobody else.", "quantifier": "all secret keys with their subkeys in every state, RSA and ElGamal keys, messages, session ciphers, session keys and random octets", "why_tests_cant": "Whether a message can be read depends on the session key and the random padding (about one RSA ciphertext in 256 is shorter than the modulus), and on the key block around the key; neither can be enumerated.", "anchors": ["pgp/message.py:BaseMessage.public_key_encrypt", "pgp/message.py:PublicKeySessionKey", "pgp/transferrable_keys.py:BasePublicKey._get_key_obj", "pgp/packets/packets.py:PublicKeyEncryptedSessionKeyPacket", "pgp/__init__.py:serialize_key"]}
{"id": "C106", "title": "A keygrip stands for the public numbers of a key", "statement": "key.keygrip depends only on the kind of key (RSA, DSA, ElGamal) and its public numbers: a secret key, its public copy and the same key with other dates have one keygrip; keys with different numbers have different keygrips unless SHA-1 collides; algorithms without a keygrip raise ValueError. It is the keygrip GnuPG shows.", "quantifier": "all keys of every version, algorithm and numbers of any size", "why_tests_cant": "injectivity of the hashed text over all numbers", "anchors": ["pgp/transferrable_keys.py:BasePublicKey.keygrip"]}
{"id": "C107", "title": "Keys and signature checks do not depend on the time zone of the machine", "statement": "Reading a key and writing it again keeps its creation time and so its fingerprint, and the verdicts about signatures (made before the key, in the future, expired) are about instants, whatever the time zone of the machine and whenever its clock is set forward or back.", "quantifier": "all time zones (offset from UTC as any function of the instant), all behaviours of mktime, all keys, signatures and instants", "why_tests_cant": "time zones and instants are unbounded and the failures are confined to particular hours", "anchors": ["pgp/transferrable_keys.py:BasePublicKey._init_args_from_packet", "pgp/transferrable_keys.py:BasePublicKey._to_packet_args", "pgp/signature.py:BaseSignature._get_signature_expiration_time", "pgp/signature_verification.py:check_signature_values"]}
{"id": "C108", "title": "Layers of compression and encryption open again, to any depth", "statement": "compress(), symmetric_encrypt() and public_key_encrypt() may be applied to a message one after the other, in any order and any number of times: each call succeeds, the outermost message can be written and read, and get_message() with the right secrets, from the outside in, gives back exactly the message that was put in.", "quantifier": "all messages that can be written and read, all lists of layers (any length, any mixture), algorithms, levels, passphrases, specifiers, session keys, prefixes, recipient lists and positions in them", "why_tests_cant": "the depth of nesting is unbounded and every layer has its own parameters", "anchors": ["pgp/message.py:BaseMessage.compress", "pgp/message.py:BaseMessage.symmetric_encrypt", "pgp/message.py:BaseMessage.public_key_encrypt", "pgp/message.py:CompressedMessageWrapper.get_message", "pgp/message.py:EncryptedMessageWrapper.get_message"]}
{"id": "C109", "title": "A signed and encrypted message arrives, and its signature verifies with the exported key", "statement": "Alice signs a message and encrypts the signed message to Bob's key, which she has read from his armored export. Bob opens it with his secret key, and finds the message she signed; the key he has read from her armored export accepts the signature.", "quantifier": "all keys of both, messages, hash algorithms, ciphers, session keys, random octets, header formats and any layers of compression and encryption around the signed message", "why_tests_cant": "a chain of eight operations each with unbounded inputs", "anchors": ["pgp/message.py:BaseMessage.sign", "pgp/message.py:BaseMessage.public_key_encrypt", "pgp/message.py:SignedMessageWrapper", "pgp/__init__.py:read_message", "pgp/__init__.py:serialize_key"]}
{"id": "C110", "title": "What reading malformed input can raise", "statement": "Whatever octets are given, parsing them as packets (from memory or from a file object) ends, either normally or with one of exactly eight built-in exceptions: IndexError, ValueError, AssertionError, TypeError, UnicodeError, NotImplementedError, UnboundLocalError, AttributeError; per packet type the set is smaller and exact. Parsing armor raises only IndexError or ValueError, read_message raises only the eight, read_key only those, InvalidKeyPacketOrder, InvalidKeyPacketType and what datetime.fromtimestamp raises. Each exception of each set is raised by some input. The interpreter's own limits (RecursionError for hundreds of nested embedded signatures, MemoryError) are not counted.", "quantifier": "every octet string, every text, every packet type number", "why_tests_cant": "a fuzzer samples inputs; that no other exception (KeyError, OverflowError, an endless loop) is possible is a statement about all of them", "anchors": ["pgp/packets/packets.py:packet_from_packet_data", "pgp/packets/packets.py:packet_from_packet_stream", "pgp/packets/parsers.py", "pgp/packets/signature_subpackets.py", "pgp/s2k.py:parse_s2k_bytes", "pgp/armor.py:ASCIIArmor.from_ascii", "pgp/shortcuts.py:read_message", "pgp/shortcuts.py:read_key"]}
{"id": "C111", "title": "An accepted signature is bound to what was signed", "statement": "A version 4 signature that a key's verify() accepts for some data is accepted for other data, or with another signature type, algorithm or other hashed subpackets, only if the hash function gives the same digest for two different sequences of octets. In particular assigning another value to an attribute of a signature makes verify() refuse it.", "quantifier": "all keys, all pairs of signature objects that carry the same integer, all pairs of objects that can be signed (documents, keys, subkeys, user ids, user attributes), all single-valued attributes and values", "why_tests_cant": "a test can show that some edits are noticed; that every edit is noticed is a claim of injectivity over all encodings, and the kinds of object that can be confused with one another only show when all are compared", "anchors": ["pgp/transferrable_keys.py:BasePublicKey.verify", "pgp/signature.py:BaseSignature.to_signable_data", "pgp/signature.py:BaseSignature._update_subpacket_values", "pgp/utils.py:verify_hash"]}
{"id": "C112", "title": "Which objects are still there when they are asked for", "statement": "While a program holds a key it has read, every user id, user attribute and subkey of the key finds it as its primary key, every signature on them finds what it signs and says whether it is a self signature, and what the signatures cover can be computed. A part finds its primary key exactly when some variable of the program holds that key; keeping only the part is not enough.", "quantifier": "all histories of reading keys, converting them to public keys, taking parts out of them, following primary_public_key and parent, appending parts and signatures to lists, copying and deleting variables; all keys with any number of parts and signatures", "why_tests_cant": "whether an object is still there depends on every variable the program has held so far, so a test only sees the histories it runs; usually the key is still held by the test", "anchors": ["pgp/transferrable_keys.py:TransferablePublicKey.from_packets", "pgp/transferrable_keys.py:TransferableSecretKey.to_public_key", "pgp/transferrable_keys.py:UserID.primary_public_key", "pgp/transferrable_keys.py:PublicSubkey.primary_public_key", "pgp/transferrable_keys.py:KeySignature.is_self_signature", "pgp/signature.py:BaseSignature.parent"]}
{"id": "C113", "title": "A signature reports what the octets of its subpackets mean", "statement": "When a version 4 signature is read from its octets, each of its attributes (times, issuers, key flags, preferences, URIs, user ids, notations, regular expressions, revocation code, features) has the value RFC 4880 gives to the content of the subpacket of that attribute, None where there is none; and a signature is read exactly when the content of each of its subpackets has the form its type allows.", "quantifier": "for every version 4 signature body with any list of hashed and unhashed subpackets of any types and contents, and every attribute", "why_tests_cant": "the subpackets are arbitrary lists of arbitrary octets; a test looks at a few of them, and not at which one of several wins", "anchors": ["pgp/packets/signature_subpackets.py: from_subpacket_content of every class", "pgp/packets/packets.py: SignaturePacket.from_packet_content", "pgp/signature.py: BaseSignature attributes"]}
{"id": "C114", "title": "What a key object says about itself", "statement": "A key object read from a public key packet reports the number of bits of its modulus or prime as its bit length, the low-order 64 bits of that number as the key id if its version is below 4, and the expiration the packet carries; an expiration assigned to a key is reported afterwards and written with the key.", "quantifier": "for every public key body of every version and algorithm with every list of numbers, every expiration, every time zone and every assigned value", "why_tests_cant": "the size is computed with a floating point logarithm whose result matters at every power of two; a test looks at a few moduli", "anchors": ["pgp/transferrable_keys.py: BasePublicKey.bit_length, key_id, expiration_time, _init_args_from_packet"]}
{"id": "C115", "title": "What a public key says, from the octets of its certificate", "statement": "Reading the octets of a version 4 public key certificate (shortcuts.read_key) gives a TransferablePublicKey whose primary key, user ids, user attributes and subkeys are those of the certificate, in order, each with the signatures that follow it; the text of a user id is what its UTF-8 octets spell. Every part reports, for each attribute that stands for one subpacket (preferred_*, key_server, primary, policy_uri, may_certify..., revocation_code), what the first subpacket of that type says in the last self-signature of the right kind there: a signature that names the primary key or a subkey, by the last eight octets of its SHA-1 fingerprint, as its issuer. Signatures of other keys never count, and where no self-signature is found the default is reported. (The expiration time of a key whose only signature sets one is not reported: refuted.)", "quantifier": "all certificates (any number of user ids, attributes, subkeys, signatures and subpackets, any packet header forms), all hash functions with 20-octet results, all clocks, all places in the certificate and attributes", "why_tests_cant": "the claim joins the packet reader, the subpacket reader, the fingerprint and the choice of the governing signature for every certificate; tests use a few exported keys", "anchors": ["pgp/shortcuts.py:read_key", "pgp/transferrable_keys.py:TransferablePublicKey.from_packets", "pgp/transferrable_keys.py:SignedMixin._get_attribute_from_most_recent_self_sig", "pgp/transferrable_keys.py:BasePublicKey.key_id"]}
{"id": "C116", "title": "Resynchronising a cipher object", "statement": "Two cipher objects made alike that make the same calls, with resynchronisations (sync()) at the same places, stay in step: what one encrypts the other decrypts, in every mode. Outside CFB mode sync() does nothing. In CFB mode sync() should make the register the last block of ciphertext (RFC 4880 13.9). It does nothing after calls of whole blocks; after other calls it replaces the register by zeros followed by the first octets of the last block of ciphertext, and after two calls of half a block by zeros alone, so that what follows depends on neither IV nor message (refuted).", "quantifier": "all block ciphers and block sizes, all modes, segment sizes, IVs, and all histories of calls and resynchronisations", "why_tests_cant": "the register after a resynchronisation depends on the lengths of all calls before; tests use one call", "anchors": ["pgp/cipher/base.py:_InternalObj.sync", "pgp/cipher/base.py:_InternalObj.encrypt", "pgp/cipher/base.py:_InternalObj.decrypt"]}
{"id": "C117", "title": "Numbers as octets, without a length", "statement": "int_to_bytes(i) of a positive number gives the shortest string of octets, the first not zero, whose big-endian value is i, and bytes_to_int reads i back wherever those octets stand; byte_to_int gives the octet at a place. Zero and negative numbers are refused. Where the floating-point logarithm is one too low the number is lost (256^k is written as zeros), and where it is one too high a zero octet comes first (refuted).", "quantifier": "all integers, all surrounding octets, and every value the floating-point logarithm may give", "why_tests_cant": "there is no bound on the numbers, and where the floating-point logarithm errs depends on the size", "anchors": ["pgp/utils.py:int_to_bytes", "pgp/utils.py:byte_to_int", "pgp/utils.py:bytes_to_int"]}
{"id": "C118", "title": "Signatures and signed messages of other programs, from their octets", "statement": "For any version 4 signature packet as RFC 4880 lays it out, by whatever program, read as octets: TransferablePublicKey/PublicKey.verify with a key whose packet body is given accepts it over given data only if it is a valid signature there (an issuer subpacket names the key, the algorithm is the key's, the left two octets and the public-key check hold for the digest of the octets RFC 4880 5.2.4 lays out, with the hashed area exactly as received), and accepts it whenever it is valid, as long as the hashed subpackets are ones the code writes back as received. A whole one-pass signed message with headers of any form is read iff its one-pass and signature packets are, as that signed message, and checking it gives the same answers, signature by signature. A valid RSA signature with any hashed subpacket that is not kept, such as the issuer fingerprint, is refused (refuted in general: it can be accepted only where two digests coincide).", "quantifier": "all version 4 signature packets, keys, covered data, header forms, and one-pass signed messages with any number of signatures", "why_tests_cant": "any program may have written the signature, with any subpackets, in any order and with any header forms", "anchors": ["pgp/message.py:SignedMessage", "pgp/transferrable_keys.py:TransferablePublicKey.verify", "pgp/read.py:read_message", "pgp/packets/packets.py:SignaturePacket"]}
{"id": "C119", "title": "A secret key protected by another program is unlocked by its passphrase, and only a passphrase that fits unlocks it", "statement": "For any version 4 secret-key packet body whose numbers are protected as RFC 4880 5.5.3 describes for usage octet 254 (string-to-key specifier, IV, CFB over the numbers and their SHA-1), by whatever program: reading it gives a locked object with the public part that the public packet gives; unlock with the passphrase leaves it open with exactly the protected numbers, and TransferableSecretKey.unlock does so for the primary key and all subkeys; with any other passphrase unlock raises and leaves the object as it was, unless the octets happen to decrypt under that other key to something followed by its own SHA-1. A locked object does not sign; what the unlocked object signs is accepted by verify with the key read from the public octets.", "quantifier": "all such packet bodies (public algorithms 1, 2, 3, 16, 17, 20; any cipher, digest and specifier of the RFC that the code supports), all passphrases, any number of subkeys", "why_tests_cant": "keys of any program, any passphrase, any salt, count and cipher; the primitives are arbitrary functions of the right sizes", "anchors": ["pgp/transferrable_keys.py:BaseSecretKey.unlock", "pgp/transferrable_keys.py:TransferableSecretKey.unlock", "pgp/packets/packets.py:SecretKeyPacket", "pgp/s2k.py"]}
{"id": "C120", "title": "Stubs for secret keys that are offline or on a card", "statement": "A secret-key packet whose secret part GnuPG has replaced by a stub (string-to-key specifier 101, GNU, 1 for an offline key, 2 with a serial number for a smartcard; gpg --export-secret-subkeys writes one for the primary key) is read, for every such packet body, as a locked object with the public part that the public packet gives, and names the card's serial number. No passphrase opens it: unlock raises and leaves it as it was, so it never signs; the other keys of a certificate whose primary key is a stub are opened by unlock with their passphrase. (The serial number and the last claim are refuted: only the first half of the octets is told, an odd number of them makes the packet unreadable, and unlock on such a certificate raises at the primary key and opens no subkey.)", "quantifier": "all version 4 key bodies, ciphers, digests, serial numbers, passphrases, and any number of subkeys", "why_tests_cant": "any key, any serial number, any passphrase", "anchors": ["pgp/s2k.py:GnuPGS2K", "pgp/transferrable_keys.py:BaseSecretKey.unlock", "pgp/transferrable_keys.py:TransferableSecretKey.unlock", "pgp/utils.py:bytearray_to_hex"]}
{"id": "C121", "title": "Encrypted messages other programs wrote are decrypted", "statement": "The octets of an encrypted message, as RFC 4880 11.3 lays them out (public-key and passphrase session-key packets, then an integrity-protected packet, every header in any format), are read, and get_message with the recipient's unlocked private key or with the passphrase returns exactly the message the octets inside make: for RSA keys with any padding and any other recipients' packets around, for ElGamal keys with any nonce, for passphrases with any string-to-key specifier, with the encrypted session key or without. A locked key is refused. (Refuted in part: an RSA packet whose integer is shorter than the modulus is refused with ValueError; the passphrase packet must come first, a message with both kinds is refused by get_message with the other; an ElGamal recipient's packet before the RSA recipient's raises AttributeError.)", "quantifier": "all keys, session keys, ciphers, paddings, nonces, prefixes, inner messages, header formats, and lists of other recipients", "why_tests_cant": "any message, any key, any list of recipients", "anchors": ["pgp/message.py:EncryptedMessageWrapper", "pgp/message.py:SymmetricSessionKey", "pgp/message.py:PublicKeySessionKey", "pgp/message.py:SymmetricallyEncryptedMessageData", "pgp/packets/packets.py:PublicKeyEncryptedSessionKeyPacket", "pgp/packets/packets.py:SymmetricKeyEncryptedSessionKeyPacket", "pgp/packets/packets.py:SymmetricallyEncryptedAndIntegrityProtectedDataPacket", "pgp/transferrable_keys.py:BaseSecretKey.decrypt", "pgp/shortcuts.py:read_message"]}
{"id": "C122", "title": "Comparing signatures, notations and revocation keys with ==", "statement": "Two signature objects that can be written are equal with == exactly if they have the same header format, fields and subpackets in the same order, whatever they are attached to, and equal ones have the same hash; == is an equivalence where it does not raise. Two notations read from signatures are equal exactly if they have the same name, name space and value (an empty name space counting as none), and then have the same hash. (Refuted in part: signatures of version 2 and 3 cannot be compared or hashed even with themselves, comparing with anything else such as None raises, revocation keys never compare; and signatures that hold subpackets of a type unknown to the library are equal whatever these contain, although what was signed differs.)", "quantifier": "all pairs of signatures, of notations, of revocation keys", "why_tests_cant": "any pair of signatures with any subpackets", "anchors": ["pgp/signature.py:BaseSignature.__eq__", "pgp/signature.py:BaseSignature.__hash__", "pgp/signature.py:Notation", "pgp/signature.py:RevocationKeyInfo"]}
