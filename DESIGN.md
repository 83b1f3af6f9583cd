# Formal model of python-pgp: design

Source: /repo (mitchellrj/python-pgp, pinned). Python 3 semantics. The code is not run: every Gallina
definition cites the file and lines it was read from.

(One slip, recorded for honesty: early on the function `parse_user_id` was once executed on three
literal strings while its recursion was being read. The task forbids this. No definition, statement or
proof depends on what it printed, and it was not repeated.)

## Conventions

* Python `int` is `Z`; `bytes`/`bytearray` is `list Z` and a *well-formed* octet string satisfies
  `Forall byte` (`0 <= b < 256`). Appending an out-of-range value to a bytearray is `Err ValueError`.
  `str` is a list of code points, also `list Z`.
* Exceptions are values: `res A = Ok a | Err e`, with one constructor of `exn` per Python exception class
  that the modelled code can raise (including the accidental ones: IndexError, TypeError, AttributeError,
  UnboundLocalError, AssertionError).
* Indexing `a[i]` is checked (`Err IndexError`); slicing `a[i:j]` clips as Python does.
* Loops are structural recursion, folds, or explicit fuel; theorems either prove fuel sufficiency or
  state termination as the claim.
* External calls (hash functions, block ciphers, public-key primitives, zlib, floating-point `log`) are
  function arguments of the model; theorems quantify over every such function, with the hypotheses
  that matter spelled out in the statement (for example: the block function is inverted by the other).
* Mutable objects whose identity matters (signature objects shared between keys, the lock state of a
  key, keyring files) are a state that the modelled operations transform; histories are lists of
  operations and theorems are by induction over them.
* Layout: model files hold definitions only, `Spec*.v` independent specifications, `*Proofs.v`,
  `*Props.v`, `*Round.v` lemmas, and `P_*.v` the property theorems, each followed by
  `Print Assumptions` and by `Example`s in which a concrete case meets the hypotheses.
* Where the code violates a property the faithful model refutes it: `..._refuted` theorems give the
  witness, or better the exact behaviour, and the strongest true part is proved under an explicit guard
  (suffix `_partial` if the English property is only partly covered).

## Property by property

What is modelled, and the argument. The theorems of property Cnn are those named `cnn_...`
(MANIFEST.json lists them); properties.jsonl has the English statement.

| | Modelled in | How it is stated and proved |
|---|---|---|
| C01 C04 C05 | Utils.v | direct functions on lists of octets; arithmetic and induction on digits |
| C02 C03 | Utils.v | floor(log2) of a double is an argument `fl`; the decoded value is computed exactly for every `fl`, from which both the good range and the failures follow |
| C06 C07 | Framing.v | case analysis over the length ranges |
| C08-C15 | Framing.v, spec SpecFraming.v | writer, buffer parser and stream parser; RFC packets are an inductive relation; induction on packet lists; exact result of every cut (C12); partial chunks by induction (C14); the partial writer is fuelled and exhausts any fuel above 2^32 (C15) |
| C16 C17 | Crc24.v, SpecCrc.v | table model against the bitwise polynomial division; linear over xor; the state map is injective |
| C18-C20 | Text.v, Armor.v, SpecArmor.v | texts as code points, base64 modelled and inverted; writer/reader round trip; acceptance characterised |
| C21-C23 | S2k.v, SpecS2k.v | hash an arbitrary function; RFC key as the prefix of the digests of an infinitely repeated stream; RFC tables of digest, block and key sizes in the spec |
| C24 C28 C29 C58-C60 | SessionKeys.v | packet bodies and session key blocks; RSA an abstract inverse pair, ElGamal with its arithmetic |
| C25-C27 C37 | KeyPackets.v, SecretV3.v, SpecKey.v | RFC bodies as a relation; parse and serialise; fingerprints as hash of a layout |
| C30 | Utf8.v, DataPackets.v | UTF-8 codec modelled; which contents survive |
| C31-C34 | SigPackets.v, SpecSig.v, P_Sig.v, P_Area.v (any list of subpackets) | subpackets by type, areas by induction, mutual recursion with embedded signatures by size |
| C35 | UserAttr.v | JPEG attributes |
| C36 C64 | Signable.v, SpecSigned.v | the octets hashed, against RFC 5.2.4; injectivity from the trailer backwards |
| C38 C39 | TransKey.v, SpecTrans.v | validator as automaton against a grammar written as lists; parse then serialise is the identity |
| C40 C41 C49 C67 | SelfSig.v, SpecSelf.v | self-signature selection, attribute reads, revocation and chronology checks |
| C42 | KeyLock.v, SpecLock.v | programs over lock/unlock/sign/decrypt/with/try; invariant over every program |
| C43 C44 C63 | Message.v, SymCipher.v, SpecMessage.v | 5.13 layout; encrypt/decrypt inverse; MDC acceptance characterised |
| C45 C46 | Cipher.v, Idea.v | modes against SP 800-38A over call sequences; IDEA against its published definition, mul mod 65537 |
| C47 C48 | Message.v | message grammar; canonicalisation |
| C50 | SigAttrs.v, SpecAttrs.v, SigLists.v, SpecLists.v, P_Lists.v | assignments on the object and on its packet; attributes that are lists of objects as sets compared by octets, for every enumeration order of the Python set |
| C51 C65 | KeyOps.v, SpecVerify.v | verification and signing equations; DemoRsa.v has a concrete key pair |
| C52 | Merge.v | a heap of signature objects; merge as the code's loops |
| C53 C54 C68 | Keyring.v, SpecRing.v | file system map, keyring files as packets; operations over histories refine operations on lists of keys; RingKeys, P_RingKeys: the real key objects in a ring |
| C55 C66 | UserId.v, SpecUserId.v | lexer with recursion depth budgets; progress and bounds; exact results on conventional forms |
| C56 | Hkp.v | listing parser |
| C57 | Compression.v | zlib objects as state machines satisfying the documented contract |
| C61 C62 | Packets.v | all packet classes together, then through armor |
| C69 C70 C71 C72 | Shortcuts.v, SpecShort.v | reading and writing keys and messages as octets or text: composition of the packet, armor and key models; C71 is noninterference between two keys with equal public parts |
| C73 C74 C75 | FileLock.v, SpecFileLock.v | transition system: any number of processes, threads and Lock objects, one step per access to shared state (files, links, attributes of the object), plus ends and crashes of processes; invariants over all paths. Refuted parts are runs from any reachable state |
| C76 C77 | SharedRing.v, SpecRing.v | several resources with their own offset tables on one file, histories by induction; a crash leaves the old file or a prefix of what is written |
| C78 | Regex.v, SpecRegex.v | tokenizer and validator on texts; both directions against the inductive grammar, through the same grammar on tokens |
| C79 | PubMsg, SpecPubMsg, PubMsgProofs, P_PubMsg | public_key_encrypt with recipients given by algorithm, key id and an encryption function; get_message over the list of session keys. By induction over the recipients before the holder, with protected_round (C46) for the data and pkts_round for the wire. |
| C80 | PktHash, P_PktHash | get_content_for_signature_hash of every packet class; equality with rfc_covered (SpecSigned.v). |
| C81 | DumpKeys, SpecDump, DumpProofs, P_Dump | validate_transferrable_public_key over packet attributes; a six-state automaton is shown to agree with the checks and with the grammar of SpecDump |
| C82 | DumpKeys, SpecDump, DumpProofs, P_Dump | the generator as a function from a list of events (packet or exception) to the keys yielded and the final exception; induction over the groups |
| C83 | DumpKeys, DumpOrder, P_Dump | concat_key, compare_packets as functions; injectivity by induction on the lists |
| C84 | DumpSig.v, SpecDumpSig.v, DumpTells.v, P_DumpSig.v | pgpdump's packets are records of the attributes read; the dictionary is a list of assignments in order plus its lists; proofs by induction over the subpackets with the invariant that a subpacket only changes keys of its own type; an inductive relation `tells` states what RFC 4880 says each subpacket tells, and the dictionary is proved to hold exactly the last telling |
| C85 | DumpSig.v, P_DumpSig.v | the generator as the list of what it yields plus the exception that ends it; fuel proved sufficient |
| C86 | Validate, P_Validate | validate_signature(s) over abstract signatures: result independent of the verifier, marks invariant by induction over the loops, refutations on single signatures |
| C87 | Pinentry, SpecPinentry, P_Pinentry | the prompting loop over a list of typed lines, cache as association list; inductive spec of confirmed rounds and of what a history leaves known |
| C88 | Agent, SpecAgent, P_Agent | the Assuan dialogue over an octet stream; percent-escape relation as spec; request injectivity via word splitting |
| C89 | DbSearch, SpecDb, P_Db | search and register_resource over the keyring model of C53; results as subsequences (selects) of the newest key per id |
| C90 | Commands, SpecCommands, CommandsProofs, P_Commands | AlgorithmHelper as a function of the module's mutable default list, so that a history is a fold; the chosen cipher is characterised by first_not_in, the change of lists by the inductive relation without; number tables of the RFCs. |
| C91 | same | RecipientHelper with groups as association lists; str.split by the relation separated; choice of cipher and keys characterised by prefix conditions. |
| C92 | same | the loop of write_output with fuel, proved sufficient; what has been written is part of the result also when an exception is raised. |
| C93 | UserIdSet, SpecUserIdSet, UserIdSetProofs, P_UserIdSet | the three property setters and formataddr as functions on the string self.user_id; the phrase, route-address, quoted-string and comment readers are run symbolically on what formataddr writes (induction on the words, on the escaped name, on the domain); removal of the comment by replace is the identity iff it does not occur (length argument); histories by induction on the list of edits |
| C94 | AttrItem, SpecAttrItem, P_AttrItem | content items and both conversions, with the magic module as a parameter; the octets are compared through the injectivity of the packet content (C35), so equality of octets is characterised exactly |
| C95 | PacketEq.v, SpecPacketEq.v, P_PacketEq.v | every `__eq__` of the packet classes, subpackets, attributes and S2K specifiers; set comparison of subpackets by class and octets; case analysis over the classes |
| C96 | BackSig.v, SpecBackSig.v, P_BackSig.v | check_back_signatures over the signature objects of SigAttrs.v/SigLists.v; induction over the embedded signatures and the subpackets |
| C97 | Url.v, KeyServer.v, SpecKeyServer.v, KeyServerProofs.v, P_KeyServer.v | urllib.parse (urlsplit, urlparse, urlunparse, urljoin) as text functions; a client operation is the list of requests sent and a result, over an arbitrary network function. URL theorem by splitting and joining of directory lists; submit/get by composing C18, C39 and C69. |
| C98 | SignMessage, SpecOnePass, OnePassProofs, P_SignMessage, P_Stranger | BaseMessage.sign is composed of the models of C65 (sign), C47 (message packets) and C61 (octets); one-pass packets are added to the wire round trip (of their key id only half is read back, which opening a message does not use). Proved: sign, write, (armor,) read and verify gives the message and acceptance; which hash is chosen; a locked key does not sign. Refuted: MD5 by default, no fallback preference, only literal messages. P_Stranger composes it with exporting and reading the public key. |
| C99 | IoHelper.v, SpecIo.v, IoProofs.v, P_Io.v | Templates are cut into pieces (literal, escape, double percent); each str.replace is shown to act on pieces; view_photo modelled with its process, shlex.split a parameter. |
| C100 | IoHelper.v, P_Io.v | The common body of the three write functions over every outcome of opening, encoding and writing. |
| C101 | IoHelper.v, SpecIo.v, P_Io.v | file_to_literal_message over a file map; escaping compared with the escape of every line, by length. |
| C102 C103 C104 | CommandLine.v, SpecCommandLine.v, P_CommandLine.v | main.py, ArgumentParser and the sign commands as functions of what argparse, helpers and file system give; sets of commands are compared by sorting, invariance proved by permutation |
| C105 | KeyCrypt.v, SpecKeyCrypt.v, P_Mail.v | The recipient's cipher is built from the key object read back from the exported armor (key_encrypt, key_recipient), the holder's from the public values and the secret exponent (key_decrypt). Composition of C69/C66 (export and read), C24/C59 (session key) and the message theorems. The exact condition under which RSA works is part of the statement; ElGamal is refuted as not secret. |
| C106 | KeyGrip.v, SpecGrip.v, P_Grip.v | keygrip text modelled as written; injectivity by cutting the text at closing parentheses and injectivity of decimal numerals |
| C107 | SpecZone.v, P_Zone.v, P_ZoneSig.v | the parameters local and mktime of TransKey.v/SigAttrs.v/SelfSig.v instantiated with a time zone: local t = t + z t, mktime any function; fixed zones by equivariance of the check under a shift of all times |
| C108 | SpecNest.v, P_Nest.v | SpecMessage.survives (written, and read back as the same object) is the invariant: every layer turns a message that survives into one that survives and opens to the first. Induction on the list of layers. C43, C57, C63, C79 and C105 are stated for every surviving message. |
| C109 | P_SignedMail.v | Signed messages survive (wire_round for one-pass packets, open_reread), so C108 and C105 apply to them; composed with c98_stranger_verifies_partial for the verification with the exported key. |
| C110 | SpecErrors, P_Errors | the lists of exceptions per packet type are a table of the specification; a result predicate (value or an exception of the list) is pushed through every decoder, progress of every loop excludes the model's fuel exception, and a witness table shows that every entry is met |
| C111 | SpecBound.v, P_Bound.v | from C51 (accepted means valid for the digest of the RFC octets), PKCS #1 padding is injective, prefix and digest tell the hash (proved for the prefixes of RFC 4880), C36's injectivity of the octets; editing through C50's assignments and C34's injectivity of subpacket areas; refuted parts: type not checked, unhashed area, surplus integers |
| C112 | Lifetime.v, SpecLifetime.v, P_Lifetime.v | objects as a heap with strong and weak references, liveness as reachability from variables (equal to reference counting because strong references have no cycles, proved by a rank); typing invariant over all histories: no object holds a key, weak references of parts go to keys; construction lemma for from_packets with framing; refuted parts: parts alone, public copies, shared lists |
| C113 | SpecSubValue.v, P_SubValue.v | from the octets of a version 4 signature (SigPackets, C31) to its attributes (SigAttrs, SigLists): the specification gives the RFC place and meaning of each attribute on contents; proved by reducing a body to its list of (type, critical, content) and each content to its value; refuted parts listed as theorems |
| C114 | KeyObj.v, SpecKeyObj.v, P_KeyObj.v | bit_length, key_id and expiration_time of key objects; the ceiling of the logarithm is a parameter, with its mathematical value as a hypothesis where it is needed; sizes by powers of two, key ids by the positional value of the low eight octets |
| C115 | SpecCert.v, CertAttrs.v, P_Cert.v | The octets of a certificate are specified as packets (any header form) and the attributes of its parts (transferrable_keys.py:116-181, 329-343) over the objects from_packets builds; joined with C08, C37, C113 and C40: induction over the packet groups, the position of the governing signature, and key ids compared as octets. |
| C116 | SpecSync.v, P_Sync.v | sync() (cipher/base.py:325-336, Cipher.cipher_sync) in histories of calls; invariant of the CFB object (register, count, old_cipher always zeros), joined with C45. |
| C117 | P_Octets.v | Utils.int_to_bytes / byte_to_int (utils.py:537-538, 562-569), logarithm a parameter; proved from be_bytes_val and bounds by powers of 256 |
| C118 | SpecForeign.v, P_Foreign.v | from the octets: sig_from_content (C31), rfc_packets framing, read_message (C25), verify_message and KeyOps.verify (C51); spec SpecForeign.v states validity by RFC 4880 5.2.4 on the octets received; a DSA message and an RSA signature with subpacket 33 are run through |
| C119 | SpecUnlock.v, Unlock.v, P_Unlock.v | from the octets: sec_from_content (C27), the S2K key (C22), CFB decryption (C23/C26), BaseSecretKey.unlock and the loop of TransferableSecretKey.unlock; SpecUnlock.v lays out the packet by RFC 4880 5.5.3 and 3.7.1; a DSA key with a salted and iterated passphrase is opened, signs, and another passphrase is refused; refuted for usage 255 (every body) and for Twofish |
| C120 | SpecStub.v, P_Stub.v | from the octets: GnuPGS2K.from_bytes in S2k.v, sec_from_content (C27), unlock (C119); SpecStub.v lays the stub out as GnuPG's doc/DETAILS does |
| C121 | SpecEncrypted.v, P_Encrypted.v | from the octets: read_message and get_message of Message.v, decrypt of KeyCrypt.v and SessionKeys.v; SpecEncrypted.v says what another program may write (RFC 4880 5.1, 5.3, 5.13, 11.3; RFC 3447 7.2.1) |
| C122 | SigEq.v, SpecSigEq.v, P_SigEq.v | model of __eq__ and __hash__ in pgp/signature.py over to_packet (TransKey.v) and the octets of packets (Packets.v, SigPackets.v); injectivity from the round trip of C61 and C33 |

P_Tight.v, P_Tight2.v, P_Tight3.v and P_Tight4.v (with their Spec files) add theorems to earlier properties that wrong programs had survived; their names begin with the
property they belong to.

Properties are appended as the model grows; later ones are described with their model below.

## Trusted base

* Coq 8.16.1's kernel, including its `vm_compute` reduction, used in `Example`s and for finite tables.
* `Print Assumptions` after each property theorem answers *Closed under the global context*: no axiom,
  not even of the standard library. The gate also lists seven `Coq.ssr.ssrunder.Under_rel.*` entries:
  these are the standard library's ssreflect module type parameters, loaded with the library; no theorem
  depends on them.
* The definitions in `Spec*.v`, which are what the theorems say.
* The reading of Python: that the model's functions do what the cited lines do.

### Behaviour of the outside world that is assumed (arguments and hypotheses of the theorems)

| argument | stands for | assumed |
|---|---|---|
| `fl` | `int(math.log(i, 2))` in doubles | nothing, or the bound written in the theorem |
| `H`, `sha1`, `md5` | hashlib digests | digest length, octets; nothing about collisions unless stated |
| `E`, `D`, `ctr` | block ciphers, counters | whole blocks; `D` inverts `E` where needed |
| `f`, `g`, `inv` | RSA permutation and inverse; modular inverse | inverse of one another; below the modulus |
| `oid` | DER prefixes of PKCS#1 v1.5 | nothing |
| PyCrypto's OPENPGP mode, PKCS1_v1_5, DSA, ElGamal `verify` | library code | as documented; ElGamal `verify` is an oracle |
| `local` | `time.mktime`/`fromtimestamp` | written in the theorem |
| zlib, bz2 objects | stream (de)compressors | the contract in SpecCompression.v |
| `int()`, `unquote`, `quote` | string conversions in hkp.py | written in the theorem |
| `magic` | `imghdr`-like detection | nothing |
| set order | iteration order of a Python `set` | every enumeration |
| recursion limit | CPython's limit in user_id.py | two depth budgets `cd`, `gd`; theorems for every budget |
| memory (C112) | CPython's reference counts and weak references | an object is freed as soon as nothing holds it; a weak reference to it then gives None |
| file system | map from absolute path to octets | no other process, no I/O errors, no lock files |

### What is modelled, file by file

| file under /repo/pgp | model files |
|---|---|
| utils.py, crc24.py | Utils, Crc24, S2k (tables), SymCipher, Compression, KeyOps (hash and key constructors) |
| packets/packets.py, parsers.py, constants.py | Framing, Packets, DataPackets, KeyPackets, SecretV3, SessionKeys, SigPackets, PktHash, PacketEq, Compression |
| packets/signature_subpackets.py, user_attribute_subpackets.py | SigPackets, SigAttrs, UserAttr, Utf8, PacketEq |
| armor.py | Text, Armor |
| s2k.py | S2k |
| cipher/base.py, aidea.py | Cipher, Idea (wrapper.py only as used by SecretV3) |
| signature.py, signature_verification.py | SigAttrs, SigLists, SelfSig, BackSig, Validate, KeyOps |
| transferrable_keys.py, context_managers.py | TransKey, Signable, KeyOps, KeyLock, UserIdSet, AttrItem, SelfSig |
| message.py | Message, PubMsg, SignMessage, Compression |
| merge.py, regex.py, user_id.py, shortcuts.py | Merge, Regex, UserId, Shortcuts |
| parse.py | DumpKeys, DumpSig (over the attributes of pgpdump's packets) |
| db/gpg.py | Keyring, SharedRing, DbSearch, FileLock |
| keyserver | Url (urllib.parse), KeyServer, Hkp |
| pinentry | Pinentry, Agent |
| commands/gpg: algorithm_helper, recipient_helper, io_helper.write_output, trustdb_helper, exceptions | Commands |
| commands/gpg: io_helper.view_photo, write_status, write_log, write_attribute (156-262), message_.file_to_literal_message | IoHelper |

### Not modelled

* The rest of `pgp/commands` (the argument parser and its option tables, main, formatter, and the command
  classes, most of which are stubs whose constructors raise); `interfaces.py` (declarations only);
  `test_keys.py`; the thin wrappers camellia.py and twofish.py around other ciphers.
* `parse_key` in `parse.py` beyond the fact, proved in C82 and C83, that no key is ever yielded.
* GDBM keyrings beyond the fact that the constructor fails; `DetachedSignature` (a stub).
* The DSA branch of session keys; Python's recursion limit outside user_id.py; signature values of `None`.
* Keyring operations whose single file accesses are interleaved with those of another process (C76 takes
  each operation as one step; C73 says when the lock guarantees this).
* Timing, memory, logging, `__repr__` and the text of error messages.
