#!/usr/bin/env python3
"""Regenerates /verif/properties.jsonl (one JSON object per line)."""
import json
P = []
U, K, Z, T, D, I, R, W = ("python/src/keyczar/" + f for f in (
    "util.py", "keys.py", "keyczar.py", "keyczart.py", "keydata.py", "keyinfo.py", "readers.py", "writers.py"))
def p(title, statement, quantifier, why, *anchors):
    P.append(dict(id="C%02d" % (len(P) + 1), title=title, statement=statement, quantifier=quantifier,
                  why_tests_cant=why, anchors=list(anchors)))

p("Base64 web-safe round trip",
  "Base64WSDecode(Base64WSEncode(s)) returns exactly s and never raises.",
  "every byte string s of every length", "There are infinitely many byte strings; the tail case depends on length mod 3 and on every byte value.",
  U + ":Base64WSEncode", U + ":Base64WSDecode")
p("Base64 output is canonical, unpadded and URL safe",
  "Base64WSEncode(s) contains only [A-Za-z0-9_-], has length ceil(4*len(s)/3), no padding, and two different inputs never have the same encoding.",
  "every byte string s, every pair of byte strings", "Injectivity quantifies over pairs of unbounded inputs.",
  U + ":Base64WSEncode")
p("Base64 decoding ignores whitespace",
  "Inserting or removing spaces, CR and LF anywhere in the text handed to Base64WSDecode changes neither the decoded bytes nor whether it raises.",
  "every text and every placement of whitespace", "The set of texts and placements is unbounded.",
  U + ":Base64WSDecode")
p("Base64 decoding rejects malformed text",
  "Base64WSDecode raises Base64DecodingError for every text containing a character that is neither alphabet, padding nor whitespace, and for every text whose length without whitespace is 1 mod 4; it raises nothing else, so distinct texts in canonical form have distinct decodings.",
  "every input text", "Rejection must hold for all malformed inputs, not for the few junk strings a test lists.",
  U + ":Base64WSDecode")
p("Big-endian integer conversions",
  "BytesToLong(BigIntToBytes(n)) = n for n >= 0; BigIntToBytes(BytesToLong(s)) is s without its leading zero bytes; PadBytes and TrimBytes never change the represented integer; IntToBytes(n) is the 4-byte big-endian form of n mod 2^32.",
  "every integer n, every byte string s", "Unbounded integers and strings.",
  U + ":BigIntToBytes", U + ":BytesToLong", U + ":IntToBytes", U + ":PadBytes", U + ":TrimBytes")
p("Bit string conversions",
  "BinToBytes(BytesToBin(s)) = s; BytesToBin(s) has 8*len(s) digits; IntToBin(n) is the binary numeral of n without leading zeros.",
  "every byte string s, every n >= 0", "Unbounded inputs.", U + ":BinToBytes", U + ":BytesToBin", U + ":IntToBin", U + ":_PadByte")
p("Length-prefixed packing round trip",
  "Unpacking at the offset where PackByteArray(a) starts returns a and the offset just behind it, whatever surrounds it; UnpackMultipleByteArrays(PackMultipleByteArrays(*as)) = as; packing is injective; arrays of 2^31 bytes or more are refused by packing.",
  "every byte array, every list of arrays, every surrounding prefix and suffix", "Unbounded arrays, lists and contexts.",
  U + ":PackByteArray", U + ":UnpackByteArray", U + ":PackMultipleByteArrays", U + ":UnpackMultipleByteArrays")
p("Unpacking hostile data terminates",
  "UnpackMultipleByteArrays returns or raises on every input, so a peer-supplied session blob cannot hang the process.",
  "every byte string", "Non-termination for one crafted 4-byte length cannot be observed by a finite test and needs all inputs.",
  U + ":UnpackMultipleByteArrays", U + ":UnpackByteArray", Z + ":_Session.LoadPackedKey")
p("Xor algebra",
  "Xor has the length of the longer argument, is commutative, and for equal lengths is an involution (Xor(Xor(a,m),m) = a); shorter arguments are zero-extended on the left.",
  "every pair of byte strings", "Unbounded inputs.", U + ":Xor", U + ":PadBytes")
p("MGF1 mask generation",
  "MGF(seed, n) has exactly n bytes, is the MGF1-SHA1 mask (concatenation of SHA1(seed || counter) truncated to n), masks of different lengths agree on their common prefix, and a length above 2^32*20 is refused.",
  "every seed and every length", "Unbounded lengths; the block boundary cases recur for every multiple of 20.",
  U + ":MGF", U + ":Hash", U + ":IntToBytes")
p("EMSA-PKCS1-v1_5 encoding",
  "For every supported RSA size MakeEmsaMessage(msg, size) is 01 FF..FF 00 DigestInfo(SHA1(msg)) with exactly size/8-1 bytes, and two messages have the same encoding only if their SHA-1 digests are equal.",
  "every message and every valid RSA size", "Unbounded messages.", U + ":MakeEmsaMessage")
p("OAEP round trip",
  "Decrypting a ciphertext made by RSA Encrypt recovers the message for every message that fits (len <= k-42), every seed, even when leading zero bytes of the encoded block were dropped by the bignum conversion; longer messages are refused.",
  "every message, every 20-byte seed, every modulus length", "The dropped-zeros case has probability 2^-8 per extra byte, so random tests practically never reach the deeper branches.",
  K + ":RsaPublicKey.__Encode", K + ":RsaPrivateKey.__Decode")
p("DSA signature encoding",
  "ParseDsaSig(MakeDsaSig(r, s)) = (r, s) and MakeDsaSig is injective; a byte string that is not a two-element ASN.1 sequence of integers makes DSA Verify return False.",
  "all integers r, s; all byte strings", "Unbounded integers, all malformed inputs.", U + ":MakeDsaSig", U + ":ParseDsaSig", K + ":DsaPublicKey.Verify")
p("PKCS8 and X.509 key encodings round trip",
  "ParsePkcs8(ExportRsaPkcs8(p)), ParsePkcs8(ExportDsaPkcs8(p)), ParseX509(ExportRsaX509(p)) and ParseX509(ExportDsaX509(p)) return exactly the exported parameters.",
  "all parameter values", "Unbounded integers of every length (DER length forms change at 128 bytes, 256 bytes, ...).",
  U + ":ParsePkcs8", U + ":ExportRsaPkcs8", U + ":ExportDsaPkcs8", U + ":ParseX509", U + ":ExportRsaX509", U + ":ExportDsaX509")
p("PKCS5 padding",
  "Padding always appends between 1 and 16 bytes, yields a multiple of 16, and removing the padding gives the original data; two different messages never pad to the same string.",
  "every byte string", "Unbounded inputs.", K + ":AesKey._Pad", K + ":AesKey._UnPad")
p("HMAC verification is exactly equality of tags",
  "HmacKey.Verify(m, sig) is True iff sig is byte-for-byte the tag Sign(m); hence exactly one signature per message is accepted and truncated, extended or altered tags are refused.",
  "every key, message and candidate signature", "A missed byte position or a length shortcut in the accumulator loop shows up only on specific inputs.",
  K + ":HmacKey.Verify", K + ":HmacKey.VerifySignedData")
p("AES encrypt/decrypt round trip and wire format",
  "For every AES key (128/192/256 bit), IV and plaintext, Decrypt(Encrypt(p)) = p and the ciphertext is Header(5)|IV(16)|CBC(16*(len/16+1))|HMAC(20) with the HMAC over everything before it.",
  "every key, IV and plaintext", "All lengths, all values.", K + ":AesKey.Encrypt", K + ":AesKey.Decrypt")
p("AES ciphertext integrity: authenticate before decrypting",
  "Decrypt returns a plaintext only if the trailing 20 bytes are the HMAC of all preceding bytes; otherwise it raises InvalidSignatureError (or ShortCiphertextError when shorter than header+IV+tag) and this outcome does not depend on the AES key or on the padding, so there is no padding oracle.",
  "every key and every byte string", "Quantifies over all forgeries.", K + ":AesKey.Decrypt", Z + ":Crypter.Decrypt")
p("RSA encryption round trip between key pair halves",
  "A message encrypted with the public half is recovered by the private half of the same pair, for generated keys and for keys re-read from JSON.",
  "every valid key pair, message that fits, seed", "All keys and messages; CRT parameter order mistakes only fail on reloaded keys.",
  K + ":RsaPublicKey.Encrypt", K + ":RsaPrivateKey.Decrypt", K + ":RsaPrivateKey.Read", K + ":RsaPrivateKey.Generate")
p("RSA signatures",
  "Sign gives a signature of exactly size/8 bytes that Verify accepts with the private and the public half; Verify accepts sig iff sig^e mod n is the EMSA encoding of the message.",
  "every valid key pair and message", "All keys and messages; short signatures have probability 1/256.",
  K + ":RsaPrivateKey.Sign", K + ":RsaPublicKey.Verify")
p("DSA signatures",
  "Verify accepts every signature made by Sign with the same key pair.", "every valid key pair, message and per-message secret k",
  "All keys, messages and k.", K + ":DsaPrivateKey.Sign", K + ":DsaPublicKey.Verify")
p("Key serialisation round trip",
  "Reading the JSON text of a key gives a key with the same type, size, material and identifier, whatever the order of the JSON members.",
  "every key of all six types", "All key values.", K + ":AesKey.Read", K + ":HmacKey.Read", K + ":RsaPrivateKey.Read", K + ":DsaPrivateKey.Read", K + ":ReadKey")
p("Key identifiers",
  "The identifier is 4 bytes (6 Base64 characters), headers are 5 bytes starting with version 0, a private key and its public half have the same identifier, and leading zero bytes of public parameters do not change it.",
  "every key", "All key values.", K + ":Key.Header", K + ":Key._Hash", K + ":PrivateKey._Hash", K + ":RsaPublicKey._Hash")
p("The two AES back ends agree",
  "Encrypt produces the same bytes with the PyCrypto adaptor and with the M2Crypto EVP adaptor.",
  "every key, IV and plaintext", "All inputs; only one of the back ends is installed in a given test run.",
  K + ":AesKey.AESAdaptor", K + ":AesKey.EVPAdaptor", K + ":AesKey.__CreateCipher")
p("Key generation respects type and size",
  "GenKey/AddVersion refuse sizes not listed for the type and refuse public key types; otherwise the new key has the requested size and the right number of key bytes.",
  "every key type, size and random tape", "All sizes and randomness.", K + ":GenKey", I + ":KeyType.IsValidSize", Z + ":GenericKeyczar.AddVersion")
p("At most one primary version",
  "After any sequence of AddVersion, Promote, Demote and Revoke at most one version is PRIMARY, and the set's primary key is exactly that version's key.",
  "every initial key set accepted by the reader and every operation sequence", "All histories.",
  Z + ":GenericKeyczar.AddVersion", Z + ":GenericKeyczar.Promote", Z + ":GenericKeyczar.Demote", Z + ":GenericKeyczar.Revoke", Z + ":Keyczar.__init__")
p("Version numbers",
  "A new version is numbered one above the largest known number, existing numbers never change, and a number is never reused for another key.",
  "every history, including reload between operations", "All histories.", Z + ":GenericKeyczar.AddVersion", D + ":KeyMetadata.AddVersion")
p("Status life cycle",
  "Promote, Demote and Revoke move exactly the named version along INACTIVE<->ACTIVE<->PRIMARY (promoting to primary demotes the old primary to ACTIVE), refuse every other transition, and an operation that raises leaves the key set unchanged.",
  "every key set state and version number", "All states and arguments.", Z + ":GenericKeyczar")
p("Identifier collisions",
  "In a key set grown by AddVersion, looking a key up by its identifier returns that version's key: identifiers are pairwise distinct.",
  "every history and every random tape", "Collisions have probability 2^-32 per pair; tests never see them.", Z + ":GenericKeyczar.AddVersion", Z + ":Keyczar.__init__", Z + ":Keyczar.GetKey")
p("Rotation keeps old data readable",
  "Data encrypted (or signed) under a version stays decryptable (verifiable) after any sequence of AddVersion/Promote/Demote and Revoke of other versions.",
  "every history, message and version", "All histories.", Z + ":Crypter.Decrypt", Z + ":Verifier.Verify", Z + ":GenericKeyczar")
p("Revocation destroys access",
  "After a version is revoked, data protected under it is refused with KeyNotFoundError and its key is no longer written, exported or used.",
  "every key set and version", "All histories.", Z + ":GenericKeyczar.Revoke", Z + ":GenericKeyczar.Write", Z + ":GenericKeyczar.PublicKeyExport", T + ":Revoke")
p("New data is always protected with the primary key",
  "Encrypt and Sign use the primary version's key and no other; with no primary version they raise NoPrimaryKeyError.",
  "every key set", "All key sets.", Z + ":Encrypter.Encrypt", Z + ":Signer.Sign", Z + ":Keyczar.GetKey")
p("Purpose enforcement",
  "A Crypter opens only DECRYPT_AND_ENCRYPT sets, an Encrypter those and ENCRYPT, a Signer only SIGN_AND_VERIFY, a Verifier those and VERIFY; any other set, and any encrypted set without an encrypted reader, is refused before a key is read.",
  "every reader and metadata", "All readers.", Z + ":Keyczar.__init__", Z + ":IsAcceptablePurpose")
p("Header dispatch and error taxonomy",
  "Decrypt and Verify raise Short*Error below 5 bytes, BadVersionError iff byte 0 is not 0, KeyNotFoundError iff bytes 1-4 name no key, and otherwise use exactly the named key.",
  "every key set and input", "All inputs.", Z + ":Keyczar._ParseHeader", Z + ":Crypter.Decrypt", Z + ":Verifier.Verify")
p("Detached signatures round trip",
  "Verify(data, Sign(data)) is True for every signer, and with an exported public verifier.",
  "every signing key set, data, randomness", "All inputs.", Z + ":Signer.Sign", Z + ":Verifier.Verify")
p("Unversioned signatures",
  "UnversionedVerifier.Verify is True iff some key of the set verifies the bare signature.", "every key set, data and signature",
  "All key sets.", Z + ":UnversionedVerifier.Verify", Z + ":UnversionedSigner.Sign")
p("Attached signatures round trip and nonce binding",
  "AttachedVerify(AttachedSign(data, nonce), nonce) = data; a blob made for one (data, nonce) is accepted for another nonce only on a collision of the two texts that are signed: of the HMAC under the key, of SHA-1 for RSA keys, and for DSA keys of the powers of g that SHA-1 determines.",
  "every data, nonce and key", "All inputs.", Z + ":Signer.AttachedSign", Z + ":Verifier.AttachedVerify")
p("Unambiguous signed payload",
  "The bytes covered by a signature determine the data and the nonce: a signature made by Sign or AttachedSign for one (data, nonce) can never validate for another.",
  "all pairs of (data, nonce) inputs", "A collision of the encoding must be found among unbounded pairs.", Z + ":Signer.__InternalSign", Z + ":Verifier.__InternalVerify", U + ":PackByteArray")
p("AttachedVerify is robust against malformed blobs",
  "On every blob AttachedVerify returns the data, returns None or raises a KeyczarError, and it accepts only blobs of the documented form Header|len(M)|M|Sig.",
  "every byte string", "All malformed inputs.", Z + ":Verifier.AttachedVerify", U + ":UnpackByteArray")
p("Session encryption round trip",
  "SessionDecrypter(crypter, material).Decrypt(SessionEncrypter.Encrypt(p)) = p for the material of the same session.",
  "every plaintext, key set and randomness", "All inputs.", Z + ":SessionEncrypter", Z + ":SessionDecrypter", Z + ":_Session")
p("Signed session round trip and rejection",
  "SignedSessionDecrypter recovers p from SignedSessionEncrypter output, and returns None, without decrypting, whenever the attached signature does not verify.",
  "every plaintext, key sets, randomness, and every altered message", "All inputs.", Z + ":SignedSessionEncrypter", Z + ":SignedSessionDecrypter")
p("Metadata serialisation round trip",
  "KeyMetadata.Read(str(kmd)) equals kmd for every name (any Unicode text), purpose, type, flag and version list.",
  "every metadata value", "Unbounded names and version lists; escapes and surrogate pairs.", D + ":KeyMetadata.Read", D + ":KeyMetadata.__str__", D + ":KeyVersion.Read")
p("Key set persistence round trip",
  "Writing a key set to a location and reading it back gives the same versions, statuses, primary, keys and identifiers, with and without an encrypter.",
  "every key set", "All key sets.", Z + ":GenericKeyczar.Write", W + ":FileWriter", R + ":FileReader", R + ":EncryptedReader")
p("Encrypted key sets",
  "With an encrypter every key file holds only ciphertext made by it, the metadata says encrypted, and the set can be opened only through an EncryptedReader with a crypter that decrypts it.",
  "every key set and encrypter", "All key sets.", W + ":FileWriter.WriteKey", R + ":EncryptedReader.GetKey", Z + ":Keyczar.__init__")
p("Public key export",
  "PublicKeyExport writes, for every version, the public half with the same version number, status and identifier under the matching VERIFY/ENCRYPT purpose, refuses symmetric sets, and what it writes does not depend on private key material.",
  "every asymmetric key set", "Non-interference quantifies over pairs of key sets.", Z + ":GenericKeyczar.PublicKeyExport")
p("create never overwrites",
  "keyczart create writes fresh metadata with the type implied by purpose and the asymmetric flag, and leaves an existing key set untouched (raising KeyczarError).",
  "every file system state and flags", "All states.", T + ":Create", W + ":FileWriter.WriteMetadata")
p("The on-disk key set refines an abstract key ring",
  "Any sequence of keyczart create/addkey/promote/demote/revoke commands leaves a loadable key set on disk whose versions, statuses and keys are those of a simple abstract key ring, and failing commands change nothing.",
  "every command sequence", "All histories.", T + ":AddKey", T + ":Promote", T + ":Demote", T + ":Revoke", T + ":CreateGenericKeyczar", T + ":UpdateGenericKeyczar")
p("Crash consistency of key set updates",
  "If the process dies at any point while a command rewrites the key set, the set on disk is afterwards loadable and is the old or the new one, and no key material is lost.",
  "every crash point in every command", "Tests do not kill the process between two system calls.", Z + ":GenericKeyczar.Write", U + ":WriteFile", W + ":FileWriter", T + ":Revoke")
p("Concurrent key management",
  "Two keyczart commands running at the same time on one location have the effect of running them one after the other.",
  "every interleaving", "Schedules are not controllable in a unit test.", T + ":AddKey", T + ":UpdateGenericKeyczar", U + ":WriteFile")
p("Command line handling",
  "keyczart executes a command only if all its flags are well formed; a malformed or unknown flag or a non-integer version/size changes nothing on disk.",
  "every argument vector", "All argument vectors.", T + ":main", T + ":GetCommand", T + ":GetFlag")
p("Streaming encryption is chunking independent",
  "Whatever the sizes of the write() calls, after flush() the output stream holds exactly the ciphertext Encrypt would produce for the concatenated data and the same IV; hence Decrypt recovers it.",
  "every sequence of writes", "All chunkings.", K + ":EncryptingStreamWriter", K + ":AesKey._NoPadBufferSize")
p("Streaming decryption is schedule independent",
  "For every valid ciphertext and every behaviour of the input stream (short reads, None for no data yet), and every sequence of read(chars) calls, the concatenated results up to end of stream are exactly the plaintext.",
  "every ciphertext, input schedule and read sequence", "All schedules.", K + ":DecryptingStreamReader")
p("Streaming decryption detects truncation and tampering",
  "A DecryptingStreamReader never reports a clean end of stream unless the HMAC over the whole stream verified; a too short stream raises ShortCiphertextError.",
  "every input stream", "All forgeries and truncation points.", K + ":DecryptingStreamReader.read")
p("Streaming Base64 writer is chunking independent",
  "After flush the Base64 stream writer has emitted exactly Base64WSEncode of the concatenated input, whatever the chunking.",
  "every sequence of writes", "All chunkings.", U + ":IncrementalBase64WSStreamWriter", U + ":BufferedIncrementalBase64WSEncoder")
p("Streaming Base64 reader is schedule independent",
  "The Base64 stream reader delivers exactly Base64WSDecode of the whole text, whatever the sizes of the reads and of the underlying chunks, also for text reflowed with line breaks.",
  "every text, read sequence and chunking", "All schedules.", U + ":IncrementalBase64WSStreamReader", U + ":BufferedIncrementalBase64WSDecoder")
p("Non-blocking input never hangs the Base64 reader",
  "read() on a non-blocking stream with no data returns None, as documented, instead of spinning.",
  "every input schedule", "Non-termination is not observable by a finite test.", U + ":IncrementalBase64WSStreamReader.read")
p("Stream life cycle",
  "After close() every operation raises ValueError and writes nothing; flush() may be repeated without changing the output.",
  "every operation sequence", "All histories.", K + ":EncryptingStreamWriter.flush", K + ":EncryptingStreamWriter.close", K + ":DecryptingStreamReader.close")
p("Reader and writer factories",
  "CreateReader/CreateWriter return a file reader/writer iff the location exists and otherwise raise KeyczarError; static, encrypted and mock readers are never chosen for a location.",
  "every location and file system", "All states.", R + ":CreateReader", W + ":CreateWriter")
p("The library works on the Python it is written for",
  "On Python 3, the only Python whose grammar accepts these sources, a key set with at least one key can be opened and used to encrypt, decrypt, sign and verify.",
  "every reader, key set and input", "A universally quantified failure; tests need the missing dependencies and show single failures only.",
  U + ":Base64WSEncode", U + ":Hash", U + ":RandBytes", K + ":Key._Hash", K + ":AesKey.Generate", Z + ":Keyczar.__init__")
p("Key comparison",
  "Two keys compare equal only if they hold the same secret material, so a loop over the keys of a set can rely on equality.",
  "every pair of keys", "All pairs of keys.", K + ":Key.__eq__")
p("Generated test sets",
  "When keyczart genkey succeeds, each of the six listed directories holds a key set with two versions, the second primary, both with fresh keys of different identifiers, and the files 1.out and 2.out that the set itself decrypts or verifies; the two signing sets are also exported, and the exported sets accept the same signatures. It writes nowhere else, and it succeeds whenever the directories exist.",
  "every location, file system and random outcome", "All disks and all random outcomes.", T + ":GenKeySet", T + ":Clean", T + ":UseKey", T + ":_CreateCrypter")
p("genkey does not destroy keys",
  "Running keyczart genkey on a location that already holds keys keeps the old keys until the new set is complete.",
  "every location, file system and crash point", "Tests do not kill the process between two system calls.", T + ":GenKeySet", T + ":Clean")
p("Standard key file formats",
  "Exported private keys are PKCS #8 structures and exported public keys X.509 subject public keys, in the distinguished encoding of X.690, with the parameters in the order of RFC 8017 (RSA) and RFC 3279 (DSA), and the object identifiers of those standards, in Base64; the parsers accept exactly those structures. The export succeeds when all parameters are there and raises KeyError when one is missing.",
  "every set of parameters and every text", "Infinitely many parameters and texts; a parser and printer that agree with each other can both deviate from the standard.",
  U + ":ExportRsaPkcs8", U + ":ExportRsaX509", U + ":ExportDsaPkcs8", U + ":ExportDsaX509", U + ":ParsePkcs8", U + ":ParseX509")
p("Key and metadata files have the documented format",
  "A generated key is written as a JSON object with exactly the documented members (mode, size, aesKeyString, hmacKey; hmacKeyString; modulus, publicExponent; publicKey, privateExponent, primeP, primeQ, primeExponentP, primeExponentQ, crtCoefficient; p, q, g, y; x), numbers in Base64, and the values of an RSA key follow RFC 8017 (crtCoefficient inverse to primeQ modulo primeP); metadata likewise. Conversely every text with those members, in any order and layout, with leading zeros or further members, is read as the key with those values.",
  "every generated key, every metadata object, every JSON text", "Infinitely many texts; reading back what was written cannot see a name or convention changed on both sides.",
  K + ":AesKey.Read", K + ":HmacKey.Read", K + ":RsaPrivateKey.Read", K + ":RsaPrivateKey.__str__", K + ":DsaPrivateKey.Read", D + ":KeyMetadata.Read", D + ":KeyMetadata.__str__")
p("Exporting public keys does not harm the private set",
  "keyczart pubkey changes nothing outside the destination at any moment, so that the exported set goes on working as before, whether the command succeeds, fails or is interrupted.",
  "every location, destination, file system and crash point", "All file systems and all points at which the process can be killed.", T + ":PubKey", Z + ":GenericKeyczar.PublicKeyExport")
p("Encryption of a key set is all or nothing",
  "In every history of keyczart commands, each with or without --crypter, either all keys of the set are stored plain, or all of them are ciphertext of one set of crypting keys and the metadata says so; a command with the wrong kind of access is refused and changes nothing, and a failing command leaves a set that opens.",
  "every history of commands, crypting keys and random outcomes", "All histories.", T + ":AddKey", T + ":UpdateGenericKeyczar", Z + ":GenericKeyczar.Write", R + ":EncryptedReader.GetKey")
p("Failing system calls are reported",
  "If a system call fails while a keyczart command runs (a full disk, a lost permission, an I/O error), the command ends with an error and never reports success, opening a key set gives the set that is there or an error, and the key set is afterwards the old one or the new one.",
  "every command, file system and combination of failing calls", "Tests do not inject failures at every call; the combinations are unbounded.",
  U + ":WriteFile", U + ":ReadFile", R + ":FileReader.GetMetadata", W + ":FileWriter.WriteMetadata", W + ":FileWriter.WriteKey", T + ":main")
p("Tests with the in-memory reader speak for the tool",
  "keyczart run against a MockReader does what it does on a directory: for every history of commands each command ends in the same way, and afterwards the mock and the directory open as the same key set; what the mock answers about statuses, keys and exported public keys is true of that set.",
  "every history of commands, every key set and random outcome", "The tests themselves use the mock, so they cannot show that it behaves like the disk.",
  R + ":MockReader", T + ":UpdateGenericKeyczar", T + ":CreateGenericKeyczar", T + ":Create", T + ":Revoke", Z + ":GenericKeyczar.PublicKeyExport")
p("A key set serves all processes through its life",
  "A key set made by keyczart serves every process that opens it later: whatever command lines are run in between (for this or other sets, succeeding or failing), data encrypted or signed by one process is decrypted and verified by every process that opens the set afterwards, with any class for its purpose, until the key is revoked; processes that open a public set exported meanwhile verify the signatures, and what they encrypt reaches the private key; after a successful revocation everything made with the key is refused with KeyNotFoundError.",
  "every history of command lines between the processes, every datum, key and random outcome", "All histories of commands, run by different processes at different times.",
  T + ":main", Z + ":Crypter.Read", Z + ":Signer.Read", Z + ":Verifier.Read", Z + ":Encrypter.Read", Z + ":GenericKeyczar.Write")
p("Ciphertexts, tags and identifiers follow the standards",
  "What a key writes can be read and checked by any other implementation of the standards, and the other way round: AES keys encrypt with AES (FIPS 197) in CBC mode with padding and an HMAC-SHA1 tag over everything before it, and decrypt just such messages; HMAC keys make and accept the tags of RFC 2104 with SHA-1 (FIPS 180) and no others; key identifiers are the first four bytes of the SHA-1 digest of the documented material; RSA and DSA signatures are over that digest.",
  "every key of every supported size, message, IV and ciphertext", "Test vectors fix finitely many points; an algorithm changed for encryption and decryption alike passes every round trip test.",
  K + ":AesKey.Encrypt", K + ":AesKey.Decrypt", K + ":HmacKey.Sign", K + ":HmacKey.Verify", K + ":AesKey._Hash", U + ":Hash", U + ":PrefixHash")
p("A metadata object is a map from numbers to versions",
  "However a metadata object is built up by reading, adding, removing and changing versions, it holds at most one version for each number; adding an unknown number appends it and answers True, adding a known one changes nothing and answers False; looking up, removing or changing a known number concerns that version alone, an unknown one is refused with KeyczarError and nothing changes; of several versions with one number in a file the first counts. Exactly the JSON texts with the five members, known names and well-formed versions are read; the others are refused with ValueError (not JSON), TypeError (no object), KeyError (a member missing) or KeyczarError (an unknown purpose, type or status).",
  "every metadata object, sequence of calls and metadata text", "All sequences of calls and all texts.",
  D + ":KeyMetadata.AddVersion", D + ":KeyMetadata.RemoveVersion", D + ":KeyMetadata.GetVersion", D + ":KeyMetadata.Read", D + ":KeyVersion.__SetStatus")
p("Outputs have the documented sizes",
  "The size of an output depends on the length of the data and the key alone: a ciphertext of an AES set, a session or an encrypting stream is 41 bytes and the data padded to the next larger multiple of 16; a ciphertext of an RSA set is at most the header and the modulus; signatures are the header and 20 bytes (HMAC), the modulus (RSA) or at most 48 bytes (DSA), attached signatures the data and its length more; text outputs have four characters for every three bytes, without padding characters.",
  "every key set, datum, nonce, encoding and random outcome", "Infinitely many lengths and random outcomes; sizes that vary with the random bytes are met once in hundreds of calls.",
  I + ":KeyType", I + ":CipherMode.GetOutputSize", K + ":AesKey.Encrypt", K + ":RsaPublicKey.Encrypt", Z + ":Signer.Sign", Z + ":Signer.AttachedSign", Z + ":UnversionedSigner.Sign", K + ":EncryptingStreamWriter")
p("Every random byte counts",
  "Two encryptions with one set, two streams or two sessions give equal results only if the data and all the random bytes drawn for them are equal, and two generated keys of one type and size are equal only if all the drawn material is: no random byte is dropped, overwritten or used twice.",
  "every pair of calls, data and random outcomes", "The pairs of random outcomes are unbounded; a test sees different outputs even if most of the randomness is thrown away.",
  K + ":AesKey.Encrypt", K + ":AesKey.Generate", K + ":HmacKey.Generate", K + ":RsaPublicKey.Encrypt", K + ":EncryptingStreamWriter", U + ":RandBytes")
p("Key and metadata files are read as JSON",
  "Every file that is a JSON text (RFC 8259, in UTF-8, with any white space, escapes and member order), whoever wrote it, is read as the one value it stands for, so that of two texts for the same value it does not matter which one is in the file; every other content is refused with ValueError (or its subclass UnicodeDecodeError), and the set does not open. Everything keyczar writes is such a text, in printable ASCII.",
  "every byte string in a file, every key and metadata object", "All byte strings; round trips only see the texts keyczar writes itself.",
  K + ":ReadKey", K + ":AesKey.Read", D + ":KeyMetadata.Read", D + ":KeyMetadata.__str__", Z + ":Keyczar.__init__")
p("A key set opens exactly if everything is there",
  "Opening a key set succeeds exactly if the metadata can be read, the class accepts its purpose, an encrypted set has an encrypted reader, at most one version is PRIMARY, and for every listed version, active or not, there is a readable key of the type of the set. It then has exactly the listed versions with their statuses and keys, an identifier finds the last listed version whose key has it, and no file has changed. Otherwise the error raised is that of the first step that fails: metadata, purpose, encryption, then the versions in their order.",
  "every class, reader, metadata and key texts, and file system", "All contents of a directory, and all answers a reader of the application may give.",
  Z + ":Keyczar.__init__", Z + ":Keyczar.IsAcceptablePurpose", Z + ":Keyczar.GetKey", R + ":FileReader.GetKey", R + ":CreateReader")
p("Refusals of symmetric keys take the same steps wherever the tag is wrong",
  "Checking a signature with an HMAC key, or refusing a ciphertext under an AES key, executes the same lines of the library and the same calls with arguments of the same lengths whatever bytes the tag, the data and the key hold: for two inputs of equal length with the same header there is no difference between tags wrong in the first byte, in the last byte or everywhere, so the steps do not tell how much of a guessed tag is right. A ciphertext with a wrong tag is refused before any of it is deciphered or its padding looked at.",
  "every pair of data, signatures and ciphertexts of equal length, every key set and key", "Leaks concern pairs of inputs; a test sees the answers and not the way they are reached.",
  K + ":HmacKey.VerifySignedData", K + ":HmacKey.Verify", K + ":AesKey.Decrypt", Z + ":Crypter.Decrypt", Z + ":Verifier.Verify")
p("RSA decryption accepts what encryption makes, and does not say why it refuses the rest",
  "An RSA private key decrypts a ciphertext to a plaintext only if encrypting that plaintext with some random bytes gives this ciphertext. All others are refused, with one error and in the same steps, so that someone who sends made-up ciphertexts learns nothing about their decryption.",
  "every key of every size, every byte string as ciphertext", "All byte strings; the accepted ones are a vanishing part, and the leaks are between pairs of refused ones.",
  K + ":RsaPrivateKey.Decrypt", K + ":RsaPublicKey.Encrypt", Z + ":Crypter.Decrypt")
p("Opening a key set while commands change it",
  "A process that opens a key set while keyczart commands change it gets the set as it was at one moment between the commands, or an error, and never a mixture of two of them or a version with the key of another. It does not disturb the commands.",
  "every key set, every sequence of addkey, promote, demote and revoke commands, every interleaving of their system calls with those of the reader, including reads of partly written files", "The interleavings, and the contents seen in the middle of a write, are out of reach of tests.",
  Z + ":Keyczar.__init__", R + ":FileReader.GetMetadata", R + ":FileReader.GetKey", W + ":FileWriter.WriteMetadata", W + ":FileWriter.WriteKey", T + ":UpdateKeyczar", T + ":Revoke")
p("Streams and sessions outlive the process and the primary key",
  "A stream that one process writes with a key set on disk, in any pieces, and flushes is given back in full by any process that opens the set later, decrypted at once or read as a stream from any channel in any sizes, and what was encrypted at once can be read as a stream; the material of a session, plain or signed, started with the set or with its exported public half gives a later process the session, whose messages it then decrypts and verifies. This holds whatever keyczart commands were run in between on the sets concerned, as long as the version used is not revoked.",
  "every history of command lines between the processes, every division of the data into writes and reads, every channel, every random outcome", "Histories of commands times schedules of the stream; each part alone is already unbounded.",
  Z + ":Encrypter.CreateEncryptingStreamWriter", Z + ":Crypter.CreateDecryptingStreamReader", K + ":EncryptingStreamWriter", K + ":DecryptingStreamReader", Z + ":SessionEncrypter", Z + ":SessionDecrypter", Z + ":SignedSessionEncrypter", Z + ":SignedSessionDecrypter", T + ":main")
p("The power fails during or after a command",
  "When the power fails, each file may hold what it held at any moment of its own, because nothing makes the system write the files in order or at once. A key set changed by keyczart commands then opens as it was before, between or after the commands, or it does not open; what opens is never put together from different states. Other directories are untouched, and a file of the set holds its old contents or the beginning of its new ones. No key that was in the set is lost with a command that has reported success.",
  "every key set, every sequence of addkey, promote, demote and revoke commands, every choice of a moment for each file", "Power failures and the orders in which a disk is written cannot be produced by a test, and the choices are as many as moments times files.",
  U + ":WriteFile", W + ":FileWriter.WriteMetadata", W + ":FileWriter.WriteKey", W + ":FileWriter.Remove", T + ":UpdateKeyczar", Z + ":Keyczar.__init__")
p("Commands that run at the same time",
  "When any number of keyczart commands change one key set at the same time, whatever opens meanwhile or afterwards has the name, purpose and type of the set, still has every version that none of the commands revokes, with its own key, and has under every number the key of that number or one that a command generated, never a mixture of keys. Nothing outside the set is touched. If the commands report success, the set can still be opened.",
  "every key set, every number of addkey, promote, demote and revoke commands, every interleaving of their system calls with each other and with those of a process that opens the set", "The interleavings of several writers are unbounded in number and cannot be forced by a test.",
  U + ":WriteFile", W + ":FileWriter.WriteMetadata", W + ":FileWriter.WriteKey", W + ":FileWriter.Remove", T + ":UpdateKeyczar", T + ":Revoke", Z + ":Keyczar.__init__")
p("Sessions do not disturb each other in one process",
  "The key set of a session is remembered from call to call. Whatever sessions were used before, each Encrypt and Decrypt on a session returns or raises what it does in a process that makes this call alone, and a key set is made at the first use only; any function decorated with Memoize behaves so. The key of a session leaves the memory of the process with the session.",
  "every history of calls on any sessions in one process, every memoized function", "Results that depend on what other sessions did before need particular histories; whether anything is ever released shows only in long-running processes.",
  U + ":Memoize", Z + ":_Session.crypter", Z + ":SessionEncrypter.Encrypt", Z + ":SessionDecrypter.Decrypt", Z + ":SignedSessionEncrypter.Encrypt", Z + ":SignedSessionDecrypter.Decrypt")
p("Plug-in readers and writers",
  "Every .py file in the backends directory and in the directories of KEYCZAR_BACKEND_PATHS is imported, once, before a reader or writer is made. A location that exists is served by the file reader and writer whatever is plugged in; another one by the first plugged-in class, in the order of import, that accepts it; KeyczarError is raised if none does. The Read method of every class finds its reader in this way. A plug-in is not lost, and one that is broken does not keep key sets in directories from being opened.",
  "every set of directories, files and classes, every history of calls while they change, every location", "All combinations of files, search paths and modules already loaded.",
  U + ":ImportAll", U + ":ImportBackends", R + ":CreateReader", W + ":CreateWriter", R + ":FileReader.CreateReader", W + ":FileWriter.CreateWriter")
p("Values of unexpected types in metadata and key files",
  "Metadata and key files whose values have the documented JSON types are read as documented. Of values with other types: names of purposes, types, statuses and modes and all key material must be strings, and version numbers must not be lists or objects, or the file is refused; versions whose numbers are equal in Python (1 and true) count as one; name and exportable may be anything; a set whose \"encrypted\" is anything but null, false, zero or empty is not opened by a reader that does not decrypt; a size that is not a valid number becomes the default one, and an opened key always has its type, a valid size and the identifier of its material. The keys of a set come from files in its own location.",
  "every JSON text as metadata and as key file, every reader and file system", "All JSON values in all places; malformed files are chosen by whoever can write them, not by the tests.",
  D + ":KeyMetadata.Read", D + ":KeyVersion.Read", D + ":KeyMetadata.AddVersion", K + ":ReadKey", K + ":AesKey.Read", K + ":RsaPrivateKey.Read", Z + ":Keyczar.__init__", R + ":FileReader.GetKey")
p("Cipher objects of the two cryptography libraries",
  "A cipher object made with M2Crypto behaves like one made with PyCrypto. Pieces of complete blocks, encrypted or decrypted one after the other, give with either library the AES-CBC encryption or decryption of the pieces joined, each output as long as its piece, and nothing is left at the end. Other pieces are refused by PyCrypto, which goes on as if they had not been given, and are kept by M2Crypto until their block is complete, final telling whether something is missing. A key or IV of a wrong length is never used. One object used in both directions works on independent chains.",
  "every key and IV, every sequence of calls with pieces of any number and length", "All divisions of the data into calls, all orders of calls; the libraries are alternatives of which a test run has one.",
  K + ":AesKey.AESAdaptor", K + ":AesKey.EVPAdaptor", K + ":AesKey._AesKey__CreateCipher")
p("What the text of a refusal tells",
  "The text of the exception with which a ciphertext or a signature is refused contains nothing but what its sender knows: its length, its first byte, and the identifier in it. For one input and one class of error the text is the same whatever the keys are, so that texts may be logged or returned to the sender.",
  "every key set in every state, every input, every decoder", "Equality of texts between all pairs of key sets that refuse all inputs; tests compare the class of the error at most.",
  "python/src/keyczar/errors.py", Z + ":Crypter.Decrypt", Z + ":Verifier.Verify", Z + ":Verifier.AttachedVerify", Z + ":UnversionedVerifier.Verify", K + ":RsaPrivateKey.Decrypt")
p("convert_keyset.py keeps the keys",
  "The script that makes key sets of old C++ versions readable in Java writes every number of an RSA or DSA key so that its bytes, read as two's complement, are the number the library reads, and changes nothing else in a key. The converted set opens with the classes that open the original, holds the same versions, and answers every call with the same result. Key files written by the library are always converted. Whenever the script is stopped or fails, nothing outside the destination has changed, and the metadata of the copy are written only after all of its keys. A set with a key that cannot be converted, an encrypted one for instance, is never completed. With one directory as source and destination a run that ends converts the keys and leaves the answers as they were, and an interruption damages at most one file, which can cost the set.",
  "every key set, every JSON text as key file, every moment at which the script is stopped, every call on the two sets", "All numbers with and without leading zeros, all calls with all arguments, all moments of an interruption.",
  "cpp/src/keyczar/keyczar_tool/convert_keyset.py:doit", "cpp/src/keyczar/keyczar_tool/convert_keyset.py:iterate_meta", "cpp/src/keyczar/keyczar_tool/convert_keyset.py:rewrite_key", "cpp/src/keyczar/keyczar_tool/convert_keyset.py:rewrite_inplace_rec", "cpp/src/keyczar/keyczar_tool/convert_keyset.py:b64_decode", K + ":ReadKey")
p("Text given as unicode",
  "In Python 2 a program may pass a unicode text wherever a string is expected. A text of ASCII characters is encrypted, signed, verified and decrypted as the byte string with the same characters: the result is the same, and what was made from the one is accepted for the other. A text or nonce with other characters is refused with UnicodeError at once; it is never encrypted or signed, and no signature of it is accepted.",
  "every text, data and nonce, every division of a stream into byte strings and texts, every key set and key type", "All texts, all mixtures of the two kinds, and all signatures and headers, whose bytes decide whether the two kinds can be joined.",
  Z + ":Encrypter.Encrypt", Z + ":Crypter.Decrypt", Z + ":Signer.Sign", Z + ":Signer.AttachedSign", Z + ":Verifier.Verify", Z + ":Verifier.AttachedVerify", Z + ":UnversionedSigner.Sign", Z + ":UnversionedVerifier.Verify", K + ":AesKey.Encrypt", K + ":RsaPublicKey.Encrypt", K + ":EncryptingStreamWriter.write", U + ":PackByteArray")
p("Nothing depends on the order of dictionary entries",
  "Python 2 lists the entries of a dictionary in no defined order, and the order may change with every change of the dictionary. Whatever the order, a key set opens or does not open; after opening, every history of adding, promoting, demoting and revoking versions ends call by call as it does with any other order, and the set then reached has the same versions with the same statuses and keys and answers every call alike, unversioned verification included; and the metadata it writes open as the same set. Metadata and key files with the same members in another order are read alike. This is so for sets whose keys have different identifiers: with two keys of one identifier the order decides which of them is used.",
  "every key set, every order of the entries of its dictionaries at every moment of every history of calls, every call on the sets reached, every order of the members in the files", "All permutations at all moments; a test run has the one order its interpreter happens to use.",
  Z + ":Keyczar.__init__", Z + ":Keyczar.versions", Z + ":GenericKeyczar.AddVersion", Z + ":GenericKeyczar.Promote", Z + ":GenericKeyczar.Demote", Z + ":GenericKeyczar.Revoke", Z + ":UnversionedVerifier.Verify", D + ":KeyMetadata.versions", D + ":KeyMetadata.__str__", D + ":KeyMetadata.Read", K + ":ReadKey")
p("One object shared by threads",
  "Threads that use one key set object at the same time, without locks, each get what they would get alone, and the object does not change. While other threads change the set, decryption, verification and, as long as no thread moves the primary version, encryption and signing that would have succeeded before still give the same result; no version number gets another key, a version disappears only if a thread revokes it, and one that no thread names keeps its status unless it was primary. One thread that adds a version while others promote, demote and revoke adds what it adds alone. Threads that change the set take turns as if each call were one step.",
  "every number of threads, every assignment of calls to them, every schedule of their accesses to the object, every key set in every state", "All interleavings of all calls; a test run has the few its scheduler happens to choose.",
  Z + ":GenericKeyczar.AddVersion", Z + ":GenericKeyczar.Promote", Z + ":GenericKeyczar.Demote", Z + ":GenericKeyczar.Revoke", Z + ":Keyczar.GetKey", Z + ":Keyczar._AddKey", Z + ":Encrypter.Encrypt", Z + ":Crypter.Decrypt", Z + ":Signer.Sign", Z + ":Signer.AttachedSign", Z + ":Verifier.Verify", Z + ":UnversionedVerifier.Verify", D + ":KeyMetadata.AddVersion", D + ":KeyMetadata.RemoveVersion")
p("What is accepted was made by the holders of the keys",
  "Whatever the holders of the keys were asked to encrypt and sign, in whatever order, in whatever processes and between whatever changes of the key set: what Decrypt returns for AES keys was given to Encrypt, which returned this very ciphertext, or the ciphertext carries a valid HMAC of a text for which the holders made none. A detached, attached or unversioned signature that is accepted for HMAC keys is for the data (and the nonce) the holders were asked to sign in this way, or for a text of the same bytes that they were asked to sign in another way, or is an HMAC they did not make; where only AttachedSign is offered, with nonces of one length, the second case cannot occur. What SignedSessionDecrypter.Decrypt returns in a session was sent in this session, or a signature is forged. With keys of other types the last case is a signature that the key accepts for a text the holders were not asked to sign.",
  "every list of calls to encrypt and sign, every state of the key set at each, every state at the time of the check, every input and codec", "All histories of requests an attacker may choose and all inputs they may then present; tests have a few requests and a few altered inputs.",
  Z + ":Crypter.Decrypt", Z + ":Encrypter.Encrypt", Z + ":Verifier.Verify", Z + ":Verifier.AttachedVerify", Z + ":Signer.Sign", Z + ":Signer.AttachedSign", Z + ":UnversionedVerifier.Verify", Z + ":UnversionedSigner.Sign", Z + ":SignedSessionEncrypter.Encrypt", Z + ":SignedSessionDecrypter.Decrypt", K + ":AesKey.Decrypt", K + ":HmacKey.Verify")
p("A call depends on the key it uses and on nothing else in the key set",
  "What Decrypt, Verify and AttachedVerify give, data or a refusal, is the same for two key sets that have the same key, or both none, under the header of what is presented: the other keys, the numbers and statuses of the versions, the names and purposes and whatever is stored beside this key do not matter. What Encrypt, Sign, AttachedSign and the unversioned signer give is the same for two key sets with the same primary key and the same random bytes. An unversioned verifier of HMAC keys accepts at least what a verifier with fewer of its keys accepts, and verifiers with the same keys give the same answers. Decrypting streams and sessions opened from their material depend on the key that their first bytes name, and encrypting streams and new sessions on the primary key.",
  "every pair of key sets, wherever they are read from and whatever is done with the objects, every call with every argument", "All contents of all other versions and files, all histories of the two objects and all inputs.",
  Z + ":Crypter.Decrypt", Z + ":Verifier.Verify", Z + ":Verifier.AttachedVerify", Z + ":UnversionedVerifier.Verify", Z + ":Encrypter.Encrypt", Z + ":Signer.Sign", Z + ":Signer.AttachedSign", Z + ":UnversionedSigner.Sign", Z + ":Keyczar._ParseHeader", Z + ":Keyczar.GetKey", Z + ":Keyczar.__init__", Z + ":SessionDecrypter.__init__", Z + ":SignedSessionDecrypter.Decrypt", K + ":DecryptingStreamReader.read")
open("/verif/properties.jsonl", "w").write("".join(json.dumps(x) + "\n" for x in P))
print(len(P))
