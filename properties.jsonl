{"id": "C01", "title": "Base64 web-safe round trip", "statement": "Base64WSDecode(Base64WSEncode(s)) returns exactly s and never raises.", "quantifier": "every byte string s of every length", "why_tests_cant": "There are infinitely many byte strings; the tail case depends on length mod 3 and on every byte value.", "anchors": ["python/src/keyczar/util.py:Base64WSEncode", "python/src/keyczar/util.py:Base64WSDecode"]}
{"id": "C02", "title": "Base64 output is canonical, unpadded and URL safe", "statement": "Base64WSEncode(s) contains only [A-Za-z0-9_-], has length ceil(4*len(s)/3), no padding, and two different inputs never have the same encoding.", "quantifier": "every byte string s, every pair of byte strings", "why_tests_cant": "Injectivity quantifies over pairs of unbounded inputs.", "anchors": ["python/src/keyczar/util.py:Base64WSEncode"]}
{"id": "C03", "title": "Base64 decoding ignores whitespace", "statement": "Inserting or removing spaces, CR and LF anywhere in the text handed to Base64WSDecode changes neither the decoded bytes nor whether it raises.", "quantifier": "every text and every placement of whitespace", "why_tests_cant": "The set of texts and placements is unbounded.", "anchors": ["python/src/keyczar/util.py:Base64WSDecode"]}
{"id": "C04", "title": "Base64 decoding rejects malformed text", "statement": "Base64WSDecode raises Base64DecodingError for every text containing a character that is neither alphabet, padding nor whitespace, and for every text whose length without whitespace is 1 mod 4; it raises nothing else, so distinct texts in canonical form have distinct decodings.", "quantifier": "every input text", "why_tests_cant": "Rejection must hold for all malformed inputs, not for the few junk strings a test lists.", "anchors": ["python/src/keyczar/util.py:Base64WSDecode"]}
{"id": "C05", "title": "Big-endian integer conversions", "statement": "BytesToLong(BigIntToBytes(n)) = n for n >= 0; BigIntToBytes(BytesToLong(s)) is s without its leading zero bytes; PadBytes and TrimBytes never change the represented integer; IntToBytes(n) is the 4-byte big-endian form of n mod 2^32.", "quantifier": "every integer n, every byte string s", "why_tests_cant": "Unbounded integers and strings.", "anchors": ["python/src/keyczar/util.py:BigIntToBytes", "python/src/keyczar/util.py:BytesToLong", "python/src/keyczar/util.py:IntToBytes", "python/src/keyczar/util.py:PadBytes", "python/src/keyczar/util.py:TrimBytes"]}
{"id": "C06", "title": "Bit string conversions", "statement": "BinToBytes(BytesToBin(s)) = s; BytesToBin(s) has 8*len(s) digits; IntToBin(n) is the binary numeral of n without leading zeros.", "quantifier": "every byte string s, every n >= 0", "why_tests_cant": "Unbounded inputs.", "anchors": ["python/src/keyczar/util.py:BinToBytes", "python/src/keyczar/util.py:BytesToBin", "python/src/keyczar/util.py:IntToBin", "python/src/keyczar/util.py:_PadByte"]}
{"id": "C07", "title": "Length-prefixed packing round trip", "statement": "Unpacking at the offset where PackByteArray(a) starts returns a and the offset just behind it, whatever surrounds it; UnpackMultipleByteArrays(PackMultipleByteArrays(*as)) = as; packing is injective; arrays of 2^31 bytes or more are refused by packing.", "quantifier": "every byte array, every list of arrays, every surrounding prefix and suffix", "why_tests_cant": "Unbounded arrays, lists and contexts.", "anchors": ["python/src/keyczar/util.py:PackByteArray", "python/src/keyczar/util.py:UnpackByteArray", "python/src/keyczar/util.py:PackMultipleByteArrays", "python/src/keyczar/util.py:UnpackMultipleByteArrays"]}
{"id": "C08", "title": "Unpacking hostile data terminates", "statement": "UnpackMultipleByteArrays returns or raises on every input, so a peer-supplied session blob cannot hang the process.", "quantifier": "every byte string", "why_tests_cant": "Non-termination for one crafted 4-byte length cannot be observed by a finite test and needs all inputs.", "anchors": ["python/src/keyczar/util.py:UnpackMultipleByteArrays", "python/src/keyczar/util.py:UnpackByteArray", "python/src/keyczar/keyczar.py:_Session.LoadPackedKey"]}
{"id": "C09", "title": "Xor algebra", "statement": "Xor has the length of the longer argument, is commutative, and for equal lengths is an involution (Xor(Xor(a,m),m) = a); shorter arguments are zero-extended on the left.", "quantifier": "every pair of byte strings", "why_tests_cant": "Unbounded inputs.", "anchors": ["python/src/keyczar/util.py:Xor", "python/src/keyczar/util.py:PadBytes"]}
{"id": "C10", "title": "MGF1 mask generation", "statement": "MGF(seed, n) has exactly n bytes, is the MGF1-SHA1 mask (concatenation of SHA1(seed || counter) truncated to n), masks of different lengths agree on their common prefix, and a length above 2^32*20 is refused.", "quantifier": "every seed and every length", "why_tests_cant": "Unbounded lengths; the block boundary cases recur for every multiple of 20.", "anchors": ["python/src/keyczar/util.py:MGF", "python/src/keyczar/util.py:Hash", "python/src/keyczar/util.py:IntToBytes"]}
{"id": "C11", "title": "EMSA-PKCS1-v1_5 encoding", "statement": "For every supported RSA size MakeEmsaMessage(msg, size) is 01 FF..FF 00 DigestInfo(SHA1(msg)) with exactly size/8-1 bytes, and two messages have the same encoding only if their SHA-1 digests are equal.", "quantifier": "every message and every valid RSA size", "why_tests_cant": "Unbounded messages.", "anchors": ["python/src/keyczar/util.py:MakeEmsaMessage"]}
{"id": "C12", "title": "OAEP round trip", "statement": "Decrypting a ciphertext made by RSA Encrypt recovers the message for every message that fits (len <= k-42), every seed, even when leading zero bytes of the encoded block were dropped by the bignum conversion; longer messages are refused.", "quantifier": "every message, every 20-byte seed, every modulus length", "why_tests_cant": "The dropped-zeros case has probability 2^-8 per extra byte, so random tests practically never reach the deeper branches.", "anchors": ["python/src/keyczar/keys.py:RsaPublicKey.__Encode", "python/src/keyczar/keys.py:RsaPrivateKey.__Decode"]}
{"id": "C13", "title": "DSA signature encoding", "statement": "ParseDsaSig(MakeDsaSig(r, s)) = (r, s) and MakeDsaSig is injective; a byte string that is not a two-element ASN.1 sequence of integers makes DSA Verify return False.", "quantifier": "all integers r, s; all byte strings", "why_tests_cant": "Unbounded integers, all malformed inputs.", "anchors": ["python/src/keyczar/util.py:MakeDsaSig", "python/src/keyczar/util.py:ParseDsaSig", "python/src/keyczar/keys.py:DsaPublicKey.Verify"]}
{"id": "C14", "title": "PKCS8 and X.509 key encodings round trip", "statement": "ParsePkcs8(ExportRsaPkcs8(p)), ParsePkcs8(ExportDsaPkcs8(p)), ParseX509(ExportRsaX509(p)) and ParseX509(ExportDsaX509(p)) return exactly the exported parameters.", "quantifier": "all parameter values", "why_tests_cant": "Unbounded integers of every length (DER length forms change at 128 bytes, 256 bytes, ...).", "anchors": ["python/src/keyczar/util.py:ParsePkcs8", "python/src/keyczar/util.py:ExportRsaPkcs8", "python/src/keyczar/util.py:ExportDsaPkcs8", "python/src/keyczar/util.py:ParseX509", "python/src/keyczar/util.py:ExportRsaX509", "python/src/keyczar/util.py:ExportDsaX509"]}
{"id": "C15", "title": "PKCS5 padding", "statement": "Padding always appends between 1 and 16 bytes, yields a multiple of 16, and removing the padding gives the original data; two different messages never pad to the same string.", "quantifier": "every byte string", "why_tests_cant": "Unbounded inputs.", "anchors": ["python/src/keyczar/keys.py:AesKey._Pad", "python/src/keyczar/keys.py:AesKey._UnPad"]}
{"id": "C16", "title": "HMAC verification is exactly equality of tags", "statement": "HmacKey.Verify(m, sig) is True iff sig is byte-for-byte the tag Sign(m); hence exactly one signature per message is accepted and truncated, extended or altered tags are refused.", "quantifier": "every key, message and candidate signature", "why_tests_cant": "A missed byte position or a length shortcut in the accumulator loop shows up only on specific inputs.", "anchors": ["python/src/keyczar/keys.py:HmacKey.Verify", "python/src/keyczar/keys.py:HmacKey.VerifySignedData"]}
{"id": "C17", "title": "AES encrypt/decrypt round trip and wire format", "statement": "For every AES key (128/192/256 bit), IV and plaintext, Decrypt(Encrypt(p)) = p and the ciphertext is Header(5)|IV(16)|CBC(16*(len/16+1))|HMAC(20) with the HMAC over everything before it.", "quantifier": "every key, IV and plaintext", "why_tests_cant": "All lengths, all values.", "anchors": ["python/src/keyczar/keys.py:AesKey.Encrypt", "python/src/keyczar/keys.py:AesKey.Decrypt"]}
{"id": "C18", "title": "AES ciphertext integrity: authenticate before decrypting", "statement": "Decrypt returns a plaintext only if the trailing 20 bytes are the HMAC of all preceding bytes; otherwise it raises InvalidSignatureError (or ShortCiphertextError when shorter than header+IV+tag) and this outcome does not depend on the AES key or on the padding, so there is no padding oracle.", "quantifier": "every key and every byte string", "why_tests_cant": "Quantifies over all forgeries.", "anchors": ["python/src/keyczar/keys.py:AesKey.Decrypt", "python/src/keyczar/keyczar.py:Crypter.Decrypt"]}
{"id": "C19", "title": "RSA encryption round trip between key pair halves", "statement": "A message encrypted with the public half is recovered by the private half of the same pair, for generated keys and for keys re-read from JSON.", "quantifier": "every valid key pair, message that fits, seed", "why_tests_cant": "All keys and messages; CRT parameter order mistakes only fail on reloaded keys.", "anchors": ["python/src/keyczar/keys.py:RsaPublicKey.Encrypt", "python/src/keyczar/keys.py:RsaPrivateKey.Decrypt", "python/src/keyczar/keys.py:RsaPrivateKey.Read", "python/src/keyczar/keys.py:RsaPrivateKey.Generate"]}
{"id": "C20", "title": "RSA signatures", "statement": "Sign gives a signature of exactly size/8 bytes that Verify accepts with the private and the public half; Verify accepts sig iff sig^e mod n is the EMSA encoding of the message.", "quantifier": "every valid key pair and message", "why_tests_cant": "All keys and messages; short signatures have probability 1/256.", "anchors": ["python/src/keyczar/keys.py:RsaPrivateKey.Sign", "python/src/keyczar/keys.py:RsaPublicKey.Verify"]}
{"id": "C21", "title": "DSA signatures", "statement": "Verify accepts every signature made by Sign with the same key pair.", "quantifier": "every valid key pair, message and per-message secret k", "why_tests_cant": "All keys, messages and k.", "anchors": ["python/src/keyczar/keys.py:DsaPrivateKey.Sign", "python/src/keyczar/keys.py:DsaPublicKey.Verify"]}
{"id": "C22", "title": "Key serialisation round trip", "statement": "Reading the JSON text of a key gives a key with the same type, size, material and identifier, whatever the order of the JSON members.", "quantifier": "every key of all six types", "why_tests_cant": "All key values.", "anchors": ["python/src/keyczar/keys.py:AesKey.Read", "python/src/keyczar/keys.py:HmacKey.Read", "python/src/keyczar/keys.py:RsaPrivateKey.Read", "python/src/keyczar/keys.py:DsaPrivateKey.Read", "python/src/keyczar/keys.py:ReadKey"]}
{"id": "C23", "title": "Key identifiers", "statement": "The identifier is 4 bytes (6 Base64 characters), headers are 5 bytes starting with version 0, a private key and its public half have the same identifier, and leading zero bytes of public parameters do not change it.", "quantifier": "every key", "why_tests_cant": "All key values.", "anchors": ["python/src/keyczar/keys.py:Key.Header", "python/src/keyczar/keys.py:Key._Hash", "python/src/keyczar/keys.py:PrivateKey._Hash", "python/src/keyczar/keys.py:RsaPublicKey._Hash"]}
{"id": "C24", "title": "The two AES back ends agree", "statement": "Encrypt produces the same bytes with the PyCrypto adaptor and with the M2Crypto EVP adaptor.", "quantifier": "every key, IV and plaintext", "why_tests_cant": "All inputs; only one of the back ends is installed in a given test run.", "anchors": ["python/src/keyczar/keys.py:AesKey.AESAdaptor", "python/src/keyczar/keys.py:AesKey.EVPAdaptor", "python/src/keyczar/keys.py:AesKey.__CreateCipher"]}
{"id": "C25", "title": "Key generation respects type and size", "statement": "GenKey/AddVersion refuse sizes not listed for the type and refuse public key types; otherwise the new key has the requested size and the right number of key bytes.", "quantifier": "every key type, size and random tape", "why_tests_cant": "All sizes and randomness.", "anchors": ["python/src/keyczar/keys.py:GenKey", "python/src/keyczar/keyinfo.py:KeyType.IsValidSize", "python/src/keyczar/keyczar.py:GenericKeyczar.AddVersion"]}
{"id": "C26", "title": "At most one primary version", "statement": "After any sequence of AddVersion, Promote, Demote and Revoke at most one version is PRIMARY, and the set's primary key is exactly that version's key.", "quantifier": "every initial key set accepted by the reader and every operation sequence", "why_tests_cant": "All histories.", "anchors": ["python/src/keyczar/keyczar.py:GenericKeyczar.AddVersion", "python/src/keyczar/keyczar.py:GenericKeyczar.Promote", "python/src/keyczar/keyczar.py:GenericKeyczar.Demote", "python/src/keyczar/keyczar.py:GenericKeyczar.Revoke", "python/src/keyczar/keyczar.py:Keyczar.__init__"]}
{"id": "C27", "title": "Version numbers", "statement": "A new version is numbered one above the largest known number, existing numbers never change, and a number is never reused for another key.", "quantifier": "every history, including reload between operations", "why_tests_cant": "All histories.", "anchors": ["python/src/keyczar/keyczar.py:GenericKeyczar.AddVersion", "python/src/keyczar/keydata.py:KeyMetadata.AddVersion"]}
{"id": "C28", "title": "Status life cycle", "statement": "Promote, Demote and Revoke move exactly the named version along INACTIVE<->ACTIVE<->PRIMARY (promoting to primary demotes the old primary to ACTIVE), refuse every other transition, and an operation that raises leaves the key set unchanged.", "quantifier": "every key set state and version number", "why_tests_cant": "All states and arguments.", "anchors": ["python/src/keyczar/keyczar.py:GenericKeyczar"]}
{"id": "C29", "title": "Identifier collisions", "statement": "In a key set grown by AddVersion, looking a key up by its identifier returns that version's key: identifiers are pairwise distinct.", "quantifier": "every history and every random tape", "why_tests_cant": "Collisions have probability 2^-32 per pair; tests never see them.", "anchors": ["python/src/keyczar/keyczar.py:GenericKeyczar.AddVersion", "python/src/keyczar/keyczar.py:Keyczar.__init__", "python/src/keyczar/keyczar.py:Keyczar.GetKey"]}
{"id": "C30", "title": "Rotation keeps old data readable", "statement": "Data encrypted (or signed) under a version stays decryptable (verifiable) after any sequence of AddVersion/Promote/Demote and Revoke of other versions.", "quantifier": "every history, message and version", "why_tests_cant": "All histories.", "anchors": ["python/src/keyczar/keyczar.py:Crypter.Decrypt", "python/src/keyczar/keyczar.py:Verifier.Verify", "python/src/keyczar/keyczar.py:GenericKeyczar"]}
{"id": "C31", "title": "Revocation destroys access", "statement": "After a version is revoked, data protected under it is refused with KeyNotFoundError and its key is no longer written, exported or used.", "quantifier": "every key set and version", "why_tests_cant": "All histories.", "anchors": ["python/src/keyczar/keyczar.py:GenericKeyczar.Revoke", "python/src/keyczar/keyczar.py:GenericKeyczar.Write", "python/src/keyczar/keyczar.py:GenericKeyczar.PublicKeyExport", "python/src/keyczar/keyczart.py:Revoke"]}
{"id": "C32", "title": "New data is always protected with the primary key", "statement": "Encrypt and Sign use the primary version's key and no other; with no primary version they raise NoPrimaryKeyError.", "quantifier": "every key set", "why_tests_cant": "All key sets.", "anchors": ["python/src/keyczar/keyczar.py:Encrypter.Encrypt", "python/src/keyczar/keyczar.py:Signer.Sign", "python/src/keyczar/keyczar.py:Keyczar.GetKey"]}
{"id": "C33", "title": "Purpose enforcement", "statement": "A Crypter opens only DECRYPT_AND_ENCRYPT sets, an Encrypter those and ENCRYPT, a Signer only SIGN_AND_VERIFY, a Verifier those and VERIFY; any other set, and any encrypted set without an encrypted reader, is refused before a key is read.", "quantifier": "every reader and metadata", "why_tests_cant": "All readers.", "anchors": ["python/src/keyczar/keyczar.py:Keyczar.__init__", "python/src/keyczar/keyczar.py:IsAcceptablePurpose"]}
{"id": "C34", "title": "Header dispatch and error taxonomy", "statement": "Decrypt and Verify raise Short*Error below 5 bytes, BadVersionError iff byte 0 is not 0, KeyNotFoundError iff bytes 1-4 name no key, and otherwise use exactly the named key.", "quantifier": "every key set and input", "why_tests_cant": "All inputs.", "anchors": ["python/src/keyczar/keyczar.py:Keyczar._ParseHeader", "python/src/keyczar/keyczar.py:Crypter.Decrypt", "python/src/keyczar/keyczar.py:Verifier.Verify"]}
{"id": "C35", "title": "Detached signatures round trip", "statement": "Verify(data, Sign(data)) is True for every signer, and with an exported public verifier.", "quantifier": "every signing key set, data, randomness", "why_tests_cant": "All inputs.", "anchors": ["python/src/keyczar/keyczar.py:Signer.Sign", "python/src/keyczar/keyczar.py:Verifier.Verify"]}
{"id": "C36", "title": "Unversioned signatures", "statement": "UnversionedVerifier.Verify is True iff some key of the set verifies the bare signature.", "quantifier": "every key set, data and signature", "why_tests_cant": "All key sets.", "anchors": ["python/src/keyczar/keyczar.py:UnversionedVerifier.Verify", "python/src/keyczar/keyczar.py:UnversionedSigner.Sign"]}
{"id": "C37", "title": "Attached signatures round trip and nonce binding", "statement": "AttachedVerify(AttachedSign(data, nonce), nonce) = data; a blob made for one (data, nonce) is accepted for another nonce only on a collision of the two texts that are signed: of the HMAC under the key, of SHA-1 for RSA keys, and for DSA keys of the powers of g that SHA-1 determines.", "quantifier": "every data, nonce and key", "why_tests_cant": "All inputs.", "anchors": ["python/src/keyczar/keyczar.py:Signer.AttachedSign", "python/src/keyczar/keyczar.py:Verifier.AttachedVerify"]}
{"id": "C38", "title": "Unambiguous signed payload", "statement": "The bytes covered by a signature determine the data and the nonce: a signature made by Sign or AttachedSign for one (data, nonce) can never validate for another.", "quantifier": "all pairs of (data, nonce) inputs", "why_tests_cant": "A collision of the encoding must be found among unbounded pairs.", "anchors": ["python/src/keyczar/keyczar.py:Signer.__InternalSign", "python/src/keyczar/keyczar.py:Verifier.__InternalVerify", "python/src/keyczar/util.py:PackByteArray"]}
{"id": "C39", "title": "AttachedVerify is robust against malformed blobs", "statement": "On every blob AttachedVerify returns the data, returns None or raises a KeyczarError, and it accepts only blobs of the documented form Header|len(M)|M|Sig.", "quantifier": "every byte string", "why_tests_cant": "All malformed inputs.", "anchors": ["python/src/keyczar/keyczar.py:Verifier.AttachedVerify", "python/src/keyczar/util.py:UnpackByteArray"]}
{"id": "C40", "title": "Session encryption round trip", "statement": "SessionDecrypter(crypter, material).Decrypt(SessionEncrypter.Encrypt(p)) = p for the material of the same session.", "quantifier": "every plaintext, key set and randomness", "why_tests_cant": "All inputs.", "anchors": ["python/src/keyczar/keyczar.py:SessionEncrypter", "python/src/keyczar/keyczar.py:SessionDecrypter", "python/src/keyczar/keyczar.py:_Session"]}
{"id": "C41", "title": "Signed session round trip and rejection", "statement": "SignedSessionDecrypter recovers p from SignedSessionEncrypter output, and returns None, without decrypting, whenever the attached signature does not verify.", "quantifier": "every plaintext, key sets, randomness, and every altered message", "why_tests_cant": "All inputs.", "anchors": ["python/src/keyczar/keyczar.py:SignedSessionEncrypter", "python/src/keyczar/keyczar.py:SignedSessionDecrypter"]}
{"id": "C42", "title": "Metadata serialisation round trip", "statement": "KeyMetadata.Read(str(kmd)) equals kmd for every name (any Unicode text), purpose, type, flag and version list.", "quantifier": "every metadata value", "why_tests_cant": "Unbounded names and version lists; escapes and surrogate pairs.", "anchors": ["python/src/keyczar/keydata.py:KeyMetadata.Read", "python/src/keyczar/keydata.py:KeyMetadata.__str__", "python/src/keyczar/keydata.py:KeyVersion.Read"]}
{"id": "C43", "title": "Key set persistence round trip", "statement": "Writing a key set to a location and reading it back gives the same versions, statuses, primary, keys and identifiers, with and without an encrypter.", "quantifier": "every key set", "why_tests_cant": "All key sets.", "anchors": ["python/src/keyczar/keyczar.py:GenericKeyczar.Write", "python/src/keyczar/writers.py:FileWriter", "python/src/keyczar/readers.py:FileReader", "python/src/keyczar/readers.py:EncryptedReader"]}
{"id": "C44", "title": "Encrypted key sets", "statement": "With an encrypter every key file holds only ciphertext made by it, the metadata says encrypted, and the set can be opened only through an EncryptedReader with a crypter that decrypts it.", "quantifier": "every key set and encrypter", "why_tests_cant": "All key sets.", "anchors": ["python/src/keyczar/writers.py:FileWriter.WriteKey", "python/src/keyczar/readers.py:EncryptedReader.GetKey", "python/src/keyczar/keyczar.py:Keyczar.__init__"]}
{"id": "C45", "title": "Public key export", "statement": "PublicKeyExport writes, for every version, the public half with the same version number, status and identifier under the matching VERIFY/ENCRYPT purpose, refuses symmetric sets, and what it writes does not depend on private key material.", "quantifier": "every asymmetric key set", "why_tests_cant": "Non-interference quantifies over pairs of key sets.", "anchors": ["python/src/keyczar/keyczar.py:GenericKeyczar.PublicKeyExport"]}
{"id": "C46", "title": "create never overwrites", "statement": "keyczart create writes fresh metadata with the type implied by purpose and the asymmetric flag, and leaves an existing key set untouched (raising KeyczarError).", "quantifier": "every file system state and flags", "why_tests_cant": "All states.", "anchors": ["python/src/keyczar/keyczart.py:Create", "python/src/keyczar/writers.py:FileWriter.WriteMetadata"]}
{"id": "C47", "title": "The on-disk key set refines an abstract key ring", "statement": "Any sequence of keyczart create/addkey/promote/demote/revoke commands leaves a loadable key set on disk whose versions, statuses and keys are those of a simple abstract key ring, and failing commands change nothing.", "quantifier": "every command sequence", "why_tests_cant": "All histories.", "anchors": ["python/src/keyczar/keyczart.py:AddKey", "python/src/keyczar/keyczart.py:Promote", "python/src/keyczar/keyczart.py:Demote", "python/src/keyczar/keyczart.py:Revoke", "python/src/keyczar/keyczart.py:CreateGenericKeyczar", "python/src/keyczar/keyczart.py:UpdateGenericKeyczar"]}
{"id": "C48", "title": "Crash consistency of key set updates", "statement": "If the process dies at any point while a command rewrites the key set, the set on disk is afterwards loadable and is the old or the new one, and no key material is lost.", "quantifier": "every crash point in every command", "why_tests_cant": "Tests do not kill the process between two system calls.", "anchors": ["python/src/keyczar/keyczar.py:GenericKeyczar.Write", "python/src/keyczar/util.py:WriteFile", "python/src/keyczar/writers.py:FileWriter", "python/src/keyczar/keyczart.py:Revoke"]}
{"id": "C49", "title": "Concurrent key management", "statement": "Two keyczart commands running at the same time on one location have the effect of running them one after the other.", "quantifier": "every interleaving", "why_tests_cant": "Schedules are not controllable in a unit test.", "anchors": ["python/src/keyczar/keyczart.py:AddKey", "python/src/keyczar/keyczart.py:UpdateGenericKeyczar", "python/src/keyczar/util.py:WriteFile"]}
{"id": "C50", "title": "Command line handling", "statement": "keyczart executes a command only if all its flags are well formed; a malformed or unknown flag or a non-integer version/size changes nothing on disk.", "quantifier": "every argument vector", "why_tests_cant": "All argument vectors.", "anchors": ["python/src/keyczar/keyczart.py:main", "python/src/keyczar/keyczart.py:GetCommand", "python/src/keyczar/keyczart.py:GetFlag"]}
{"id": "C51", "title": "Streaming encryption is chunking independent", "statement": "Whatever the sizes of the write() calls, after flush() the output stream holds exactly the ciphertext Encrypt would produce for the concatenated data and the same IV; hence Decrypt recovers it.", "quantifier": "every sequence of writes", "why_tests_cant": "All chunkings.", "anchors": ["python/src/keyczar/keys.py:EncryptingStreamWriter", "python/src/keyczar/keys.py:AesKey._NoPadBufferSize"]}
{"id": "C52", "title": "Streaming decryption is schedule independent", "statement": "For every valid ciphertext and every behaviour of the input stream (short reads, None for no data yet), and every sequence of read(chars) calls, the concatenated results up to end of stream are exactly the plaintext.", "quantifier": "every ciphertext, input schedule and read sequence", "why_tests_cant": "All schedules.", "anchors": ["python/src/keyczar/keys.py:DecryptingStreamReader"]}
{"id": "C53", "title": "Streaming decryption detects truncation and tampering", "statement": "A DecryptingStreamReader never reports a clean end of stream unless the HMAC over the whole stream verified; a too short stream raises ShortCiphertextError.", "quantifier": "every input stream", "why_tests_cant": "All forgeries and truncation points.", "anchors": ["python/src/keyczar/keys.py:DecryptingStreamReader.read"]}
{"id": "C54", "title": "Streaming Base64 writer is chunking independent", "statement": "After flush the Base64 stream writer has emitted exactly Base64WSEncode of the concatenated input, whatever the chunking.", "quantifier": "every sequence of writes", "why_tests_cant": "All chunkings.", "anchors": ["python/src/keyczar/util.py:IncrementalBase64WSStreamWriter", "python/src/keyczar/util.py:BufferedIncrementalBase64WSEncoder"]}
{"id": "C55", "title": "Streaming Base64 reader is schedule independent", "statement": "The Base64 stream reader delivers exactly Base64WSDecode of the whole text, whatever the sizes of the reads and of the underlying chunks, also for text reflowed with line breaks.", "quantifier": "every text, read sequence and chunking", "why_tests_cant": "All schedules.", "anchors": ["python/src/keyczar/util.py:IncrementalBase64WSStreamReader", "python/src/keyczar/util.py:BufferedIncrementalBase64WSDecoder"]}
{"id": "C56", "title": "Non-blocking input never hangs the Base64 reader", "statement": "read() on a non-blocking stream with no data returns None, as documented, instead of spinning.", "quantifier": "every input schedule", "why_tests_cant": "Non-termination is not observable by a finite test.", "anchors": ["python/src/keyczar/util.py:IncrementalBase64WSStreamReader.read"]}
{"id": "C57", "title": "Stream life cycle", "statement": "After close() every operation raises ValueError and writes nothing; flush() may be repeated without changing the output.", "quantifier": "every operation sequence", "why_tests_cant": "All histories.", "anchors": ["python/src/keyczar/keys.py:EncryptingStreamWriter.flush", "python/src/keyczar/keys.py:EncryptingStreamWriter.close", "python/src/keyczar/keys.py:DecryptingStreamReader.close"]}
{"id": "C58", "title": "Reader and writer factories", "statement": "CreateReader/CreateWriter return a file reader/writer iff the location exists and otherwise raise KeyczarError; static, encrypted and mock readers are never chosen for a location.", "quantifier": "every location and file system", "why_tests_cant": "All states.", "anchors": ["python/src/keyczar/readers.py:CreateReader", "python/src/keyczar/writers.py:CreateWriter"]}
{"id": "C59", "title": "The library works on the Python it is written for", "statement": "On Python 3, the only Python whose grammar accepts these sources, a key set with at least one key can be opened and used to encrypt, decrypt, sign and verify.", "quantifier": "every reader, key set and input", "why_tests_cant": "A universally quantified failure; tests need the missing dependencies and show single failures only.", "anchors": ["python/src/keyczar/util.py:Base64WSEncode", "python/src/keyczar/util.py:Hash", "python/src/keyczar/util.py:RandBytes", "python/src/keyczar/keys.py:Key._Hash", "python/src/keyczar/keys.py:AesKey.Generate", "python/src/keyczar/keyczar.py:Keyczar.__init__"]}
{"id": "C60", "title": "Key comparison", "statement": "Two keys compare equal only if they hold the same secret material, so a loop over the keys of a set can rely on equality.", "quantifier": "every pair of keys", "why_tests_cant": "All pairs of keys.", "anchors": ["python/src/keyczar/keys.py:Key.__eq__"]}
{"id": "C61", "title": "Generated test sets", "statement": "When keyczart genkey succeeds, each of the six listed directories holds a key set with two versions, the second primary, both with fresh keys of different identifiers, and the files 1.out and 2.out that the set itself decrypts or verifies; the two signing sets are also exported, and the exported sets accept the same signatures. It writes nowhere else, and it succeeds whenever the directories exist.", "quantifier": "every location, file system and random outcome", "why_tests_cant": "All disks and all random outcomes.", "anchors": ["python/src/keyczar/keyczart.py:GenKeySet", "python/src/keyczar/keyczart.py:Clean", "python/src/keyczar/keyczart.py:UseKey", "python/src/keyczar/keyczart.py:_CreateCrypter"]}
{"id": "C62", "title": "genkey does not destroy keys", "statement": "Running keyczart genkey on a location that already holds keys keeps the old keys until the new set is complete.", "quantifier": "every location, file system and crash point", "why_tests_cant": "Tests do not kill the process between two system calls.", "anchors": ["python/src/keyczar/keyczart.py:GenKeySet", "python/src/keyczar/keyczart.py:Clean"]}
{"id": "C63", "title": "Standard key file formats", "statement": "Exported private keys are PKCS #8 structures and exported public keys X.509 subject public keys, in the distinguished encoding of X.690, with the parameters in the order of RFC 8017 (RSA) and RFC 3279 (DSA), and the object identifiers of those standards, in Base64; the parsers accept exactly those structures. The export succeeds when all parameters are there and raises KeyError when one is missing.", "quantifier": "every set of parameters and every text", "why_tests_cant": "Infinitely many parameters and texts; a parser and printer that agree with each other can both deviate from the standard.", "anchors": ["python/src/keyczar/util.py:ExportRsaPkcs8", "python/src/keyczar/util.py:ExportRsaX509", "python/src/keyczar/util.py:ExportDsaPkcs8", "python/src/keyczar/util.py:ExportDsaX509", "python/src/keyczar/util.py:ParsePkcs8", "python/src/keyczar/util.py:ParseX509"]}
{"id": "C64", "title": "Key and metadata files have the documented format", "statement": "A generated key is written as a JSON object with exactly the documented members (mode, size, aesKeyString, hmacKey; hmacKeyString; modulus, publicExponent; publicKey, privateExponent, primeP, primeQ, primeExponentP, primeExponentQ, crtCoefficient; p, q, g, y; x), numbers in Base64, and the values of an RSA key follow RFC 8017 (crtCoefficient inverse to primeQ modulo primeP); metadata likewise. Conversely every text with those members, in any order and layout, with leading zeros or further members, is read as the key with those values.", "quantifier": "every generated key, every metadata object, every JSON text", "why_tests_cant": "Infinitely many texts; reading back what was written cannot see a name or convention changed on both sides.", "anchors": ["python/src/keyczar/keys.py:AesKey.Read", "python/src/keyczar/keys.py:HmacKey.Read", "python/src/keyczar/keys.py:RsaPrivateKey.Read", "python/src/keyczar/keys.py:RsaPrivateKey.__str__", "python/src/keyczar/keys.py:DsaPrivateKey.Read", "python/src/keyczar/keydata.py:KeyMetadata.Read", "python/src/keyczar/keydata.py:KeyMetadata.__str__"]}
{"id": "C65", "title": "Exporting public keys does not harm the private set", "statement": "keyczart pubkey changes nothing outside the destination at any moment, so that the exported set goes on working as before, whether the command succeeds, fails or is interrupted.", "quantifier": "every location, destination, file system and crash point", "why_tests_cant": "All file systems and all points at which the process can be killed.", "anchors": ["python/src/keyczar/keyczart.py:PubKey", "python/src/keyczar/keyczar.py:GenericKeyczar.PublicKeyExport"]}
{"id": "C66", "title": "Encryption of a key set is all or nothing", "statement": "In every history of keyczart commands, each with or without --crypter, either all keys of the set are stored plain, or all of them are ciphertext of one set of crypting keys and the metadata says so; a command with the wrong kind of access is refused and changes nothing, and a failing command leaves a set that opens.", "quantifier": "every history of commands, crypting keys and random outcomes", "why_tests_cant": "All histories.", "anchors": ["python/src/keyczar/keyczart.py:AddKey", "python/src/keyczar/keyczart.py:UpdateGenericKeyczar", "python/src/keyczar/keyczar.py:GenericKeyczar.Write", "python/src/keyczar/readers.py:EncryptedReader.GetKey"]}
{"id": "C67", "title": "Failing system calls are reported", "statement": "If a system call fails while a keyczart command runs (a full disk, a lost permission, an I/O error), the command ends with an error and never reports success, opening a key set gives the set that is there or an error, and the key set is afterwards the old one or the new one.", "quantifier": "every command, file system and combination of failing calls", "why_tests_cant": "Tests do not inject failures at every call; the combinations are unbounded.", "anchors": ["python/src/keyczar/util.py:WriteFile", "python/src/keyczar/util.py:ReadFile", "python/src/keyczar/readers.py:FileReader.GetMetadata", "python/src/keyczar/writers.py:FileWriter.WriteMetadata", "python/src/keyczar/writers.py:FileWriter.WriteKey", "python/src/keyczar/keyczart.py:main"]}
{"id": "C68", "title": "Tests with the in-memory reader speak for the tool", "statement": "keyczart run against a MockReader does what it does on a directory: for every history of commands each command ends in the same way, and afterwards the mock and the directory open as the same key set; what the mock answers about statuses, keys and exported public keys is true of that set.", "quantifier": "every history of commands, every key set and random outcome", "why_tests_cant": "The tests themselves use the mock, so they cannot show that it behaves like the disk.", "anchors": ["python/src/keyczar/readers.py:MockReader", "python/src/keyczar/keyczart.py:UpdateGenericKeyczar", "python/src/keyczar/keyczart.py:CreateGenericKeyczar", "python/src/keyczar/keyczart.py:Create", "python/src/keyczar/keyczart.py:Revoke", "python/src/keyczar/keyczar.py:GenericKeyczar.PublicKeyExport"]}
{"id": "C69", "title": "A key set serves all processes through its life", "statement": "A key set made by keyczart serves every process that opens it later: whatever command lines are run in between (for this or other sets, succeeding or failing), data encrypted or signed by one process is decrypted and verified by every process that opens the set afterwards, with any class for its purpose, until the key is revoked; processes that open a public set exported meanwhile verify the signatures, and what they encrypt reaches the private key; after a successful revocation everything made with the key is refused with KeyNotFoundError.", "quantifier": "every history of command lines between the processes, every datum, key and random outcome", "why_tests_cant": "All histories of commands, run by different processes at different times.", "anchors": ["python/src/keyczar/keyczart.py:main", "python/src/keyczar/keyczar.py:Crypter.Read", "python/src/keyczar/keyczar.py:Signer.Read", "python/src/keyczar/keyczar.py:Verifier.Read", "python/src/keyczar/keyczar.py:Encrypter.Read", "python/src/keyczar/keyczar.py:GenericKeyczar.Write"]}
{"id": "C70", "title": "Ciphertexts, tags and identifiers follow the standards", "statement": "What a key writes can be read and checked by any other implementation of the standards, and the other way round: AES keys encrypt with AES (FIPS 197) in CBC mode with padding and an HMAC-SHA1 tag over everything before it, and decrypt just such messages; HMAC keys make and accept the tags of RFC 2104 with SHA-1 (FIPS 180) and no others; key identifiers are the first four bytes of the SHA-1 digest of the documented material; RSA and DSA signatures are over that digest.", "quantifier": "every key of every supported size, message, IV and ciphertext", "why_tests_cant": "Test vectors fix finitely many points; an algorithm changed for encryption and decryption alike passes every round trip test.", "anchors": ["python/src/keyczar/keys.py:AesKey.Encrypt", "python/src/keyczar/keys.py:AesKey.Decrypt", "python/src/keyczar/keys.py:HmacKey.Sign", "python/src/keyczar/keys.py:HmacKey.Verify", "python/src/keyczar/keys.py:AesKey._Hash", "python/src/keyczar/util.py:Hash", "python/src/keyczar/util.py:PrefixHash"]}
{"id": "C71", "title": "A metadata object is a map from numbers to versions", "statement": "However a metadata object is built up by reading, adding, removing and changing versions, it holds at most one version for each number; adding an unknown number appends it and answers True, adding a known one changes nothing and answers False; looking up, removing or changing a known number concerns that version alone, an unknown one is refused with KeyczarError and nothing changes; of several versions with one number in a file the first counts. Exactly the JSON texts with the five members, known names and well-formed versions are read; the others are refused with ValueError (not JSON), TypeError (no object), KeyError (a member missing) or KeyczarError (an unknown purpose, type or status).", "quantifier": "every metadata object, sequence of calls and metadata text", "why_tests_cant": "All sequences of calls and all texts.", "anchors": ["python/src/keyczar/keydata.py:KeyMetadata.AddVersion", "python/src/keyczar/keydata.py:KeyMetadata.RemoveVersion", "python/src/keyczar/keydata.py:KeyMetadata.GetVersion", "python/src/keyczar/keydata.py:KeyMetadata.Read", "python/src/keyczar/keydata.py:KeyVersion.__SetStatus"]}
{"id": "C72", "title": "Outputs have the documented sizes", "statement": "The size of an output depends on the length of the data and the key alone: a ciphertext of an AES set, a session or an encrypting stream is 41 bytes and the data padded to the next larger multiple of 16; a ciphertext of an RSA set is at most the header and the modulus; signatures are the header and 20 bytes (HMAC), the modulus (RSA) or at most 48 bytes (DSA), attached signatures the data and its length more; text outputs have four characters for every three bytes, without padding characters.", "quantifier": "every key set, datum, nonce, encoding and random outcome", "why_tests_cant": "Infinitely many lengths and random outcomes; sizes that vary with the random bytes are met once in hundreds of calls.", "anchors": ["python/src/keyczar/keyinfo.py:KeyType", "python/src/keyczar/keyinfo.py:CipherMode.GetOutputSize", "python/src/keyczar/keys.py:AesKey.Encrypt", "python/src/keyczar/keys.py:RsaPublicKey.Encrypt", "python/src/keyczar/keyczar.py:Signer.Sign", "python/src/keyczar/keyczar.py:Signer.AttachedSign", "python/src/keyczar/keyczar.py:UnversionedSigner.Sign", "python/src/keyczar/keys.py:EncryptingStreamWriter"]}
{"id": "C73", "title": "Every random byte counts", "statement": "Two encryptions with one set, two streams or two sessions give equal results only if the data and all the random bytes drawn for them are equal, and two generated keys of one type and size are equal only if all the drawn material is: no random byte is dropped, overwritten or used twice.", "quantifier": "every pair of calls, data and random outcomes", "why_tests_cant": "The pairs of random outcomes are unbounded; a test sees different outputs even if most of the randomness is thrown away.", "anchors": ["python/src/keyczar/keys.py:AesKey.Encrypt", "python/src/keyczar/keys.py:AesKey.Generate", "python/src/keyczar/keys.py:HmacKey.Generate", "python/src/keyczar/keys.py:RsaPublicKey.Encrypt", "python/src/keyczar/keys.py:EncryptingStreamWriter", "python/src/keyczar/util.py:RandBytes"]}
{"id": "C74", "title": "Key and metadata files are read as JSON", "statement": "Every file that is a JSON text (RFC 8259, in UTF-8, with any white space, escapes and member order), whoever wrote it, is read as the one value it stands for, so that of two texts for the same value it does not matter which one is in the file; every other content is refused with ValueError (or its subclass UnicodeDecodeError), and the set does not open. Everything keyczar writes is such a text, in printable ASCII.", "quantifier": "every byte string in a file, every key and metadata object", "why_tests_cant": "All byte strings; round trips only see the texts keyczar writes itself.", "anchors": ["python/src/keyczar/keys.py:ReadKey", "python/src/keyczar/keys.py:AesKey.Read", "python/src/keyczar/keydata.py:KeyMetadata.Read", "python/src/keyczar/keydata.py:KeyMetadata.__str__", "python/src/keyczar/keyczar.py:Keyczar.__init__"]}
{"id": "C75", "title": "A key set opens exactly if everything is there", "statement": "Opening a key set succeeds exactly if the metadata can be read, the class accepts its purpose, an encrypted set has an encrypted reader, at most one version is PRIMARY, and for every listed version, active or not, there is a readable key of the type of the set. It then has exactly the listed versions with their statuses and keys, an identifier finds the last listed version whose key has it, and no file has changed. Otherwise the error raised is that of the first step that fails: metadata, purpose, encryption, then the versions in their order.", "quantifier": "every class, reader, metadata and key texts, and file system", "why_tests_cant": "All contents of a directory, and all answers a reader of the application may give.", "anchors": ["python/src/keyczar/keyczar.py:Keyczar.__init__", "python/src/keyczar/keyczar.py:Keyczar.IsAcceptablePurpose", "python/src/keyczar/keyczar.py:Keyczar.GetKey", "python/src/keyczar/readers.py:FileReader.GetKey", "python/src/keyczar/readers.py:CreateReader"]}
{"id": "C76", "title": "Refusals of symmetric keys take the same steps wherever the tag is wrong", "statement": "Checking a signature with an HMAC key, or refusing a ciphertext under an AES key, executes the same lines of the library and the same calls with arguments of the same lengths whatever bytes the tag, the data and the key hold: for two inputs of equal length with the same header there is no difference between tags wrong in the first byte, in the last byte or everywhere, so the steps do not tell how much of a guessed tag is right. A ciphertext with a wrong tag is refused before any of it is deciphered or its padding looked at.", "quantifier": "every pair of data, signatures and ciphertexts of equal length, every key set and key", "why_tests_cant": "Leaks concern pairs of inputs; a test sees the answers and not the way they are reached.", "anchors": ["python/src/keyczar/keys.py:HmacKey.VerifySignedData", "python/src/keyczar/keys.py:HmacKey.Verify", "python/src/keyczar/keys.py:AesKey.Decrypt", "python/src/keyczar/keyczar.py:Crypter.Decrypt", "python/src/keyczar/keyczar.py:Verifier.Verify"]}
{"id": "C77", "title": "RSA decryption accepts what encryption makes, and does not say why it refuses the rest", "statement": "An RSA private key decrypts a ciphertext to a plaintext only if encrypting that plaintext with some random bytes gives this ciphertext. All others are refused, with one error and in the same steps, so that someone who sends made-up ciphertexts learns nothing about their decryption.", "quantifier": "every key of every size, every byte string as ciphertext", "why_tests_cant": "All byte strings; the accepted ones are a vanishing part, and the leaks are between pairs of refused ones.", "anchors": ["python/src/keyczar/keys.py:RsaPrivateKey.Decrypt", "python/src/keyczar/keys.py:RsaPublicKey.Encrypt", "python/src/keyczar/keyczar.py:Crypter.Decrypt"]}
{"id": "C78", "title": "Opening a key set while commands change it", "statement": "A process that opens a key set while keyczart commands change it gets the set as it was at one moment between the commands, or an error, and never a mixture of two of them or a version with the key of another. It does not disturb the commands.", "quantifier": "every key set, every sequence of addkey, promote, demote and revoke commands, every interleaving of their system calls with those of the reader, including reads of partly written files", "why_tests_cant": "The interleavings, and the contents seen in the middle of a write, are out of reach of tests.", "anchors": ["python/src/keyczar/keyczar.py:Keyczar.__init__", "python/src/keyczar/readers.py:FileReader.GetMetadata", "python/src/keyczar/readers.py:FileReader.GetKey", "python/src/keyczar/writers.py:FileWriter.WriteMetadata", "python/src/keyczar/writers.py:FileWriter.WriteKey", "python/src/keyczar/keyczart.py:UpdateKeyczar", "python/src/keyczar/keyczart.py:Revoke"]}
{"id": "C79", "title": "Streams and sessions outlive the process and the primary key", "statement": "A stream that one process writes with a key set on disk, in any pieces, and flushes is given back in full by any process that opens the set later, decrypted at once or read as a stream from any channel in any sizes, and what was encrypted at once can be read as a stream; the material of a session, plain or signed, started with the set or with its exported public half gives a later process the session, whose messages it then decrypts and verifies. This holds whatever keyczart commands were run in between on the sets concerned, as long as the version used is not revoked.", "quantifier": "every history of command lines between the processes, every division of the data into writes and reads, every channel, every random outcome", "why_tests_cant": "Histories of commands times schedules of the stream; each part alone is already unbounded.", "anchors": ["python/src/keyczar/keyczar.py:Encrypter.CreateEncryptingStreamWriter", "python/src/keyczar/keyczar.py:Crypter.CreateDecryptingStreamReader", "python/src/keyczar/keys.py:EncryptingStreamWriter", "python/src/keyczar/keys.py:DecryptingStreamReader", "python/src/keyczar/keyczar.py:SessionEncrypter", "python/src/keyczar/keyczar.py:SessionDecrypter", "python/src/keyczar/keyczar.py:SignedSessionEncrypter", "python/src/keyczar/keyczar.py:SignedSessionDecrypter", "python/src/keyczar/keyczart.py:main"]}
{"id": "C80", "title": "The power fails during or after a command", "statement": "When the power fails, each file may hold what it held at any moment of its own, because nothing makes the system write the files in order or at once. A key set changed by keyczart commands then opens as it was before, between or after the commands, or it does not open; what opens is never put together from different states. Other directories are untouched, and a file of the set holds its old contents or the beginning of its new ones. No key that was in the set is lost with a command that has reported success.", "quantifier": "every key set, every sequence of addkey, promote, demote and revoke commands, every choice of a moment for each file", "why_tests_cant": "Power failures and the orders in which a disk is written cannot be produced by a test, and the choices are as many as moments times files.", "anchors": ["python/src/keyczar/util.py:WriteFile", "python/src/keyczar/writers.py:FileWriter.WriteMetadata", "python/src/keyczar/writers.py:FileWriter.WriteKey", "python/src/keyczar/writers.py:FileWriter.Remove", "python/src/keyczar/keyczart.py:UpdateKeyczar", "python/src/keyczar/keyczar.py:Keyczar.__init__"]}
{"id": "C81", "title": "Commands that run at the same time", "statement": "When any number of keyczart commands change one key set at the same time, whatever opens meanwhile or afterwards has the name, purpose and type of the set, still has every version that none of the commands revokes, with its own key, and has under every number the key of that number or one that a command generated, never a mixture of keys. Nothing outside the set is touched. If the commands report success, the set can still be opened.", "quantifier": "every key set, every number of addkey, promote, demote and revoke commands, every interleaving of their system calls with each other and with those of a process that opens the set", "why_tests_cant": "The interleavings of several writers are unbounded in number and cannot be forced by a test.", "anchors": ["python/src/keyczar/util.py:WriteFile", "python/src/keyczar/writers.py:FileWriter.WriteMetadata", "python/src/keyczar/writers.py:FileWriter.WriteKey", "python/src/keyczar/writers.py:FileWriter.Remove", "python/src/keyczar/keyczart.py:UpdateKeyczar", "python/src/keyczar/keyczart.py:Revoke", "python/src/keyczar/keyczar.py:Keyczar.__init__"]}
{"id": "C82", "title": "Sessions do not disturb each other in one process", "statement": "The key set of a session is remembered from call to call. Whatever sessions were used before, each Encrypt and Decrypt on a session returns or raises what it does in a process that makes this call alone, and a key set is made at the first use only; any function decorated with Memoize behaves so. The key of a session leaves the memory of the process with the session.", "quantifier": "every history of calls on any sessions in one process, every memoized function", "why_tests_cant": "Results that depend on what other sessions did before need particular histories; whether anything is ever released shows only in long-running processes.", "anchors": ["python/src/keyczar/util.py:Memoize", "python/src/keyczar/keyczar.py:_Session.crypter", "python/src/keyczar/keyczar.py:SessionEncrypter.Encrypt", "python/src/keyczar/keyczar.py:SessionDecrypter.Decrypt", "python/src/keyczar/keyczar.py:SignedSessionEncrypter.Encrypt", "python/src/keyczar/keyczar.py:SignedSessionDecrypter.Decrypt"]}
{"id": "C83", "title": "Plug-in readers and writers", "statement": "Every .py file in the backends directory and in the directories of KEYCZAR_BACKEND_PATHS is imported, once, before a reader or writer is made. A location that exists is served by the file reader and writer whatever is plugged in; another one by the first plugged-in class, in the order of import, that accepts it; KeyczarError is raised if none does. The Read method of every class finds its reader in this way. A plug-in is not lost, and one that is broken does not keep key sets in directories from being opened.", "quantifier": "every set of directories, files and classes, every history of calls while they change, every location", "why_tests_cant": "All combinations of files, search paths and modules already loaded.", "anchors": ["python/src/keyczar/util.py:ImportAll", "python/src/keyczar/util.py:ImportBackends", "python/src/keyczar/readers.py:CreateReader", "python/src/keyczar/writers.py:CreateWriter", "python/src/keyczar/readers.py:FileReader.CreateReader", "python/src/keyczar/writers.py:FileWriter.CreateWriter"]}
{"id": "C84", "title": "Values of unexpected types in metadata and key files", "statement": "Metadata and key files whose values have the documented JSON types are read as documented. Of values with other types: names of purposes, types, statuses and modes and all key material must be strings, and version numbers must not be lists or objects, or the file is refused; versions whose numbers are equal in Python (1 and true) count as one; name and exportable may be anything; a set whose \"encrypted\" is anything but null, false, zero or empty is not opened by a reader that does not decrypt; a size that is not a valid number becomes the default one, and an opened key always has its type, a valid size and the identifier of its material. The keys of a set come from files in its own location.", "quantifier": "every JSON text as metadata and as key file, every reader and file system", "why_tests_cant": "All JSON values in all places; malformed files are chosen by whoever can write them, not by the tests.", "anchors": ["python/src/keyczar/keydata.py:KeyMetadata.Read", "python/src/keyczar/keydata.py:KeyVersion.Read", "python/src/keyczar/keydata.py:KeyMetadata.AddVersion", "python/src/keyczar/keys.py:ReadKey", "python/src/keyczar/keys.py:AesKey.Read", "python/src/keyczar/keys.py:RsaPrivateKey.Read", "python/src/keyczar/keyczar.py:Keyczar.__init__", "python/src/keyczar/readers.py:FileReader.GetKey"]}
{"id": "C85", "title": "Cipher objects of the two cryptography libraries", "statement": "A cipher object made with M2Crypto behaves like one made with PyCrypto. Pieces of complete blocks, encrypted or decrypted one after the other, give with either library the AES-CBC encryption or decryption of the pieces joined, each output as long as its piece, and nothing is left at the end. Other pieces are refused by PyCrypto, which goes on as if they had not been given, and are kept by M2Crypto until their block is complete, final telling whether something is missing. A key or IV of a wrong length is never used. One object used in both directions works on independent chains.", "quantifier": "every key and IV, every sequence of calls with pieces of any number and length", "why_tests_cant": "All divisions of the data into calls, all orders of calls; the libraries are alternatives of which a test run has one.", "anchors": ["python/src/keyczar/keys.py:AesKey.AESAdaptor", "python/src/keyczar/keys.py:AesKey.EVPAdaptor", "python/src/keyczar/keys.py:AesKey._AesKey__CreateCipher"]}
{"id": "C86", "title": "What the text of a refusal tells", "statement": "The text of the exception with which a ciphertext or a signature is refused contains nothing but what its sender knows: its length, its first byte, and the identifier in it. For one input and one class of error the text is the same whatever the keys are, so that texts may be logged or returned to the sender.", "quantifier": "every key set in every state, every input, every decoder", "why_tests_cant": "Equality of texts between all pairs of key sets that refuse all inputs; tests compare the class of the error at most.", "anchors": ["python/src/keyczar/errors.py", "python/src/keyczar/keyczar.py:Crypter.Decrypt", "python/src/keyczar/keyczar.py:Verifier.Verify", "python/src/keyczar/keyczar.py:Verifier.AttachedVerify", "python/src/keyczar/keyczar.py:UnversionedVerifier.Verify", "python/src/keyczar/keys.py:RsaPrivateKey.Decrypt"]}
{"id": "C87", "title": "convert_keyset.py keeps the keys", "statement": "The script that makes key sets of old C++ versions readable in Java writes every number of an RSA or DSA key so that its bytes, read as two's complement, are the number the library reads, and changes nothing else in a key. The converted set opens with the classes that open the original, holds the same versions, and answers every call with the same result. Key files written by the library are always converted. Whenever the script is stopped or fails, nothing outside the destination has changed, and the metadata of the copy are written only after all of its keys. A set with a key that cannot be converted, an encrypted one for instance, is never completed. With one directory as source and destination a run that ends converts the keys and leaves the answers as they were, and an interruption damages at most one file, which can cost the set.", "quantifier": "every key set, every JSON text as key file, every moment at which the script is stopped, every call on the two sets", "why_tests_cant": "All numbers with and without leading zeros, all calls with all arguments, all moments of an interruption.", "anchors": ["cpp/src/keyczar/keyczar_tool/convert_keyset.py:doit", "cpp/src/keyczar/keyczar_tool/convert_keyset.py:iterate_meta", "cpp/src/keyczar/keyczar_tool/convert_keyset.py:rewrite_key", "cpp/src/keyczar/keyczar_tool/convert_keyset.py:rewrite_inplace_rec", "cpp/src/keyczar/keyczar_tool/convert_keyset.py:b64_decode", "python/src/keyczar/keys.py:ReadKey"]}
{"id": "C88", "title": "Text given as unicode", "statement": "In Python 2 a program may pass a unicode text wherever a string is expected. A text of ASCII characters is encrypted, signed, verified and decrypted as the byte string with the same characters: the result is the same, and what was made from the one is accepted for the other. A text or nonce with other characters is refused with UnicodeError at once; it is never encrypted or signed, and no signature of it is accepted.", "quantifier": "every text, data and nonce, every division of a stream into byte strings and texts, every key set and key type", "why_tests_cant": "All texts, all mixtures of the two kinds, and all signatures and headers, whose bytes decide whether the two kinds can be joined.", "anchors": ["python/src/keyczar/keyczar.py:Encrypter.Encrypt", "python/src/keyczar/keyczar.py:Crypter.Decrypt", "python/src/keyczar/keyczar.py:Signer.Sign", "python/src/keyczar/keyczar.py:Signer.AttachedSign", "python/src/keyczar/keyczar.py:Verifier.Verify", "python/src/keyczar/keyczar.py:Verifier.AttachedVerify", "python/src/keyczar/keyczar.py:UnversionedSigner.Sign", "python/src/keyczar/keyczar.py:UnversionedVerifier.Verify", "python/src/keyczar/keys.py:AesKey.Encrypt", "python/src/keyczar/keys.py:RsaPublicKey.Encrypt", "python/src/keyczar/keys.py:EncryptingStreamWriter.write", "python/src/keyczar/util.py:PackByteArray"]}
{"id": "C89", "title": "Nothing depends on the order of dictionary entries", "statement": "Python 2 lists the entries of a dictionary in no defined order, and the order may change with every change of the dictionary. Whatever the order, a key set opens or does not open; after opening, every history of adding, promoting, demoting and revoking versions ends call by call as it does with any other order, and the set then reached has the same versions with the same statuses and keys and answers every call alike, unversioned verification included; and the metadata it writes open as the same set. Metadata and key files with the same members in another order are read alike. This is so for sets whose keys have different identifiers: with two keys of one identifier the order decides which of them is used.", "quantifier": "every key set, every order of the entries of its dictionaries at every moment of every history of calls, every call on the sets reached, every order of the members in the files", "why_tests_cant": "All permutations at all moments; a test run has the one order its interpreter happens to use.", "anchors": ["python/src/keyczar/keyczar.py:Keyczar.__init__", "python/src/keyczar/keyczar.py:Keyczar.versions", "python/src/keyczar/keyczar.py:GenericKeyczar.AddVersion", "python/src/keyczar/keyczar.py:GenericKeyczar.Promote", "python/src/keyczar/keyczar.py:GenericKeyczar.Demote", "python/src/keyczar/keyczar.py:GenericKeyczar.Revoke", "python/src/keyczar/keyczar.py:UnversionedVerifier.Verify", "python/src/keyczar/keydata.py:KeyMetadata.versions", "python/src/keyczar/keydata.py:KeyMetadata.__str__", "python/src/keyczar/keydata.py:KeyMetadata.Read", "python/src/keyczar/keys.py:ReadKey"]}
{"id": "C90", "title": "One object shared by threads", "statement": "Threads that use one key set object at the same time, without locks, each get what they would get alone, and the object does not change. While other threads change the set, decryption, verification and, as long as no thread moves the primary version, encryption and signing that would have succeeded before still give the same result; no version number gets another key, a version disappears only if a thread revokes it, and one that no thread names keeps its status unless it was primary. One thread that adds a version while others promote, demote and revoke adds what it adds alone. Threads that change the set take turns as if each call were one step.", "quantifier": "every number of threads, every assignment of calls to them, every schedule of their accesses to the object, every key set in every state", "why_tests_cant": "All interleavings of all calls; a test run has the few its scheduler happens to choose.", "anchors": ["python/src/keyczar/keyczar.py:GenericKeyczar.AddVersion", "python/src/keyczar/keyczar.py:GenericKeyczar.Promote", "python/src/keyczar/keyczar.py:GenericKeyczar.Demote", "python/src/keyczar/keyczar.py:GenericKeyczar.Revoke", "python/src/keyczar/keyczar.py:Keyczar.GetKey", "python/src/keyczar/keyczar.py:Keyczar._AddKey", "python/src/keyczar/keyczar.py:Encrypter.Encrypt", "python/src/keyczar/keyczar.py:Crypter.Decrypt", "python/src/keyczar/keyczar.py:Signer.Sign", "python/src/keyczar/keyczar.py:Signer.AttachedSign", "python/src/keyczar/keyczar.py:Verifier.Verify", "python/src/keyczar/keyczar.py:UnversionedVerifier.Verify", "python/src/keyczar/keydata.py:KeyMetadata.AddVersion", "python/src/keyczar/keydata.py:KeyMetadata.RemoveVersion"]}
{"id": "C91", "title": "What is accepted was made by the holders of the keys", "statement": "Whatever the holders of the keys were asked to encrypt and sign, in whatever order, in whatever processes and between whatever changes of the key set: what Decrypt returns for AES keys was given to Encrypt, which returned this very ciphertext, or the ciphertext carries a valid HMAC of a text for which the holders made none. A detached, attached or unversioned signature that is accepted for HMAC keys is for the data (and the nonce) the holders were asked to sign in this way, or for a text of the same bytes that they were asked to sign in another way, or is an HMAC they did not make; where only AttachedSign is offered, with nonces of one length, the second case cannot occur. What SignedSessionDecrypter.Decrypt returns in a session was sent in this session, or a signature is forged. With keys of other types the last case is a signature that the key accepts for a text the holders were not asked to sign.", "quantifier": "every list of calls to encrypt and sign, every state of the key set at each, every state at the time of the check, every input and codec", "why_tests_cant": "All histories of requests an attacker may choose and all inputs they may then present; tests have a few requests and a few altered inputs.", "anchors": ["python/src/keyczar/keyczar.py:Crypter.Decrypt", "python/src/keyczar/keyczar.py:Encrypter.Encrypt", "python/src/keyczar/keyczar.py:Verifier.Verify", "python/src/keyczar/keyczar.py:Verifier.AttachedVerify", "python/src/keyczar/keyczar.py:Signer.Sign", "python/src/keyczar/keyczar.py:Signer.AttachedSign", "python/src/keyczar/keyczar.py:UnversionedVerifier.Verify", "python/src/keyczar/keyczar.py:UnversionedSigner.Sign", "python/src/keyczar/keyczar.py:SignedSessionEncrypter.Encrypt", "python/src/keyczar/keyczar.py:SignedSessionDecrypter.Decrypt", "python/src/keyczar/keys.py:AesKey.Decrypt", "python/src/keyczar/keys.py:HmacKey.Verify"]}
{"id": "C92", "title": "A call depends on the key it uses and on nothing else in the key set", "statement": "What Decrypt, Verify and AttachedVerify give, data or a refusal, is the same for two key sets that have the same key, or both none, under the header of what is presented: the other keys, the numbers and statuses of the versions, the names and purposes and whatever is stored beside this key do not matter. What Encrypt, Sign, AttachedSign and the unversioned signer give is the same for two key sets with the same primary key and the same random bytes. An unversioned verifier of HMAC keys accepts at least what a verifier with fewer of its keys accepts, and verifiers with the same keys give the same answers. Decrypting streams and sessions opened from their material depend on the key that their first bytes name, and encrypting streams and new sessions on the primary key.", "quantifier": "every pair of key sets, wherever they are read from and whatever is done with the objects, every call with every argument", "why_tests_cant": "All contents of all other versions and files, all histories of the two objects and all inputs.", "anchors": ["python/src/keyczar/keyczar.py:Crypter.Decrypt", "python/src/keyczar/keyczar.py:Verifier.Verify", "python/src/keyczar/keyczar.py:Verifier.AttachedVerify", "python/src/keyczar/keyczar.py:UnversionedVerifier.Verify", "python/src/keyczar/keyczar.py:Encrypter.Encrypt", "python/src/keyczar/keyczar.py:Signer.Sign", "python/src/keyczar/keyczar.py:Signer.AttachedSign", "python/src/keyczar/keyczar.py:UnversionedSigner.Sign", "python/src/keyczar/keyczar.py:Keyczar._ParseHeader", "python/src/keyczar/keyczar.py:Keyczar.GetKey", "python/src/keyczar/keyczar.py:Keyczar.__init__", "python/src/keyczar/keyczar.py:SessionDecrypter.__init__", "python/src/keyczar/keyczar.py:SignedSessionDecrypter.Decrypt", "python/src/keyczar/keys.py:DecryptingStreamReader.read"]}
