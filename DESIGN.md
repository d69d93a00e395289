# Formal model of keyczar (Python) in Coq: design

## 1. Which program is modelled

The sources in `/repo/python/src/keyczar` were put through 2to3: they parse only
under Python 3 (`metaclass=`, `print()`), but nearly all of their semantics is
that of Python 2 (`str` is a byte string, `/` floors, `chr`/`ord` on bytes).
Under a real Python 3 almost every cryptographic entry point raises TypeError.

* The **main model** follows the *byte-string dialect*: `str` is a byte string,
  `/` on ints floors, `%`, `chr`, `ord`, `join`, slicing act on bytes. That is the
  program the authors and the golden test data (`/repo/python/testdata`) mean.
* A separate model (`Py3.v`) follows the *Python 3 dialect* for the entry
  points of C59 and shows that they can never succeed. C59 is refuted there.

Functions are modelled one by one as total Gallina functions. Exceptions are values:
`res A := Ok a | Raise e`, with one constructor per exception class the code can raise.
Loops that the Python program can run forever take fuel and return `Diverge`-like
outcomes; theorems about termination quantify over the fuel.

Randomness (`os.urandom`, PyCrypto's random pool) is an explicit argument.
Prime generation is a relation on the produced parameters.

## 2. External libraries

| library | treatment |
|---|---|
| SHA-1 (hashlib), HMAC-SHA1 | executable model of FIPS 180 / RFC 2104, validated on golden data |
| AES (PyCrypto / M2Crypto) | executable model of FIPS 197, validated on golden data |
| CBC mode objects | stateful model (chaining value) |
| EVP cipher object (M2Crypto) | buffered update/final model with PKCS padding |
| RSA, DSA (PyCrypto) | modular arithmetic on Z |
| base64 / binascii | byte-level model of `urlsafe_b64encode`, `a2b_base64` |
| struct | `>i`, `>I`, `>b` |
| json (simplejson) | printer and parser over code points |
| pyasn1 DER | DER encoder and decoder for the types used |
| codecs (incremental/stream) | buffered encoder and decoder |
| file system | finite map from paths to contents, with explicit steps for crash points |

No collision resistance or unforgeability is assumed. Where a property depends on
one, the theorem concludes with an explicit collision or forged tag.

## 3. Trusted base

Coq 8.16.1's kernel (and coqchk), the statements in `Props_*.v` and the definitions
they mention, and the faithfulness of the model to `/repo` (comments give file and lines).
`Print Assumptions` follows every theorem in `Props_*.v`; section 6 records the results.

## 4. Plan per property

Status "refute" means the code violates the property: a `_refuted` theorem gives the
counterexample and a `_partial` theorem gives the strongest part that does hold.

| id | modelled | proof |
|---|---|---|
| C01-C04 | Base64WSEncode/Decode, a2b_base64 automaton | induction in steps of 3 bytes / 4 characters; C04 refuted (binascii silently skips foreign characters) |
| C05,C06 | BigIntToBytes, BytesToLong, BinToBytes, ... | induction on strings, positional-number lemmas |
| C07,C08 | struct, Pack*, Unpack* | list induction; C08 refuted (negative lengths loop); C08_exactly by counting the positions a run can visit |
| C09-C11 | Xor, MGF, MakeEmsaMessage | bit-level xor lemmas, block induction |
| C12,C19 | OAEP encode/decode on top of RSA | case analysis on dropped zeros; RSA correctness from Fermat's little theorem (Fermat.v, proved from the standard library) |
| C13,C14 | DER encoder/decoder | round trip by induction on DER values |
| C63 | the same, and the four export and two parse functions | inductive X.690 relations `der` (written) and `ber` (accepted), the latter equivalent to the decoder by induction; inversion of the parsers |
| C15-C18,C24 | AES, CBC, HMAC, both adaptors | AES inverse by linear algebra on bytes, CBC induction |
| C20,C21 | RSA/DSA sign/verify | modular arithmetic |
| C22,C23,C25 | key JSON, ReadKey, GenKey | JSON round trip by induction on text |
| C26-C34 | Keyczar object as a heap of versions | invariants over operation sequences |
| C35-C39 | Sign/Verify/Attached* | unfolding plus injectivity; C38, C39 refuted; C39_exactly reads the two slices for every length field |
| C40,C41 | sessions | composition of C17, C07, C37 |
| C42-C45 | metadata JSON, file writer/reader, export | round trips, non-interference |
| C46-C50 | keyczart on a file system | refinement; C48, C49, C50 refuted in general |
| C51-C57 | stream classes as state machines | invariants relating state to consumed input |
| C58 | CreateReader/CreateWriter | case analysis |
| C59 | Python 3 dialect | refuted for all inputs |
| C60 | Key.\_\_eq\_\_ | case analysis; refuted for asymmetric keys |
| C61,C62 | genkey: GenKeySet, Clean, UseKey on the file system | symbolic execution of the program over the six directories; C62 refuted |
| C64 | JSON texts of keys and metadata | member relations stated over the JSON grammar of JsonSpec.v, independent of the writers; both directions by evaluation of the readers and the arithmetic of generated keys |
| C65 | pubkey as a program over the disk | `during` of the command touches only the destination; same destination computed in general |
| C66 | commands with and without crypting keys | induction over command histories; first-letter analysis of the Base64 decoder for the refusals |
| C67 | runs in which any subset of the system calls fails, writes leaving any prefix | induction over runs: a program all of whose failure branches raise without further effects can only give its normal outcome or an error on a crash disk; then C47 and C48 |
| C68 | MockReader and the commands with `keyczart.mock` set | bisimulation between a mock and a directory (same texts), induction over histories |
| C69 | command lines through `main`, between processes that open the set with `Read` | each line either leaves the files of the set alone or is one of the commands of C47; induction over lines with distinct identifiers as invariant; C34, C35, C37, C45 for the processes |
| C70 | Aes.v and Sha1.v against AesSpec.v (FIPS 197: field, S-box by inverses, state array, key schedule recurrence) and ShaSpec.v (FIPS 180-4, RFC 2104) | simulation of states, key schedule and working variables; uniqueness of S-box, schedule, padding; then C16, C17, C18, C20, C21, C23 restated with the standards' relations |
| C71 | KeyMetadata as an object: AddVersion, RemoveVersion, GetVersion, the status setter, Read (exactly which texts, and the error for each other one) | invariant: keys of the dictionary are the version numbers, without duplicates; induction over the calls |
| C72 | Sizes.v (GetOutputSize and the sizes table of keyinfo.py) with the encryption, signing, session and stream functions | lengths of the parts of C17, C19, C21, C22, C51 added up; digits of numbers for RSA and DSA |
| C73 | (no new model) the same functions with the random tape as an argument | injectivity of every output in the data and in the bytes drawn from the tape |
| C74 | Json.v against JsonSpec.v (inductive grammar of RFC 8259: white space, numbers, strings with escapes, surrogate pairs and UTF-8, arrays, objects) | soundness by induction on the fuel, completeness by mutual induction on the grammar; errors by a length measure |
| C75 | (no new model) open_keyset over any reader, read_location over any disk | induction on the loading loop in both directions; errors described by an inductive specification proved equivalent |
| C76 | Steps.v: Decrypt, Verify and what they call, with the list of lines executed and library calls made | the instrumented functions are proved to give the model's results; steps of the comparison loop depend on lengths only (induction) |
| C77 | (no new model) RsaPrivateKey.Decrypt on arbitrary bytes | inverse of the OAEP decoding and of the RSA permutation; every block is a masked seed and data block, on which the outcome depends (C77_exactly); counterexamples computed with the demo key |
| C78 | interleavings of a reader's system calls with those of a sequence of commands, with reads of partial writes (Props_While.meanwhile) | everything a reader may see comes from the disks during the commands; a cut-off JSON object does not parse; each file then holds a text from before or after a command |
| C79 | the stream writer and reader, the sessions, the command lines of C69 and the files between processes (Props_Span) | composition: the key of the version survives all lines (lines_life), so C51/C52/C40/C41 apply between the set opened before and the set opened after; the size of the AES key is derived from the writer having been created |
| C80 | a disk on which each file is as it was at some moment of a sequence of commands, the moments chosen file by file (Props_Power.after_power_cut) | such a disk answers a reader as the moments of C78 do; each file is as before, or begins as after; lost keys by emptying the files that some moment empties |
| C81 | any interleaving of the system calls of a list of commands and of a process that opens the set (Props_Amid.amid) | an invariant of the disk that every program keeps: a metadata text that can be read lists the versions that stay, a key text that can be read is a key of its number; a complete text with a rest behind it is read as the text or not at all; the garbled file by a schedule |
| C82 | Memoize with its dictionary, the four session classes on top of it | invariant: every entry is what the function gives for an argument with this pickled form; induction over the calls |
| C83 | ImportAll, ImportBackends, sys.path and sys.modules, the loops of CreateReader and CreateWriter over any classes, the reader that Read of each class uses | what imports add to a process is described by one relation, closed under composition; importing again is the identity |
| C84 | a second model of metadata and key reading, opening and the file reader with values of any JSON type | simulation: whatever the typed model accepts or refuses for another reason than a type, this one does too; exact characterisation of the metadata accepted |
| C85 | Adaptor.v: the two adaptor classes with all their methods, and sequences of calls on them | induction over the calls, with the buffer and the chaining value as invariant; the result is stated against FIPS 197 and CBC |
| C86 | Messages.v: errors.py with the texts, and Decrypt, Verify, AttachedVerify and UnversionedVerify with the text of what they raise | which exceptions carry arguments is followed through the functions; two sets are compared on one input; the RSA part follows the blocks as C77 does and is refuted |
| C87 | Convert.v: convert_keyset.py (a Python script in cpp/), on the disk of C46-C50 | the script's Base64 decoder agrees with the library's whenever both succeed; members of rewritten objects; the opened sets are related key by key; crash points by the inversion lemmas of `during` |
| C88 | Unicode.v: values that are byte strings or unicode texts, and every conversion between them in the operations and the stream writer | "spells" relates a value to bytes; joining two such values spells the joined bytes or raises; the operations are then those on bytes; for streams, a simulation forwards and, from the final flush backwards, that all texts were ASCII |
| C89 | Order.v: opening in an arbitrary order of the versions, and arbitrary reorderings of the three dictionaries between calls | a renaming of the positions of version objects, from the permutation of the versions, relates the two sets; it is kept by every operation and reordering; the largest number, look-ups and unversioned verification (all keys of a set answer, or all raise the same) do not see the order; JSON objects with permuted members answer every look-up alike |
| C90 | Threads.v: a call is a sequence of single accesses to the shared object; threads take turns in any order | calls that only use the set: each access leaves the state alone, so each thread ends as alone; changing threads: an invariant against the state at the start, kept by every access of every thread; one adding thread: its stages, each stable under the accesses of the others; races: explicit schedules, for every set that has the versions concerned |
| C91 | (no new model) a list of calls, each with the state of the set at the time; the texts they sign or tag (covers, asked_to_sign, asked_to_encrypt) | the accepted text has a valid HMAC (C16, C18) under the key its header names; if the holders made it, the header and the payload determine the call; otherwise it is a forgery (Props_Forge; signed sessions and keys of other types in Props_Forge2) |
| C92 | (no new model) two key sets side by side; presented: the bytes a call is given; same_under: the keys under a header | all that a reading call does with the set is to look up the first five bytes, and all that a making call does is to look up the primary key; with C75 this is stated of the files, and with the preservation of look-ups (C30) of the objects after any changes (Props_Indep); a stream reader commutes with exchanging its set (Props_Indep2) |

## 5. What is modelled, and what is not

All of `/repo/python/src/keyczar`, module by module. "Lines" are cited at each definition.

| source | model | specification and theorems |
|---|---|---|
| util.py: Base64 | Base64.v | Props_Util (C01-C04), Props_B64 (C04 for every text) |
| util.py: numbers, packing, Xor, MGF, EMSA, hashes | Util.v, Sha1.v | Props_Util (C05-C11), Props_Unpack (C08 for every text) |
| util.py: ASN.1 | Der.v | Props_Asym (C13, C14), Props_Der and Props_Ber (C63, C13) |
| util.py: codecs and Base64 streams | Streams.v | Props_Stream (C54-C57), Props_Reflow (C55 for arbitrary text) |
| keyinfo.py, constants of keyczar.py | KeyInfo.v, Sizes.v | Props_Keys, Props_Keyset, Props_Sizes (C72) |
| keydata.py | KeyData.v, Meta.v | Props_Disk (C42), Props_Meta (C71) |
| keys.py: HMAC, AES, cipher adaptors | SymKeys.v, Aes.v | Props_Sym (C15-C18, C24) |
| keys.py: RSA, DSA | AsymKeys.v, ModArith.v | AsymSpec, Props_Asym (C12, C19-C21) |
| keys.py: Key, ReadKey, GenKey | Keys.v, Json.v | Props_Keys (C22, C23, C25, C60), JsonSpec, Props_Json (C74) |
| keys.py: EncryptingStreamWriter, DecryptingStreamReader | Streams.v | Props_Stream (C51-C53, C57), Props_Forged and Props_Resume (further theorems for C53), Props_Cases (further concrete cases) |
| keyczar.py: Keyczar, GenericKeyczar, Encrypter ... UnversionedVerifier | Keyczar.v | KeyRing, Props_Keyset, Props_Sign, Props_Attached (C39), Props_Open (C75), Props_While (C78), Props_Power (C80), Props_Amid (C81), Steps and Props_Steps (C76) |
| keyczar.py: sessions | Session.v | Props_Session (C40, C41), Props_Session2 (C41: which material opens a signed session) |
| readers.py, writers.py (files, encrypted, static) | Keyczart.v, Disk.v | Props_Disk |
| keyczart.py: commands and command line | Keyczart.v | Props_Tool, Props_Cmd |
| keyczart.py: genkey | GenKeySet.v | Props_Gen |
| byte formats of all of the above | (no new model) | Props_Format (C64, and format theorems for C02, C06, C07, C12, C17, C19, C21) |
| util.py Memoize | Cache.v | Props_Cache (C82) |
| util.py ImportAll, ImportBackends | Backends.v | Props_Back (C83) |
| keydata.py, keys.py Read methods, Keyczar.__init__, FileReader: values of any JSON type | Loose.v | Props_Loose, Props_Loose2 (C84) |
| keys.py: AESAdaptor and EVPAdaptor used in any way | Adaptor.v | Props_Adaptor (C85) |
| errors.py, and the texts given by keyczar.py and keys.py when an input is refused | Messages.v | Props_Messages (C86) |
| cpp/src/keyczar/keyczar_tool/convert_keyset.py | Convert.v | ConvertFacts, Props_Convert, Props_Convert2 (C87) |
| the operations of keyczar.py and keys.py on unicode arguments (Python 2) | Unicode.v | Props_Unicode (C88) |
| the order in which the dictionaries of keyczar.py:44-46 and keydata.py:39 list their entries | Order.v | Props_Order, Props_Order2 (C89) |
| GenericKeyczar, Encrypter, Crypter, Signer, Verifier and the unversioned classes (keyczar.py:72-251, 320-674), access by access, for objects shared by threads | Threads.v | Props_Threads, Props_Threads2, Props_Threads3, Props_Threads4, Props_Threads5 (C90) |
| Encrypter, Crypter, Signer, Verifier and the unversioned classes over all requests to the holders of keys | (no new model) | Props_Forge, Props_Forge2 (C91) |
| the calls of two key sets that share a key | (no new model) | Props_Indep, Props_Indep2 (C92) |
| error cases of the above | (no new model) | Props_Errs (further theorems for C63), Props_More3 (further theorems for C71), Props_More2 (further theorems for C41, C54, C64, C68), Props_More (further theorems for C03, C13, C19, C33, C46, C50, C53, C64, C68) |
| use of the random bytes by all of the above | (no new model) | Props_Rand (C73) |
| pubkey and --crypter over histories | (no new model) | Props_Crypter (C65, C66) |
| failing system calls | Fault | FaultFacts, Props_Fault (C67) |
| readers.py MockReader, keyczart.py with `mock` | Mock | Props_Mock (C68) |
| keyczart.py main with keyczar.py Read, over histories | (Keyczart, Disk) | Props_Life (C69), Props_Span (C79) |
| AES, SHA-1 and HMAC as standards | AesSpec.v, ShaSpec.v (specifications) | AesSpecFacts, ShaSpecFacts, Props_Prim (C70) |
| the same sources under Python 3 | Py3.v | Props_Py3, Props_Py3b (C59) |

`Golden.v` runs the model on files of `/repo/python/testdata` (keys, ciphertexts, signatures).
These are tests of the faithfulness of the model, not proofs of properties; no claim rests on them.

Not modelled:

* keyczart.py: the text printed by `Usage` and by the commands, `_main_setuptools` (it only calls `main`
  with `sys.argv`), the `_Name` class of the table of commands;
* readers.py: the abstract `Reader` class, whose methods only return or are overridden; writers.py: the
  abstract `Writer` class; `main` and `genkey` with `keyczart.mock` set (the commands with it are modelled);
* util.py: the fallback definitions of `BlockingIOError` and `abstractmethod` for old Pythons, and the
  deprecated alias `Encode`;
* logging and warnings; the text of exception messages other than those of C86 (the class is modelled);
* time within one step of Steps.v (C76 covers the lines executed and the lengths given to library calls, not the time the interpreter and the C code take), the quality of the random source, the removal of key bytes from memory;
* the file permissions of key files. A crash between two system calls or inside a write is modelled (C48,
  C62), so is any interleaving of two (C49) or more (C81) processes, and so are failing system calls (C67; a failing
  `open(..., "w")` is assumed to leave the file alone), and files that reach the disk out of order (C80; blocks of
  one file are assumed to reach it in order);
* error conditions inside OpenSSL (M2Crypto); the model of its cipher object has the documented behaviour;
* the Java and C++ implementations.

Simplifications that the theorems must be read with, each also noted at its definition: lists have no upper
bound on their length (struct's 32-bit length fields are bounded where the code packs them); Python ints are `Z`;
prime generation is a relation between the requested size and the parameters drawn; `json` text is the
text simplejson accepts and prints, with floating point numbers kept as written; directories are
not nested, and two paths name the same directory only if they are the same string.

## 6. Print Assumptions

Every theorem listed in MANIFEST.json is followed by `Print Assumptions` in its file. Every one of them prints
`Closed under the global context`: no axiom of the standard library is used, and none is added. (vcheck's list of
library axioms mentions `Coq.ssr.ssrunder.Under_rel`, which coqchk finds in the loaded standard library; no
theorem depends on it.)

The repeated experiment with wrong programs is recorded in `seeded/LOG.jsonl`. "theorems_failed" are theorems whose own
proof broke; "theorems_resting_on_failed_lemmas" are theorems whose proof uses a lemma that broke.
