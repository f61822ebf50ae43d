# Formal model of himmelblau-idm/kerbeiros in Rocq (Coq 8.16.1)

The model lives in `rocq/theories` (logical name `Verif`). Only the Coq standard
library is used. The code in /repo was read, not run.

## Method

* Rust values become immutable Gallina values. Bytes are `N` (with the type
  invariant `< 256` stated where it matters), `i32` is `Z`, lengths are `nat`.
  Every `as` cast is an explicit `mod 2^k`.
* `Result` and panics are explicit: a fallible function returns
  `Ok v | Err e | Panic`. A panic path in the code (slice out of range,
  `unwrap`, arithmetic overflow with checks on) is the value `Panic`.
* Loops become structural recursion or recursion on fuel; fuel exhaustion is
  a distinct value and is proved unreachable.
* External crates (nom, red_asn1, the crypto primitives, the OS) are modelled
  from their documented behaviour or taken as parameters quantified by the
  theorems (see the trusted base below).

## Plan per property

- **C01 Keytab write/read round trip**: Keytab.v: parser/printer over byte lists with nom semantics; induction over entries.
- **C02 Keytab parsing is total apart from one panic**: Nom result type with explicit Panic; `overflow_checks` a parameter; case analysis over the whole parser.
- **C03 Keytab parse consumes a prefix and returns the suffix unchanged**: Independent record-layout relation; soundness by induction on the many0 loop.
- **C04 Deleted keytab records are reported as empty entries and do not survive a rewrite**: Direct computation for all hole contents + rewrite theorem.
- **C05 Keytab parsing stops silently at the first undecodable record**: Exact characterisation of many0 over records.
- **C06 Keytab length fields truncate silently on write**: Theorem for all over-long strings that the length field is len mod 2^16 and read-back differs.
- **C07 Credential cache write/read round trip**: Ccache.v: generic printer/parser pairs; induction.
- **C08 Credential cache file layout**: Independent layout specification (relation) and iff.
- **C09 A truncated credential cache never yields wrong credentials**: Prefix lemma: parse of a prefix fails or consumes a prefix of credentials.
- **C10 Credential cache parsing is total and in bounds**: No Panic constructor reachable; suffix lemma.
- **C11 Only version 0x0504 is accepted**: Case analysis.
- **C12 The total header length is not used**: Two-run theorem (non-interference of the field) + refutation witnesses.
- **C13 Canonical form**: Reverse round trip.
- **C14 Declared element counts are honoured**: many_m_n lemma.
- **C15 DER round trip for every Kerberos message**: Der.v: deep-embedded schema language for red_asn1 derive(Sequence), one generic round-trip theorem, schema for each type.
- **C16 Different messages are never confused**: First-byte argument on application tags, for all byte strings.
- **C17 KerberosFlags bit string**: Model of KerberosFlags + generic.
- **C18 KerberosTime**: Civil calendar arithmetic on Z; proleptic Gregorian.
- **C19 Principal name comparison**: Equivalence proof with abstract Unicode lower-casing.
- **C20 NetBIOS name padding**: Arithmetic.
- **C21 Timestamp pre-authentication microseconds**: Arithmetic with clamp.
- **C22 Request conversions preserve the body**: Record equalities.
- **C23 Unsigned 32-bit fields on the wire**: Case analysis on u32.
- **C24 Principal mapping**: Mappers.v with UTF-8 validator.
- **C25 Time mapping between KRB-CRED and credential cache**: Casts explicit mod 2^32.
- **C26 Key mapping**: Casts mod 2^16.
- **C27 Address mapping**: NetBIOS trim/pad.
- **C28 Authorization data mapping**: List map.
- **C29 Credential cache to KRB-CRED and back**: Composition of mappers and DER.
- **C30 KRB-CRED to credential cache**: Exact error characterisation, zip.
- **C31 Credentials to ccache file and back**: kerbeiros mappers.
- **C32 Credentials to KRB-CRED**: Mapper + DER.
- **C33 AES encrypt/decrypt round trip**: CTS model over abstract block permutation; hmac abstract with fixed length.
- **C34 AES decrypt accepts only authentic ciphertexts**: Iff theorem.
- **C35 AES ciphertext length**: Length lemma.
- **C36 AES ciphertext stealing follows RFC 3962**: Independent RFC 3962 CS3 spec.
- **C37 RC4 encrypt/decrypt round trip and acceptance**: Same over abstract hmac_md5, rc4 keystream.
- **C38 RC4 key usage aliasing**: Case analysis.
- **C39 n-fold**: Independent spec: rotate-right of bit string and one's complement addition; termination of the carry loop.
- **C40 Key derivation lengths and determinism**: Length + DR stream spec.
- **C41 Hexadecimal key parsing**: Strings as UTF-8 byte lists with char boundary checks -> Panic.
- **C42 Salts**: Abstract case mapping.
- **C43 Pre-authentication salt agrees with library salt**: Compare the two functions for all inputs.
- **C44 Cipher selection**: Case analysis.
- **C45 Key etypes**: Case analysis.
- **C46 RC4 password encoding is injective**: UTF-16 encoder injectivity.
- **C47 Checksums**: Composition.
- **C48 Only supported encryption types can be configured**: State machine over option calls; invariant by induction.
- **C49 AS-REQ contents**: Builder model.
- **C50 Pre-authentication can be verified by the KDC**: Composition with C33/C37.
- **C51 TGT request protocol**: Requester with history-dependent transport oracle and message trace.
- **C52 Panic freedom of the TGT request**: Panic characterisation by case analysis.
- **C53 Accepted credentials are authentic**: Composition with C34/C37.
- **C54 Reply is matched to the request**: Refuted for the code (no check): witness; plus what does hold.
- **C55 TCP framing**: Stream as list of chunks, read_exact loop.
- **C56 UDP datagram reception**: Peek/double loop with fuel = datagram length.
- **C57 Saving to file at every crash point**: File system model with crash points.
- **C58 End-to-end TGT save and load**: Composition.
- **C59 Transport choice does not change the conversation**: Transport as parameter of the requester.
- **C60 Message schemas agree with RFC 4120**: Rfc4120.v transcribes the ASN.1 modules independently; equality of schemas by type, refutation for EncAPRepPart.
- **C61 Printing a principal name**: Case analysis on the component list.
- **C62 Both ways of saving agree**: Composition of the mappers of C30-C32.
- **C63 KDC name resolution**: Resolver as a parameter.
- **C64 AS exchange**: Same oracle as C51; for the whole requester over the network as in C68.
- **C65 Fields keep their name on the wire**: one literal statement per struct (PropsWire.v), from a lemma about any field list.
- **C66 Options and flags by name**: Constants.v; tables of the standards; bit lemma for any sublist; refutations for the two wrong constants.
- **C67 Numbers and error codes by name**: Constants.v; tables of RFC 3961, 4120, 4757, MS-KILE; case analysis on all integers.
- **C68 The whole client over the network**: PropsNetwork.v; composition of C48, C51, C55, C56, C59 with the bytes on the wire of each exchange.
- **C69 The reported error is exact**: ClientErrors.v; inductive `diagnosis` of a refused reply, shown equivalent to the outcome and unique.
- **C70 Messages made from a default are identified**: Defaults.v (generic derived default by recursion on the schema); the first octets on the wire by C65 and the uniqueness of DER; refutations for the derived defaults.
- **C71 Counted strings as text**: Defaults.v; the relation `utf8_text` of TextSpec.v, and the file readers.
- **C72 Re-encoding is stable**: PropsReread.v; whatever the reader returns `fits` its type (induction on the schema), then C15.
- **C73 Modified ciphertexts**: PropsTamper.v; from C34/C37 and injectivity of stolen CBC (C36).
- **C74 What the KDC announces is not used**: PropsHints.v; two runs of the requester compared; the reply depends on the list of salts only.
- **C75 Programs with several requesters**: PropsSessions.v; a program as a list of calls run over the model; invariant: each object is `new` plus the settings made on it.
- **C76 Files that grow**: PropsAppend.v; from the exact parse relations C03, C08.
- **C77 Comparing values**: Compare.v (derived `==` by recursion on the schema, with the exception for PrincipalName); equality of normal forms by induction on the schema.
- **C78 Fields of a credential**: Compare.v; composition with C53.
- **C79 Working from a secret**: the four one-call functions of cipher_trait.rs; composition of C40/C46 with C33-C38, PropsSecret.v.
- **C80 Error texts**: ErrorText.v (Display of the three error types; that of red_asn1 errors and the Debug form of KRB-ERROR are arguments); prefix comparison, uniqueness of decimals, induction on nesting.
- **C81 Concurrent saves**: Concurrent.v, processes as interleaved system calls on one file; invariant over reachable worlds (who created the file last, extent, origin of every byte); runs of one process simulate and are simulated by Client.save_data_to_file.
- **C82 Loading during a save**: the same with loaders; invariant "beginning of the old, then of the new"; composition with C57.
- **C83 UDP needs an IPv4 address**: composition of C68 with a hypothesis on sockets.
- **C84 Memory reserved for answers**: the buffer sizes of both transports in Client.v; induction on the doublings.
- **C85 Histories of saves**: FileHistory.v, a file system as a function of paths; induction on the history from its end, C57 for each save.
- **C86 An honest KDC serves its users**: KdcSpec.v specifies a KDC (RFC 4120 3.1) as a relation between requests and answers; the theorems compose C49-C53 with it (PropsKdc.v), and C64 for the AS exchange alone (PropsKdcAs.v). KdcExample.v is a KDC shown to meet the specification for all primitives, so that the hypotheses can be met. KdcProofs.v also bounds the size of every request, which discharges the 64-bit hypotheses of C49 and C50.
- **C87 From a password to a credential cache**: composes C48 (settings), C86 (KDC), C55 and C56 (transports), C68 (wire), C57 (writing) and C58 (reloading), for a network that carries the answers of an honest KDC; the KDC of KdcExample.v behind a network with split reads and interrupted writes meets all hypotheses, for both protocols.
- **C88 Rewriting settles**: composes the mappers with reader and writer of the cache file: what an entry becomes when loaded and saved (relation `rewritten`), and that a reloaded credential is written as the original was, so the second rewriting is the identity on bytes; the same for the conversions of kerberos_ccache. Example: a foreign file with white space, second ticket and trailing octets, changed by the first rewriting only.
- **C89 Values are no larger than the input**: `size` counts numbers, lists, structures, byte strings and bytes of a value of any schema; mutual induction over schemas bounds it by the octets consumed, for every reader. For re-encoding, the shortest length octets and two's complement are no longer than those read. File formats: from the layout relations. What nom reserves while parsing (its `count` starts with a bounded or announced capacity, depending on its version) is not modelled.
- **C90 What of a reply is not protected**: two runs of the client against transports that differ at one history, the last; C51 gives the same messages, C53 both credentials. `C90_any_ticket` builds the replacement from any typed ticket, client and realm; `C90_ticket_authentic_refuted` gives two concrete worlds for every instance of the primitives.
- **C91 Which received credentials can be stored**: the size bounds of C89 through reply and decrypted part (a plaintext is shorter than its ciphertext) discharge the length conditions of C31; `stored_as` composes the two independent relations `written_entry` and `read_entry`, without the restriction on address types of C31. Lossy UTF-8 decoding at most triples a text (induction over the decoder). Loading fails exactly for empty names.
- **C92 What the requests reveal of the secret**: byte-level: the encoder maps a hole of fixed length to a frame (before, after) independent of its content, closed under TLV and concatenation; the length of a sealed text is a function of the type of encryption and the plaintext's length. Not about the strength of the encryption itself.
- **C93 Power failures**: two models of what a device holds after a power failure, the code asking for no sync: some earlier moment of the history (in order), or the file with zeros from some position on. The first reduces to C85; for the second, a reader that is a prefix code cannot stop inside a beginning of what it read, so what follows the cut is read from zeros. Torn writes in the middle of a file and lost directory entries are not modelled.
- **C94 Preambles of any length**: PropsPreamble.v: for the long messages from C33 and C37 by moving the boundary, the short ones by one block of CTS.
- **C95 Requests at the same time do not disturb each other**: Threads.v: a request as a tree of draws, sends and receives; PropsThreads.v: the status of each request is a function of its own events, and finishing the tree is tgt_request / as_request of Client.v.
- **C96 Many users at one KDC at the same time**: PropsCrowd.v: C95 reduces each request to one made alone against the answers it got; these are completed to a KDC that is honest everywhere, and C86 applies.
- **C97 Damaged files**: PropsDamage.v: every byte string is a sequence of complete credentials (slots) followed by a stop or an overrun (induction on its length); then the exact characterisations C03, C05, C07, C08.
- **C98 Recorded answers can be replayed**: PropsReplay.v: from the exact characterisation of accepted replies (C53, C51); a witness for the refuted claim.
- **C99 Answers that reach another request**: PropsCrossed.v: from C95_isolated (a request in a crowd does what it does alone with the answers it got) and the exact characterisation of accepted replies (C53); a witness for the refuted claim.
- **C100 Each of many users is treated like a lone one**: PropsEach.v: reduction. The network of one request, as far as it got, is completed by what the KDC would answer; a run looks at the network only after the messages it sends, so it is the run of a lone request, to which the theorems of C86 apply.
- **C101 An attacker on the network who cannot forge**: PropsAttack.v: that ciphertexts cannot be forged is a hypothesis on the attacker (a statement about his answers, satisfiable as the example shows), not an axiom; C95_authentic for what was accepted, and the tags keep timestamps from being read as encrypted parts.
- **C102 The documented log-on program**: Programs.v models the documented programs step by step over the model of the client and the files; the statements compose C57, C58 and C87 with an invariant over the states.
- **C103 The documented copy programs**: Programs.v; C03, C04, C07, C08, C13 for the bytes and C57 for the writes.
- **C104 The documented AS request program**: Programs.v; C64 for the answers, C61 for the printed name, fmt_i32_decimal for the number, C87 for the honest KDC.
- **C105 A UDP exchange while anybody sends datagrams**: Datagrams.v models the calls of udp_transporter.rs as a state machine over the queue of the socket; an invariant relates queue and history; a measure gives progress; C105_one_datagram relates it to the socket of C56.
- **C106 Replacing a credential file by saving elsewhere and renaming**: Replacing.v adds names, files and rename to the processes of Concurrent.v (whose steps are those of file.rs); an invariant keeps the files being written apart from those that are shared or open; a second one follows a reader from its open.
- **C107 Equal ciphertexts and equal requests come from equal inputs**: Decryption is a function that recovers preamble and plaintext (aes_message_inj, rc4_message_inj); a request is read back by the DER parser, also a function, and C49 says what is found.
- **C108 Sizes of requests**: A separate arithmetic of sizes (octets, boxed, field) is proved of the DER encoder and summed up over the message; bounds by linear arithmetic.
- **C109 Who can read a saved credential file**: Modes.v adds owners, groups, modes and umask to the states of a path under save_data_to_file (Client.v), by what open does with O_CREAT and O_TRUNC and mode 0666, which is what File::create asks for; privacy is an invariant over histories; loading by others uses C85.
- **C110 Keytabs that other programs maintain**: Maintain.v models the other programs (what MIT's do with holes, any choice of hole) on files of records and holes; every readable file is such a file (by C03); an invariant relates slots and entries read, by the layout of KeytabSpec.v.
- **C111 Credential caches with configuration entries**: On the models of the ccache crate (C07) and the exact conditions of C29 and C31 (convertible), with a parse of the ticket that fails at its first octet.
- **C112 Credentials removed from a cache in place**: The edit is stated on the bytes of the file (two 4-octet fields of the saved cache are overwritten) and followed through the parser (C07) and the loader (C31).

## Files

| file | contents |
|---|---|
| Base, Utf8, Text, Time, Hex | results with panics, byte strings, casts; UTF-8; lossy decoding and trimming; civil calendar; literals |
| Nom | the nom combinators used by the file formats |
| Keytab, Ccache | file formats (crates kerberos_keytab, kerberos_ccache) |
| Der, Asn1Types, Asn1 | DER, the message schemas (generated by tools/gen_asn1.py from /repo/kerberos_asn1/src), hand-written methods of the crate |
| Mappers | conversions of both crates, Credential, CredentialWarehouse |
| Crypto, Prims | crate kerberos_crypto over abstract primitives; one concrete instance |
| Compare | `==` on messages and credentials, accessors |
| ErrorText | Display of errors |
| FileHistory | sequences of saves on several paths |
| KdcExample | a KDC meeting KdcSpec (no code in /repo: an example) |
| Concurrent | several processes saving to and loading from one path |
| Threads | requests of several threads, step by step |
| Programs | the programs of the crates' documentation (log on and save, copy a file, ask for an AS-REP) |
| Replacing | programs that save to a path of their own and rename it to a shared one, and readers, at the same time (over Concurrent.v) |
| Maintain | what other programs do to a keytab file in place: adding in holes, deleting |
| Modes | owners, groups, modes and umask of saved files (over Client.v), and other users' acts |
| Datagrams | one UDP exchange, call by call, with datagrams of anybody arriving at any time (refined by C105 to the socket of Client.v) |
| Defaults | `default()` of the messages, counted strings as text |
| Constants | flags, error codes and `error_code_to_string` of crate kerberos_constants (generated by tools/gen_constants.py) |
| Client | crate kerbeiros: options, AS-REQ builder, requesters, transports, resolution, saving |
| *Spec, FileSpec, TextSpec, Rfc4120 | specifications: relations between bytes and values, RFC transcriptions; no reference to the functions of the model |
| *Proofs*, TextProofs, FileSpecFacts, DerUnique, DerBytes, Nfold*, ClientErrors | lemmas |
| Props* | the theorems of MANIFEST.json with examples beside them |
| CryptoVectors | replay of the test vectors of /repo on the concrete primitives (tests of the model, not theorems) |
| RepoTestsAsn1, RepoTestsFiles, RepoTestsClient | the unit tests of kerberos_asn1 (53), kerberos_ccache and kerberos_keytab and the mappers and credentials of kerbeiros (101), and the client part of kerbeiros (33), replayed on the model with the bytes of the Rust sources; all agree (tests of the model, not theorems; generators in tools/) |

## Trusted base

1. **Coq 8.16.1's kernel**, including its virtual machine (`vm_compute` is used
   on closed terms).
2. **Axioms**: `Print Assumptions` prints "Closed under the global context" for
   every theorem of MANIFEST.json; no axiom of the standard library is used.
   (coqchk run on the whole context additionally lists constants of
   `Coq.ssr.ssrunder`, which the standard library loads with ssreflect; no
   theorem depends on them.)
3. **The transcription** of the Rust code into the definitions of Keytab, Ccache,
   Asn1Types, Asn1, Mappers, Crypto and Client. Each definition cites the lines
   it models. Asn1Types.v is generated by a script from the `seq_field`
   attributes of /repo; Rfc4120.v was written by hand from the ASN.1 modules in
   the RFC, and C60 compares the two.
4. **What the external crates do**, since their source is not in /repo:
   * nom: `take`, `tag`, `be_u*`, `length_data`, `many0`, `many_m_n`, on
     complete input (Nom.v).
   * himmelblau_red_asn1: DER per X.690 with the conventions visible in the byte
     vectors of the tests of /repo (Der.v). Where X.690 and the tests leave the
     reader's behaviour open (bytes left over in a SEQUENCE, long form of short
     lengths, odd booleans, times that are no date such as 20230229000000Z, ...)
     it is a parameter `asn1_lib` over which every
     theorem quantifies. `UInt32` is taken to be written like the i32 of the same
     bits (C23 describes the consequence). The parameter may accept or refuse, but
     is taken not to panic, so "never panics" is a statement about the code of
     /repo on top of such a reader. Multi-byte tags do not occur in the
     schemas and are non-matching in the reader.
   * chrono: proleptic Gregorian civil time, seconds and nanoseconds, years
     0..9999 (Time.v).
   * the primitives AES, HMAC-SHA1, HMAC-MD5, RC4, MD4, MD5, PBKDF2: arbitrary
     functions with the right lengths, AES decryption inverse to encryption,
     RC4 a keystream (`prims_ok`); Prims.v defines an instance and proves
     `prims_ok` of it. No theorem makes a computational (cryptographic) claim:
     "sealed with the key" is a functional relation.
   * `str::to_uppercase/to_lowercase`: a parameter `casing` with the laws
     `casing_ok`; ASCII casing is proved to be an instance.
   * std::io / std::net: `write_all`, `read_exact`, `peek`, `recv`,
     `File::create` as event lists (Client.v).

## Modelled and not modelled

Modelled: everything of the six crates that handles data, except the items below.

Not modelled:
* `Debug`/`Error` texts other than the ones cited (the crates do no logging and no serde).
* Which random bytes, clock readings, host lookups happen: they are parameters.
* Time outside years 0..9999, where chrono's text form changes.
* Memory: allocation failure (the sizes of the buffers for answers are in C84),
  lengths beyond 2^64 (theorems assume messages below 2^64 where it matters).
* Power failures other than those of C93 (changes in order, or a lost tail);
  elsewhere a crash is one of the process: what write() has returned for is in
  the file. With several processes (Concurrent.v) nobody removes or
  renames the file, and each read or write call is atomic.
* Networks that drop a datagram from the queue of the socket after it was peeked at (in Datagrams.v datagrams arrive at any time, but only recv takes them out).
* Threads inside one request: the crates start none and have no shared mutable state (requests of several threads are modelled, Threads.v).
* Timing side channels, zeroisation.
* The test code of /repo (its unit tests are replayed in RepoTests*.v; the programs in its documentation are modelled in Programs.v).
