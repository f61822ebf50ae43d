import json
P=[]
def p(title, statement, quant, why, anchors):
    P.append(dict(id="C%02d"%(len(P)+1), title=title, statement=statement, quantifier=quant, why_tests_cant=why, anchors=anchors))
# ---- keytab
KT="kerberos_keytab/src/"
p("Keytab write/read round trip",
  "Keytab::parse(keytab.build()) returns Ok with no remaining bytes and a value equal to the original, for every keytab whose names, keys and entries fit their length fields (u16 octet strings, u16 component count, entry record shorter than 2^31 bytes), whether or not its entries carry the optional 32-bit key version (vno), and for no other keytab.",
  "every keytab value: any number of entries, any number of components, any octet contents",
  "unit tests use two or three literal keytabs; the claim is over unbounded lists of entries and arbitrary bytes",
  [KT+"keytab.rs: Keytab::parse, Keytab::build", KT+"keytab_entry.rs: KeytabEntry::parse, KeytabEntry::build", KT+"key_block.rs", KT+"counted_octet_string.rs"])
p("Keytab parsing is total apart from one panic",
  "Keytab::parse returns Ok or Err on every byte string, with the single exception of an entry record whose size field is 0x80000000 in a build with overflow checks, where negating the size panics. In a build without overflow checks it never panics.",
  "every byte string, both overflow-check modes", "fuzzing samples inputs; the claim is for all byte strings",
  [KT+"keytab_entry.rs: KeytabEntry::parse (take(-size as usize))"])
p("Keytab parse consumes a prefix and returns the suffix unchanged",
  "When Keytab::parse returns Ok((rest, v)), rest is a suffix of the input, the consumed prefix is a two-byte header followed by a sequence of records, and each record is either a hole (negative size) or decodes to the corresponding entry; each record is decoded from its own size-delimited bytes only.",
  "every byte string", "requires reasoning about every possible layout of holes, entries and trailing bytes",
  [KT+"keytab.rs: Keytab::parse", KT+"keytab_entry.rs"])
p("Deleted keytab records are reported as empty entries and do not survive a rewrite",
  "A hole (record with negative size -n followed by n bytes) is read as one default (all-empty) entry regardless of the bytes inside; re-writing a parsed keytab with a hole produces a live record for an empty principal in its place instead of a hole.",
  "every hole size and content, at every position", "tests contain no holes; claim is over all contents",
  [KT+"keytab_entry.rs: KeytabEntry::parse"])
p("Keytab parsing stops silently at the first undecodable record",
  "If a record fails with a recoverable error, Keytab::parse still returns Ok with exactly the entries before that record and the remaining bytes from the start of the bad record; it returns Err only when the version bytes are missing or a record's inner length field points past the record's declared size (incomplete data).",
  "every byte string", "needs the exact split between swallowed and propagated parser errors for all inputs",
  [KT+"keytab.rs: many0(KeytabEntry::parse)"])
p("Keytab length fields truncate silently on write",
  "Writing never fails: a string, key, component list or record too long for its length field is written with the length modulo the field width, and then the written file does not read back to the same value.",
  "every over-long value", "needs 64KiB+/2GiB inputs for every field", [KT+"counted_octet_string.rs: build", KT+"key_block.rs: build", KT+"keytab_entry.rs: build"])
# ---- ccache
CC="kerberos_ccache/src/"
p("Credential cache write/read round trip",
  "CCache::parse(c.build()) returns Ok with no remaining bytes and a value equal to c, for every cache created with version 0x0504 whose octet strings, counts and header data fit their length fields.",
  "every cache value: any number of credentials, addresses, authorization data, any octet contents",
  "tests check a handful of literals", [CC+"ccache.rs: CCache::parse, CCache::build", CC+"credential.rs", CC+"principal.rs", CC+"header/header.rs"])
p("Credential cache file layout",
  "c.build() is byte for byte the version-4 file layout documented beside each type: 05 04, 16-bit total header length, header tag/length/data, primary principal, then each credential in order with big-endian integers and length-prefixed octet strings; and parse accepts exactly such layouts, reading the same value from them.",
  "every cache value and every byte string", "layout must hold for every field combination, not for sample files", [CC+"ccache.rs", CC+"credential.rs", CC+"address.rs", CC+"times.rs", CC+"key_block.rs", CC+"counted_octet_string.rs"])
p("A truncated credential cache never yields wrong credentials",
  "If a cache file is cut at any byte position, parsing the prefix either fails or returns the same header and primary principal with the first k credentials of the original, unchanged, where k is the number of credentials that end before the cut; it fails exactly when the cut is before the end of the primary principal or inside the bytes of a counted string of credential k+1.",
  "every cache value and every truncation point", "all crash points of all files", [CC+"ccache.rs: CCache::parse"])
p("Credential cache parsing is total and in bounds",
  "CCache::parse returns Ok or Err on every byte string and never panics or reads outside the input; on Ok the remaining bytes are a suffix of the input, and the number of credentials is bounded by the input length.",
  "every byte string", "all inputs", [CC+"ccache.rs", CC+"credential.rs", CC+"principal.rs"])
p("Only version 0x0504 is accepted",
  "CCache::parse fails on every input that does not start with bytes 05 04, and every cache it returns has file format version 0x0504.", "every byte string", "all inputs", [CC+"ccache.rs: tag"])
p("The total header length is not used",
  "CCache::parse ignores the value of the header length field: exactly one header field is read whatever the field says, so two inputs that differ only there parse alike; consequently a valid version-4 file is read completely and correctly exactly if it has one header field, and can be read with a wrong primary principal if it has none or two.",
  "every byte string, every header length value", "all inputs and header lengths", [CC+"ccache.rs: headerlen"])
p("Canonical form",
  "If CCache::parse accepts an input with no bytes left, re-building the parsed cache gives back the same bytes except the two header-length bytes, which are replaced by the actual header size.", "every byte string", "all inputs", [CC+"ccache.rs: CCache::parse, CCache::build"])
p("Declared element counts are honoured",
  "In an accepted cache the number of principal components, addresses and authorization data elements returned equals the count declared in the file; a count larger than the elements present is an error, never a shorter list.", "every byte string", "all inputs", [CC+"principal.rs: many_m_n", CC+"credential.rs: many_m_n"])
# ---- asn1
A="kerberos_asn1/src/"
p("DER round trip for every Kerberos message",
  "For every message type of the library, T::parse(v.build()) returns v with no bytes left, for every value whose optional fields, lists and strings are arbitrary within their Rust types, whose times are whole seconds of the years 0 to 9999 (fractions are not written), and whose encoding is shorter than 2^64 bytes.", "every value of every message type", "value space is unbounded and 40+ types", [A+"lib.rs (all Sequence-derived types)", A+"as_req.rs", A+"ticket.rs", A+"kdc_req_body.rs", A+"krb_error.rs"])
p("Different messages are never confused",
  "Parsing bytes as one application-tagged message (AS-REP, KRB-ERROR, AS-REQ, TGS-REP, Ticket, ...) fails when the bytes are the encoding of a message with another application tag; in particular no byte string is accepted both as KRB-ERROR and as AS-REP.", "every byte string and pair of types", "all inputs and pairs", [A+"krb_error.rs", A+"as_rep.rs", "kerbeiros/src/requesters/as_requester.rs: AsReqResponse::parse"])
p("KerberosFlags bit string",
  "Any 32-bit flag word round-trips through build/parse; a shorter bit string is read as if padded with zero bits on the right and a longer one as its first 32 bits; the declared number of unused bits is ignored.", "every u32 and every bit string", "2^32 values and all lengths", [A+"kerberos_flags.rs"])
p("KerberosTime",
  "Every UTC instant with year 0..9999 round-trips through KerberosTime build/parse up to the second (fractions are dropped, the time zone is UTC), and the text is the 15 character YYYYMMDDHHMMSSZ form of the same civil date and time.", "every instant in the range", "the calendar has 3*10^11 seconds", [A+"kerberos_time.rs"])
p("Principal name comparison",
  "PrincipalName equality is an equivalence relation: names are equal exactly when name types are equal, component counts are equal and components are equal after lower-casing.", "every pair/triple of names", "all strings", [A+"principal_name.rs: PartialEq"])
p("NetBIOS name padding",
  "padd_netbios_string returns its input followed by spaces only, of total length the least multiple of 16 not below the input length.", "every string", "all lengths", [A+"host_address.rs: padd_netbios_string"])
p("Timestamp pre-authentication microseconds",
  "PaEncTsEnc::from(time) carries the whole-second instant and a microsecond field in 0..=999999, including for leap-second sub-second values.", "every instant and nanosecond field", "all values", [A+"pa_data/pa_enc_ts_enc.rs"])
p("Request conversions preserve the body",
  "Converting KdcReq to/from AsReq and TgsReq preserves pvno, padata and body and sets the message type of the target; round trips change nothing else; EncAsRepPart/EncTgsRepPart/EncKdcRepPart conversions are lossless.", "every request value", "all field values", [A+"kdc_req.rs", A+"as_req.rs", A+"tgs_req.rs", A+"enc_kdc_rep_part.rs"])
p("Unsigned 32-bit fields on the wire",
  "A UInt32 value round-trips through the library, but values of 2^31 and above are written as a negative DER INTEGER (the i32 of the same bits, no leading zero octet), which is not the RFC 4120 encoding of the number; values below are written as the same non-negative INTEGER an Int32 would be.", "every u32", "2^32 values", [A+"uint32.rs", A+"int32.rs"])
# ---- mappers
M=CC+"mappers/"
p("Principal mapping",
  "Mapping realm + principal name to a ccache principal and back returns the same realm, name type and components for every name with at least one component; mapping back fails exactly when there is no component or some component or the realm is not UTF-8.", "every principal", "all strings", [M+"principal_mapper.rs"])
p("Time mapping between KRB-CRED and credential cache",
  "Optional times map to 0 when absent and to the 32-bit second count when present; mapping back returns the same instants for every second in 1..2^32-1, with 0 meaning absent; a present time whose 32-bit value is 0 becomes absent.", "every combination of optional times", "all instants", [M+"times_mapper.rs"])
p("Key mapping",
  "An encryption key maps to a ccache key block and back unchanged exactly when its type is in 0..65535; otherwise the type is reduced modulo 2^16 and the key bytes are still unchanged.", "every i32 key type and key bytes", "2^32 types", [M+"key_block_mapper.rs"])
p("Address mapping",
  "A non-NetBIOS address round-trips with type reduced mod 2^16 and identical bytes; a NetBIOS name is stored without its trailing padding and restored padded to 16, also when only the reduced type is that of NetBIOS. A stored list is refused exactly if it is empty or holds a NetBIOS name that is not UTF-8.", "every address list", "all strings", [M+"address_mapper.rs", A+"host_address.rs"])
p("Authorization data mapping",
  "Method/authorization data entries map to ccache entries and back keeping order, count and bytes, with types reduced modulo 2^16.", "every list of entries", "unbounded lists", [M+"auth_data_mapper.rs", "kerbeiros/src/mappers/auth_data_mapper.rs"])
p("Credential cache to KRB-CRED and back",
  "For every ccache whose credentials have well-formed principals and tickets, converting to KRB-CRED and back yields a cache with the same primary-principal-of-first-credential, and the same credentials in the same order up to the documented lossy fields (is_skey, authdata, second ticket, key etype reset; addresses normalised). Otherwise it fails with the error of the first credential that cannot be read, looking at its client, server and ticket in that order.", "every cache", "all values", [M+"ccache_mapper.rs", M+"credential_mapper.rs"])
p("KRB-CRED to credential cache",
  "Conversion fails exactly when the encrypted part is encrypted, does not parse, has no ticket or info, or a used info misses realm/name/flags (the error names the first field the first such info lacks); otherwise it produces one credential per (ticket, info) pair in order, as many as the shorter list (extra tickets or infos are silently dropped), and the primary principal is the first info's client.", "every KRB-CRED", "all values", [M+"ccache_mapper.rs: krb_cred_to_ccache", M+"credential_mapper.rs"])
KB="kerbeiros/src/"
p("Credentials to ccache file and back",
  "Saving a credential warehouse as a ccache and loading it returns equal credentials, provided times are whole seconds within 1..2^32-1 range, principals non-empty and key type is 16-bit; fields the format cannot hold (last_req, nonce, key_expiration) are reset; an absent starttime comes back as authtime. A cache that cannot be read gives the error of its primary principal, or else of its first unreadable credential.", "every warehouse", "all values", [KB+"credentials/credential.rs", KB+"credentials/credential_warehouse.rs", KB+"mappers/times_mapper.rs"])
p("Credentials to KRB-CRED",
  "Saving a warehouse as KRB-CRED writes one ticket and one info per credential, in order, with matching fields; parsing the KRB-CRED back yields them.", "every warehouse", "all values", [KB+"credentials/mappers/credential_warehouse_krb_cred.rs", KB+"credentials/mappers/credential_krb_info.rs"])
# ---- crypto
K="kerberos_crypto/src/"
p("AES encrypt/decrypt round trip",
  "For AES128/AES256, decrypt(key, usage, encrypt(key, usage, plaintext, preamble)) = plaintext for every key, usage, plaintext and 16-byte preamble.", "every key, usage, plaintext, preamble", "unbounded plaintexts, all block-boundary cases", [K+"ciphers/aes.rs", K+"algorithms/aes_hmac_sha1/decrypt.rs"])
p("AES decrypt accepts only authentic ciphertexts",
  "decrypt returns Ok(p) only when the ciphertext equals encrypt(key, usage, p, preamble) for some 16-byte preamble under the same key and usage; otherwise it returns an error; it never panics on any ciphertext, including ones shorter than 28 bytes.", "every ciphertext, key, usage", "all byte strings", [K+"algorithms/aes_hmac_sha1/decrypt.rs"])
p("AES ciphertext length",
  "encrypt adds exactly 28 bytes to the plaintext length; AES ciphertexts have no padding.", "every plaintext", "all lengths", [K+"algorithms/aes_hmac_sha1/decrypt.rs"])
p("AES ciphertext stealing follows RFC 3962",
  "The block chaining of every message equals CBC with ciphertext stealing (CS3) with zero IV as specified in RFC 3962: last two blocks swapped, last one truncated.", "every message of at least one block", "all lengths", [K+"algorithms/aes_hmac_sha1/decrypt.rs: basic_encrypt/basic_decrypt"])
p("RC4 encrypt/decrypt round trip and acceptance",
  "For RC4-HMAC, decrypt(encrypt(...)) returns the plaintext; decrypt returns Ok(p) only for ciphertexts that encrypt produces for p with some 8-byte preamble; never panics; ciphertext is 24 bytes longer than the plaintext.", "every key, usage, plaintext, ciphertext", "unbounded", [K+"ciphers/rc4.rs", K+"algorithms/rc4_hmac_md5/encrypt.rs"])
p("RC4 key usage aliasing",
  "The RC4 cipher treats usage 3 as usage 8 for both directions and leaves every other usage alone, so a message encrypted under usage 3 decrypts under 8 and vice versa.", "every usage", "all i32", [K+"ciphers/rc4.rs"])
p("n-fold",
  "n_fold(input, n) terminates and returns n bytes equal to the one's-complement sum of the n-byte chunks of the lcm-length string made of successive 13-bit right-rotations of the input, for every non-empty input and every n>0, as in RFC 3961.", "every input and size", "unbounded loop with carry; all sizes", [K+"cryptography/nfold_dk.rs"])
p("Key derivation lengths and determinism",
  "dk and generate_key return exactly 16 (AES128) or 32 (AES256) bytes, equal to the RFC 3961 DR stream E(K, nfold), E(K, previous)...", "every key and constant", "all inputs", [K+"cryptography/nfold_dk.rs", K+"algorithms/aes_hmac_sha1/keys.rs"])
p("Hexadecimal key parsing",
  "Key::from_*_key_string never panics on ASCII text; it accepts exactly the strings of twice the key size made of two-character groups that are hex digits or a '+' followed by one hex digit, and returns the bytes they denote, so formatting the bytes as hex and parsing returns the key; a wrong length and a wrong character give distinct errors; non-ASCII text of the right byte length panics when a two-byte group splits a character.", "every string", "all strings", [K+"key.rs: convert_hex_string_into_byte_array, check_size_and_convert_in_byte_array"])
p("Salts",
  "generate_salt for a user is REALM (upper-cased) followed by the lower-cased user name; for a machine account (name ending in $) it is REALM + 'host' + lower-cased name without $ + '.' + lower-cased realm.", "every realm and user", "all strings", [K+"algorithms/aes_hmac_sha1/salt.rs"])
p("Pre-authentication salt agrees with library salt",
  "The salt used for timestamp pre-authentication equals generate_salt for every user account; for every machine account it is different (the domain part is missing), so password pre-authentication of a machine account uses another key than the one derived by the crypto library.", "every realm and user", "all strings", [KB+"messages/asreq/timestamp_cipher.rs: calculate_aes_salt", K+"algorithms/aes_hmac_sha1/salt.rs"])
p("Cipher selection",
  "A cipher is available for an encryption type exactly when it is one of 17, 18, 23; it reports that type; every other type is an UnsupportedAlgorithm error; is_supported_etype agrees, and supported_etypes lists exactly those types, each once, 18 before 17 before 23.", "every i32", "2^32 values", [K+"ciphers/factory.rs", K+"helpers.rs"])
p("Key etypes",
  "Key::etypes lists all supported etypes, each once and the strongest first, for a password and exactly the key's own etype for a key; as_bytes returns the bytes supplied; a random key of etype e has the etype's length.", "every key", "all keys", [K+"key.rs"])
p("RC4 password encoding is injective",
  "The UTF-16LE encoding hashed into the RC4 key is determined by the password and different passwords give different encodings.", "every pair of Unicode strings", "all strings", [K+"utils.rs: string_unicode_bytes", K+"algorithms/rc4_hmac_md5/key.rs"])
p("Checksums",
  "checksum_hmac_md5 is 16 bytes, the SHA1-AES checksum is 12 bytes, both are functions of key, usage and data only, and follow RFC 4757/3961 composition.", "every key, usage, data", "all inputs", [K+"checksum.rs"])
# ---- client
p("Only supported encryption types can be configured",
  "After any sequence of option-setting calls, the configured encryption types are a subset of {17,18,23}; a rejected set_etype/set_etypes call leaves the options unchanged.", "every call sequence", "unbounded histories", [KB+"messages/asreq/options.rs"])
p("AS-REQ contents",
  "Every AS-REQ built asks for krbtgt/REALM@REALM for the given user, carries the configured KDC options and PAC request, lists the configured etypes strongest first (or exactly the pre-authentication etype when a key is used), and carries an encrypted timestamp exactly when a key is given.", "every username, options, key, time and nonce", "all inputs", [KB+"messages/asreq/builder.rs"])
p("Pre-authentication can be verified by the KDC",
  "The encrypted timestamp in a keyed AS-REQ decrypts, with the key of the announced etype and usage 1, to the encoding of the request time.", "every key, time", "all values", [KB+"messages/asreq/timestamp_cipher.rs"])
p("TGT request protocol",
  "A TGT request sends at most two messages; the first never contains key-derived material; the second is sent exactly when the first answer is KRB-ERROR 25 and a key was given; every other KRB-ERROR is returned to the caller unchanged; a transport failure is returned as is.", "every KDC behaviour (any response bytes or failure as a function of the messages sent)", "the peer is adversarial and unbounded", [KB+"requesters/tgt_requester.rs", KB+"requesters/as_requester.rs"])
p("Panic freedom of the TGT request",
  "A TGT request panics only if (a) a password is given, no encryption type is configured and the KDC asks for pre-authentication, or (b) a password is given and the AS-REP carries a malformed ETYPE-INFO2; in every other case it returns Ok or Err.", "every configuration and KDC behaviour", "adversarial peer", [KB+"requesters/as_requester.rs: unwrap", KB+"requesters/tgt_requester.rs", KB+"messages/asreq/timestamp_cipher.rs"])
p("Accepted credentials are authentic",
  "When a TGT request returns a credential, the encrypted part of the AS-REP was produced with the user's key under usage 3 and every returned session field comes from it, the ticket and client name from the reply.", "every KDC behaviour", "adversarial peer", [KB+"requesters/tgt_requester.rs", KB+"credentials/mappers"])
p("Reply is matched to the request",
  "Whether an AS-REP is accepted depends on the user's key only: a reply sealed with that key under usage 3 is accepted whatever user, settings and nonce the request had. In particular the property one would want - nonce and client name of an accepted reply are those of the request and its encryption type was offered - does not hold of the code.", "every key, reply, request and setting", "adversarial peer: all replies against all requests", [KB+"requesters/tgt_requester.rs"])
p("TCP framing",
  "Over TCP the client sends a 4-byte big-endian length followed by the message, and returns exactly the body announced by the server whatever the chunking of the stream; a connection closed early is a NetworkError; no bytes beyond the announced body are used. It blocks for ever only if the peer stops taking the request or falls silent within the answer.", "every response stream and chunking", "all schedules of partial reads", [KB+"transporter/tcp_transporter.rs"])
p("UDP datagram reception",
  "Over UDP the client returns the whole datagram whatever its length (never a truncated one). Exactly: it looks at the datagram with a buffer of 2048 octets, doubled until the datagram does not fill it, then takes it; if none of these calls fails the datagram is returned, if one fails a NetworkError, and without a datagram the first call blocks or fails.", "every datagram length", "all sizes incl. exact buffer multiples", [KB+"transporter/udp_transporter.rs"])
p("Saving to file at every crash point",
  "After a crash at any point of saving a ccache the file is either the old content, or a prefix of the new content (possibly empty): the save is not atomic, old credentials can be lost, but a load never returns credentials that were not saved (it returns the old ones, nothing, or the first few of the new ones). A KRB-CRED file cut short is refused by the reader.", "every crash point, every old/new content", "all crash points", [KB+"credentials/file.rs", KB+"credentials/credential_warehouse.rs"])
p("End-to-end TGT save and load",
  "A credential obtained from a KDC reply, saved as ccache and loaded again, carries the same ticket bytes, session key, principals and times; saved as KRB-CRED, the file is a KRB-CRED message with that one ticket and its session key, principals, flags, times and addresses.", "every reply", "all values", [KB+"credentials/credential.rs", KB+"requesters/tgt_requester.rs"])
p("Transport choice does not change the conversation",
  "The bytes of the request and the interpretation of the response do not depend on whether TCP or UDP is chosen; switching transport keeps the other settings.", "every configuration", "all histories", [KB+"requesters/tgt_requester.rs", KB+"transporter/mod.rs"])
p("Message schemas agree with RFC 4120",
  "For every RFC 4120 / MS-KILE / MS-SFU message type the field tags, optionality and field types of the library are those of the specification, so the library and a conforming peer read the same bytes as the same value.", "every message type and value", "a test compares single values, not the format", ["kerberos_asn1/src/*.rs: seq_field attributes"])
p("Printing a principal name",
  "Printing a principal name gives its components joined by '/', and panics exactly when it has no component; a name made by new() and any number of push() calls has its components in that order and can always be printed.", "every name", "all component lists", ["kerberos_asn1/src/principal_name.rs: Display"])
p("Both ways of saving agree",
  "Saving credentials as KRB-CRED and converting that to a ccache gives the same entries as saving them directly as ccache, except that an absent start time stays absent and the encrypted pre-authentication data is dropped.", "every warehouse with at least one credential", "all values", [KB+"credentials/mappers/*.rs", "kerberos_ccache/src/mappers/ccache_mapper.rs"])
p("KDC name resolution",
  "Resolving a realm returns the first address the system resolver gives for the realm name, and a NameResolutionError naming the realm exactly when the resolver fails or gives none; it never panics.", "every resolver behaviour", "the resolver is external", [KB+"utils.rs", KB+"error.rs"])
p("AS exchange",
  "An AS request sends exactly one message (with pre-authentication exactly when a key is given) and returns the answer classified: a KRB-ERROR as such, an AS-REP as such, any other bytes as an Asn1Error, a transport failure as is; the three kinds of answer exclude each other. It panics exactly when a password is given and no encryption type is configured. An AS requester made by the constructor and any sequence of setter calls does this over the transport chosen last with the encryption types chosen last, and the message is completely transmitted unless the outcome is a NetworkError or the peer stops taking bytes over TCP.", "every KDC and network behaviour, key, and sequence of setter calls", "adversarial peer, all histories", [KB+"requesters/as_requester.rs"])
p("Fields keep their name on the wire",
  "For every message struct, the bytes are exactly the listed fields, each under the context tag that RFC 4120 gives to the field of that name, in order, absent optional fields being absent, inside the application tag of the message.", "every struct and value", "consistent renamings survive any round-trip test", ["kerberos_asn1/src/*.rs: struct definitions"])
p("Options and flags by name",
  "Any combination of the named KDC options, ticket flags or PAC options, OR-ed together and encoded, sets exactly the bits that the standards give to those names. (Does not hold for the AP option constants, which are bit numbers instead of words, nor for the anonymous ticket flag.)", "every set of named options", "all 2^16 combinations on the wire", ["kerberos_constants/src/kdc_options.rs", "kerberos_constants/src/ticket_flags.rs", "kerberos_constants/src/pa_pac_options.rs", "kerberos_constants/src/ap_options.rs", "kerberos_asn1/src/kerberos_flags.rs"])
p("Numbers and error codes by name",
  "Every exported number (encryption, checksum, address, name, message, pre-authentication and authorization data types, key usages) is the one the standards give to its name (not so for RSA_MD4_DES). The text for an error code is the RFC 4120 name of the code if it has one and empty otherwise; two named codes never have the same text; the exported constants are the RFC numbers.", "every i32 code", "all codes", ["kerberos_constants/src/error_codes.rs: error_code_to_string"])
p("The whole client over the network",
  "A requester made by the constructor and any sequence of setter calls asks for a TGT with the conversation of C51 over the transport chosen last (TCP when none was), on port 88 of the KDC, with the encryption types chosen last and the default options; every message but the last is completely transmitted in the framing of the transport, and so is the last unless the outcome is a NetworkError or the peer stops taking bytes over TCP.", "every sequence of setter calls, network behaviour, draw of random bytes and time, user and key", "all histories, schedules and peers at once", [KB+"requesters/tgt_requester.rs", KB+"transporter/mod.rs", KB+"transporter/tcp_transporter.rs", KB+"transporter/udp_transporter.rs"])
p("The reported error is exact",
  "When an AS-REP is refused, the error reported determines and is determined by what is wrong with the reply: unsupported encryption type (naming it), a ciphertext that does not open under the user's key, a key of another encryption type (naming both), a plaintext that is not an EncASRepPart; no reply has two diagnoses.", "every reply, key and configuration", "adversarial peer: all replies", [KB+"requesters/tgt_requester.rs", KB+"error.rs"])
p("Messages made from a default are identified",
  "An AS-REQ, TGS-REQ, AS-REP, TGS-REP, AP-REQ or KRB-CRED made from default(), new() or by conversion from a KDC-REQ, with any other fields set to anything, goes on the wire as protocol version 5 with the message type and application tag of its kind; a new Ticket has version 5; a default Authenticator has version 5 and the current time. (Does not hold for the derived defaults of AP-REP, KRB-ERROR, KRB-PRIV, KRB-SAFE and Ticket, whose version is 0 until the program sets it.)", "every value of the other fields", "all field values on the wire", ["kerberos_asn1/src/as_req.rs: Default, From<KdcReq>", "kerberos_asn1/src/tgs_req.rs", "kerberos_asn1/src/kdc_req.rs", "kerberos_asn1/src/as_rep.rs", "kerberos_asn1/src/tgs_rep.rs", "kerberos_asn1/src/ap_req.rs", "kerberos_asn1/src/ap_rep.rs", "kerberos_asn1/src/krb_cred.rs", "kerberos_asn1/src/krb_error.rs", "kerberos_asn1/src/krb_priv.rs", "kerberos_asn1/src/krb_safe.rs", "kerberos_asn1/src/ticket.rs", "kerberos_asn1/src/authenticator.rs"])
p("Counted strings as text",
  "Text put into a counted string of a cache or keytab comes back unchanged, directly and through the bytes of the file; octets are returned as text exactly when they are well-formed UTF-8 and refused with an error otherwise, never a panic.", "every string and every octet sequence", "all byte strings", ["kerberos_ccache/src/counted_octet_string.rs: From<&str>, TryInto<String>", "kerberos_keytab/src/counted_octet_string.rs: From<&str>, TryInto<String>"])
p("Re-encoding is stable",
  "Whatever value a reader makes of some bytes (including bytes that are not the encoding of anything, as far as the reader tolerates them) can be encoded again; every reader reads the result as that value (times in whole seconds), and encoding what was read gives the same bytes again.", "every type, input accepted and reader tolerance", "all accepted inputs, including non-canonical ones", ["kerberos_asn1/src/*.rs: parse, build"])
p("Modified ciphertexts",
  "If an AES or RC4-HMAC ciphertext that was modified is still accepted, then the modification is a collision of the (truncated) MAC: with the same body the tag cannot differ, with another body the MAC of another message equals the tag. For AES, changing only the tag is always detected; for RC4-HMAC, where the tag also keys the cipher, an accepted modification is a complete message of its own, with the MAC of its own plaintext.", "every ciphertext, modification, key and usage", "adversarial: all modifications", ["kerberos_crypto/src/algorithms/aes_hmac_sha1", "kerberos_crypto/src/algorithms/rc4_hmac_md5"])
p("What the KDC announces is not used",
  "The messages a TGT request sends do not depend on what the KDC answers, but for whether there is a second one; in particular the encryption types, salts and parameters of a KRB-ERROR are not used. In a reply only the first salt of ETYPE-INFO2 counts, no parameters. An encrypted part with the tag of a TGS reply, which some KDCs send and RFC 4120 5.4.2 allows clients to accept, is refused.", "every pair of KDC behaviours, every reply", "all peers", [KB+"requesters/tgt_requester.rs", "kerberos_asn1/src/enc_as_rep_part.rs"])
p("Programs with several requesters",
  "In a program that creates any number of requesters, changes their settings and asks them for TGTs in any order, every request is the conversation of C68 for the realm and address its requester was created with and the settings made on that requester before, whatever else was done; requests that return are made in order, and two requests made under the same circumstances come out alike (nothing is remembered between requests or shared between requesters).", "every program, every behaviour of network, clock and randomness depending on all earlier requests", "all interleavings and histories", [KB+"requesters/tgt_requester.rs", KB+"requesters/as_requester.rs"])
p("Files that grow",
  "Credentials appended to a readable cache (or entries to a readable keytab) are read after those already there, which are unchanged; rewriting with more elements writes the old bytes followed by those of the new elements. An interrupted append to a keytab loses nothing; to a cache it either loses nothing or makes the whole file unreadable, depending on where it stopped.", "every file, sequence of appended elements and interruption point", "all files and crash points", ["kerberos_ccache/src/ccache.rs", "kerberos_keytab/src/keytab.rs"])
p("Comparing values",
  "== on every message type, on credentials and on warehouses is an equivalence that compares everything but the letter case of principal names, and is identity for types without principal names; a value written and read back compares equal to the original exactly when its times have no fraction of a second. Equal messages need not have equal encodings.", "every type and pair of values", "all pairs of values of all types", ["kerberos_asn1/src/principal_name.rs: PartialEq", "kerberos_asn1/src/*.rs: derive(PartialEq)", KB+"credentials/credential.rs", KB+"credentials/credential_warehouse.rs"])
p("Fields of a credential",
  "The accessors of a credential returned by a request show the client and ticket of the reply and the session key, flags, times, server, addresses and pre-authentication data of its encrypted part.", "every successful request", "all replies", [KB+"credentials/credential.rs", KB+"credentials/credential_warehouse.rs"])
p("Working from a secret",
  "Encrypting or decrypting in one call from a secret (bytes or password) and a salt works with the messages under the one key RFC 3962 or RFC 4757 assigns to that secret and salt, for the usage given; decryption undoes encryption. For AES bytes and text are the same secret; for RC4 text is taken in UTF-16 and the salt is ignored.", "every cipher, secret, salt, usage, plaintext, preamble and ciphertext", "all secrets and messages", ["kerberos_crypto/src/ciphers/cipher_trait.rs"])
p("Error texts",
  "The text of an error tells which error it is: two errors with the same text are the same but for the reply attached to an unreadable AS-REP; the text of a nested error ends with that of the error inside, and unsupported encryption types and key lengths appear in decimal.", "every error the crates construct", "all nestings and numbers", ["kerbeiros/src/error.rs", "kerberos_crypto/src/error.rs", "kerberos_ccache/src/error.rs"])
p("Concurrent saves",
  "When several processes save to one path at the same time and all succeed, every byte of the file is the byte some of them wrote at that place or a zero beyond the end of one of the files saved, and its length lies between two of theirs; saving the same data several times gives that data, and so does a save that begins when the others have ended. At any moment, whoever failed or was killed, the file is the old one or made of such bytes. Saves are not isolated: two successful saves of caches can leave a cache holding a credential of each (refuted with a witness).", "every number of processes, all data, every interleaving of their system calls, every failure and kill", "interleavings", [KB+"credentials/file.rs (CredentialFileConverter::save_data_to_file)", KB+"credentials/credential_warehouse.rs"])
p("Loading during a save",
  "What a process reads from the file while another saves is a beginning of the old content followed by what comes next in the new one. If there was no file or the same cache is saved again, loading fails or gives the first credentials of the cache. A load begun after all saves have ended reads the file as they left it. In general a load may give a cache that was never in the file (refuted with a witness).", "every old and new content, any number of loaders, every interleaving of system calls", "interleavings", [KB+"credentials/file.rs", KB+"credentials/credential_warehouse.rs"])
p("UDP needs an IPv4 address",
  "With a KDC address of IPv6 and UDP chosen, every TGT request ends with a NetworkError and no datagram is sent, since the socket is bound to 0.0.0.0 (given that sockets of one family do not connect to the other); the same network carries the exchange over IPv4.", "every network, realm, user, key and sequence of settings", "all configurations; needs a network", [KB+"transporter/udp_transporter.rs (UDPTransporter)", KB+"requesters/tgt_requester.rs"])
p("Memory reserved for answers",
  "Over TCP the client reserves for the answer the size the first four bytes from the peer announce, whatever follows, hence less than 2^32 bytes; four bytes suffice to make it reserve any such amount. Over UDP the buffers have 2048 bytes or at most twice the datagram.", "every peer behaviour and request", "adversarial peer", [KB+"transporter/tcp_transporter.rs", KB+"transporter/udp_transporter.rs"])
p("Histories of saves",
  "After any sequence of saves to any paths, each of which may fail or be killed, a path holds what it held at first (no save to it having succeeded) or a beginning of the content of one save to it, all of it if that save succeeded, no later one having succeeded. Loading gives what it gave at first, nothing, or the first credentials of one saved cache, never a mixture; all of them after a successful save. Saves to other paths change nothing.", "every sequence of saves on every set of paths, all failures and kill points", "unbounded histories", [KB+"credentials/file.rs", KB+"credentials/credential_warehouse.rs (CredentialWarehouse::save_into_ccache_file, save_into_krb_cred_file)"])
p("An honest KDC serves its users",
  "Against a KDC that follows RFC 4120: a user with the password or key of an account that must pre-authenticate, and a clock within 300 seconds, gets in two messages the TGT, session key and times the KDC issued for the second request, with its nonce and names (given that the account has a key of the type the client chooses and, for a password, the salt the client assumes); otherwise the user gets the error of the KDC. An account that need not pre-authenticate is served with one message given its password, whatever the salt and clocks; given a single key, only if the KDC chooses its type (refuted with a witness: the first request names all configured types). The AS exchange alone: with such a key and clock the one request is answered with the AS-REP the KDC issued, whether or not the account must pre-authenticate, and the key opens it; a request the KDC does not verify brings its error; without a key the answer is error 25 if the account must pre-authenticate and the AS-REP otherwise.", "every KDC meeting the specification, account, user, key, settings, clocks and randomness", "all peers that are honest; needs a KDC", [KB+"requesters/tgt_requester.rs", KB+"requesters/as_requester.rs", KB+"messages/asreq"])
p("From a password to a credential cache",
  "A requester made for a realm and a KDC address, configured with any setter calls, asks for a TGT over a network that carries the answers of an honest KDC on port 88 (over TCP in any chunks, with interruptions; over UDP in a datagram). A user who knows the password or key gets the TGT the KDC issued, the requests being on the wire complete; saving it where writing is possible succeeds, and loading the file, whatever was there before, gives a cache of exactly that credential, for that realm and user. An AS requester on such a network puts its one request on the wire complete and returns the AS-REP the KDC issued for it, which the user's secret opens.", "every network, transport, sequence of settings, KDC, account, key, old file content and fragmentation of reads and writes", "end to end: needs a network, a KDC and a file system", [KB+"requesters/tgt_requester.rs", KB+"transporter", KB+"credentials/credential.rs (Credential::save_into_ccache_file)", KB+"credentials/file.rs"])
p("Rewriting settles",
  "Loading any readable cache file, whoever wrote it, and saving what was loaded keeps the primary principal and of every entry the client, server, key, times, flags and authorization data, drops what this library does not hold (second ticket, session-key flag, second key type) and strips white space at the end of NetBIOS addresses. The file so written loads again, to the same credentials up to that white space (exactly the same if there was none), and from then on loading and saving changes neither the credentials nor a byte of the file. The same holds for files first written by this library and for caches converted to KRB-CRED and back. (Tickets are re-encoded and must then be shorter than 2^32 bytes.)", "every file, reader tolerance and number of rewritings", "all inputs and histories of rewriting", [KB+"credentials/credential.rs", KB+"credentials/credential_warehouse.rs", KB+"mappers/address_mapper.rs", KB+"mappers/times_mapper.rs", "kerberos_ccache/src/mappers/credential_mapper.rs"])
p("Values are no larger than the input",
  "What a parser returns is no larger than what it read: the numbers, lists, structures, byte strings and bytes of a parsed message or cache are fewer than the bytes consumed, however large the lengths and counts announced in them (for a keytab at most twice as many, since holes are read as entries). Tickets, replies and KRB-CRED messages encoded anew after parsing are never longer than they were (given a reader that reads long-form lengths correctly); so a loaded cache always fits into a file, loading and saving adds at most 8 bytes to the file, and C88 holds without a bound on tickets. Flags may grow.", "every input, message type and reader tolerance", "adversarial inputs", ["kerberos_asn1/src/*.rs", "kerberos_ccache/src/ccache.rs", "kerberos_keytab/src/keytab.rs", KB+"credentials/credential_warehouse.rs"])
p("What of a reply is not protected",
  "Whoever can change the KDC's last answer without knowing any key decides on the ticket, the client name and the realm of the credential: replacing the answer by any reply with the same encrypted octets (and, for a password, the same encryption type and pre-authentication data) makes the client send the same messages and return a credential with the ticket, client and realm of the replacement and with the session key, times, flags and server name of the original. So the claim that the ticket and the client of a credential are those the KDC sent is refuted, whatever the cryptographic algorithms.", "every user, key, setting, transport, reply and replacement, all primitives", "adversarial networks", [KB+"messages/mod.rs", KB+"requesters/tgt_requester.rs"])
p("Which received credentials can be stored",
  "Whatever a KDC puts into a reply (shorter than 2^30 bytes, session key shorter than 2^16 bytes), all its parts fit the length fields of a cache file. After a successful save, loading fails exactly when the client or server name of the credential is empty (so the claim that what was accepted and saved can be loaded is refuted); otherwise it gives one credential with the same ticket, client, server and realms, the other fields being what the file format keeps of them: 16 bits of types, whole seconds modulo 2^32, NetBIOS addresses made UTF-8 and padded anew, all addresses lost if one with a type congruent to NetBIOS is not UTF-8. The same for caches of several credentials. A session key of 2^16 bytes makes the file unreadable.", "every reply, key, history, file content and fragmentation of writes", "adversarial replies and all inputs", [KB+"credentials/credential.rs", KB+"credentials/credential_warehouse.rs", KB+"mappers/address_mapper.rs", KB+"mappers/principal_mapper.rs", KB+"messages/mod.rs"])
p("What the requests reveal of the secret",
  "Whatever the KDC answers, the messages of a TGT request depend on the user's password or key in one place only: the first message not at all, the second (if there is one) in one ciphertext at a position and of a length fixed by the type of encryption, which is the time of the request sealed under the user's long-term key for usage 1. So the numbers and lengths of the messages are the same for any two secrets leading to the same type of encryption: not even the length of a password shows. The same holds of the one message of an AS request with a secret, whatever any KDC answers.", "every two secrets, KDC (oracle on the history), settings, user name, clock and random draws", "a relation between all pairs of runs (non-interference)", [KB+"requesters/tgt_requester.rs", KB+"messages/asreq/builder.rs"])
p("Power failures",
  "A save that reported success can be lost to a power failure (nothing is ever synced to the device): the old file or an empty one may be what is left, so the claim that saved credentials are durable is refuted. If changes reach the device in order, then after any history of saves and a power failure at any time loading gives what the path gave at first, nothing, or the first credentials of one saved cache. If the length arrives but the end of the data does not (zeros from any position on), loading gives nothing, no credentials, or the first saved credentials, possibly followed by one of which everything but the ticket is right; and whenever only octets of the last ticket's ciphertext are lost, the file does load, with zeros in that ticket.", "every history of saves, moment of the failure, lost tail and cache", "crash points and histories; the interesting ones cannot be produced in a test", [KB+"credentials/file.rs","kerberos_ccache/src/ccache.rs","kerberos_ccache/src/credential.rs"])
p("Preambles of any length",
  "The public aes_hmac_sha1::encrypt and rc4_hmac_md5::encrypt take a preamble of any length. They depend only on preamble and plaintext put together, so the boundary is not recorded: if both together are at least 16 (AES) or 8 (RC4) bytes, decrypt returns what follows the first 16 or 8 of them (a shorter preamble silently costs the first bytes of the plaintext, a longer one leaves a rest of it). If they are shorter, RC4 ciphertexts are refused as too short, AES ones as an integrity failure (unless the MACs of the padded and the unpadded message agree, then the empty plaintext results), and the AES ciphertext of nothing is a bare MAC, refused as too short.", "every preamble, plaintext, key and usage", "all lengths of two inputs", ["kerberos_crypto/src/algorithms/aes_hmac_sha1/decrypt.rs (encrypt, decrypt)","kerberos_crypto/src/algorithms/rc4_hmac_md5/encrypt.rs"])
p("Requests at the same time do not disturb each other",
  "When the threads of a program make requests at the same time (TgtRequester::request, AsRequester::request), in any interleaving of their steps, with a clock, random numbers and a network that may depend on everything done before by all of them, every request behaves as it would alone with the draws and answers it got itself: it sends the same messages in the same order, returns the same result, and returns at most once; one that waits for an answer has sent exactly what it would have sent alone. Its messages are built from its own user, key, options and draws only, a ticket it returns was sealed under its own key in the last answer it received, its behaviour is the same in any two programs, schedules and networks that give it the same draws and answers, a request whose messages are answered returns within seven of its own steps even if all others wait for ever, and a request that gets no step does nothing. A killed process leaves a beginning of this.", "every number and kind of requests, every schedule (and every point where it stops), every history-dependent clock, randomness and network", "all interleavings of all programs", [KB+"requesters/tgt_requester.rs (TgtRequester::request)",KB+"requesters/as_requester.rs (AsRequester::request)",KB+"transporter/transporter_trait.rs"])
p("Many users at one KDC at the same time",
  "When any number of threads ask an honest KDC (C86) for TGTs at the same time, in any interleaving and among any other requests, each request of a user who gives the password or key of his account, whose answers arrive at most 300 seconds after the message was made, and that returns, returns the ticket the KDC issued to that user for that request's second message, with the nonce of that message and his own name and realm; and it does return once it has taken seven steps with the answers there, even if other requests are never answered.", "every set of accounts and requests, every schedule, every honest KDC whose answers and clock may depend on everything done before", "all interleavings, KDCs and histories", [KB+"requesters/tgt_requester.rs (TgtRequester::request)"])
p("Damaged files",
  "Whatever bytes follow the intact first part of a credential cache or keytab (one that reads to its end), reading the file either fails or gives back that part's header, principal and credentials (entries) unchanged and first, followed only by complete credentials (entries) found in the damaged bytes; a keytab with a size of -2^31 there panics in builds with overflow checks. Damage inside the body of a keytab record that keeps its length leaves all other records as they were, or ends reading there with those before it, or makes the file unreadable. Neither format detects a replaced key: key octets replaced by others of the same number are read in their place.", "every file, every damage behind an intact part of any length, every damaged record body, every replaced key", "all files and all ways to damage them", ["kerberos_ccache/src/ccache.rs (CCache::parse)","kerberos_keytab/src/keytab.rs (Keytab::parse)"])
p("Recorded answers can be replayed",
  "Once a TGT request has returned a credential, every later request with the same key whose last answer is the recorded last answer returns the same credential, whatever user name, settings, nonce and clocks it has; answering its first message with the recorded bytes suffices, and then the message in which the user proves to know the key is never sent. So that a returned credential was issued for the request, or is still valid when it is returned, is refuted.", "every recorded exchange, every later request with the same key, every network", "all exchanges, times, nonces and settings", [KB+"requesters/tgt_requester.rs (TgtRequest::request)",KB+"credentials/mappers/credential_krb_info.rs (kdc_rep_to_credential)"])
p("Answers that reach another request",
  "When threads make TGT requests at the same time, whether one of them returns a credential, and which, is settled by its key and the last answer that reached it, and by nothing else: it returns a credential exactly when that answer is an AS-REP in which the key opens that credential. So requests with the same key that are given each other's answers return each other's credentials; that a request returns only what was meant for it is refuted.", "every set of concurrent requests, every schedule, clock and network", "all interleavings and networks", [KB+"requesters/tgt_requester.rs (TgtRequest::request)",KB+"requesters/as_requester.rs (AsRequest)",KB+"credentials/mappers/credential_krb_info.rs (kdc_rep_to_credential)"])
p("Each of many users is treated like a lone one",
  "When any number of requests are made at the same time to a KDC that serves their accounts (its answers may depend on everything that happened before), each request that returns has drawn, sent, received and returned what some lone request does on a network with an honest KDC, answered at the same times. So each user gets what C86 says: the KDC's error when it cannot verify the request or the clocks differ too much, the ticket at once when the account need not pre-authenticate, and for the AS exchange the AS-REP or the error, with or without a key.", "every KDC meeting the specification, set of concurrent requests, schedule, clock and network", "all interleavings, KDCs and networks", [KB+"requesters/tgt_requester.rs (TgtRequest::request)",KB+"requesters/as_requester.rs (AsRequest)"])
p("An attacker on the network who cannot forge",
  "Let the network be an attacker's, who sees everything that happens and chooses every answer as he likes, but cannot make a ciphertext that a key made from the user's secret opens: what such a key opens was sealed by the KDC before, or is a timestamp that a client sealed in a request. Then, while any threads make any requests in any order, the session key, nonce, times, flags and server name of every credential a TGT request returns are ones the KDC had issued for this secret before the answer arrived; a client's own timestamp sent back does not do; and if the KDC has issued nothing, nothing is returned. (Ticket, client name and freshness are not protected: C90, C98.)", "every attacker, set of concurrent requests, schedule and clock", "all attackers and interleavings", [KB+"requesters/tgt_requester.rs (TgtRequest::request)",KB+"credentials/mappers/credential_krb_info.rs (kdc_rep_to_credential)",KB+"messages/asreq/timestamp_cipher.rs"])
p("The documented log-on program",
  "The program of the crate's documentation (request a TGT with a password, save it as KRB-CRED, save it as ccache, unwrap after each) leaves every other file as it was; at every moment, and wherever it is killed, either neither ticket file has been touched, or the TGT was obtained and the KRB-CRED file is a beginning of its KRB-CRED and the cache untouched, or the KRB-CRED file is complete and the cache as it was or a beginning of the new one. It completes exactly if the TGT was obtained and both saves succeeded, waits for ever exactly if the request does, and an error of the request leaves all files alone. A reader finds at any moment the old cache, none, an empty one or the TGT; the old KRB-CRED file, a complete one, or one it refuses. With the right password, an honest KDC, a working network and a writable disk it completes and both files hold the issued TGT. The variant with an NT hash sends nothing if the text is not 32 hexadecimal digits, saves the files independently, and completes even if nothing was saved.", "every network and KDC behaviour, name, secret, path, file system content, pattern of write failures and crash point", "all networks, failures and crash points of a whole program", [KB+"lib.rs (crate example)",KB+"requesters/tgt_requester.rs (TgtRequester example)",KB+"credentials/file.rs (save_data_to_file)"])
p("The documented copy programs",
  "The documented programs that read a ccache (keytab), parse it, build it and write it to another path panic before touching any file exactly if the source cannot be read or parsed; otherwise only the target changes, it passes from what it was through beginnings of the copy, the program completes if the disk lets it, and the copy reads back to its end as exactly what the source holds. The copy has the bytes of the source without what follows the last complete credential and with the true header length (for keytabs: one record per entry, holes become records). Copying a file the library wrote gives the same bytes. Copying a file onto itself is not safe: there is a moment at which the file is empty and cannot be read again.", "every source content, file system, pattern of write failures and crash point", "all file contents and crash points", ["kerberos_ccache/src/lib.rs (crate example)","kerberos_keytab/src/lib.rs (crate example)"])
p("The documented AS request program",
  "The documented program that asks for an AS-REP with AES-256 and prints what came sends one message; for a KRB-ERROR it prints the error code in decimal, for an AS-REP the service of its ticket with its components separated by slashes; it panics without a line if the ticket names a service without components (so any KDC can make it panic), if the answer is neither message or the network fails; and it waits exactly if the network does. With the right password and an honest KDC the line is about the ticket the KDC issued.", "every network behaviour, answer, name and secret", "all answers of a network", [KB+"requesters/as_requester.rs (AsRequester example)","kerberos_asn1/src/principal_name.rs (Display)"])
p("A UDP exchange while anybody sends datagrams",
  "However the arrival of datagrams, from anybody and in any number, interleaves with the calls of one request over UDP: the request is sent at most once and only to the KDC; the answer returned is the first datagram for the socket, whole, whatever its length and whatever arrives later; while none has arrived and no call has failed the client waits; once one has arrived the client returns it after a number of calls logarithmic in its length; the first failed call ends it with a network error, and there is no other error; a finished exchange does not change. If the system drops what others sent between bind and connect, the answer was sent by the KDC's address; if it keeps it, a stranger's datagram of that moment is returned as the answer.", "every interleaving of calls (failing or not) and arriving datagrams, of any senders and lengths, every request and KDC address", "all interleavings with the network", [KB+"transporter/udp_transporter.rs (request_and_response, calculate_response_size)"])
p("Replacing a credential file by saving elsewhere and renaming",
  "Saving to a file in place is not atomic (C57, C82), but Ok means that the file is complete; so programs that save to a path of their own and rename it to the shared path after an Ok replace the file atomically: however many of them run at once, wherever they fail or are killed and started again, and however their calls interleave with those of any number of readers, the shared path at every moment holds the old content or the complete content of the last rename, is never missing if there was a file, and every reader gets, as a whole, what the path held when it began or something renamed to it since; for credential caches every load gives the old credentials or all those of one of the saved warehouses. If nothing fails the new content gets there.", "every number of programs and readers, old content, data to save, failures, kills, restarts and interleaving of system calls", "all interleavings and crash points", [KB+"credentials/file.rs (save_data_to_file)",KB+"credentials/credential_warehouse.rs (save_into_ccache_file)"])
p("Equal ciphertexts and equal requests come from equal inputs",
  "Under one key (or password and salt) and usage, two calls of encrypt give the same ciphertext only for the same plaintext and the same preamble, so as long as no preamble repeats no ciphertext does, however many are made and whatever is sealed. Two AS-REQs are the same bytes only if the user, realm, KDC options, PAC setting, nonce and lifetimes (to the second) are the same, both or neither carry a timestamp, and the types of encryption are in effect the same; with one key, the times (to the microsecond shown) and the random preambles were the same too. So a call never sends a message twice, and two calls send a common message only if they ask for the same with the same nonce: a KDC that rejects replays never takes a fresh request for one.", "every key, usage, plaintext, preamble and number of encryptions; every pair of users, keys, settings, nonces, clocks and random bytes; every pair of KDC behaviours", "all pairs of inputs", [K+"algorithms/aes_hmac_sha1/decrypt.rs (encrypt)","kerberos_crypto/src/algorithms/rc4_hmac_md5/encrypt.rs (encrypt)",KB+"messages/asreq/builder.rs (build_as_req)",KB+"messages/asreq/timestamp_cipher.rs"])
p("Sizes of requests",
  "The exact number of bytes of every AS-REQ is a function of the lengths of user and realm and, for a few bytes, of the nonce, the microseconds, the type of encryption and the settings: of what DER takes for tags, lengths and values. For a user of u and a realm of r bytes with u + 2r below 65000 it is more than u + 2r and at most 266 more; so every message of a call, whatever the KDC does, fits in a datagram, with u + 2r up to 1100 in a frame of 1400 bytes, and over TCP is announced with its exact length.", "every user, realm, key, settings, clock, nonce and random bytes, every KDC behaviour and TCP connection that takes what is written", "all lengths, across the boundaries of DER's length octets", [KB+"messages/asreq/builder.rs (build_as_req)",KB+"messages/asreq/timestamp_cipher.rs",KB+"transporter/tcp_transporter.rs (set_size_header_to_request)"])
p("Who can read a saved credential file",
  "Where there is no file, save_into_ccache_file and save_into_krb_cred_file make one that belongs to the saving user, with mode 0666 less the umask: with the usual umask 022 every user of the system can read it and load the credentials and session keys in it (so it is refuted that only the owner can), with a umask that hides files nobody else reads anything at any moment. A file that is there keeps owner, group and mode at every moment, also when the save fails or the process is killed; if the user may not write to it the call returns IOError and changes nothing. So a private file stays private and unchanged by others through any history of saves, mode changes and file creations by others, while a file somebody else put in the place stays theirs and they get all that is saved to it.", "every assignment of users to groups, umask, file that was there, warehouse, outcome of the system calls, moment, and history of acts of any users", "all modes, users and histories, and what others see between two system calls", [KB+"credentials/file.rs (save_data_to_file)",KB+"credentials/credential_warehouse.rs (save_into_ccache_file, save_into_krb_cred_file)"])
p("Keytabs that other programs maintain",
  "Whatever entries programs add to a readable keytab file (in holes of sufficient size, or at the end) and delete from it in place, and however often programs that use this crate rewrite it, Keytab::parse reads the file to its end, and the entries other than empty ones are exactly those that were there or were added and have not been deleted, each in its place. This holds for entries with the 32-bit key version. An entry without it put into a larger hole is read with a key version made of left-over bytes if there are four or more of them; with one to three, reading stops there without an error and all later entries are lost.", "every readable keytab and every history of additions, deletions and rewritings, any choice of holes, any left-over bytes, builds with and without overflow checks", "all histories of a file shared with other programs", ["kerberos_keytab/src/keytab_entry.rs (KeytabEntry::parse)","kerberos_keytab/src/keytab.rs (Keytab::parse, Keytab::build)"])
p("Credential caches with configuration entries",
  "The settings that other Kerberos programs keep in a cache (credentials for a service of realm X-CACHECONF: with a text in the place of the ticket) are read and written by kerberos_ccache like other credentials, but a cache that holds one whose value does not begin like a DER ticket is never loaded nor converted to KRB-CRED, whatever else is in it and wherever the entry stands: if nothing before it is unreadable the error is that of parsing the value as a ticket (UnmatchedTag unless it is empty). So it is refuted that every cache the parser reads can be loaded. Without such entries it is loaded exactly if its principal and all other credentials can be read.", "every cache file, position and number of such entries, their names and values, and every behaviour of the ASN.1 library", "all caches other programs write", [KB+"credentials/credential_warehouse.rs (TryFrom<CCache> for CredentialWarehouse)","kerberos_ccache/src/mappers/ccache_mapper.rs (ccache_to_krb_cred)","kerberos_ccache/src/ccache.rs (CCache::parse)"])
p("Credentials removed from a cache in place",
  "MIT's programs remove a credential from a cache file by overwriting two of its times (authtime by -1, endtime by 0) and then skip it. The crates do not skip it: a cache so edited, at any credential, is read as the same cache with that credential in its place, and if it could be loaded before it is still loaded with every credential, the removed one with its session key and ticket, all others unchanged and in the same order; only its two times are those of 2106 and 1970. So it is refuted that a removed credential is not loaded any more.", "every well-formed cache, position of the removed credential, and every behaviour of the ASN.1 library", "all caches and positions", [KB+"credentials/credential_warehouse.rs (TryFrom<CCache> for CredentialWarehouse)","kerberos_ccache/src/ccache.rs (CCache::parse)",KB+"mappers/times_mapper.rs"])
open("/verif/properties.jsonl","w").write("".join(json.dumps(x)+"\n" for x in P))
print(len(P))
