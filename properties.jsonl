{"id": "C01", "title": "Keytab write/read round trip", "statement": "Keytab::parse(keytab.build()) returns Ok with no remaining bytes and a value equal to the original, for every keytab whose names, keys and entries fit their length fields (u16 octet strings, u16 component count, entry record shorter than 2^31 bytes), whether or not its entries carry the optional 32-bit key version (vno), and for no other keytab.", "quantifier": "every keytab value: any number of entries, any number of components, any octet contents", "why_tests_cant": "unit tests use two or three literal keytabs; the claim is over unbounded lists of entries and arbitrary bytes", "anchors": ["kerberos_keytab/src/keytab.rs: Keytab::parse, Keytab::build", "kerberos_keytab/src/keytab_entry.rs: KeytabEntry::parse, KeytabEntry::build", "kerberos_keytab/src/key_block.rs", "kerberos_keytab/src/counted_octet_string.rs"]}
{"id": "C02", "title": "Keytab parsing is total apart from one panic", "statement": "Keytab::parse returns Ok or Err on every byte string, with the single exception of an entry record whose size field is 0x80000000 in a build with overflow checks, where negating the size panics. In a build without overflow checks it never panics.", "quantifier": "every byte string, both overflow-check modes", "why_tests_cant": "fuzzing samples inputs; the claim is for all byte strings", "anchors": ["kerberos_keytab/src/keytab_entry.rs: KeytabEntry::parse (take(-size as usize))"]}
{"id": "C03", "title": "Keytab parse consumes a prefix and returns the suffix unchanged", "statement": "When Keytab::parse returns Ok((rest, v)), rest is a suffix of the input, the consumed prefix is a two-byte header followed by a sequence of records, and each record is either a hole (negative size) or decodes to the corresponding entry; each record is decoded from its own size-delimited bytes only.", "quantifier": "every byte string", "why_tests_cant": "requires reasoning about every possible layout of holes, entries and trailing bytes", "anchors": ["kerberos_keytab/src/keytab.rs: Keytab::parse", "kerberos_keytab/src/keytab_entry.rs"]}
{"id": "C04", "title": "Deleted keytab records are reported as empty entries and do not survive a rewrite", "statement": "A hole (record with negative size -n followed by n bytes) is read as one default (all-empty) entry regardless of the bytes inside; re-writing a parsed keytab with a hole produces a live record for an empty principal in its place instead of a hole.", "quantifier": "every hole size and content, at every position", "why_tests_cant": "tests contain no holes; claim is over all contents", "anchors": ["kerberos_keytab/src/keytab_entry.rs: KeytabEntry::parse"]}
{"id": "C05", "title": "Keytab parsing stops silently at the first undecodable record", "statement": "If a record fails with a recoverable error, Keytab::parse still returns Ok with exactly the entries before that record and the remaining bytes from the start of the bad record; it returns Err only when the version bytes are missing or a record's inner length field points past the record's declared size (incomplete data).", "quantifier": "every byte string", "why_tests_cant": "needs the exact split between swallowed and propagated parser errors for all inputs", "anchors": ["kerberos_keytab/src/keytab.rs: many0(KeytabEntry::parse)"]}
{"id": "C06", "title": "Keytab length fields truncate silently on write", "statement": "Writing never fails: a string, key, component list or record too long for its length field is written with the length modulo the field width, and then the written file does not read back to the same value.", "quantifier": "every over-long value", "why_tests_cant": "needs 64KiB+/2GiB inputs for every field", "anchors": ["kerberos_keytab/src/counted_octet_string.rs: build", "kerberos_keytab/src/key_block.rs: build", "kerberos_keytab/src/keytab_entry.rs: build"]}
{"id": "C07", "title": "Credential cache write/read round trip", "statement": "CCache::parse(c.build()) returns Ok with no remaining bytes and a value equal to c, for every cache created with version 0x0504 whose octet strings, counts and header data fit their length fields.", "quantifier": "every cache value: any number of credentials, addresses, authorization data, any octet contents", "why_tests_cant": "tests check a handful of literals", "anchors": ["kerberos_ccache/src/ccache.rs: CCache::parse, CCache::build", "kerberos_ccache/src/credential.rs", "kerberos_ccache/src/principal.rs", "kerberos_ccache/src/header/header.rs"]}
{"id": "C08", "title": "Credential cache file layout", "statement": "c.build() is byte for byte the version-4 file layout documented beside each type: 05 04, 16-bit total header length, header tag/length/data, primary principal, then each credential in order with big-endian integers and length-prefixed octet strings; and parse accepts exactly such layouts, reading the same value from them.", "quantifier": "every cache value and every byte string", "why_tests_cant": "layout must hold for every field combination, not for sample files", "anchors": ["kerberos_ccache/src/ccache.rs", "kerberos_ccache/src/credential.rs", "kerberos_ccache/src/address.rs", "kerberos_ccache/src/times.rs", "kerberos_ccache/src/key_block.rs", "kerberos_ccache/src/counted_octet_string.rs"]}
{"id": "C09", "title": "A truncated credential cache never yields wrong credentials", "statement": "If a cache file is cut at any byte position, parsing the prefix either fails or returns the same header and primary principal with the first k credentials of the original, unchanged, where k is the number of credentials that end before the cut; it fails exactly when the cut is before the end of the primary principal or inside the bytes of a counted string of credential k+1.", "quantifier": "every cache value and every truncation point", "why_tests_cant": "all crash points of all files", "anchors": ["kerberos_ccache/src/ccache.rs: CCache::parse"]}
{"id": "C10", "title": "Credential cache parsing is total and in bounds", "statement": "CCache::parse returns Ok or Err on every byte string and never panics or reads outside the input; on Ok the remaining bytes are a suffix of the input, and the number of credentials is bounded by the input length.", "quantifier": "every byte string", "why_tests_cant": "all inputs", "anchors": ["kerberos_ccache/src/ccache.rs", "kerberos_ccache/src/credential.rs", "kerberos_ccache/src/principal.rs"]}
{"id": "C11", "title": "Only version 0x0504 is accepted", "statement": "CCache::parse fails on every input that does not start with bytes 05 04, and every cache it returns has file format version 0x0504.", "quantifier": "every byte string", "why_tests_cant": "all inputs", "anchors": ["kerberos_ccache/src/ccache.rs: tag"]}
{"id": "C12", "title": "The total header length is not used", "statement": "CCache::parse ignores the value of the header length field: exactly one header field is read whatever the field says, so two inputs that differ only there parse alike; consequently a valid version-4 file is read completely and correctly exactly if it has one header field, and can be read with a wrong primary principal if it has none or two.", "quantifier": "every byte string, every header length value", "why_tests_cant": "all inputs and header lengths", "anchors": ["kerberos_ccache/src/ccache.rs: headerlen"]}
{"id": "C13", "title": "Canonical form", "statement": "If CCache::parse accepts an input with no bytes left, re-building the parsed cache gives back the same bytes except the two header-length bytes, which are replaced by the actual header size.", "quantifier": "every byte string", "why_tests_cant": "all inputs", "anchors": ["kerberos_ccache/src/ccache.rs: CCache::parse, CCache::build"]}
{"id": "C14", "title": "Declared element counts are honoured", "statement": "In an accepted cache the number of principal components, addresses and authorization data elements returned equals the count declared in the file; a count larger than the elements present is an error, never a shorter list.", "quantifier": "every byte string", "why_tests_cant": "all inputs", "anchors": ["kerberos_ccache/src/principal.rs: many_m_n", "kerberos_ccache/src/credential.rs: many_m_n"]}
{"id": "C15", "title": "DER round trip for every Kerberos message", "statement": "For every message type of the library, T::parse(v.build()) returns v with no bytes left, for every value whose optional fields, lists and strings are arbitrary within their Rust types, whose times are whole seconds of the years 0 to 9999 (fractions are not written), and whose encoding is shorter than 2^64 bytes.", "quantifier": "every value of every message type", "why_tests_cant": "value space is unbounded and 40+ types", "anchors": ["kerberos_asn1/src/lib.rs (all Sequence-derived types)", "kerberos_asn1/src/as_req.rs", "kerberos_asn1/src/ticket.rs", "kerberos_asn1/src/kdc_req_body.rs", "kerberos_asn1/src/krb_error.rs"]}
{"id": "C16", "title": "Different messages are never confused", "statement": "Parsing bytes as one application-tagged message (AS-REP, KRB-ERROR, AS-REQ, TGS-REP, Ticket, ...) fails when the bytes are the encoding of a message with another application tag; in particular no byte string is accepted both as KRB-ERROR and as AS-REP.", "quantifier": "every byte string and pair of types", "why_tests_cant": "all inputs and pairs", "anchors": ["kerberos_asn1/src/krb_error.rs", "kerberos_asn1/src/as_rep.rs", "kerbeiros/src/requesters/as_requester.rs: AsReqResponse::parse"]}
{"id": "C17", "title": "KerberosFlags bit string", "statement": "Any 32-bit flag word round-trips through build/parse; a shorter bit string is read as if padded with zero bits on the right and a longer one as its first 32 bits; the declared number of unused bits is ignored.", "quantifier": "every u32 and every bit string", "why_tests_cant": "2^32 values and all lengths", "anchors": ["kerberos_asn1/src/kerberos_flags.rs"]}
{"id": "C18", "title": "KerberosTime", "statement": "Every UTC instant with year 0..9999 round-trips through KerberosTime build/parse up to the second (fractions are dropped, the time zone is UTC), and the text is the 15 character YYYYMMDDHHMMSSZ form of the same civil date and time.", "quantifier": "every instant in the range", "why_tests_cant": "the calendar has 3*10^11 seconds", "anchors": ["kerberos_asn1/src/kerberos_time.rs"]}
{"id": "C19", "title": "Principal name comparison", "statement": "PrincipalName equality is an equivalence relation: names are equal exactly when name types are equal, component counts are equal and components are equal after lower-casing.", "quantifier": "every pair/triple of names", "why_tests_cant": "all strings", "anchors": ["kerberos_asn1/src/principal_name.rs: PartialEq"]}
{"id": "C20", "title": "NetBIOS name padding", "statement": "padd_netbios_string returns its input followed by spaces only, of total length the least multiple of 16 not below the input length.", "quantifier": "every string", "why_tests_cant": "all lengths", "anchors": ["kerberos_asn1/src/host_address.rs: padd_netbios_string"]}
{"id": "C21", "title": "Timestamp pre-authentication microseconds", "statement": "PaEncTsEnc::from(time) carries the whole-second instant and a microsecond field in 0..=999999, including for leap-second sub-second values.", "quantifier": "every instant and nanosecond field", "why_tests_cant": "all values", "anchors": ["kerberos_asn1/src/pa_data/pa_enc_ts_enc.rs"]}
{"id": "C22", "title": "Request conversions preserve the body", "statement": "Converting KdcReq to/from AsReq and TgsReq preserves pvno, padata and body and sets the message type of the target; round trips change nothing else; EncAsRepPart/EncTgsRepPart/EncKdcRepPart conversions are lossless.", "quantifier": "every request value", "why_tests_cant": "all field values", "anchors": ["kerberos_asn1/src/kdc_req.rs", "kerberos_asn1/src/as_req.rs", "kerberos_asn1/src/tgs_req.rs", "kerberos_asn1/src/enc_kdc_rep_part.rs"]}
{"id": "C23", "title": "Unsigned 32-bit fields on the wire", "statement": "A UInt32 value round-trips through the library, but values of 2^31 and above are written as a negative DER INTEGER (the i32 of the same bits, no leading zero octet), which is not the RFC 4120 encoding of the number; values below are written as the same non-negative INTEGER an Int32 would be.", "quantifier": "every u32", "why_tests_cant": "2^32 values", "anchors": ["kerberos_asn1/src/uint32.rs", "kerberos_asn1/src/int32.rs"]}
{"id": "C24", "title": "Principal mapping", "statement": "Mapping realm + principal name to a ccache principal and back returns the same realm, name type and components for every name with at least one component; mapping back fails exactly when there is no component or some component or the realm is not UTF-8.", "quantifier": "every principal", "why_tests_cant": "all strings", "anchors": ["kerberos_ccache/src/mappers/principal_mapper.rs"]}
{"id": "C25", "title": "Time mapping between KRB-CRED and credential cache", "statement": "Optional times map to 0 when absent and to the 32-bit second count when present; mapping back returns the same instants for every second in 1..2^32-1, with 0 meaning absent; a present time whose 32-bit value is 0 becomes absent.", "quantifier": "every combination of optional times", "why_tests_cant": "all instants", "anchors": ["kerberos_ccache/src/mappers/times_mapper.rs"]}
{"id": "C26", "title": "Key mapping", "statement": "An encryption key maps to a ccache key block and back unchanged exactly when its type is in 0..65535; otherwise the type is reduced modulo 2^16 and the key bytes are still unchanged.", "quantifier": "every i32 key type and key bytes", "why_tests_cant": "2^32 types", "anchors": ["kerberos_ccache/src/mappers/key_block_mapper.rs"]}
{"id": "C27", "title": "Address mapping", "statement": "A non-NetBIOS address round-trips with type reduced mod 2^16 and identical bytes; a NetBIOS name is stored without its trailing padding and restored padded to 16, also when only the reduced type is that of NetBIOS. A stored list is refused exactly if it is empty or holds a NetBIOS name that is not UTF-8.", "quantifier": "every address list", "why_tests_cant": "all strings", "anchors": ["kerberos_ccache/src/mappers/address_mapper.rs", "kerberos_asn1/src/host_address.rs"]}
{"id": "C28", "title": "Authorization data mapping", "statement": "Method/authorization data entries map to ccache entries and back keeping order, count and bytes, with types reduced modulo 2^16.", "quantifier": "every list of entries", "why_tests_cant": "unbounded lists", "anchors": ["kerberos_ccache/src/mappers/auth_data_mapper.rs", "kerbeiros/src/mappers/auth_data_mapper.rs"]}
{"id": "C29", "title": "Credential cache to KRB-CRED and back", "statement": "For every ccache whose credentials have well-formed principals and tickets, converting to KRB-CRED and back yields a cache with the same primary-principal-of-first-credential, and the same credentials in the same order up to the documented lossy fields (is_skey, authdata, second ticket, key etype reset; addresses normalised). Otherwise it fails with the error of the first credential that cannot be read, looking at its client, server and ticket in that order.", "quantifier": "every cache", "why_tests_cant": "all values", "anchors": ["kerberos_ccache/src/mappers/ccache_mapper.rs", "kerberos_ccache/src/mappers/credential_mapper.rs"]}
{"id": "C30", "title": "KRB-CRED to credential cache", "statement": "Conversion fails exactly when the encrypted part is encrypted, does not parse, has no ticket or info, or a used info misses realm/name/flags (the error names the first field the first such info lacks); otherwise it produces one credential per (ticket, info) pair in order, as many as the shorter list (extra tickets or infos are silently dropped), and the primary principal is the first info's client.", "quantifier": "every KRB-CRED", "why_tests_cant": "all values", "anchors": ["kerberos_ccache/src/mappers/ccache_mapper.rs: krb_cred_to_ccache", "kerberos_ccache/src/mappers/credential_mapper.rs"]}
{"id": "C31", "title": "Credentials to ccache file and back", "statement": "Saving a credential warehouse as a ccache and loading it returns equal credentials, provided times are whole seconds within 1..2^32-1 range, principals non-empty and key type is 16-bit; fields the format cannot hold (last_req, nonce, key_expiration) are reset; an absent starttime comes back as authtime. A cache that cannot be read gives the error of its primary principal, or else of its first unreadable credential.", "quantifier": "every warehouse", "why_tests_cant": "all values", "anchors": ["kerbeiros/src/credentials/credential.rs", "kerbeiros/src/credentials/credential_warehouse.rs", "kerbeiros/src/mappers/times_mapper.rs"]}
{"id": "C32", "title": "Credentials to KRB-CRED", "statement": "Saving a warehouse as KRB-CRED writes one ticket and one info per credential, in order, with matching fields; parsing the KRB-CRED back yields them.", "quantifier": "every warehouse", "why_tests_cant": "all values", "anchors": ["kerbeiros/src/credentials/mappers/credential_warehouse_krb_cred.rs", "kerbeiros/src/credentials/mappers/credential_krb_info.rs"]}
{"id": "C33", "title": "AES encrypt/decrypt round trip", "statement": "For AES128/AES256, decrypt(key, usage, encrypt(key, usage, plaintext, preamble)) = plaintext for every key, usage, plaintext and 16-byte preamble.", "quantifier": "every key, usage, plaintext, preamble", "why_tests_cant": "unbounded plaintexts, all block-boundary cases", "anchors": ["kerberos_crypto/src/ciphers/aes.rs", "kerberos_crypto/src/algorithms/aes_hmac_sha1/decrypt.rs"]}
{"id": "C34", "title": "AES decrypt accepts only authentic ciphertexts", "statement": "decrypt returns Ok(p) only when the ciphertext equals encrypt(key, usage, p, preamble) for some 16-byte preamble under the same key and usage; otherwise it returns an error; it never panics on any ciphertext, including ones shorter than 28 bytes.", "quantifier": "every ciphertext, key, usage", "why_tests_cant": "all byte strings", "anchors": ["kerberos_crypto/src/algorithms/aes_hmac_sha1/decrypt.rs"]}
{"id": "C35", "title": "AES ciphertext length", "statement": "encrypt adds exactly 28 bytes to the plaintext length; AES ciphertexts have no padding.", "quantifier": "every plaintext", "why_tests_cant": "all lengths", "anchors": ["kerberos_crypto/src/algorithms/aes_hmac_sha1/decrypt.rs"]}
{"id": "C36", "title": "AES ciphertext stealing follows RFC 3962", "statement": "The block chaining of every message equals CBC with ciphertext stealing (CS3) with zero IV as specified in RFC 3962: last two blocks swapped, last one truncated.", "quantifier": "every message of at least one block", "why_tests_cant": "all lengths", "anchors": ["kerberos_crypto/src/algorithms/aes_hmac_sha1/decrypt.rs: basic_encrypt/basic_decrypt"]}
{"id": "C37", "title": "RC4 encrypt/decrypt round trip and acceptance", "statement": "For RC4-HMAC, decrypt(encrypt(...)) returns the plaintext; decrypt returns Ok(p) only for ciphertexts that encrypt produces for p with some 8-byte preamble; never panics; ciphertext is 24 bytes longer than the plaintext.", "quantifier": "every key, usage, plaintext, ciphertext", "why_tests_cant": "unbounded", "anchors": ["kerberos_crypto/src/ciphers/rc4.rs", "kerberos_crypto/src/algorithms/rc4_hmac_md5/encrypt.rs"]}
{"id": "C38", "title": "RC4 key usage aliasing", "statement": "The RC4 cipher treats usage 3 as usage 8 for both directions and leaves every other usage alone, so a message encrypted under usage 3 decrypts under 8 and vice versa.", "quantifier": "every usage", "why_tests_cant": "all i32", "anchors": ["kerberos_crypto/src/ciphers/rc4.rs"]}
{"id": "C39", "title": "n-fold", "statement": "n_fold(input, n) terminates and returns n bytes equal to the one's-complement sum of the n-byte chunks of the lcm-length string made of successive 13-bit right-rotations of the input, for every non-empty input and every n>0, as in RFC 3961.", "quantifier": "every input and size", "why_tests_cant": "unbounded loop with carry; all sizes", "anchors": ["kerberos_crypto/src/cryptography/nfold_dk.rs"]}
{"id": "C40", "title": "Key derivation lengths and determinism", "statement": "dk and generate_key return exactly 16 (AES128) or 32 (AES256) bytes, equal to the RFC 3961 DR stream E(K, nfold), E(K, previous)...", "quantifier": "every key and constant", "why_tests_cant": "all inputs", "anchors": ["kerberos_crypto/src/cryptography/nfold_dk.rs", "kerberos_crypto/src/algorithms/aes_hmac_sha1/keys.rs"]}
{"id": "C41", "title": "Hexadecimal key parsing", "statement": "Key::from_*_key_string never panics on ASCII text; it accepts exactly the strings of twice the key size made of two-character groups that are hex digits or a '+' followed by one hex digit, and returns the bytes they denote, so formatting the bytes as hex and parsing returns the key; a wrong length and a wrong character give distinct errors; non-ASCII text of the right byte length panics when a two-byte group splits a character.", "quantifier": "every string", "why_tests_cant": "all strings", "anchors": ["kerberos_crypto/src/key.rs: convert_hex_string_into_byte_array, check_size_and_convert_in_byte_array"]}
{"id": "C42", "title": "Salts", "statement": "generate_salt for a user is REALM (upper-cased) followed by the lower-cased user name; for a machine account (name ending in $) it is REALM + 'host' + lower-cased name without $ + '.' + lower-cased realm.", "quantifier": "every realm and user", "why_tests_cant": "all strings", "anchors": ["kerberos_crypto/src/algorithms/aes_hmac_sha1/salt.rs"]}
{"id": "C43", "title": "Pre-authentication salt agrees with library salt", "statement": "The salt used for timestamp pre-authentication equals generate_salt for every user account; for every machine account it is different (the domain part is missing), so password pre-authentication of a machine account uses another key than the one derived by the crypto library.", "quantifier": "every realm and user", "why_tests_cant": "all strings", "anchors": ["kerbeiros/src/messages/asreq/timestamp_cipher.rs: calculate_aes_salt", "kerberos_crypto/src/algorithms/aes_hmac_sha1/salt.rs"]}
{"id": "C44", "title": "Cipher selection", "statement": "A cipher is available for an encryption type exactly when it is one of 17, 18, 23; it reports that type; every other type is an UnsupportedAlgorithm error; is_supported_etype agrees, and supported_etypes lists exactly those types, each once, 18 before 17 before 23.", "quantifier": "every i32", "why_tests_cant": "2^32 values", "anchors": ["kerberos_crypto/src/ciphers/factory.rs", "kerberos_crypto/src/helpers.rs"]}
{"id": "C45", "title": "Key etypes", "statement": "Key::etypes lists all supported etypes, each once and the strongest first, for a password and exactly the key's own etype for a key; as_bytes returns the bytes supplied; a random key of etype e has the etype's length.", "quantifier": "every key", "why_tests_cant": "all keys", "anchors": ["kerberos_crypto/src/key.rs"]}
{"id": "C46", "title": "RC4 password encoding is injective", "statement": "The UTF-16LE encoding hashed into the RC4 key is determined by the password and different passwords give different encodings.", "quantifier": "every pair of Unicode strings", "why_tests_cant": "all strings", "anchors": ["kerberos_crypto/src/utils.rs: string_unicode_bytes", "kerberos_crypto/src/algorithms/rc4_hmac_md5/key.rs"]}
{"id": "C47", "title": "Checksums", "statement": "checksum_hmac_md5 is 16 bytes, the SHA1-AES checksum is 12 bytes, both are functions of key, usage and data only, and follow RFC 4757/3961 composition.", "quantifier": "every key, usage, data", "why_tests_cant": "all inputs", "anchors": ["kerberos_crypto/src/checksum.rs"]}
{"id": "C48", "title": "Only supported encryption types can be configured", "statement": "After any sequence of option-setting calls, the configured encryption types are a subset of {17,18,23}; a rejected set_etype/set_etypes call leaves the options unchanged.", "quantifier": "every call sequence", "why_tests_cant": "unbounded histories", "anchors": ["kerbeiros/src/messages/asreq/options.rs"]}
{"id": "C49", "title": "AS-REQ contents", "statement": "Every AS-REQ built asks for krbtgt/REALM@REALM for the given user, carries the configured KDC options and PAC request, lists the configured etypes strongest first (or exactly the pre-authentication etype when a key is used), and carries an encrypted timestamp exactly when a key is given.", "quantifier": "every username, options, key, time and nonce", "why_tests_cant": "all inputs", "anchors": ["kerbeiros/src/messages/asreq/builder.rs"]}
{"id": "C50", "title": "Pre-authentication can be verified by the KDC", "statement": "The encrypted timestamp in a keyed AS-REQ decrypts, with the key of the announced etype and usage 1, to the encoding of the request time.", "quantifier": "every key, time", "why_tests_cant": "all values", "anchors": ["kerbeiros/src/messages/asreq/timestamp_cipher.rs"]}
{"id": "C51", "title": "TGT request protocol", "statement": "A TGT request sends at most two messages; the first never contains key-derived material; the second is sent exactly when the first answer is KRB-ERROR 25 and a key was given; every other KRB-ERROR is returned to the caller unchanged; a transport failure is returned as is.", "quantifier": "every KDC behaviour (any response bytes or failure as a function of the messages sent)", "why_tests_cant": "the peer is adversarial and unbounded", "anchors": ["kerbeiros/src/requesters/tgt_requester.rs", "kerbeiros/src/requesters/as_requester.rs"]}
{"id": "C52", "title": "Panic freedom of the TGT request", "statement": "A TGT request panics only if (a) a password is given, no encryption type is configured and the KDC asks for pre-authentication, or (b) a password is given and the AS-REP carries a malformed ETYPE-INFO2; in every other case it returns Ok or Err.", "quantifier": "every configuration and KDC behaviour", "why_tests_cant": "adversarial peer", "anchors": ["kerbeiros/src/requesters/as_requester.rs: unwrap", "kerbeiros/src/requesters/tgt_requester.rs", "kerbeiros/src/messages/asreq/timestamp_cipher.rs"]}
{"id": "C53", "title": "Accepted credentials are authentic", "statement": "When a TGT request returns a credential, the encrypted part of the AS-REP was produced with the user's key under usage 3 and every returned session field comes from it, the ticket and client name from the reply.", "quantifier": "every KDC behaviour", "why_tests_cant": "adversarial peer", "anchors": ["kerbeiros/src/requesters/tgt_requester.rs", "kerbeiros/src/credentials/mappers"]}
{"id": "C54", "title": "Reply is matched to the request", "statement": "Whether an AS-REP is accepted depends on the user's key only: a reply sealed with that key under usage 3 is accepted whatever user, settings and nonce the request had. In particular the property one would want - nonce and client name of an accepted reply are those of the request and its encryption type was offered - does not hold of the code.", "quantifier": "every key, reply, request and setting", "why_tests_cant": "adversarial peer: all replies against all requests", "anchors": ["kerbeiros/src/requesters/tgt_requester.rs"]}
{"id": "C55", "title": "TCP framing", "statement": "Over TCP the client sends a 4-byte big-endian length followed by the message, and returns exactly the body announced by the server whatever the chunking of the stream; a connection closed early is a NetworkError; no bytes beyond the announced body are used. It blocks for ever only if the peer stops taking the request or falls silent within the answer.", "quantifier": "every response stream and chunking", "why_tests_cant": "all schedules of partial reads", "anchors": ["kerbeiros/src/transporter/tcp_transporter.rs"]}
{"id": "C56", "title": "UDP datagram reception", "statement": "Over UDP the client returns the whole datagram whatever its length (never a truncated one). Exactly: it looks at the datagram with a buffer of 2048 octets, doubled until the datagram does not fill it, then takes it; if none of these calls fails the datagram is returned, if one fails a NetworkError, and without a datagram the first call blocks or fails.", "quantifier": "every datagram length", "why_tests_cant": "all sizes incl. exact buffer multiples", "anchors": ["kerbeiros/src/transporter/udp_transporter.rs"]}
{"id": "C57", "title": "Saving to file at every crash point", "statement": "After a crash at any point of saving a ccache the file is either the old content, or a prefix of the new content (possibly empty): the save is not atomic, old credentials can be lost, but a load never returns credentials that were not saved (it returns the old ones, nothing, or the first few of the new ones). A KRB-CRED file cut short is refused by the reader.", "quantifier": "every crash point, every old/new content", "why_tests_cant": "all crash points", "anchors": ["kerbeiros/src/credentials/file.rs", "kerbeiros/src/credentials/credential_warehouse.rs"]}
{"id": "C58", "title": "End-to-end TGT save and load", "statement": "A credential obtained from a KDC reply, saved as ccache and loaded again, carries the same ticket bytes, session key, principals and times; saved as KRB-CRED, the file is a KRB-CRED message with that one ticket and its session key, principals, flags, times and addresses.", "quantifier": "every reply", "why_tests_cant": "all values", "anchors": ["kerbeiros/src/credentials/credential.rs", "kerbeiros/src/requesters/tgt_requester.rs"]}
{"id": "C59", "title": "Transport choice does not change the conversation", "statement": "The bytes of the request and the interpretation of the response do not depend on whether TCP or UDP is chosen; switching transport keeps the other settings.", "quantifier": "every configuration", "why_tests_cant": "all histories", "anchors": ["kerbeiros/src/requesters/tgt_requester.rs", "kerbeiros/src/transporter/mod.rs"]}
{"id": "C60", "title": "Message schemas agree with RFC 4120", "statement": "For every RFC 4120 / MS-KILE / MS-SFU message type the field tags, optionality and field types of the library are those of the specification, so the library and a conforming peer read the same bytes as the same value.", "quantifier": "every message type and value", "why_tests_cant": "a test compares single values, not the format", "anchors": ["kerberos_asn1/src/*.rs: seq_field attributes"]}
{"id": "C61", "title": "Printing a principal name", "statement": "Printing a principal name gives its components joined by '/', and panics exactly when it has no component; a name made by new() and any number of push() calls has its components in that order and can always be printed.", "quantifier": "every name", "why_tests_cant": "all component lists", "anchors": ["kerberos_asn1/src/principal_name.rs: Display"]}
{"id": "C62", "title": "Both ways of saving agree", "statement": "Saving credentials as KRB-CRED and converting that to a ccache gives the same entries as saving them directly as ccache, except that an absent start time stays absent and the encrypted pre-authentication data is dropped.", "quantifier": "every warehouse with at least one credential", "why_tests_cant": "all values", "anchors": ["kerbeiros/src/credentials/mappers/*.rs", "kerberos_ccache/src/mappers/ccache_mapper.rs"]}
{"id": "C63", "title": "KDC name resolution", "statement": "Resolving a realm returns the first address the system resolver gives for the realm name, and a NameResolutionError naming the realm exactly when the resolver fails or gives none; it never panics.", "quantifier": "every resolver behaviour", "why_tests_cant": "the resolver is external", "anchors": ["kerbeiros/src/utils.rs", "kerbeiros/src/error.rs"]}
{"id": "C64", "title": "AS exchange", "statement": "An AS request sends exactly one message (with pre-authentication exactly when a key is given) and returns the answer classified: a KRB-ERROR as such, an AS-REP as such, any other bytes as an Asn1Error, a transport failure as is; the three kinds of answer exclude each other. It panics exactly when a password is given and no encryption type is configured. An AS requester made by the constructor and any sequence of setter calls does this over the transport chosen last with the encryption types chosen last, and the message is completely transmitted unless the outcome is a NetworkError or the peer stops taking bytes over TCP.", "quantifier": "every KDC and network behaviour, key, and sequence of setter calls", "why_tests_cant": "adversarial peer, all histories", "anchors": ["kerbeiros/src/requesters/as_requester.rs"]}
{"id": "C65", "title": "Fields keep their name on the wire", "statement": "For every message struct, the bytes are exactly the listed fields, each under the context tag that RFC 4120 gives to the field of that name, in order, absent optional fields being absent, inside the application tag of the message.", "quantifier": "every struct and value", "why_tests_cant": "consistent renamings survive any round-trip test", "anchors": ["kerberos_asn1/src/*.rs: struct definitions"]}
{"id": "C66", "title": "Options and flags by name", "statement": "Any combination of the named KDC options, ticket flags or PAC options, OR-ed together and encoded, sets exactly the bits that the standards give to those names. (Does not hold for the AP option constants, which are bit numbers instead of words, nor for the anonymous ticket flag.)", "quantifier": "every set of named options", "why_tests_cant": "all 2^16 combinations on the wire", "anchors": ["kerberos_constants/src/kdc_options.rs", "kerberos_constants/src/ticket_flags.rs", "kerberos_constants/src/pa_pac_options.rs", "kerberos_constants/src/ap_options.rs", "kerberos_asn1/src/kerberos_flags.rs"]}
{"id": "C67", "title": "Numbers and error codes by name", "statement": "Every exported number (encryption, checksum, address, name, message, pre-authentication and authorization data types, key usages) is the one the standards give to its name (not so for RSA_MD4_DES). The text for an error code is the RFC 4120 name of the code if it has one and empty otherwise; two named codes never have the same text; the exported constants are the RFC numbers.", "quantifier": "every i32 code", "why_tests_cant": "all codes", "anchors": ["kerberos_constants/src/error_codes.rs: error_code_to_string"]}
{"id": "C68", "title": "The whole client over the network", "statement": "A requester made by the constructor and any sequence of setter calls asks for a TGT with the conversation of C51 over the transport chosen last (TCP when none was), on port 88 of the KDC, with the encryption types chosen last and the default options; every message but the last is completely transmitted in the framing of the transport, and so is the last unless the outcome is a NetworkError or the peer stops taking bytes over TCP.", "quantifier": "every sequence of setter calls, network behaviour, draw of random bytes and time, user and key", "why_tests_cant": "all histories, schedules and peers at once", "anchors": ["kerbeiros/src/requesters/tgt_requester.rs", "kerbeiros/src/transporter/mod.rs", "kerbeiros/src/transporter/tcp_transporter.rs", "kerbeiros/src/transporter/udp_transporter.rs"]}
{"id": "C69", "title": "The reported error is exact", "statement": "When an AS-REP is refused, the error reported determines and is determined by what is wrong with the reply: unsupported encryption type (naming it), a ciphertext that does not open under the user's key, a key of another encryption type (naming both), a plaintext that is not an EncASRepPart; no reply has two diagnoses.", "quantifier": "every reply, key and configuration", "why_tests_cant": "adversarial peer: all replies", "anchors": ["kerbeiros/src/requesters/tgt_requester.rs", "kerbeiros/src/error.rs"]}
{"id": "C70", "title": "Messages made from a default are identified", "statement": "An AS-REQ, TGS-REQ, AS-REP, TGS-REP, AP-REQ or KRB-CRED made from default(), new() or by conversion from a KDC-REQ, with any other fields set to anything, goes on the wire as protocol version 5 with the message type and application tag of its kind; a new Ticket has version 5; a default Authenticator has version 5 and the current time. (Does not hold for the derived defaults of AP-REP, KRB-ERROR, KRB-PRIV, KRB-SAFE and Ticket, whose version is 0 until the program sets it.)", "quantifier": "every value of the other fields", "why_tests_cant": "all field values on the wire", "anchors": ["kerberos_asn1/src/as_req.rs: Default, From<KdcReq>", "kerberos_asn1/src/tgs_req.rs", "kerberos_asn1/src/kdc_req.rs", "kerberos_asn1/src/as_rep.rs", "kerberos_asn1/src/tgs_rep.rs", "kerberos_asn1/src/ap_req.rs", "kerberos_asn1/src/ap_rep.rs", "kerberos_asn1/src/krb_cred.rs", "kerberos_asn1/src/krb_error.rs", "kerberos_asn1/src/krb_priv.rs", "kerberos_asn1/src/krb_safe.rs", "kerberos_asn1/src/ticket.rs", "kerberos_asn1/src/authenticator.rs"]}
{"id": "C71", "title": "Counted strings as text", "statement": "Text put into a counted string of a cache or keytab comes back unchanged, directly and through the bytes of the file; octets are returned as text exactly when they are well-formed UTF-8 and refused with an error otherwise, never a panic.", "quantifier": "every string and every octet sequence", "why_tests_cant": "all byte strings", "anchors": ["kerberos_ccache/src/counted_octet_string.rs: From<&str>, TryInto<String>", "kerberos_keytab/src/counted_octet_string.rs: From<&str>, TryInto<String>"]}
{"id": "C72", "title": "Re-encoding is stable", "statement": "Whatever value a reader makes of some bytes (including bytes that are not the encoding of anything, as far as the reader tolerates them) can be encoded again; every reader reads the result as that value (times in whole seconds), and encoding what was read gives the same bytes again.", "quantifier": "every type, input accepted and reader tolerance", "why_tests_cant": "all accepted inputs, including non-canonical ones", "anchors": ["kerberos_asn1/src/*.rs: parse, build"]}
{"id": "C73", "title": "Modified ciphertexts", "statement": "If an AES or RC4-HMAC ciphertext that was modified is still accepted, then the modification is a collision of the (truncated) MAC: with the same body the tag cannot differ, with another body the MAC of another message equals the tag. For AES, changing only the tag is always detected; for RC4-HMAC, where the tag also keys the cipher, an accepted modification is a complete message of its own, with the MAC of its own plaintext.", "quantifier": "every ciphertext, modification, key and usage", "why_tests_cant": "adversarial: all modifications", "anchors": ["kerberos_crypto/src/algorithms/aes_hmac_sha1", "kerberos_crypto/src/algorithms/rc4_hmac_md5"]}
{"id": "C74", "title": "What the KDC announces is not used", "statement": "The messages a TGT request sends do not depend on what the KDC answers, but for whether there is a second one; in particular the encryption types, salts and parameters of a KRB-ERROR are not used. In a reply only the first salt of ETYPE-INFO2 counts, no parameters. An encrypted part with the tag of a TGS reply, which some KDCs send and RFC 4120 5.4.2 allows clients to accept, is refused.", "quantifier": "every pair of KDC behaviours, every reply", "why_tests_cant": "all peers", "anchors": ["kerbeiros/src/requesters/tgt_requester.rs", "kerberos_asn1/src/enc_as_rep_part.rs"]}
{"id": "C75", "title": "Programs with several requesters", "statement": "In a program that creates any number of requesters, changes their settings and asks them for TGTs in any order, every request is the conversation of C68 for the realm and address its requester was created with and the settings made on that requester before, whatever else was done; requests that return are made in order, and two requests made under the same circumstances come out alike (nothing is remembered between requests or shared between requesters).", "quantifier": "every program, every behaviour of network, clock and randomness depending on all earlier requests", "why_tests_cant": "all interleavings and histories", "anchors": ["kerbeiros/src/requesters/tgt_requester.rs", "kerbeiros/src/requesters/as_requester.rs"]}
{"id": "C76", "title": "Files that grow", "statement": "Credentials appended to a readable cache (or entries to a readable keytab) are read after those already there, which are unchanged; rewriting with more elements writes the old bytes followed by those of the new elements. An interrupted append to a keytab loses nothing; to a cache it either loses nothing or makes the whole file unreadable, depending on where it stopped.", "quantifier": "every file, sequence of appended elements and interruption point", "why_tests_cant": "all files and crash points", "anchors": ["kerberos_ccache/src/ccache.rs", "kerberos_keytab/src/keytab.rs"]}
{"id": "C77", "title": "Comparing values", "statement": "== on every message type, on credentials and on warehouses is an equivalence that compares everything but the letter case of principal names, and is identity for types without principal names; a value written and read back compares equal to the original exactly when its times have no fraction of a second. Equal messages need not have equal encodings.", "quantifier": "every type and pair of values", "why_tests_cant": "all pairs of values of all types", "anchors": ["kerberos_asn1/src/principal_name.rs: PartialEq", "kerberos_asn1/src/*.rs: derive(PartialEq)", "kerbeiros/src/credentials/credential.rs", "kerbeiros/src/credentials/credential_warehouse.rs"]}
{"id": "C78", "title": "Fields of a credential", "statement": "The accessors of a credential returned by a request show the client and ticket of the reply and the session key, flags, times, server, addresses and pre-authentication data of its encrypted part.", "quantifier": "every successful request", "why_tests_cant": "all replies", "anchors": ["kerbeiros/src/credentials/credential.rs", "kerbeiros/src/credentials/credential_warehouse.rs"]}
{"id": "C79", "title": "Working from a secret", "statement": "Encrypting or decrypting in one call from a secret (bytes or password) and a salt works with the messages under the one key RFC 3962 or RFC 4757 assigns to that secret and salt, for the usage given; decryption undoes encryption. For AES bytes and text are the same secret; for RC4 text is taken in UTF-16 and the salt is ignored.", "quantifier": "every cipher, secret, salt, usage, plaintext, preamble and ciphertext", "why_tests_cant": "all secrets and messages", "anchors": ["kerberos_crypto/src/ciphers/cipher_trait.rs"]}
{"id": "C80", "title": "Error texts", "statement": "The text of an error tells which error it is: two errors with the same text are the same but for the reply attached to an unreadable AS-REP; the text of a nested error ends with that of the error inside, and unsupported encryption types and key lengths appear in decimal.", "quantifier": "every error the crates construct", "why_tests_cant": "all nestings and numbers", "anchors": ["kerbeiros/src/error.rs", "kerberos_crypto/src/error.rs", "kerberos_ccache/src/error.rs"]}
{"id": "C81", "title": "Concurrent saves", "statement": "When several processes save to one path at the same time and all succeed, every byte of the file is the byte some of them wrote at that place or a zero beyond the end of one of the files saved, and its length lies between two of theirs; saving the same data several times gives that data, and so does a save that begins when the others have ended. At any moment, whoever failed or was killed, the file is the old one or made of such bytes. Saves are not isolated: two successful saves of caches can leave a cache holding a credential of each (refuted with a witness).", "quantifier": "every number of processes, all data, every interleaving of their system calls, every failure and kill", "why_tests_cant": "interleavings", "anchors": ["kerbeiros/src/credentials/file.rs (CredentialFileConverter::save_data_to_file)", "kerbeiros/src/credentials/credential_warehouse.rs"]}
{"id": "C82", "title": "Loading during a save", "statement": "What a process reads from the file while another saves is a beginning of the old content followed by what comes next in the new one. If there was no file or the same cache is saved again, loading fails or gives the first credentials of the cache. A load begun after all saves have ended reads the file as they left it. In general a load may give a cache that was never in the file (refuted with a witness).", "quantifier": "every old and new content, any number of loaders, every interleaving of system calls", "why_tests_cant": "interleavings", "anchors": ["kerbeiros/src/credentials/file.rs", "kerbeiros/src/credentials/credential_warehouse.rs"]}
{"id": "C83", "title": "UDP needs an IPv4 address", "statement": "With a KDC address of IPv6 and UDP chosen, every TGT request ends with a NetworkError and no datagram is sent, since the socket is bound to 0.0.0.0 (given that sockets of one family do not connect to the other); the same network carries the exchange over IPv4.", "quantifier": "every network, realm, user, key and sequence of settings", "why_tests_cant": "all configurations; needs a network", "anchors": ["kerbeiros/src/transporter/udp_transporter.rs (UDPTransporter)", "kerbeiros/src/requesters/tgt_requester.rs"]}
{"id": "C84", "title": "Memory reserved for answers", "statement": "Over TCP the client reserves for the answer the size the first four bytes from the peer announce, whatever follows, hence less than 2^32 bytes; four bytes suffice to make it reserve any such amount. Over UDP the buffers have 2048 bytes or at most twice the datagram.", "quantifier": "every peer behaviour and request", "why_tests_cant": "adversarial peer", "anchors": ["kerbeiros/src/transporter/tcp_transporter.rs", "kerbeiros/src/transporter/udp_transporter.rs"]}
{"id": "C85", "title": "Histories of saves", "statement": "After any sequence of saves to any paths, each of which may fail or be killed, a path holds what it held at first (no save to it having succeeded) or a beginning of the content of one save to it, all of it if that save succeeded, no later one having succeeded. Loading gives what it gave at first, nothing, or the first credentials of one saved cache, never a mixture; all of them after a successful save. Saves to other paths change nothing.", "quantifier": "every sequence of saves on every set of paths, all failures and kill points", "why_tests_cant": "unbounded histories", "anchors": ["kerbeiros/src/credentials/file.rs", "kerbeiros/src/credentials/credential_warehouse.rs (CredentialWarehouse::save_into_ccache_file, save_into_krb_cred_file)"]}
{"id": "C86", "title": "An honest KDC serves its users", "statement": "Against a KDC that follows RFC 4120: a user with the password or key of an account that must pre-authenticate, and a clock within 300 seconds, gets in two messages the TGT, session key and times the KDC issued for the second request, with its nonce and names (given that the account has a key of the type the client chooses and, for a password, the salt the client assumes); otherwise the user gets the error of the KDC. An account that need not pre-authenticate is served with one message given its password, whatever the salt and clocks; given a single key, only if the KDC chooses its type (refuted with a witness: the first request names all configured types). The AS exchange alone: with such a key and clock the one request is answered with the AS-REP the KDC issued, whether or not the account must pre-authenticate, and the key opens it; a request the KDC does not verify brings its error; without a key the answer is error 25 if the account must pre-authenticate and the AS-REP otherwise.", "quantifier": "every KDC meeting the specification, account, user, key, settings, clocks and randomness", "why_tests_cant": "all peers that are honest; needs a KDC", "anchors": ["kerbeiros/src/requesters/tgt_requester.rs", "kerbeiros/src/requesters/as_requester.rs", "kerbeiros/src/messages/asreq"]}
{"id": "C87", "title": "From a password to a credential cache", "statement": "A requester made for a realm and a KDC address, configured with any setter calls, asks for a TGT over a network that carries the answers of an honest KDC on port 88 (over TCP in any chunks, with interruptions; over UDP in a datagram). A user who knows the password or key gets the TGT the KDC issued, the requests being on the wire complete; saving it where writing is possible succeeds, and loading the file, whatever was there before, gives a cache of exactly that credential, for that realm and user. An AS requester on such a network puts its one request on the wire complete and returns the AS-REP the KDC issued for it, which the user's secret opens.", "quantifier": "every network, transport, sequence of settings, KDC, account, key, old file content and fragmentation of reads and writes", "why_tests_cant": "end to end: needs a network, a KDC and a file system", "anchors": ["kerbeiros/src/requesters/tgt_requester.rs", "kerbeiros/src/transporter", "kerbeiros/src/credentials/credential.rs (Credential::save_into_ccache_file)", "kerbeiros/src/credentials/file.rs"]}
{"id": "C88", "title": "Rewriting settles", "statement": "Loading any readable cache file, whoever wrote it, and saving what was loaded keeps the primary principal and of every entry the client, server, key, times, flags and authorization data, drops what this library does not hold (second ticket, session-key flag, second key type) and strips white space at the end of NetBIOS addresses. The file so written loads again, to the same credentials up to that white space (exactly the same if there was none), and from then on loading and saving changes neither the credentials nor a byte of the file. The same holds for files first written by this library and for caches converted to KRB-CRED and back. (Tickets are re-encoded and must then be shorter than 2^32 bytes.)", "quantifier": "every file, reader tolerance and number of rewritings", "why_tests_cant": "all inputs and histories of rewriting", "anchors": ["kerbeiros/src/credentials/credential.rs", "kerbeiros/src/credentials/credential_warehouse.rs", "kerbeiros/src/mappers/address_mapper.rs", "kerbeiros/src/mappers/times_mapper.rs", "kerberos_ccache/src/mappers/credential_mapper.rs"]}
{"id": "C89", "title": "Values are no larger than the input", "statement": "What a parser returns is no larger than what it read: the numbers, lists, structures, byte strings and bytes of a parsed message or cache are fewer than the bytes consumed, however large the lengths and counts announced in them (for a keytab at most twice as many, since holes are read as entries). Tickets, replies and KRB-CRED messages encoded anew after parsing are never longer than they were (given a reader that reads long-form lengths correctly); so a loaded cache always fits into a file, loading and saving adds at most 8 bytes to the file, and C88 holds without a bound on tickets. Flags may grow.", "quantifier": "every input, message type and reader tolerance", "why_tests_cant": "adversarial inputs", "anchors": ["kerberos_asn1/src/*.rs", "kerberos_ccache/src/ccache.rs", "kerberos_keytab/src/keytab.rs", "kerbeiros/src/credentials/credential_warehouse.rs"]}
{"id": "C90", "title": "What of a reply is not protected", "statement": "Whoever can change the KDC's last answer without knowing any key decides on the ticket, the client name and the realm of the credential: replacing the answer by any reply with the same encrypted octets (and, for a password, the same encryption type and pre-authentication data) makes the client send the same messages and return a credential with the ticket, client and realm of the replacement and with the session key, times, flags and server name of the original. So the claim that the ticket and the client of a credential are those the KDC sent is refuted, whatever the cryptographic algorithms.", "quantifier": "every user, key, setting, transport, reply and replacement, all primitives", "why_tests_cant": "adversarial networks", "anchors": ["kerbeiros/src/messages/mod.rs", "kerbeiros/src/requesters/tgt_requester.rs"]}
{"id": "C91", "title": "Which received credentials can be stored", "statement": "Whatever a KDC puts into a reply (shorter than 2^30 bytes, session key shorter than 2^16 bytes), all its parts fit the length fields of a cache file. After a successful save, loading fails exactly when the client or server name of the credential is empty (so the claim that what was accepted and saved can be loaded is refuted); otherwise it gives one credential with the same ticket, client, server and realms, the other fields being what the file format keeps of them: 16 bits of types, whole seconds modulo 2^32, NetBIOS addresses made UTF-8 and padded anew, all addresses lost if one with a type congruent to NetBIOS is not UTF-8. The same for caches of several credentials. A session key of 2^16 bytes makes the file unreadable.", "quantifier": "every reply, key, history, file content and fragmentation of writes", "why_tests_cant": "adversarial replies and all inputs", "anchors": ["kerbeiros/src/credentials/credential.rs", "kerbeiros/src/credentials/credential_warehouse.rs", "kerbeiros/src/mappers/address_mapper.rs", "kerbeiros/src/mappers/principal_mapper.rs", "kerbeiros/src/messages/mod.rs"]}
{"id": "C92", "title": "What the requests reveal of the secret", "statement": "Whatever the KDC answers, the messages of a TGT request depend on the user's password or key in one place only: the first message not at all, the second (if there is one) in one ciphertext at a position and of a length fixed by the type of encryption, which is the time of the request sealed under the user's long-term key for usage 1. So the numbers and lengths of the messages are the same for any two secrets leading to the same type of encryption: not even the length of a password shows. The same holds of the one message of an AS request with a secret, whatever any KDC answers.", "quantifier": "every two secrets, KDC (oracle on the history), settings, user name, clock and random draws", "why_tests_cant": "a relation between all pairs of runs (non-interference)", "anchors": ["kerbeiros/src/requesters/tgt_requester.rs", "kerbeiros/src/messages/asreq/builder.rs"]}
{"id": "C93", "title": "Power failures", "statement": "A save that reported success can be lost to a power failure (nothing is ever synced to the device): the old file or an empty one may be what is left, so the claim that saved credentials are durable is refuted. If changes reach the device in order, then after any history of saves and a power failure at any time loading gives what the path gave at first, nothing, or the first credentials of one saved cache. If the length arrives but the end of the data does not (zeros from any position on), loading gives nothing, no credentials, or the first saved credentials, possibly followed by one of which everything but the ticket is right; and whenever only octets of the last ticket's ciphertext are lost, the file does load, with zeros in that ticket.", "quantifier": "every history of saves, moment of the failure, lost tail and cache", "why_tests_cant": "crash points and histories; the interesting ones cannot be produced in a test", "anchors": ["kerbeiros/src/credentials/file.rs", "kerberos_ccache/src/ccache.rs", "kerberos_ccache/src/credential.rs"]}
{"id": "C94", "title": "Preambles of any length", "statement": "The public aes_hmac_sha1::encrypt and rc4_hmac_md5::encrypt take a preamble of any length. They depend only on preamble and plaintext put together, so the boundary is not recorded: if both together are at least 16 (AES) or 8 (RC4) bytes, decrypt returns what follows the first 16 or 8 of them (a shorter preamble silently costs the first bytes of the plaintext, a longer one leaves a rest of it). If they are shorter, RC4 ciphertexts are refused as too short, AES ones as an integrity failure (unless the MACs of the padded and the unpadded message agree, then the empty plaintext results), and the AES ciphertext of nothing is a bare MAC, refused as too short.", "quantifier": "every preamble, plaintext, key and usage", "why_tests_cant": "all lengths of two inputs", "anchors": ["kerberos_crypto/src/algorithms/aes_hmac_sha1/decrypt.rs (encrypt, decrypt)", "kerberos_crypto/src/algorithms/rc4_hmac_md5/encrypt.rs"]}
{"id": "C95", "title": "Requests at the same time do not disturb each other", "statement": "When the threads of a program make requests at the same time (TgtRequester::request, AsRequester::request), in any interleaving of their steps, with a clock, random numbers and a network that may depend on everything done before by all of them, every request behaves as it would alone with the draws and answers it got itself: it sends the same messages in the same order, returns the same result, and returns at most once; one that waits for an answer has sent exactly what it would have sent alone. Its messages are built from its own user, key, options and draws only, a ticket it returns was sealed under its own key in the last answer it received, its behaviour is the same in any two programs, schedules and networks that give it the same draws and answers, a request whose messages are answered returns within seven of its own steps even if all others wait for ever, and a request that gets no step does nothing. A killed process leaves a beginning of this.", "quantifier": "every number and kind of requests, every schedule (and every point where it stops), every history-dependent clock, randomness and network", "why_tests_cant": "all interleavings of all programs", "anchors": ["kerbeiros/src/requesters/tgt_requester.rs (TgtRequester::request)", "kerbeiros/src/requesters/as_requester.rs (AsRequester::request)", "kerbeiros/src/transporter/transporter_trait.rs"]}
{"id": "C96", "title": "Many users at one KDC at the same time", "statement": "When any number of threads ask an honest KDC (C86) for TGTs at the same time, in any interleaving and among any other requests, each request of a user who gives the password or key of his account, whose answers arrive at most 300 seconds after the message was made, and that returns, returns the ticket the KDC issued to that user for that request's second message, with the nonce of that message and his own name and realm; and it does return once it has taken seven steps with the answers there, even if other requests are never answered.", "quantifier": "every set of accounts and requests, every schedule, every honest KDC whose answers and clock may depend on everything done before", "why_tests_cant": "all interleavings, KDCs and histories", "anchors": ["kerbeiros/src/requesters/tgt_requester.rs (TgtRequester::request)"]}
{"id": "C97", "title": "Damaged files", "statement": "Whatever bytes follow the intact first part of a credential cache or keytab (one that reads to its end), reading the file either fails or gives back that part's header, principal and credentials (entries) unchanged and first, followed only by complete credentials (entries) found in the damaged bytes; a keytab with a size of -2^31 there panics in builds with overflow checks. Damage inside the body of a keytab record that keeps its length leaves all other records as they were, or ends reading there with those before it, or makes the file unreadable. Neither format detects a replaced key: key octets replaced by others of the same number are read in their place.", "quantifier": "every file, every damage behind an intact part of any length, every damaged record body, every replaced key", "why_tests_cant": "all files and all ways to damage them", "anchors": ["kerberos_ccache/src/ccache.rs (CCache::parse)", "kerberos_keytab/src/keytab.rs (Keytab::parse)"]}
{"id": "C98", "title": "Recorded answers can be replayed", "statement": "Once a TGT request has returned a credential, every later request with the same key whose last answer is the recorded last answer returns the same credential, whatever user name, settings, nonce and clocks it has; answering its first message with the recorded bytes suffices, and then the message in which the user proves to know the key is never sent. So that a returned credential was issued for the request, or is still valid when it is returned, is refuted.", "quantifier": "every recorded exchange, every later request with the same key, every network", "why_tests_cant": "all exchanges, times, nonces and settings", "anchors": ["kerbeiros/src/requesters/tgt_requester.rs (TgtRequest::request)", "kerbeiros/src/credentials/mappers/credential_krb_info.rs (kdc_rep_to_credential)"]}
{"id": "C99", "title": "Answers that reach another request", "statement": "When threads make TGT requests at the same time, whether one of them returns a credential, and which, is settled by its key and the last answer that reached it, and by nothing else: it returns a credential exactly when that answer is an AS-REP in which the key opens that credential. So requests with the same key that are given each other's answers return each other's credentials; that a request returns only what was meant for it is refuted.", "quantifier": "every set of concurrent requests, every schedule, clock and network", "why_tests_cant": "all interleavings and networks", "anchors": ["kerbeiros/src/requesters/tgt_requester.rs (TgtRequest::request)", "kerbeiros/src/requesters/as_requester.rs (AsRequest)", "kerbeiros/src/credentials/mappers/credential_krb_info.rs (kdc_rep_to_credential)"]}
{"id": "C100", "title": "Each of many users is treated like a lone one", "statement": "When any number of requests are made at the same time to a KDC that serves their accounts (its answers may depend on everything that happened before), each request that returns has drawn, sent, received and returned what some lone request does on a network with an honest KDC, answered at the same times. So each user gets what C86 says: the KDC's error when it cannot verify the request or the clocks differ too much, the ticket at once when the account need not pre-authenticate, and for the AS exchange the AS-REP or the error, with or without a key.", "quantifier": "every KDC meeting the specification, set of concurrent requests, schedule, clock and network", "why_tests_cant": "all interleavings, KDCs and networks", "anchors": ["kerbeiros/src/requesters/tgt_requester.rs (TgtRequest::request)", "kerbeiros/src/requesters/as_requester.rs (AsRequest)"]}
{"id": "C101", "title": "An attacker on the network who cannot forge", "statement": "Let the network be an attacker's, who sees everything that happens and chooses every answer as he likes, but cannot make a ciphertext that a key made from the user's secret opens: what such a key opens was sealed by the KDC before, or is a timestamp that a client sealed in a request. Then, while any threads make any requests in any order, the session key, nonce, times, flags and server name of every credential a TGT request returns are ones the KDC had issued for this secret before the answer arrived; a client's own timestamp sent back does not do; and if the KDC has issued nothing, nothing is returned. (Ticket, client name and freshness are not protected: C90, C98.)", "quantifier": "every attacker, set of concurrent requests, schedule and clock", "why_tests_cant": "all attackers and interleavings", "anchors": ["kerbeiros/src/requesters/tgt_requester.rs (TgtRequest::request)", "kerbeiros/src/credentials/mappers/credential_krb_info.rs (kdc_rep_to_credential)", "kerbeiros/src/messages/asreq/timestamp_cipher.rs"]}
{"id": "C102", "title": "The documented log-on program", "statement": "The program of the crate's documentation (request a TGT with a password, save it as KRB-CRED, save it as ccache, unwrap after each) leaves every other file as it was; at every moment, and wherever it is killed, either neither ticket file has been touched, or the TGT was obtained and the KRB-CRED file is a beginning of its KRB-CRED and the cache untouched, or the KRB-CRED file is complete and the cache as it was or a beginning of the new one. It completes exactly if the TGT was obtained and both saves succeeded, waits for ever exactly if the request does, and an error of the request leaves all files alone. A reader finds at any moment the old cache, none, an empty one or the TGT; the old KRB-CRED file, a complete one, or one it refuses. With the right password, an honest KDC, a working network and a writable disk it completes and both files hold the issued TGT. The variant with an NT hash sends nothing if the text is not 32 hexadecimal digits, saves the files independently, and completes even if nothing was saved.", "quantifier": "every network and KDC behaviour, name, secret, path, file system content, pattern of write failures and crash point", "why_tests_cant": "all networks, failures and crash points of a whole program", "anchors": ["kerbeiros/src/lib.rs (crate example)", "kerbeiros/src/requesters/tgt_requester.rs (TgtRequester example)", "kerbeiros/src/credentials/file.rs (save_data_to_file)"]}
{"id": "C103", "title": "The documented copy programs", "statement": "The documented programs that read a ccache (keytab), parse it, build it and write it to another path panic before touching any file exactly if the source cannot be read or parsed; otherwise only the target changes, it passes from what it was through beginnings of the copy, the program completes if the disk lets it, and the copy reads back to its end as exactly what the source holds. The copy has the bytes of the source without what follows the last complete credential and with the true header length (for keytabs: one record per entry, holes become records). Copying a file the library wrote gives the same bytes. Copying a file onto itself is not safe: there is a moment at which the file is empty and cannot be read again.", "quantifier": "every source content, file system, pattern of write failures and crash point", "why_tests_cant": "all file contents and crash points", "anchors": ["kerberos_ccache/src/lib.rs (crate example)", "kerberos_keytab/src/lib.rs (crate example)"]}
{"id": "C104", "title": "The documented AS request program", "statement": "The documented program that asks for an AS-REP with AES-256 and prints what came sends one message; for a KRB-ERROR it prints the error code in decimal, for an AS-REP the service of its ticket with its components separated by slashes; it panics without a line if the ticket names a service without components (so any KDC can make it panic), if the answer is neither message or the network fails; and it waits exactly if the network does. With the right password and an honest KDC the line is about the ticket the KDC issued.", "quantifier": "every network behaviour, answer, name and secret", "why_tests_cant": "all answers of a network", "anchors": ["kerbeiros/src/requesters/as_requester.rs (AsRequester example)", "kerberos_asn1/src/principal_name.rs (Display)"]}
{"id": "C105", "title": "A UDP exchange while anybody sends datagrams", "statement": "However the arrival of datagrams, from anybody and in any number, interleaves with the calls of one request over UDP: the request is sent at most once and only to the KDC; the answer returned is the first datagram for the socket, whole, whatever its length and whatever arrives later; while none has arrived and no call has failed the client waits; once one has arrived the client returns it after a number of calls logarithmic in its length; the first failed call ends it with a network error, and there is no other error; a finished exchange does not change. If the system drops what others sent between bind and connect, the answer was sent by the KDC's address; if it keeps it, a stranger's datagram of that moment is returned as the answer.", "quantifier": "every interleaving of calls (failing or not) and arriving datagrams, of any senders and lengths, every request and KDC address", "why_tests_cant": "all interleavings with the network", "anchors": ["kerbeiros/src/transporter/udp_transporter.rs (request_and_response, calculate_response_size)"]}
{"id": "C106", "title": "Replacing a credential file by saving elsewhere and renaming", "statement": "Saving to a file in place is not atomic (C57, C82), but Ok means that the file is complete; so programs that save to a path of their own and rename it to the shared path after an Ok replace the file atomically: however many of them run at once, wherever they fail or are killed and started again, and however their calls interleave with those of any number of readers, the shared path at every moment holds the old content or the complete content of the last rename, is never missing if there was a file, and every reader gets, as a whole, what the path held when it began or something renamed to it since; for credential caches every load gives the old credentials or all those of one of the saved warehouses. If nothing fails the new content gets there.", "quantifier": "every number of programs and readers, old content, data to save, failures, kills, restarts and interleaving of system calls", "why_tests_cant": "all interleavings and crash points", "anchors": ["kerbeiros/src/credentials/file.rs (save_data_to_file)", "kerbeiros/src/credentials/credential_warehouse.rs (save_into_ccache_file)"]}
{"id": "C107", "title": "Equal ciphertexts and equal requests come from equal inputs", "statement": "Under one key (or password and salt) and usage, two calls of encrypt give the same ciphertext only for the same plaintext and the same preamble, so as long as no preamble repeats no ciphertext does, however many are made and whatever is sealed. Two AS-REQs are the same bytes only if the user, realm, KDC options, PAC setting, nonce and lifetimes (to the second) are the same, both or neither carry a timestamp, and the types of encryption are in effect the same; with one key, the times (to the microsecond shown) and the random preambles were the same too. So a call never sends a message twice, and two calls send a common message only if they ask for the same with the same nonce: a KDC that rejects replays never takes a fresh request for one.", "quantifier": "every key, usage, plaintext, preamble and number of encryptions; every pair of users, keys, settings, nonces, clocks and random bytes; every pair of KDC behaviours", "why_tests_cant": "all pairs of inputs", "anchors": ["kerberos_crypto/src/algorithms/aes_hmac_sha1/decrypt.rs (encrypt)", "kerberos_crypto/src/algorithms/rc4_hmac_md5/encrypt.rs (encrypt)", "kerbeiros/src/messages/asreq/builder.rs (build_as_req)", "kerbeiros/src/messages/asreq/timestamp_cipher.rs"]}
{"id": "C108", "title": "Sizes of requests", "statement": "The exact number of bytes of every AS-REQ is a function of the lengths of user and realm and, for a few bytes, of the nonce, the microseconds, the type of encryption and the settings: of what DER takes for tags, lengths and values. For a user of u and a realm of r bytes with u + 2r below 65000 it is more than u + 2r and at most 266 more; so every message of a call, whatever the KDC does, fits in a datagram, with u + 2r up to 1100 in a frame of 1400 bytes, and over TCP is announced with its exact length.", "quantifier": "every user, realm, key, settings, clock, nonce and random bytes, every KDC behaviour and TCP connection that takes what is written", "why_tests_cant": "all lengths, across the boundaries of DER's length octets", "anchors": ["kerbeiros/src/messages/asreq/builder.rs (build_as_req)", "kerbeiros/src/messages/asreq/timestamp_cipher.rs", "kerbeiros/src/transporter/tcp_transporter.rs (set_size_header_to_request)"]}
{"id": "C109", "title": "Who can read a saved credential file", "statement": "Where there is no file, save_into_ccache_file and save_into_krb_cred_file make one that belongs to the saving user, with mode 0666 less the umask: with the usual umask 022 every user of the system can read it and load the credentials and session keys in it (so it is refuted that only the owner can), with a umask that hides files nobody else reads anything at any moment. A file that is there keeps owner, group and mode at every moment, also when the save fails or the process is killed; if the user may not write to it the call returns IOError and changes nothing. So a private file stays private and unchanged by others through any history of saves, mode changes and file creations by others, while a file somebody else put in the place stays theirs and they get all that is saved to it.", "quantifier": "every assignment of users to groups, umask, file that was there, warehouse, outcome of the system calls, moment, and history of acts of any users", "why_tests_cant": "all modes, users and histories, and what others see between two system calls", "anchors": ["kerbeiros/src/credentials/file.rs (save_data_to_file)", "kerbeiros/src/credentials/credential_warehouse.rs (save_into_ccache_file, save_into_krb_cred_file)"]}
{"id": "C110", "title": "Keytabs that other programs maintain", "statement": "Whatever entries programs add to a readable keytab file (in holes of sufficient size, or at the end) and delete from it in place, and however often programs that use this crate rewrite it, Keytab::parse reads the file to its end, and the entries other than empty ones are exactly those that were there or were added and have not been deleted, each in its place. This holds for entries with the 32-bit key version. An entry without it put into a larger hole is read with a key version made of left-over bytes if there are four or more of them; with one to three, reading stops there without an error and all later entries are lost.", "quantifier": "every readable keytab and every history of additions, deletions and rewritings, any choice of holes, any left-over bytes, builds with and without overflow checks", "why_tests_cant": "all histories of a file shared with other programs", "anchors": ["kerberos_keytab/src/keytab_entry.rs (KeytabEntry::parse)", "kerberos_keytab/src/keytab.rs (Keytab::parse, Keytab::build)"]}
{"id": "C111", "title": "Credential caches with configuration entries", "statement": "The settings that other Kerberos programs keep in a cache (credentials for a service of realm X-CACHECONF: with a text in the place of the ticket) are read and written by kerberos_ccache like other credentials, but a cache that holds one whose value does not begin like a DER ticket is never loaded nor converted to KRB-CRED, whatever else is in it and wherever the entry stands: if nothing before it is unreadable the error is that of parsing the value as a ticket (UnmatchedTag unless it is empty). So it is refuted that every cache the parser reads can be loaded. Without such entries it is loaded exactly if its principal and all other credentials can be read.", "quantifier": "every cache file, position and number of such entries, their names and values, and every behaviour of the ASN.1 library", "why_tests_cant": "all caches other programs write", "anchors": ["kerbeiros/src/credentials/credential_warehouse.rs (TryFrom<CCache> for CredentialWarehouse)", "kerberos_ccache/src/mappers/ccache_mapper.rs (ccache_to_krb_cred)", "kerberos_ccache/src/ccache.rs (CCache::parse)"]}
{"id": "C112", "title": "Credentials removed from a cache in place", "statement": "MIT's programs remove a credential from a cache file by overwriting two of its times (authtime by -1, endtime by 0) and then skip it. The crates do not skip it: a cache so edited, at any credential, is read as the same cache with that credential in its place, and if it could be loaded before it is still loaded with every credential, the removed one with its session key and ticket, all others unchanged and in the same order; only its two times are those of 2106 and 1970. So it is refuted that a removed credential is not loaded any more.", "quantifier": "every well-formed cache, position of the removed credential, and every behaviour of the ASN.1 library", "why_tests_cant": "all caches and positions", "anchors": ["kerbeiros/src/credentials/credential_warehouse.rs (TryFrom<CCache> for CredentialWarehouse)", "kerberos_ccache/src/ccache.rs (CCache::parse)", "kerbeiros/src/mappers/times_mapper.rs"]}
