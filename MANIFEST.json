{
 "claims": [
  {
   "property": "C01",
   "status": "proved",
   "theorems": [
    "C01_keytab_roundtrip",
    "C01_keytab_roundtrip_exact",
    "C01_keytab_layout"
   ],
   "note": ""
  },
  {
   "property": "C02",
   "status": "proved",
   "theorems": [
    "C02_keytab_panic_iff",
    "C02_keytab_release_total",
    "C02_keytab_total_refuted"
   ],
   "note": "Exact characterisation: the claim of totality is false with overflow checks (record size -2^31); witness and the true totality without overflow checks are proved."
  },
  {
   "property": "C03",
   "status": "proved",
   "theorems": [
    "C03_keytab_parse_ok_iff"
   ],
   "note": ""
  },
  {
   "property": "C04",
   "status": "proved",
   "theorems": [
    "C04_hole_read_as_empty_entry",
    "C04_rewrite_has_no_hole"
   ],
   "note": ""
  },
  {
   "property": "C05",
   "status": "proved",
   "theorems": [
    "C05_keytab_parse_err_iff",
    "C05_keytab_silent_truncation"
   ],
   "note": ""
  },
  {
   "property": "C06",
   "status": "proved",
   "theorems": [
    "C06_keytab_long_not_readable",
    "C06_keytab_string_length_wraps",
    "C06_keytab_entry_length_wraps",
    "C06_written_layout"
   ],
   "note": "The code writes a wrapped length; such values are never readable back."
  },
  {
   "property": "C07",
   "status": "proved",
   "theorems": [
    "C07_ccache_roundtrip",
    "C07_ccache_roundtrip_exact",
    "C07_delta_roundtrip"
   ],
   "note": ""
  },
  {
   "property": "C08",
   "status": "proved",
   "theorems": [
    "C08_ccache_layout",
    "C08_ccache_parse_ok_iff",
    "C08_delta_parse_ok_iff",
    "C08_delta_layout",
    "C08_default_header",
    "C08_ccache_parse_err_iff"
   ],
   "note": ""
  },
  {
   "property": "C09",
   "status": "proved",
   "theorems": [
    "C09_cut_exact",
    "C09_ccache_truncated"
   ],
   "note": ""
  },
  {
   "property": "C10",
   "status": "proved",
   "theorems": [
    "C10_ccache_no_panic",
    "C10_ccache_in_bounds"
   ],
   "note": ""
  },
  {
   "property": "C11",
   "status": "proved",
   "theorems": [
    "C11_ccache_version"
   ],
   "note": ""
  },
  {
   "property": "C12",
   "status": "proved",
   "theorems": [
    "C12_ccache_headerlen_ignored",
    "C12_ccache_zero_headers_refuted",
    "C12_ccache_two_headers_refuted",
    "C12_ccache_one_header",
    "C12_ccache_headers_iff"
   ],
   "note": "Describes a defect: the header length field is ignored; witnesses for zero and two header fields; every one-header file is read correctly."
  },
  {
   "property": "C13",
   "status": "proved",
   "theorems": [
    "C13_ccache_canonical"
   ],
   "note": ""
  },
  {
   "property": "C14",
   "status": "proved",
   "theorems": [
    "C14_principal_count",
    "C14_credential_parse_ok_iff",
    "C14_too_few_components"
   ],
   "note": ""
  },
  {
   "property": "C15",
   "status": "proved",
   "theorems": [
    "C15_der_roundtrip",
    "C15_der_layout",
    "C15_der_injective",
    "C15_der_total",
    "C15_der_truncated",
    "C15_strings"
   ],
   "note": "Over the X.690 DER model of Der.v (red_asn1 itself is outside /repo); times keep whole seconds only, years 0..9999."
  },
  {
   "property": "C16",
   "status": "proved",
   "theorems": [
    "C16_no_confusion",
    "C16_messages_complete"
   ],
   "note": ""
  },
  {
   "property": "C17",
   "status": "proved",
   "theorems": [
    "C17_flags_roundtrip",
    "C17_flags_bits"
   ],
   "note": ""
  },
  {
   "property": "C18",
   "status": "proved",
   "theorems": [
    "C18_time_roundtrip",
    "C18_time_text",
    "C18_time_read",
    "C18_time_read_only",
    "C18_calendar",
    "C18_range"
   ],
   "note": ""
  },
  {
   "property": "C19",
   "status": "proved",
   "theorems": [
    "C19_principal_eq",
    "C19_principal_equivalence",
    "C19_principal_ascii"
   ],
   "note": ""
  },
  {
   "property": "C20",
   "status": "proved",
   "theorems": [
    "C20_netbios"
   ],
   "note": ""
  },
  {
   "property": "C21",
   "status": "proved",
   "theorems": [
    "C21_micros",
    "C21_wire"
   ],
   "note": ""
  },
  {
   "property": "C22",
   "status": "proved",
   "theorems": [
    "C22_as_req",
    "C22_tgs_req",
    "C22_requests_back",
    "C22_rep_parts",
    "C22_rep_part_fields"
   ],
   "note": ""
  },
  {
   "property": "C23",
   "status": "proved",
   "theorems": [
    "C23_uint32_roundtrip",
    "C23_uint32_low",
    "C23_uint32_high"
   ],
   "note": "Describes a defect: numbers from 2^31 on are not in the RFC form."
  },
  {
   "property": "C24",
   "status": "proved",
   "theorems": [
    "C24_principal_to",
    "C24_principal_of",
    "C24_principal_roundtrip",
    "C24_principal_fails"
   ],
   "note": ""
  },
  {
   "property": "C25",
   "status": "proved",
   "theorems": [
    "C25_times_of",
    "C25_times_roundtrip",
    "C25_times_back",
    "C25_times_zero",
    "C25_kerbeiros_times"
   ],
   "note": "The kerbeiros variant (mandatory times, absent start time becomes authtime) is a separate theorem."
  },
  {
   "property": "C26",
   "status": "proved",
   "theorems": [
    "C26_key_roundtrip",
    "C26_key_back"
   ],
   "note": ""
  },
  {
   "property": "C27",
   "status": "proved",
   "theorems": [
    "C27_address",
    "C27_netbios",
    "C27_netbios_roundtrip",
    "C27_address_list",
    "C27_read_address",
    "C27_read_list",
    "C27_stored"
   ],
   "note": "A non-NetBIOS type congruent to 20 modulo 2^16 is excluded in C27_address (it would be read back as NetBIOS)."
  },
  {
   "property": "C28",
   "status": "proved",
   "theorems": [
    "C28_authdata",
    "C28_authdata_back"
   ],
   "note": ""
  },
  {
   "property": "C29",
   "status": "proved",
   "theorems": [
    "C29_to_krb_cred_iff",
    "C29_to_krb_cred_fails",
    "C29_ccache_krb_cred_ccache"
   ],
   "note": "Message size below 2^64 (usize) assumed."
  },
  {
   "property": "C30",
   "status": "proved",
   "theorems": [
    "C30_krb_cred_to_ccache",
    "C30_krb_cred_fails",
    "C30_krb_cred_count"
   ],
   "note": ""
  },
  {
   "property": "C31",
   "status": "proved",
   "theorems": [
    "C31_warehouse_reload",
    "C31_warehouse_exact",
    "C31_cache_contents",
    "C31_cache_read_iff",
    "C31_cache_read_fails",
    "C31_cache_read_no_panic",
    "C31_warehouse_file"
   ],
   "note": "Address types must fit 16 bits; the general theorem C31_warehouse_reload says what becomes of every other field that does not fit."
  },
  {
   "property": "C32",
   "status": "proved",
   "theorems": [
    "C32_warehouse_krb_cred"
   ],
   "note": ""
  },
  {
   "property": "C33",
   "status": "proved",
   "theorems": [
    "C33_aes_round_trip",
    "C33_aes_password_round_trip"
   ],
   "note": ""
  },
  {
   "property": "C34",
   "status": "proved",
   "theorems": [
    "C34_aes_accepts_only_encryptions",
    "C34_aes_errors",
    "C34_aes_wrong_key_size_panics"
   ],
   "note": ""
  },
  {
   "property": "C35",
   "status": "proved",
   "theorems": [
    "C35_aes_length"
   ],
   "note": ""
  },
  {
   "property": "C36",
   "status": "proved",
   "theorems": [
    "C36_aes_message_rfc3962",
    "C36_ciphertext_stealing"
   ],
   "note": ""
  },
  {
   "property": "C37",
   "status": "proved",
   "theorems": [
    "C37_rc4_round_trip",
    "C37_rc4_accepts_only_encryptions",
    "C37_rc4_errors",
    "C37_rc4_message_rfc4757"
   ],
   "note": ""
  },
  {
   "property": "C38",
   "status": "proved",
   "theorems": [
    "C38_rc4_usage_alias",
    "C38_rc4_usage_alias_cross"
   ],
   "note": ""
  },
  {
   "property": "C39",
   "status": "proved",
   "theorems": [
    "C39_n_fold_rfc3961",
    "C39_n_fold_total",
    "C39_n_fold_panics"
   ],
   "note": ""
  },
  {
   "property": "C40",
   "status": "proved",
   "theorems": [
    "C40_dk_rfc3961",
    "C40_dk_length",
    "C40_generate_key"
   ],
   "note": ""
  },
  {
   "property": "C41",
   "status": "proved",
   "theorems": [
    "C41_hex_key_accepted",
    "C41_hex_key_errors",
    "C41_hex_key_panics",
    "C41_hex_key_round_trip"
   ],
   "note": ""
  },
  {
   "property": "C42",
   "status": "proved",
   "theorems": [
    "C42_salts",
    "C42_salts_ascii",
    "C42_letter_case"
   ],
   "note": ""
  },
  {
   "property": "C43",
   "status": "proved",
   "theorems": [
    "C43_user_salt_agrees",
    "C43_machine_salt_differs"
   ],
   "note": "Describes a defect for machine accounts."
  },
  {
   "property": "C44",
   "status": "proved",
   "theorems": [
    "C44_cipher_selection",
    "C44_supported_list"
   ],
   "note": ""
  },
  {
   "property": "C45",
   "status": "proved",
   "theorems": [
    "C45_key_etypes",
    "C45_key_etypes_order",
    "C45_key_bytes",
    "C45_random_key"
   ],
   "note": ""
  },
  {
   "property": "C46",
   "status": "proved",
   "theorems": [
    "C46_rc4_password_utf16",
    "C46_rc4_password_injective",
    "C46_rc4_key"
   ],
   "note": ""
  },
  {
   "property": "C47",
   "status": "proved",
   "theorems": [
    "C47_checksum_hmac_md5",
    "C47_checksum_sha_aes"
   ],
   "note": ""
  },
  {
   "property": "C48",
   "status": "proved",
   "theorems": [
    "C48_each_call",
    "C48_any_sequence",
    "C48_last_call"
   ],
   "note": ""
  },
  {
   "property": "C49",
   "status": "proved",
   "theorems": [
    "C49_anonymous_request",
    "C49_keyed_request",
    "C49_timestamp_iff_key",
    "C49_request_short"
   ],
   "note": "Times of the requests in years 0..9999."
  },
  {
   "property": "C50",
   "status": "proved",
   "theorems": [
    "C50_preauth_verifiable"
   ],
   "note": ""
  },
  {
   "property": "C51",
   "status": "proved",
   "theorems": [
    "C51_conversation",
    "C51_errors_returned"
   ],
   "note": ""
  },
  {
   "property": "C52",
   "status": "proved",
   "theorems": [
    "C52_panics_exactly"
   ],
   "note": "Exact characterisation of the panics of the code; the clause about AS-REP names the reply types for which the salt is read."
  },
  {
   "property": "C53",
   "status": "proved",
   "theorems": [
    "C53_authentic",
    "C53_unique"
   ],
   "note": ""
  },
  {
   "property": "C54",
   "status": "proved",
   "theorems": [
    "C54_only_the_key_counts",
    "C54_reply_matches_request_refuted"
   ],
   "note": "Describes a defect: C54_reply_matches_request_refuted shows a reply for another client, etype and nonce being accepted."
  },
  {
   "property": "C55",
   "status": "proved",
   "theorems": [
    "C55_request_framed",
    "C55_request_delivered",
    "C55_response_framed",
    "C55_blocks",
    "C55_chunking_irrelevant",
    "C55_received_total"
   ],
   "note": "Requests of 2^32 bytes and more are outside C55_request_framed (the 4-byte length wraps)."
  },
  {
   "property": "C56",
   "status": "proved",
   "theorems": [
    "C56_whole_datagram",
    "C56_received",
    "C56_failures",
    "C56_exact"
   ],
   "note": "The head of the socket queue does not change between the peeks and the receive."
  },
  {
   "property": "C57",
   "status": "proved",
   "theorems": [
    "C57_crash_states",
    "C57_succeeds",
    "C57_load_after_crash",
    "C57_completed",
    "C57_atomic_refuted",
    "C57_krb_cred_cut"
   ],
   "note": "Process crash (no power failure, no fsync); C57_atomic_refuted: the save is not atomic."
  },
  {
   "property": "C58",
   "status": "proved",
   "theorems": [
    "C58_end_to_end",
    "C58_end_to_end_krb_cred"
   ],
   "note": ""
  },
  {
   "property": "C59",
   "status": "proved",
   "theorems": [
    "C59_destination",
    "C59_same_conversation",
    "C59_network_is_transport"
   ],
   "note": ""
  },
  {
   "property": "C60",
   "status": "proved",
   "theorems": [
    "C60_rfc_schemas",
    "C60_rfc_names",
    "C60_every_type",
    "C60_enc_ap_rep_part_refuted",
    "C60_enc_ap_rep_part"
   ],
   "note": "41 types agree; EncAPRepPart does not (C60_enc_ap_rep_part_refuted): subkey and seq-number are mandatory in the code."
  },
  {
   "property": "C61",
   "status": "proved",
   "theorems": [
    "C61_display",
    "C61_built"
   ],
   "note": ""
  },
  {
   "property": "C62",
   "status": "proved",
   "theorems": [
    "C62_krb_cred_then_ccache"
   ],
   "note": ""
  },
  {
   "property": "C63",
   "status": "proved",
   "theorems": [
    "C63_resolve"
   ],
   "note": ""
  },
  {
   "property": "C64",
   "status": "proved",
   "theorems": [
    "C64_as_request",
    "C64_exclusive",
    "C64_whole_requester"
   ],
   "note": ""
  },
  {
   "property": "C65",
   "status": "proved",
   "theorems": [
    "C65_AdAndOr",
    "C65_AdKdcIssued",
    "C65_ApRep",
    "C65_ApReq",
    "C65_AsRep",
    "C65_AsReq",
    "C65_Authenticator",
    "C65_AuthorizationDataEntry",
    "C65_Checksum",
    "C65_EncApRepPart",
    "C65_EncAsRepPart",
    "C65_EncKdcRepPart",
    "C65_EncKrbCredPart",
    "C65_EncKrbPrivPart",
    "C65_EncTgsRepPart",
    "C65_EncTicketPart",
    "C65_EncryptedData",
    "C65_EncryptionKey",
    "C65_EtypeInfo2Entry",
    "C65_EtypeInfoEntry",
    "C65_HostAddress",
    "C65_KdcReq",
    "C65_KdcReqBody",
    "C65_KerbAdRestrictionEntry",
    "C65_KerbErrorData",
    "C65_KerbPaPacRequest",
    "C65_KrbCred",
    "C65_KrbCredInfo",
    "C65_KrbError",
    "C65_KrbPriv",
    "C65_KrbSafe",
    "C65_KrbSafeBody",
    "C65_LastReqEntry",
    "C65_PaData",
    "C65_PaEncTsEnc",
    "C65_PaForUser",
    "C65_PaPacOptions",
    "C65_PaS4uX509User",
    "C65_PrincipalName",
    "C65_S4uUserId",
    "C65_TgsRep",
    "C65_TgsReq",
    "C65_Ticket",
    "C65_TransitedEncoding",
    "C65_TypedDataEntry"
   ],
   "note": ""
  },
  {
   "property": "C66",
   "status": "proved",
   "theorems": [
    "C66_kdc_options",
    "C66_ticket_flags",
    "C66_pac_options",
    "C66_ap_options_refuted",
    "C66_anonymous_flag_refuted"
   ],
   "note": "Two defects of constants as refutations: ap_options (bit numbers used as words) and the anonymous ticket flag (bit 14, not 16)."
  },
  {
   "property": "C67",
   "status": "proved",
   "theorems": [
    "C67_constants",
    "C67_text",
    "C67_injective",
    "C67_numbers",
    "C67_rsa_md4_des_refuted"
   ],
   "note": ""
  },
  {
   "property": "C68",
   "status": "proved",
   "theorems": [
    "C68_whole_client"
   ],
   "note": ""
  },
  {
   "property": "C69",
   "status": "proved",
   "theorems": [
    "C69_reported_error",
    "C69_unique"
   ],
   "note": ""
  },
  {
   "property": "C70",
   "status": "proved",
   "theorems": [
    "C70_as_req",
    "C70_tgs_req",
    "C70_as_rep",
    "C70_tgs_rep",
    "C70_ap_req",
    "C70_krb_cred",
    "C70_new",
    "C70_converted",
    "C70_authenticator",
    "C70_ap_rep_refuted",
    "C70_krb_error_refuted",
    "C70_krb_priv_refuted",
    "C70_krb_safe_refuted",
    "C70_ticket_refuted",
    "C70_nothing_else"
   ],
   "note": "Refutations for the derived defaults of AP-REP, KRB-ERROR, KRB-PRIV, KRB-SAFE and Ticket (version 0). During a leap second the microseconds of a default Authenticator exceed 999999."
  },
  {
   "property": "C71",
   "status": "proved",
   "theorems": [
    "C71_text",
    "C71_octets",
    "C71_cache_field",
    "C71_keytab_field"
   ],
   "note": ""
  },
  {
   "property": "C72",
   "status": "proved",
   "theorems": [
    "C72_reencode",
    "C72_reencode_exact"
   ],
   "note": ""
  },
  {
   "property": "C73",
   "status": "proved",
   "theorems": [
    "C73_aes_forgery",
    "C73_aes_tag_changed",
    "C73_aes_body_changed",
    "C73_rc4_forgery",
    "C73_rc4_body_changed"
   ],
   "note": ""
  },
  {
   "property": "C74",
   "status": "proved",
   "theorems": [
    "C74_request_ignores_announcement",
    "C74_reply_parameters_ignored",
    "C74_tgs_part_refused"
   ],
   "note": ""
  },
  {
   "property": "C75",
   "status": "proved",
   "theorems": [
    "C75_sessions",
    "C75_nothing_remembered"
   ],
   "note": ""
  },
  {
   "property": "C76",
   "status": "proved",
   "theorems": [
    "C76_ccache_append",
    "C76_ccache_interrupted",
    "C76_ccache_rewrite",
    "C76_keytab_append",
    "C76_keytab_interrupted",
    "C76_keytab_rewrite"
   ],
   "note": ""
  },
  {
   "property": "C77",
   "status": "proved",
   "theorems": [
    "C77_equality",
    "C77_equivalence",
    "C77_identity",
    "C77_ticket",
    "C77_credential",
    "C77_warehouse",
    "C77_reread",
    "C77_same_encoding_refuted"
   ],
   "note": ""
  },
  {
   "property": "C78",
   "status": "proved",
   "theorems": [
    "C78_accessors",
    "C78_warehouse"
   ],
   "note": ""
  },
  {
   "property": "C79",
   "status": "proved",
   "theorems": [
    "C79_aes_secret",
    "C79_rc4_secret",
    "C79_round_trip"
   ],
   "note": ""
  },
  {
   "property": "C80",
   "status": "proved",
   "theorems": [
    "C80_crypto_text",
    "C80_crypto_distinct",
    "C80_distinct",
    "C80_texts",
    "C80_convert_distinct",
    "C80_convert_texts"
   ],
   "note": ""
  },
  {
   "property": "C81",
   "status": "proved",
   "theorems": [
    "C81_every_octet",
    "C81_always",
    "C81_same_data",
    "C81_one_after_the_other",
    "C81_alone",
    "C81_alone_all",
    "C81_overlap",
    "C81_isolated_refuted"
   ],
   "note": "The isolation a user might expect is refuted by C81_isolated_refuted; the other theorems say what holds."
  },
  {
   "property": "C82",
   "status": "proved",
   "theorems": [
    "C82_what_is_read",
    "C82_first_save",
    "C82_after_saves",
    "C82_overlap",
    "C82_consistent_refuted"
   ],
   "note": "Consistency is refuted by C82_consistent_refuted; the other theorems say what holds."
  },
  {
   "property": "C83",
   "status": "proved",
   "theorems": [
    "C83_udp_ipv6"
   ],
   "note": "Describes a defect. The behaviour of the operating system is a hypothesis (families_apart)."
  },
  {
   "property": "C84",
   "status": "proved",
   "theorems": [
    "C84_tcp",
    "C84_tcp_amplified",
    "C84_udp",
    "C84_udp_calls"
   ],
   "note": "C84_tcp_amplified describes a weakness: the size is not limited."
  },
  {
   "property": "C85",
   "status": "proved",
   "theorems": [
    "C85_history",
    "C85_other_paths",
    "C85_last_save",
    "C85_never_mixed"
   ],
   "note": ""
  },
  {
   "property": "C86",
   "status": "proved",
   "theorems": [
    "C86_served",
    "C86_served_at_once",
    "C86_refused",
    "C86_skewed",
    "C86_other_etype",
    "C86_right_key_suffices_refuted",
    "C86_as_served",
    "C86_as_refused",
    "C86_as_keyless"
   ],
   "note": "The KDC is a specification, not code in /repo. C86_right_key_suffices_refuted shows a case in which the right key of an account is not enough. C86_as_*: the AS requester against the same KDC."
  },
  {
   "property": "C87",
   "status": "proved",
   "theorems": [
    "C87_logon",
    "C87_logon_at_once",
    "C87_as_logon"
   ],
   "note": "Composition of C48, C55-C58, C68 and C86; the KDC is a specification, not code in /repo."
  },
  {
   "property": "C88",
   "status": "proved",
   "theorems": [
    "C88_entries",
    "C88_settles",
    "C88_tidy",
    "C88_fixpoint",
    "C88_saved",
    "C88_krb_cred"
   ],
   "note": ""
  },
  {
   "property": "C89",
   "status": "proved",
   "theorems": [
    "C89_parsed_size",
    "C89_cache_size",
    "C89_keytab_size",
    "C89_reencoded",
    "C89_tickets_fit",
    "C89_file_growth",
    "C89_settles"
   ],
   "note": ""
  },
  {
   "property": "C90",
   "status": "proved",
   "theorems": [
    "C90_swapped",
    "C90_any_ticket",
    "C90_ticket_authentic_refuted"
   ],
   "note": "Describes a weakness: the unencrypted part of a reply is not authenticated and, against RFC 4120 3.1.5, not compared with the request."
  },
  {
   "property": "C91",
   "status": "proved",
   "theorems": [
    "C91_loadable",
    "C91_received_sized",
    "C91_received_stored",
    "C91_saved_loads_refuted"
   ],
   "note": "C91_saved_loads_refuted and the example C91_long_key describe weaknesses."
  },
  {
   "property": "C92",
   "status": "proved",
   "theorems": [
    "C92_template",
    "C92_lengths",
    "C92_as_template",
    "C92_as_lengths"
   ],
   "note": "Byte-level relational property; the secrecy of the ciphertext itself is not claimed."
  },
  {
   "property": "C93",
   "status": "proved",
   "theorems": [
    "C93_in_order",
    "C93_durable_refuted",
    "C93_zeros",
    "C93_zero_tail"
   ],
   "note": "Durability refuted for every successful save; exact behaviour for in-order devices and for files ending in zeros."
  },
  {
   "property": "C94",
   "status": "proved",
   "theorems": [
    "C94_boundary_lost",
    "C94_aes_long",
    "C94_aes_short",
    "C94_aes_empty",
    "C94_rc4"
   ],
   "note": "Behaviour of the public low-level functions outside the documented preamble size."
  },
  {
   "property": "C95",
   "status": "proved",
   "theorems": [
    "C95_isolated",
    "C95_noninterference",
    "C95_messages",
    "C95_authentic",
    "C95_progress",
    "C95_unscheduled"
   ],
   "note": "A transport exchange is one send step and one receive step; threads share nothing else, as the requesters are not shared (`Box<dyn Transporter>` is not Sync) and only read."
  },
  {
   "property": "C96",
   "status": "proved",
   "theorems": [
    "C96_served",
    "C96_all_served"
   ],
   "note": "Composition of C95 and C86; accounts that must pre-authenticate."
  },
  {
   "property": "C97",
   "status": "proved",
   "theorems": [
    "C97_ccache_behind",
    "C97_ccache_intact",
    "C97_load",
    "C97_keytab_behind",
    "C97_keytab_record",
    "C97_ccache_unprotected",
    "C97_keytab_unprotected"
   ],
   "note": "Damage before or inside the header changes everything behind it and is covered only by C02/C03/C05/C08."
  },
  {
   "property": "C98",
   "status": "proved",
   "theorems": [
    "C98_replay",
    "C98_forced",
    "C98_fresh_refuted"
   ],
   "note": "The freshness one would want is refuted (C98_fresh_refuted); the theorems say exactly how far replays reach."
  },
  {
   "property": "C99",
   "status": "proved",
   "theorems": [
    "C99_last_answer",
    "C99_crossed",
    "C99_own_answer_refuted"
   ],
   "note": "The binding one would want is refuted (C99_own_answer_refuted); C99_last_answer says exactly what settles the result."
  },
  {
   "property": "C100",
   "status": "proved",
   "theorems": [
    "C100_as_if_alone",
    "C100_refused",
    "C100_skewed",
    "C100_at_once",
    "C100_as_served",
    "C100_as_keyless"
   ],
   "note": "Extends C96 (users who must pre-authenticate and do so rightly)."
  },
  {
   "property": "C101",
   "status": "proved",
   "theorems": [
    "C101_issued",
    "C101_nothing_issued"
   ],
   "note": "Unforgeability is the stated hypothesis cannot_forge; C101_example meets it with a replaying and renaming attacker."
  },
  {
   "property": "C102",
   "status": "proved",
   "theorems": [
    "C102_files",
    "C102_end",
    "C102_killed",
    "C102_served",
    "C102_hash",
    "C102_hash_saved_refuted"
   ],
   "note": "The NT-hash example ignores the results of the saves (C102_hash_saved_refuted)."
  },
  {
   "property": "C103",
   "status": "proved",
   "theorems": [
    "C103_ccache",
    "C103_ccache_bytes",
    "C103_ccache_stable",
    "C103_in_place_refuted",
    "C103_keytab",
    "C103_keytab_bytes",
    "C103_keytab_stable"
   ],
   "note": "In-place copying is refuted (C103_in_place_refuted)."
  },
  {
   "property": "C104",
   "status": "proved",
   "theorems": [
    "C104_prints",
    "C104_no_panic_refuted",
    "C104_served"
   ],
   "note": "Absence of panics is refuted (C104_no_panic_refuted)."
  },
  {
   "property": "C105",
   "status": "proved",
   "theorems": [
    "C105_first",
    "C105_end",
    "C105_answered",
    "C105_waits",
    "C105_failure",
    "C105_peer",
    "C105_peer_refuted",
    "C105_one_datagram"
   ],
   "note": "Whether connect discards what is queued is a parameter (keeps); on systems that keep it C105_peer_refuted shows the forgery."
  },
  {
   "property": "C106",
   "status": "proved",
   "theorems": [
    "C106_always",
    "C106_reader",
    "C106_load",
    "C106_completes"
   ],
   "note": "The rename is the user's: the crates have no such function. Each program has a path of its own."
  },
  {
   "property": "C107",
   "status": "proved",
   "theorems": [
    "C107_aes",
    "C107_rc4",
    "C107_password",
    "C107_no_repetition",
    "C107_request",
    "C107_keyed_request",
    "C107_calls"
   ],
   "note": "Requests are shorter than 2^64 bytes; times between years 0 and 9979."
  },
  {
   "property": "C108",
   "status": "proved",
   "theorems": [
    "C108_anonymous_size",
    "C108_keyed_size",
    "C108_bound",
    "C108_messages"
   ],
   "note": "Exact without any limit on the names (lengths of 2^64 and more are encoded like the encoder does); the bounds are for names of less than 65000 bytes."
  },
  {
   "property": "C109",
   "status": "proved",
   "theorems": [
    "C109_new_file",
    "C109_existing_file",
    "C109_denied",
    "C109_contents",
    "C109_stays_private",
    "C109_hidden",
    "C109_exposed",
    "C109_planted",
    "C109_private_refuted"
   ],
   "note": "No root, access control lists or links; directories let everybody do everything."
  },
  {
   "property": "C110",
   "status": "proved",
   "theorems": [
    "C110_any_keytab",
    "C110_add",
    "C110_remove",
    "C110_rewrite",
    "C110_history",
    "C110_stale_version",
    "C110_stale_stops"
   ],
   "note": "What the other programs do is an assumption of the model, stated as ok_maintenance."
  },
  {
   "property": "C111",
   "status": "proved",
   "theorems": [
    "C111_kept",
    "C111_not_loaded",
    "C111_error",
    "C111_without",
    "C111_loading_refuted"
   ],
   "note": "The layout of configuration entries is that of MIT and Heimdal (an assumption about other programs)."
  },
  {
   "property": "C112",
   "status": "proved",
   "theorems": [
    "C112_still_read",
    "C112_still_loaded",
    "C112_removal_refuted"
   ],
   "note": "What MIT writes is an assumption about other programs."
  }
 ]
}