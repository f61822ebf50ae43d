{
 "C02": [
  "proved",
  "Exact characterisation: the claim of totality is false with overflow checks (record size -2^31); witness and the true totality without overflow checks are proved."
 ],
 "C06": [
  "proved",
  "The code writes a wrapped length; such values are never readable back."
 ],
 "C12": [
  "proved",
  "Describes a defect: the header length field is ignored; witnesses for zero and two header fields; every one-header file is read correctly."
 ],
 "C15": [
  "proved",
  "Over the X.690 DER model of Der.v (red_asn1 itself is outside /repo); times keep whole seconds only, years 0..9999."
 ],
 "C23": [
  "proved",
  "Describes a defect: numbers from 2^31 on are not in the RFC form."
 ],
 "C60": [
  "proved",
  "41 types agree; EncAPRepPart does not (C60_enc_ap_rep_part_refuted): subkey and seq-number are mandatory in the code."
 ],
 "C25": [
  "proved",
  "The kerbeiros variant (mandatory times, absent start time becomes authtime) is a separate theorem."
 ],
 "C27": [
  "proved",
  "A non-NetBIOS type congruent to 20 modulo 2^16 is excluded in C27_address (it would be read back as NetBIOS)."
 ],
 "C29": [
  "proved",
  "Message size below 2^64 (usize) assumed."
 ],
 "C31": [
  "proved",
  "Address types must fit 16 bits; the general theorem C31_warehouse_reload says what becomes of every other field that does not fit."
 ],
 "C54": [
  "proved",
  "Describes a defect: C54_reply_matches_request_refuted shows a reply for another client, etype and nonce being accepted."
 ],
 "C57": [
  "proved",
  "Process crash (no power failure, no fsync); C57_atomic_refuted: the save is not atomic."
 ],
 "C52": [
  "proved",
  "Exact characterisation of the panics of the code; the clause about AS-REP names the reply types for which the salt is read."
 ],
 "C55": [
  "proved",
  "Requests of 2^32 bytes and more are outside C55_request_framed (the 4-byte length wraps)."
 ],
 "C56": [
  "proved",
  "The head of the socket queue does not change between the peeks and the receive."
 ],
 "C49": [
  "proved",
  "Times of the requests in years 0..9999."
 ],
 "C43": [
  "proved",
  "Describes a defect for machine accounts."
 ],
 "C66": [
  "proved",
  "Two defects of constants as refutations: ap_options (bit numbers used as words) and the anonymous ticket flag (bit 14, not 16)."
 ],
 "C70": [
  "proved",
  "Refutations for the derived defaults of AP-REP, KRB-ERROR, KRB-PRIV, KRB-SAFE and Ticket (version 0). During a leap second the microseconds of a default Authenticator exceed 999999."
 ],
 "C81": [
  "proved",
  "The isolation a user might expect is refuted by C81_isolated_refuted; the other theorems say what holds."
 ],
 "C82": [
  "proved",
  "Consistency is refuted by C82_consistent_refuted; the other theorems say what holds."
 ],
 "C83": [
  "proved",
  "Describes a defect. The behaviour of the operating system is a hypothesis (families_apart)."
 ],
 "C84": [
  "proved",
  "C84_tcp_amplified describes a weakness: the size is not limited."
 ],
 "C86": [
  "proved",
  "The KDC is a specification, not code in /repo. C86_right_key_suffices_refuted shows a case in which the right key of an account is not enough. C86_as_*: the AS requester against the same KDC."
 ],
 "C87": [
  "proved",
  "Composition of C48, C55-C58, C68 and C86; the KDC is a specification, not code in /repo."
 ],
 "C90": [
  "proved",
  "Describes a weakness: the unencrypted part of a reply is not authenticated and, against RFC 4120 3.1.5, not compared with the request."
 ],
 "C91": [
  "proved",
  "C91_saved_loads_refuted and the example C91_long_key describe weaknesses."
 ],
 "C92": [
  "proved",
  "Byte-level relational property; the secrecy of the ciphertext itself is not claimed."
 ],
 "C93": [
  "proved",
  "Durability refuted for every successful save; exact behaviour for in-order devices and for files ending in zeros."
 ],
 "C94": [
  "proved",
  "Behaviour of the public low-level functions outside the documented preamble size."
 ],
 "C95": [
  "proved",
  "A transport exchange is one send step and one receive step; threads share nothing else, as the requesters are not shared (`Box<dyn Transporter>` is not Sync) and only read."
 ],
 "C96": [
  "proved",
  "Composition of C95 and C86; accounts that must pre-authenticate."
 ],
 "C97": [
  "proved",
  "Damage before or inside the header changes everything behind it and is covered only by C02/C03/C05/C08."
 ],
 "C98": [
  "proved",
  "The freshness one would want is refuted (C98_fresh_refuted); the theorems say exactly how far replays reach."
 ],
 "C99": [
  "proved",
  "The binding one would want is refuted (C99_own_answer_refuted); C99_last_answer says exactly what settles the result."
 ],
 "C100": [
  "proved",
  "Extends C96 (users who must pre-authenticate and do so rightly)."
 ],
 "C101": [
  "proved",
  "Unforgeability is the stated hypothesis cannot_forge; C101_example meets it with a replaying and renaming attacker."
 ],
 "C102": [
  "proved",
  "The NT-hash example ignores the results of the saves (C102_hash_saved_refuted)."
 ],
 "C103": [
  "proved",
  "In-place copying is refuted (C103_in_place_refuted)."
 ],
 "C104": [
  "proved",
  "Absence of panics is refuted (C104_no_panic_refuted)."
 ],
 "C105": [
  "proved",
  "Whether connect discards what is queued is a parameter (keeps); on systems that keep it C105_peer_refuted shows the forgery."
 ],
 "C106": [
  "proved",
  "The rename is the user's: the crates have no such function. Each program has a path of its own."
 ],
 "C107": [
  "proved",
  "Requests are shorter than 2^64 bytes; times between years 0 and 9979."
 ],
 "C108": [
  "proved",
  "Exact without any limit on the names (lengths of 2^64 and more are encoded like the encoder does); the bounds are for names of less than 65000 bytes."
 ],
 "C109": [
  "proved",
  "No root, access control lists or links; directories let everybody do everything."
 ],
 "C110": [
  "proved",
  "What the other programs do is an assumption of the model, stated as ok_maintenance."
 ],
 "C111": [
  "proved",
  "The layout of configuration entries is that of MIT and Heimdal (an assumption about other programs)."
 ],
 "C112": [
  "proved",
  "What MIT writes is an assumption about other programs."
 ]
}