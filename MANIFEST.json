{
 "claims": [
  {
   "property": "C01",
   "status": "proved",
   "theorems": [
    "C01_replay_window_no_double_accept",
    "C01_replay_window_no_double_accept_reinit"
   ],
   "note": "Model of the window functions of replay_protection.c; see C04 for how oscore2coap calls them."
  },
  {
   "property": "C02",
   "status": "proved",
   "theorems": [
    "C02_replay_window_refines_spec"
   ],
   "note": ""
  },
  {
   "property": "C03",
   "status": "proved",
   "theorems": [
    "C03_reinit_behaves_as_all_received",
    "C03_reinit_rejects_old_forever",
    "C03_reinit_accepts_newer"
   ],
   "note": ""
  },
  {
   "property": "C04",
   "status": "partial",
   "theorems": [
    "C04_outer_code_refuted",
    "C04_two_byte_refuted",
    "C04_no_memory_refuted",
    "C04_one_byte_partial",
    "C04_after_echo"
   ],
   "note": "Proved for packets with the outer code of a request: a request whose Partial IV is one byte long is accepted at most once in any continuation of the session, and the request accepted by the Echo exchange is never accepted again. Refuted, for every key, context and request, for numbers from 256 on (the window is updated with the first byte of the Partial IV): the packet is delivered again any number of times (C04_two_byte_refuted), and a context that was created as fresh never remembers such numbers, whatever happened before (C04_no_memory_refuted). Refuted for every request when the attacker changes the outer code to that of a response before the request is answered: it is delivered again any number of times (C04_outer_code_refuted)."
  },
  {
   "property": "C05",
   "status": "partial",
   "theorems": [
    "C05_monotone_partial",
    "C05_old_rejected",
    "C05_stripped_refuted"
   ],
   "note": "Proved: a notification whose Observe option is present is accepted only with a strictly larger number. Refuted, for every key, context and notification: at any later time, also after newer notifications, it is delivered again when it comes without its unprotected outer Observe option, as long as the entry of the request is there (C05_stripped_refuted)."
  },
  {
   "property": "C06",
   "status": "proved",
   "theorems": [
    "C06_piv_of_ssn",
    "C06_ssn_of_piv",
    "C06_decode_any",
    "C06_refuses"
   ],
   "note": ""
  },
  {
   "property": "C07",
   "status": "partial",
   "theorems": [
    "C07_nonce_is_rfc",
    "C07_nonce_injective",
    "C07_nonce_of_ssn_injective",
    "C07_long_id_refuted"
   ],
   "note": "Injectivity and agreement with RFC 8613 proved for every ID of at most 7 bytes; the memory-safety half is refuted for longer IDs, which the code does not reject (out-of-bounds write)."
  },
  {
   "property": "C08",
   "status": "partial",
   "theorems": [
    "C08_numbered_partial",
    "C08_prompt_partial",
    "C08_two_pending_refuted",
    "C08_replay_refuted"
   ],
   "note": "Proved: messages carrying a Partial IV never share a nonce, and no two messages do when a response without Partial IV is sent directly after the (non-replayable) request it answers. Refuted for all keys and contexts: a plain response sent directly after any other encrypted message uses the nonce of that message (C08_two_pending_refuted), and the answers to the same request accepted twice share their nonce (C08_replay_refuted)."
  },
  {
   "property": "C09",
   "status": "partial",
   "theorems": [
    "C09_reboots_partial",
    "C09_lag_refuted",
    "C09_stale_echo_refuted"
   ],
   "note": "Proved for all lifetimes with any number of boots and crashes, provided a write completed in the boot before synchronisation and at most one write fails between two successful ones. Refuted outside, for all keys and contexts: whenever the memory falls 20 behind a number that was used (C09_lag_refuted, for example by two failed cyclic writes), and after synchronisation with a stale Echo value (C09_stale_echo_refuted), the next boot uses a key and nonce again."
  },
  {
   "property": "C10",
   "status": "proved",
   "theorems": [
    "C10_stops",
    "C10_never_beyond"
   ],
   "note": ""
  },
  {
   "property": "C11",
   "status": "proved",
   "theorems": [
    "C11_parse_is_prefix",
    "C11_round_trip",
    "C11_rejects"
   ],
   "note": ""
  },
  {
   "property": "C12",
   "status": "partial",
   "theorems": [
    "C12_serialize_conforms",
    "C12_parse_partial",
    "C12_round_trip_partial",
    "C12_delta_refuted",
    "C12_parse_exact",
    "C12_round_trip_exact",
    "C12_length_refuted"
   ],
   "note": "Exact conditions: a well-formed message is read as it is meant if and only if no delta is 256..268, no value length is one for which the parser loses a carry, numbers fit 16 bits and there are at most 19 options (C12_parse_exact); a packet that the library wrote is read back if and only if no delta is 256..268 and there are at most 19 options (C12_round_trip_exact). Conformance of everything written is proved; the full claim is refuted by the other direction (C12_length_refuted, C12_delta_refuted)."
  },
  {
   "property": "C13",
   "status": "partial",
   "theorems": [
    "C13_wellformed_partial",
    "C13_accepted_sizes",
    "C13_truncated_refuted",
    "C13_conforming_refuted",
    "C13_cut_refuted",
    "C13_exact",
    "C13_short",
    "C13_in_bounds_partial"
   ],
   "note": "Exact: a packet without misread lengths takes the parser out of its bounds if and only if it ends inside of one of its first twenty options (C13_exact, C13_cut_refuted); packets without complete header and token are refused (C13_short); sizes of every accepted packet (C13_accepted_sizes). Refuted also for conforming packets with a 256-byte value (C13_conforming_refuted)."
  },
  {
   "property": "C14",
   "status": "partial",
   "theorems": [
    "C14_exact_partial",
    "C14_small_buffer_refuted",
    "C14_marker_refuted"
   ],
   "note": "Exact output proved when the options fit and the buffer is large enough; refuted for a buffer below 4 bytes and for the payload marker at offset = capacity."
  },
  {
   "property": "C15",
   "status": "proved",
   "theorems": [
    "C15_generate_conforms",
    "C15_parse_conforms",
    "C15_round_trip",
    "C15_empty"
   ],
   "note": "Generation and parsing of the OSCORE option value are exact against the RFC 8613 wire form, and round trip."
  },
  {
   "property": "C16",
   "status": "proved",
   "theorems": [
    "C16_split",
    "C16_split_total",
    "C16_hides_and_keeps",
    "C16_on_the_wire"
   ],
   "note": "Split of options into inner and outer, for every option list that the parser accepts."
  },
  {
   "property": "C17",
   "status": "proved",
   "theorems": [
    "C17_merge",
    "C17_merge_total"
   ],
   "note": "Merge of outer and decrypted options, sorted and without loss."
  },
  {
   "property": "C18",
   "status": "proved",
   "theorems": [
    "C18_outer_code"
   ],
   "note": ""
  },
  {
   "property": "C19",
   "status": "partial",
   "theorems": [
    "C19_request_exact_partial",
    "C19_response_exact_partial",
    "C19_request_lost_refuted",
    "C19_response_lost_refuted",
    "C19_request_partial",
    "C19_response_partial",
    "C19_exchange_partial"
   ],
   "note": "Request, response/notification and whole-exchange round trips proved for every message within the stated limits (C12 parser limits, at most 10 inner options, at most 100 bytes of options, each class-U option at most once, not more class-U options than payload bytes). Without the last limit, C19_request_exact_partial and C19_response_exact_partial say exactly what arrives: whenever protecting succeeds, the whole message, or the message without its payload if the inner options grow by just the size of marker and payload. C19_request_lost_refuted, C19_response_lost_refuted: every such request, response and notification is protected, accepted and delivered without its payload. Missing: messages beyond the other limits."
  },
  {
   "property": "C20",
   "status": "proved",
   "theorems": [
    "C20_unauthenticated_changes_nothing"
   ],
   "note": "Stated over all contexts reachable through the API; also covers the output buffer."
  },
  {
   "property": "C21",
   "status": "partial",
   "theorems": [
    "C21_delivered_partial",
    "C21_injected_refuted",
    "C21_injected_response_refuted"
   ],
   "note": "Proved: code, payload and the decrypted options are those of the authenticated plaintext, and every other delivered option is an outer option other than OSCORE and Observe. Refuted for all keys, contexts and messages (C21_injected_refuted, C21_injected_response_refuted): class E options added outside of the ciphertext of a request or response are delivered with the protected ones."
  },
  {
   "property": "C22",
   "status": "proved",
   "theorems": [
    "C22_verified_with_request",
    "C22_unknown_token",
    "C22_request_recorded",
    "C22_table_provenance"
   ],
   "note": ""
  },
  {
   "property": "C23",
   "status": "proved",
   "theorems": [
    "C23_context_invariant",
    "C23_table_invariant"
   ],
   "note": "Invariant of the interaction table over all operations of its API."
  },
  {
   "property": "C24",
   "status": "proved",
   "theorems": [
    "C24_set",
    "C24_set_result",
    "C24_get",
    "C24_remove"
   ],
   "note": "Set, get and remove, against an abstract map."
  },
  {
   "property": "C25",
   "status": "partial",
   "theorems": [
    "C25_none_after_reboot",
    "C25_first_request",
    "C25_challenge",
    "C25_answered_partial",
    "C25_outer_code_refuted",
    "C25_stale_refuted"
   ],
   "note": "Proved for every history that starts with a cleared Echo buffer (and for every answer to a challenge of the same boot), for packets with the outer code of a request. Refuted when the caller re-initialises a context structure in place, because init leaves the old Echo value in the buffer: for all keys, contexts and recorded requests (C25_stale_refuted). Refuted whenever the attacker repeats the first request after the reboot with the outer code of a response: it is delivered without any challenge (C25_outer_code_refuted)."
  },
  {
   "property": "C26",
   "status": "proved",
   "theorems": [
    "C26_not_oscore",
    "C26_only_not_oscore"
   ],
   "note": ""
  },
  {
   "property": "C27",
   "status": "partial",
   "theorems": [
    "C27_ack_passes",
    "C27_ack_capacity_refuted",
    "C27_nothing_else"
   ],
   "note": "Proved: pass-through without state change when the buffer is large enough; every other output is a ciphertext with an OSCORE option. Refuted for every empty acknowledgement and every buffer that is too small: the output capacity is not checked on this path (C27_ack_capacity_refuted)."
  },
  {
   "property": "C28",
   "status": "proved",
   "theorems": [
    "C28_aad_is_rfc",
    "C28_aad_injective"
   ],
   "note": ""
  },
  {
   "property": "C29",
   "status": "proved",
   "theorems": [
    "C29_info_is_rfc",
    "C29_info_injective"
   ],
   "note": ""
  },
  {
   "property": "C30",
   "status": "proved",
   "theorems": [
    "C30_keys_are_rfc",
    "C30_mirrored",
    "C30_init_total"
   ],
   "note": ""
  },
  {
   "property": "C31",
   "status": "proved",
   "theorems": [
    "C31_suite_table",
    "C31_suite_lengths",
    "C31_methods"
   ],
   "note": "get_suite characterised against the RFC 9528 table for every label; lengths against the COSE registry; methods 0..3 per RFC table 2, other method numbers leave both flags unchanged."
  },
  {
   "property": "C32",
   "status": "partial",
   "theorems": [
    "C32_list_is_ignored_refuted",
    "C32_partial"
   ],
   "note": "Refuted for all parties and cryptography (C32_list_is_ignored_refuted): as long as the responder's suite list is non-empty, its contents have no influence on the run; C32_run_ex shows a complete run with an unsupported suite. Proved: an empty list or a suite outside 0..3 is refused with nothing sent or derived."
  },
  {
   "property": "C33",
   "status": "proved",
   "theorems": [
    "C33_bstr_round_trip",
    "C33_int_round_trip",
    "C33_prefix_free"
   ],
   "note": "About the CBOR primitives of Model_Cbor.v, which model zcbor (external) in canonical mode."
  },
  {
   "property": "C34",
   "status": "partial",
   "theorems": [
    "C34_message_1_is_rfc",
    "C34_recovered_partial",
    "C34_negative_c_i_refuted",
    "C34_parse_ranges",
    "C34_when",
    "C34_wide_suite_refuted"
   ],
   "note": "message_1 equals RFC 9528 message_1 and the responder recovers all fields, for every C_I that is not the encoding of a negative integer; for those (0x20..0x37) recovery is refuted for all inputs. C34_when: exactly when message_1 is made. C34_wide_suite_refuted: suites outside 0..255 are read modulo 256, so a suite that does not exist (258) is taken for another one."
  },
  {
   "property": "C35",
   "status": "partial",
   "theorems": [
    "C35_xor_involutive",
    "C35_ciphertext_2_partial",
    "C35_ciphertext_3_partial",
    "C35_ead_lost_refuted"
   ],
   "note": "the ciphertexts of message_2 and message_3 are those of RFC 9528 and are taken apart into the parts they were made of; EAD is delivered only if the sender passed it as an encoded byte string, otherwise it is silently lost (C35_ead_lost_refuted)"
  },
  {
   "property": "C36",
   "status": "partial",
   "theorems": [
    "C36_signature_sound",
    "C36_mac_partial",
    "C36_genuine_accepted",
    "C36_empty_mac_refuted",
    "C36_short_mac_2_refuted",
    "C36_forged_message_2_refuted",
    "C36_short_mac_3_refuted",
    "C36_forged_message_3_refuted"
   ],
   "note": "signature acceptance is sound and genuine messages are accepted; the static DH comparison runs over the received length, so an empty MAC is accepted: whole runs with a peer that holds no authentication key succeed for the initiator and the responder (C36_forged_message_2_refuted, C36_forged_message_3_refuted), and every beginning of the right MAC is accepted as well (C36_short_mac_2_refuted, C36_short_mac_3_refuted)"
  },
  {
   "property": "C37",
   "status": "partial",
   "theorems": [
    "C37_agreement_partial",
    "C37_kid_partial",
    "C37_method_1_refuted"
   ],
   "note": "agreement on PRK_out, connection identifiers, EAD_1 and the initiator's key for all parties that fit together (all methods, suites, kid/x5chain/x5t), and without size assumptions for kid credentials in the default configuration with methods 0, 2, 3; method 1 never works there (C37_method_1_refuted); a non-empty EAD_2 makes the initiator reject unless MACs or signatures of different texts coincide (C71_ead_2_refuted, example C37_ead_2_ex)"
  },
  {
   "property": "C38",
   "status": "partial",
   "theorems": [
    "C38_initiator_ok_partial",
    "C38_responder_ok",
    "C38_sign_failure_refuted",
    "C38_method_1_refuted"
   ],
   "note": "ok of the responder means PRK_out written and message_3 verified (C38_responder_ok); ok of the initiator means message_2 verified and a second message sent, but PRK_out may be unwritten and the second message may be a copy of message_2 (C38_sign_failure_refuted, C38_method_1_refuted)"
  },
  {
   "property": "C39",
   "status": "partial",
   "theorems": [
    "C39_sound_partial",
    "C39_by_kind",
    "C39_stored",
    "C39_unsigned_key_refuted"
   ],
   "note": "A credential is only returned with the keys stored for a matching identifier or with the key of a certificate whose signed part verifies under a configured CA key (C39_sound_partial, C39_by_kind, C39_stored). Refuted part: without Mbed TLS the crude X.509 parser takes the key from the unsigned part of a version 1 certificate (C39_unsigned_key_refuted)."
  },
  {
   "property": "C40",
   "status": "partial",
   "theorems": [
    "C40_th2_input_injective",
    "C40_th34_input_injective",
    "C40_th34_border_refuted",
    "C40_transcript_agreement"
   ],
   "note": "Injective for TH_2 (all inputs) and, with CBOR-sequence plaintexts and single-item credentials, for TH_3/TH_4; equal TH_4 gives equal inputs or an explicit hash collision. Refuted for arbitrary byte strings: the border between plaintext and credential is not encoded."
  },
  {
   "property": "C41",
   "status": "partial",
   "theorems": [
    "C41_info_injective",
    "C41_kdf_is_rfc",
    "C41_keys_differ",
    "C41_labels",
    "C41_exporter_labels_refuted",
    "C41_exporter_is_rfc"
   ],
   "note": "info injective, keys equal RFC EDHOC_KDF, keys of >=32 bytes differ or HMAC collides, twelve labels pairwise different. Refuted for the exporter: its labels 0 and 1 equal KEYSTREAM_2 and SALT_3e2m (only the key differs)."
  },
  {
   "property": "C42",
   "status": "partial",
   "theorems": [
    "C42_path_partial",
    "C42_overflow_refuted",
    "C42_injective_partial",
    "C42_injective_refuted"
   ],
   "note": "The key is exact except for a path that fills the buffer, where one byte past the buffer is written (refuted for every such path). The key is injective for non-empty slash-free segments; it is never able to tell a segment \"a/b\" from the segments \"a\", \"b\" (C42_injective_refuted)."
  },
  {
   "property": "C43",
   "status": "proved",
   "theorems": [
    "C43_memcpy_s",
    "C43_memcpy_s_never_ub",
    "C43_append",
    "C43_cpy",
    "C43_array_equals"
   ],
   "note": ""
  },
  {
   "property": "C44",
   "status": "proved",
   "theorems": [
    "C44_no_leak"
   ],
   "note": ""
  },
  {
   "property": "C45",
   "status": "partial",
   "theorems": [
    "C45_expand_psa",
    "C45_expand_tinycrypt_partial",
    "C45_expand_tinycrypt_refuted",
    "C45_too_long_refused"
   ],
   "note": "Mbed TLS/PSA version proved for all lengths up to 255*32. TinyCrypt version proved up to 254*32; refuted (undefined behaviour) for 254*32 < L <= 255*32."
  },
  {
   "property": "C46",
   "status": "partial",
   "theorems": [
    "C46_x509_partial",
    "C46_c509_partial",
    "C46_exact_partial",
    "C46_prefix_refuted",
    "C46_single_refuted",
    "C46_long_subject_refuted"
   ],
   "note": "Certificates are verified with the key of a configured CA entry whose subject is where the issuer of the certificate begins (C46_x509_partial, C46_c509_partial): exactly the issuer if no configured subject is a proper prefix of it or runs on into the rest of the certificate, and more than one credential is configured (C46_exact_partial). Refuted parts: prefix match, single-credential shortcut, out-of-bounds read behind the certificate for longer subjects."
  },
  {
   "property": "C47",
   "status": "partial",
   "theorems": [
    "C47_message_1_partial",
    "C47_message_1_refuted",
    "C47_default_partial",
    "C47_longer_message_3_refuted",
    "C47_full_id_cred_refuted",
    "C47_ciphertext_2_refuted",
    "C47_message_2_refuted",
    "C47_id_cred_r_refuted"
   ],
   "note": "In the default configuration all sizes up to the configured ones fit, provided the initiator identifier leaves three bytes for 16-byte tags and message_3 is not longer than message_2 (C47_default_partial). Both conditions are necessary (C47_longer_message_3_refuted, C47_full_id_cred_refuted), and other configurations break further sizes (C47_ciphertext_2_refuted, C47_message_2_refuted, C47_id_cred_r_refuted). message_1: C47_message_1_partial and, when it is the largest message, C47_message_1_refuted (three headers were forgotten)."
  },
  {
   "property": "C48",
   "status": "partial",
   "theorems": [
    "C48_agreement_partial",
    "C48_overflow_refuted",
    "C48_default_refuted",
    "C48_ead_4_refuted"
   ],
   "note": "Proved for every party, and configuration when EAD_4 is empty and the tag fits EAD_SIZE+8 bytes (C48_agreement_partial). With a longer tag the responder writes behind its ciphertext buffer (C48_overflow_refuted), in the default configuration for suites 1 and 3 (C48_default_refuted); any non-empty EAD_4 is rejected by the initiator of a session without EAD_2 (C48_ead_4_refuted)."
  },
  {
   "property": "C49",
   "status": "partial",
   "theorems": [
    "C49_initiator_ok_partial",
    "C49_responder_ok",
    "C49_no_key_refuted"
   ],
   "note": "The responder's half is proved (C49_responder_ok). The initiator's half is proved except that PRK_out may be unwritten, and TH_4 then is not the transcript (C49_initiator_ok_partial); C49_no_key_refuted shows that this happens with method 1 and key identifiers."
  },
  {
   "property": "C50",
   "status": "proved",
   "theorems": [
    "C50_accepts",
    "C50_output",
    "C50_deterministic"
   ],
   "note": "For every input, output size, content of the uninitialised arrays and each of the four multiplications. Includes a proof that p is prime. Soundness, completeness and which of the two roots is returned."
  },
  {
   "property": "C51",
   "status": "proved",
   "theorems": [
    "C51_secret"
   ],
   "note": "For every scalar and every point, against the affine group law of SEC 1 in Spec_P256.v; scalar multiplication itself is done by the crypto library and not modelled."
  },
  {
   "property": "C52",
   "status": "proved",
   "theorems": [
    "C52_same_key_same_session"
   ],
   "note": "All callbacks are arbitrary. The conclusion names the collision explicitly (views_collide), so no assumption on the hash function is needed. EAD_2 and EAD_3 are not part of a credential only up to the border in the hashed string, hence 'ends of'."
  },
  {
   "property": "C53",
   "status": "proved",
   "theorems": [
    "C53_initiator_authenticates",
    "C53_responder_authenticates",
    "C53_responder_signs",
    "C53_initiator_signs"
   ],
   "note": "The premise that the signature was made by the key owner is stated for the one accepted signature; C53_*_signs characterise what honest parties sign."
  },
  {
   "property": "C54",
   "status": "partial",
   "theorems": [
    "C54_handshake_to_traffic_partial",
    "C54_same_ids_refuted",
    "C54_kid_partial",
    "C54_method_1_refuted"
   ],
   "note": "Proved for every pair of parties that fit (C37) with identifiers of at most 4 bytes: contexts mirror each other and every sequence of good exchanges in either direction is delivered. Refuted: method 1 with kid leaves PRK_out unwritten; equal C_I and C_R (never compared) make both sides encrypt their first requests with the same key and nonce."
  },
  {
   "property": "C55",
   "status": "proved",
   "theorems": [
    "C55_request_exact",
    "C55_response_exact",
    "C55_request",
    "C55_response",
    "C55_exchange",
    "C55_echo_needed"
   ],
   "note": "Within the limits of Spec_Protect.v (fits, may_request, may_respond) the call succeeds iff growth is 0; the limits include challenges with an Echo option while an Echo value is awaited, and C55_echo_needed covers the rest of that state. C55_request_exact and C55_response_exact drop the limit that ties the number of class-U options to the payload: there is one more case of success, squeezed_out, in which the payload is lost (C19). C55_exchange has no premise about the result of any call."
  },
  {
   "property": "C56",
   "status": "partial",
   "theorems": [
    "C56_request_partial",
    "C56_response_partial"
   ],
   "note": "Proved for all histories of both endpoints and all packets, with unforged ciphertexts as a premise: delivered requests and responses were sent by the peer with this content and number, and a response answers the outstanding request, which the peer had decrypted before. Partial: content for supported messages (C19); options outside the ciphertext and tokens are not protected (C21); the requester is assumed not to send responses to its own requests."
  },
  {
   "property": "C57",
   "status": "partial",
   "theorems": [
    "C57_request_refuted",
    "C57_response_refuted",
    "C57_no_piv_refuted",
    "C57_no_ub_partial",
    "C57_unauthenticated_partial",
    "C57_long_kid_refuted",
    "C57_long_recipient_id_refuted",
    "C57_truncated_refuted"
   ],
   "note": "Proved for every packet whose announced lengths lie inside of it, every reachable context with a recipient ID of at most 7 bytes and every output buffer above 112 bytes: no undefined behaviour if OSCORE options are well-formed, a response's KID has at most 7 bytes and the decrypted content is well-formed; for packets that do not decrypt only the form matters. Each remaining condition is refuted: truncated options, KID over 7 bytes in a response and 8-byte recipient IDs (no key needed), and, for all keys, contexts and authentic messages, more than ten inner options, inner options that are cut, an empty plaintext, a path of 30 bytes together with outer Uri-Path options, a request without Partial IV."
  },
  {
   "property": "C58",
   "status": "partial",
   "theorems": [
    "C58_unusable_id_2_refuted",
    "C58_unusable_id_3_refuted",
    "C58_certificate_2_refuted",
    "C58_certificate_3_refuted",
    "C58_short_static_key_2_refuted",
    "C58_short_signature_refuted",
    "C58_extended_mac_refuted",
    "C58_c_r_refuted",
    "C58_short_signature_3_refuted",
    "C58_long_mac_3_refuted",
    "C58_extended_mac_3_refuted",
    "C58_short_static_key_3_refuted",
    "C58_responder_partial",
    "C58_initiator_partial",
    "C58_short_key_refuted",
    "C58_kid_string_2_refuted",
    "C58_long_mac_refuted",
    "C58_kid_string_3_refuted",
    "C58_initiator_4_partial",
    "C58_responder_4_partial",
    "C58_both_builds"
   ],
   "note": "C58_responder_partial and C58_initiator_partial: with correct callbacks and own values, a run of either party ends in undefined behaviour only if (responder) message_1 selects an X25519 suite and G_X has less than 32 bytes, or the received message_2/message_3 decrypts under the RFC keys of the session to a plaintext with one of the listed contents: kid as a byte string, x5t with a text algorithm, a map with neither x5chain nor x5t, a certificate that the verification does not survive, a static DH key of the stored credential shorter than 32 bytes, an EdDSA signature shorter than 64 bytes or a stored EdDSA key shorter than 32, a MAC field longer than 32 bytes, a C_R of one byte up to 23, the correct MAC followed by further bytes. Missing: these, which the _refuted theorems show to happen for all parties, keys and cryptography (certificates: those cut off behind their first tag or length, build without Mbed TLS). The initiator's half holds for a c_r_bytes of any capacity. In the build with MESSAGE_4 no message_4 adds anything (C58_initiator_4_partial), and a responder can only in addition overrun its ciphertext buffer, if its own EAD_4 and the tag of the selected suite do not fit (C58_responder_4_partial). All counterexamples are also ones in that build (C58_both_builds)."
  },
  {
   "property": "C59",
   "status": "partial",
   "theorems": [
    "C59_secret",
    "C59_builds_agree",
    "C59_off_curve_refuted",
    "C59_small_order_refuted"
   ],
   "note": "C59_secret and C59_builds_agree: keys that are the x-coordinate of a point give the right secret, the one of the Mbed TLS build. That others are rejected is refuted: every x below p that is not on the curve is accepted (C59_off_curve_refuted), and one of order 5 reveals the private key modulo 5 up to sign (C59_small_order_refuted)."
  },
  {
   "property": "C60",
   "status": "proved",
   "theorems": [
    "C60_no_key_left",
    "C60_other_keys"
   ],
   "note": "For every list of calls, arguments and pattern of library failures: C60_no_key_left (the store is unchanged unless psa_destroy_key failed), C60_other_keys (keys of others stay; at most one key left per call, none if the library does not fail)."
  },
  {
   "property": "C61",
   "status": "proved",
   "theorems": [
    "C61_aead",
    "C61_sign",
    "C61_verify",
    "C61_hkdf",
    "C61_hash",
    "C61_agreement",
    "C61_assumptions"
   ],
   "note": "Every function of crypto_wrapper.c in the build with Mbed TLS and compact25519 against the operations of the record crypto; C61_assumptions derives crypto_ok from the assumptions on the primitives. hkdf_expand needs a non-empty PRK and decryption an output buffer of the plaintext's size, as all callers give."
  },
  {
   "property": "C62",
   "status": "partial",
   "theorems": [
    "C62_p256_partial",
    "C62_same_secret",
    "C62_seed_refuted",
    "C62_short_array_refuted",
    "C62_length_refuted"
   ],
   "note": "P-256 keys are right and both sides get the same secret (C62_p256_partial, C62_same_secret). Refuted: with X25519 the seed is ignored and the key comes from uninitialised memory (C62_seed_refuted); short arrays are overrun (C62_short_array_refuted); the length of a P-256 private key is not set (C62_length_refuted)."
  },
  {
   "property": "C63",
   "status": "partial",
   "theorems": [
    "C63_lossy_network_partial",
    "C63_blocked_refuted",
    "C63_pending_refuted"
   ],
   "note": "Proved for every sequence of exchanges and notifications for at most three resources (kind and path), with any packets lost and any packets of others in between, identifiers of at most 4 bytes. Refuted for more resources: unanswered requests are remembered for ever, and with three of them every request for another resource fails. Refuted for two requests at a time, for all keys and contexts (C63_pending_refuted): once the second is sent, the response to the first is decrypted with the nonce of the second and rejected. Missing: tokens used for several resources; copies of packets (C04)."
  },
  {
   "property": "C64",
   "status": "partial",
   "theorems": [
    "C64_claimed_c_r_refuted",
    "C64_claimed_key_refuted",
    "C64_short_array_refuted",
    "C64_initiator_key",
    "C64_responder_key_partial",
    "C64_in_bounds"
   ],
   "note": "Proved for all runs: PRK_out and EAD_2/EAD_3 only after verification (C64_initiator_key, C64_responder_key_partial), contents after ok, memory bounds (C64_in_bounds). Refuted for all parties, keys and cryptography: C_R and the initiator's key are written before the peer is verified, so that a stranger's claims remain in them after a failed run (C64_claimed_c_r_refuted, C64_claimed_key_refuted); after ok, a key array that is too short has a length beyond its memory, or shows its old content (C64_short_array_refuted), and the next run with it writes out of bounds (C64_claimed_key_refuted)."
  },
  {
   "property": "C65",
   "status": "partial",
   "theorems": [
    "C65_aead",
    "C65_suites",
    "C65_verify",
    "C65_signatures",
    "C65_agreement",
    "C65_keygen_partial",
    "C65_hash",
    "C65_assumptions",
    "C65_operations",
    "C65_seed_refuted",
    "C65_refused",
    "C65_short_refuted",
    "C65_longer_refuted",
    "C65_tag_refuted",
    "C65_limit_refuted"
   ],
   "note": "Results: C65_aead (with C65_suites), C65_verify, C65_signatures, C65_agreement, C65_keygen_partial, C65_hash: equal to the Mbed TLS build, and each build accepts what the other makes. C65_assumptions and C65_operations: the TinyCrypt build meets the assumptions of all protocol theorems. Refuted parts: X25519 private keys are a function of a 32-bit seed (C65_seed_refuted; C65_keygen_partial says nothing about unpredictability), short arguments are read beyond their end (C65_short_refuted), longer ones are accepted (C65_longer_refuted), a wrong output length gives a wrong tag with ok (C65_tag_refuted), and the longest plaintexts can be encrypted but not decrypted (C65_limit_refuted). Off-curve keys: C59. Other lengths of nonce, tag, associated data, payload and output are refused (C65_refused)."
  },
  {
   "property": "C66",
   "status": "partial",
   "theorems": [
    "C66_restarts_partial",
    "C66_silenced_refuted"
   ],
   "note": "Proved for every sequence of dialogues, notifications, foreign packets and restarts for at most three resources, with any packets lost, identifiers of at most 4 bytes and no ID context. Refuted: an endpoint that waits for an Echo value cannot protect anything without an Echo option, nor a challenge longer than the last one; two restarted endpoints whose first requests cross stay stuck. Missing: failing writes to the memory, copies of packets (C04), messages between a request and its response."
  },
  {
   "property": "C67",
   "status": "partial",
   "theorems": [
    "C67_short_ids_partial",
    "C67_request_refuted",
    "C67_forever_refuted",
    "C67_received_refuted"
   ],
   "note": "Sender IDs of at most 4 bytes never stand in the way of a request (C67_short_ids_partial). Refuted for longer ones: as soon as ID and Partial IV have more than 7 bytes together (7-byte IDs always, 6-byte IDs from sequence number 256, 5-byte IDs from 65536), every request fails for ever, and authentic requests of other implementations are refused (the AAD buffer has 30 bytes)."
  },
  {
   "property": "C68",
   "status": "partial",
   "theorems": [
    "C68_keys_separate",
    "C68_two_sides_partial",
    "C68_after_edhoc_partial"
   ],
   "note": "Keys of contexts with different secret, salt, ID context or Sender ID differ at all times unless HMAC-SHA-256 collides on the inputs named in key_collision. Uniqueness of (key, nonce) over both sides under the discipline of C08 (refuted without it, see C08 and C54_same_ids_refuted). Example for C68_after_edhoc_partial: C37_hypotheses and C54_example."
  },
  {
   "property": "C69",
   "status": "partial",
   "theorems": [
    "C69_sender_id_refuted",
    "C69_sender_id_memory_refuted",
    "C69_same_ids_refuted",
    "C69_copy_refuted",
    "C69_moved_down_refuted",
    "C69_sessions_partial",
    "C69_moved_partial",
    "C69_devices_partial",
    "C69_nonces_partial"
   ],
   "note": "Proved: one structure among any others, with secret, salt and Recipient ID erased after initialisation (C69_sessions_partial); a structure moved and then given up (C69_moved_partial); devices with any number of contexts and restarts are, per triple of identifiers, devices with one context, so C09 holds for them (C69_devices_partial, C69_nonces_partial). Refuted, for all keys, parameters and messages: the Sender ID stays a pointer to the caller's array; when that is reused the peer refuses every request (C69_sender_id_refuted) and numbers are stored for the wrong identifiers, so that every boot starts with the same nonce (C69_sender_id_memory_refuted); contexts with equal identifiers share a stored number (C69_same_ids_refuted); a copied structure uses the key of whatever the original is initialised for (C69_copy_refuted); structures moved down in an array by assignment use the key and nonces of a neighbour (C69_moved_down_refuted)."
  },
  {
   "property": "C70",
   "status": "partial",
   "theorems": [
    "C70_crude_partial",
    "C70_crude_short_refuted",
    "C70_mbedtls_partial",
    "C70_mbedtls_short_refuted"
   ],
   "note": "C70_crude_partial (without Mbed TLS, DER certificates of version 2 and 3 of any size and content) and C70_mbedtls_partial (any list of CAs): accepted with the key in it if the CA's signature is valid, refused otherwise. Missing: signatures whose r or s begins with a zero byte, and for these it is false: C70_crude_short_refuted (uninitialised memory is read) and C70_mbedtls_short_refuted (the length byte is taken for a byte of the signature)."
  },
  {
   "property": "C71",
   "status": "partial",
   "theorems": [
    "C71_decisions",
    "C71_ead_1_partial",
    "C71_absent_refuted",
    "C71_ead_2_refuted",
    "C71_ead_3_refuted",
    "C71_ead_4_refuted",
    "C71_key_refuted",
    "C71_key_initiator_refuted"
   ],
   "note": "Proved: C71_decisions (order of questions and messages, refusals, ok) for all runs of the four functions, and delivery of EAD_1 (C71_ead_1_partial: only if there is one). Refuted: without EAD_1 the application is handed EAD_SIZE zeros (C71_absent_refuted); EAD_2 and EAD_3 of an honest peer are handed over only if MACs or signatures of two different texts coincide (C71_ead_2_refuted, C71_ead_3_refuted), because the sender authenticates the encoded EAD and the receiver its content; EAD_4 must not be longer than EAD_2 (C71_ead_4_refuted); PRK_out is output although the application refuses EAD_3 (C71_key_refuted) or EAD_2 (C71_key_initiator_refuted)."
  },
  {
   "property": "C72",
   "status": "partial",
   "theorems": [
    "C72_sent",
    "C72_secrets",
    "C72_server",
    "C72_client_partial",
    "C72_no_kid_refuted",
    "C72_first_notification_refuted",
    "C72_outstanding_refuted"
   ],
   "note": "Proved: everything sent is protected as RFC 8613 says (C72_sent), with the keys that the RFC derives from the shared secret (C72_secrets), every request of a conforming client is delivered and answered in the form the client expects (C72_server), and responses are delivered to a client if they carry no Partial IV and answer the request sent last, or carry the server's kid next to the Partial IV, or the server's identifier is empty (C72_client_partial). Refuted: a response or notification with Partial IV and without kid, the form RFC 8613 prescribes, is decrypted with a nonce made from an empty kid, so that it is delivered only if the AEAD accepts it under a different nonce (C72_no_kid_refuted, concrete rejection in C72_example); a first notification without Partial IV is always refused (C72_first_notification_refuted); a response without Partial IV is decrypted with the nonce used last, not that of its request (C72_outstanding_refuted)."
  },
  {
   "property": "C73",
   "status": "partial",
   "theorems": [
    "C73_initiator_partial",
    "C73_responder_partial",
    "C73_peer_refuted",
    "C73_ead_2_refuted",
    "C73_initiator_kid_refuted",
    "C73_other_id_refuted",
    "C73_unknown_id_refuted",
    "C73_own_kid_refuted",
    "C73_own_params_refuted",
    "C73_own_c_r_refuted",
    "C73_critical_ead_refuted",
    "C73_many_suites_refuted"
   ],
   "note": "Both roles complete a session with any peer that follows RFC 9528 if identifiers are x5chain (one certificate) or x5t, C_R is a byte string that is not empty, and EAD_2 and EAD_3 are absent (EAD_1 items may be present). Missing and refuted: kid in the form of the RFC, for the peer and for the own party; every other ID_CRED header map of the peer (C509, URI, bag, several certificates, several parameters), and of the own party if it has a parameter that this code cannot read (C73_own_params_refuted); C_R that is empty or sent as an integer, from the peer and as the own choice; EAD_2 and EAD_3 items; critical EAD_1 items are ignored instead of ending the session. A message_3 longer than message_2 is not sent (C38). A message_1 with more suites than the responder has room for (default 6, never more than 10) is refused (C73_many_suites_refuted)."
  },
  {
   "property": "C74",
   "status": "proved",
   "theorems": [
    "C74_assumptions",
    "C74_exact"
   ],
   "note": "Symmetric part of the cryptography only; curves and signatures stay a parameter. The vectors (RFC 8613 appendix C; RFC 9529 trace 1; FIPS 180-4, FIPS 197, RFC 3610, RFC 4231) are examples beside the theorems, in Prop_Standard.v and Prop_Trace.v."
  },
  {
   "property": "C75",
   "status": "partial",
   "theorems": [
    "C75_undisturbed_partial",
    "C75_returns",
    "C75_mixture_partial",
    "C75_wrong_number_refuted",
    "C75_nonce_refuted"
   ],
   "note": "C75_undisturbed_partial: calls whose conversions of the number do not overlap are as in Model_Send.v, in any order. C75_returns and C75_mixture_partial hold for every schedule: calls return, memory is respected, and each byte of a Partial IV is that of the number of one of the calls. Refuted beyond that: C75_wrong_number_refuted (for every two numbers of the same width, a message that belongs to the number of the other thread) and C75_nonce_refuted (the same key and nonce for two messages)."
  }
 ]
}