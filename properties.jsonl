{"id": "C01", "title": "A server replay window never accepts a sequence number twice", "statement": "Starting from an initialised (or re-initialised) server replay window, in any sequence of 'check; if accepted, update with the checked number' steps each sequence number is accepted at most once.", "quantifier": "every finite sequence of 64-bit sequence numbers presented to the window, any order, any duplicates, any gaps", "why_tests_cant": "The set of histories is infinite; a bug appears only for particular interleavings of old/new numbers around the left edge of the window.", "anchors": ["src/oscore/replay_protection.c:server_is_sequence_number_valid", "src/oscore/replay_protection.c:server_replay_window_update", "src/oscore/replay_protection.c:server_replay_window_init"]}
{"id": "C02", "title": "Replay window decision equals the sliding-window specification", "statement": "After any history of accepted numbers a new number n is accepted exactly when it has never been accepted and is not older than every number the 32-entry window still remembers (strictly greater than the smallest remembered number, or the window is not yet full).", "quantifier": "every history of accepted numbers and every next number", "why_tests_cant": "Needs an invariant linking the concrete 32-slot array to the whole history.", "anchors": ["src/oscore/replay_protection.c"]}
{"id": "C03", "title": "Re-initialising the window rejects everything up to the given number", "statement": "After server_replay_window_reinit(n) no number <= n is ever accepted again, whatever numbers are accepted afterwards, and every number > n is acceptable immediately.", "quantifier": "every 64-bit n, every later history", "why_tests_cant": "Quantifies over all later histories.", "anchors": ["src/oscore/replay_protection.c:server_replay_window_reinit"]}
{"id": "C04", "title": "End-to-end replay protection of requests", "statement": "A server with a synchronised security context delivers a given protected request (same bytes) at most once: a packet that was accepted by oscore2coap is rejected with a replay error each later time it is presented, whatever traffic comes in between.", "quantifier": "all packets, all interleavings with other accepted packets", "why_tests_cant": "History property over unbounded traffic and all PIV values; a test with small PIVs passes while PIVs of 2 or more bytes fail.", "anchors": ["src/oscore/oscore2coap.c:oscore2coap", "src/oscore/replay_protection.c"]}
{"id": "C05", "title": "Notification freshness is monotone", "statement": "A client accepts a notification carrying a Partial IV and an Observe option only if its Partial IV is strictly greater than that of every notification accepted before in this context.", "quantifier": "all sequences of notifications", "why_tests_cant": "History property.", "anchors": ["src/oscore/replay_protection.c:replay_protection_check_notification", "src/oscore/replay_protection.c:notification_number_update", "src/oscore/oscore2coap.c:oscore2coap"]}
{"id": "C06", "title": "Partial IV codec is a minimal big-endian bijection", "statement": "For every sequence number n <= 2^40-1, ssn2piv yields 1..5 bytes, without leading zero unless n=0, whose big-endian value is n; piv2ssn recovers n; larger numbers are refused; piv2ssn refuses strings longer than 5 bytes.", "quantifier": "all 64-bit n, all byte strings", "why_tests_cant": "2^40 values; boundary errors at every power of 256.", "anchors": ["src/oscore/security_context.c:ssn2piv", "src/oscore/security_context.c:piv2ssn"]}
{"id": "C07", "title": "AEAD nonce is an injective function of (ID, Partial IV)", "statement": "For a fixed common IV, two create_nonce calls with IDs of at most 7 bytes and Partial IVs of at most 5 bytes give the same 13-byte nonce only if the IDs are equal and the PIVs are equal up to leading zeros; the call never touches memory outside its buffers.", "quantifier": "all pairs of (ID, PIV), all common IVs", "why_tests_cant": "Pairs of inputs; collision freedom cannot be enumerated.", "anchors": ["src/oscore/nonce.c:create_nonce"]}
{"id": "C08", "title": "No (key, nonce) pair is used twice by a sender within one boot", "statement": "Within one boot, no two messages encrypted by coap2oscore under one sender key use the same nonce.", "quantifier": "all interleavings of sending requests, responses, notifications and of receiving messages", "why_tests_cant": "Needs an invariant on SSN and on the stored request nonce across all interleavings.", "anchors": ["src/oscore/coap2oscore.c:coap2oscore", "src/oscore/coap2oscore.c:encrypt_wrapper", "src/oscore/nonce.c"]}
{"id": "C09", "title": "No sender sequence number is reused across reboots", "statement": "With NVM storage, whatever the crash points and whatever writes were completed, a sequence number used after a reboot (of a context whose echo exchange completed through this library) was never used before it.", "quantifier": "all histories of sends, synchronisations and crashes, all crash points including between the increment and the NVM write", "why_tests_cant": "Crash points and histories are unbounded.", "anchors": ["src/oscore/nvm.c:ssn_store_in_nvm", "src/oscore/nvm.c:ssn_init", "src/oscore/coap2oscore.c:generate_new_ssn"]}
{"id": "C10", "title": "A context stops when its sequence numbers are exhausted", "statement": "Once the sender sequence number has reached the limit, coap2oscore and oscore2coap both return oscore_ssn_overflow, write no output and leave the context unchanged; hence no message with a sequence number >= the limit is ever sent in one boot.", "quantifier": "all contexts, all input packets", "why_tests_cant": "Reaching the limit takes 2^23 operations; the claim is for every input.", "anchors": ["src/oscore/security_context.c:check_context_freshness", "src/oscore/coap2oscore.c:coap2oscore", "src/oscore/oscore2coap.c:oscore2coap"]}
{"id": "C11", "title": "CoAP header and token codec", "statement": "Parsing recovers exactly version, type, token length, code, message id and token that serialising wrote; a packet shorter than 4 bytes or with TKL > 8 or with a truncated token is rejected.", "quantifier": "all packets, all header field values, all tokens", "why_tests_cant": "All byte strings.", "anchors": ["src/oscore/oscore_coap.c:coap_deserialize", "src/oscore/oscore_coap.c:coap_serialize"]}
{"id": "C12", "title": "CoAP option list codec round trip", "statement": "For every option list (ascending numbers, any value) serialising then parsing returns the same numbers and values and the same payload.", "quantifier": "all option lists and payloads", "why_tests_cant": "Extended delta/length encodings have boundaries (12/13, 255/256, 268/269, 65535) in combination.", "anchors": ["src/oscore/oscore_coap.c:options_serialize", "src/oscore/oscore_coap.c:options_deserialize"]}
{"id": "C13", "title": "The CoAP parser never reads outside the received packet", "statement": "Whatever bytes are received, parsing terminates and refers only to bytes of the packet.", "quantifier": "all byte strings", "why_tests_cant": "Memory safety for all inputs.", "anchors": ["src/oscore/oscore_coap.c:options_deserialize", "src/oscore/oscore_coap.c:coap_deserialize"]}
{"id": "C14", "title": "The serialiser never writes outside the caller's buffer", "statement": "coap_serialize either returns an error or writes at most the stated capacity of the output buffer.", "quantifier": "all packets and capacities", "why_tests_cant": "Memory safety for all inputs.", "anchors": ["src/oscore/oscore_coap.c:coap_serialize", "src/oscore/oscore_coap.c:options_serialize"]}
{"id": "C15", "title": "OSCORE option codec round trip", "statement": "For all PIV (<=5 bytes), KID and KID context values of a request, parsing the generated OSCORE option returns the same values; a response without PIV generates an empty option and parses to 'nothing present'.", "quantifier": "all PIV/KID/KID-context values", "why_tests_cant": "All combinations of present/absent/lengths.", "anchors": ["src/oscore/coap2oscore.c:oscore_option_generate", "src/oscore/oscore2coap.c:oscore_option_parser"]}
{"id": "C16", "title": "Option classification is lossless and hides class-E options", "statement": "inner_outer_option_split sends each option to the encrypted or to the outer list exactly according to its class (Observe to both, Echo and all unknown options to the encrypted one), keeps order, loses nothing and never puts an encrypted-class option in clear.", "quantifier": "all option lists", "why_tests_cant": "All lists.", "anchors": ["src/oscore/coap2oscore.c:inner_outer_option_split", "src/oscore/option.c:is_class_e"]}
{"id": "C17", "title": "Receiver's option merge is a sorted permutation", "statement": "The options delivered by oscore2coap are exactly the outer options except OSCORE and Observe together with the decrypted ones, sorted by number, deltas consistent with numbers, encrypted options in their original relative order.", "quantifier": "all pairs of option lists", "why_tests_cant": "All lists; sort correctness.", "anchors": ["src/oscore/oscore2coap.c:options_reorder"]}
{"id": "C18", "title": "The outer message code hides the inner code", "statement": "The code of a protected message is POST/FETCH for requests and 2.04/2.05 for responses, depending only on request/response and presence of Observe, never on the real method or response code.", "quantifier": "all packets", "why_tests_cant": "All codes and packets.", "anchors": ["src/oscore/coap2oscore.c:oscore_pkg_generate"]}
{"id": "C19", "title": "Protect/unprotect round trip", "statement": "If a client protects a request with coap2oscore and the peer with the mirrored context unprotects the result with oscore2coap, the output is the original CoAP request, byte for byte (supported sizes); same for responses except that the Observe value is emptied.", "quantifier": "all supported CoAP messages, all contexts, all SSN values", "why_tests_cant": "End-to-end composition of all codecs over all inputs.", "anchors": ["src/oscore/coap2oscore.c:coap2oscore", "src/oscore/oscore2coap.c:oscore2coap"]}
{"id": "C20", "title": "A packet that fails authentication leaves the receiver unchanged", "statement": "If oscore2coap returns an error before or at AEAD verification, replay window, notification number, stored nonce, echo state, interactions and SSN are unchanged.", "quantifier": "all packets and contexts", "why_tests_cant": "All inputs and states.", "anchors": ["src/oscore/oscore2coap.c:oscore2coap", "src/oscore/oscore2coap.c:decrypt_wrapper"]}
{"id": "C21", "title": "Only authenticated data is delivered", "statement": "If oscore2coap returns ok then the delivered code, class-E options and payload come from a plaintext that the AEAD accepted under the recipient key, with an AAD containing the request's KID and PIV.", "quantifier": "all packets, all contexts", "why_tests_cant": "All inputs.", "anchors": ["src/oscore/oscore2coap.c:oscore2coap", "src/oscore/oscore_cose.c:oscore_cose_decrypt"]}
{"id": "C22", "title": "Responses are bound to their request", "statement": "A response is verified with the request KID and PIV that were stored for its token when the request was sent; a response whose token matches no outstanding request is rejected before any decryption.", "quantifier": "all packets, all interaction histories", "why_tests_cant": "History property over tokens.", "anchors": ["src/oscore/oscore_interactions.c:oscore_interactions_read_wrapper", "src/oscore/oscore2coap.c:decrypt_wrapper"]}
{"id": "C23", "title": "Interaction table invariants", "statement": "In every reachable interaction table the tokens of occupied entries are pairwise different and no two occupied entries have the same request type and URI path.", "quantifier": "all operation histories", "why_tests_cant": "History property.", "anchors": ["src/oscore/oscore_interactions.c"]}
{"id": "C24", "title": "Interaction table behaves as a bounded map", "statement": "set then get of the same token returns the stored record; set does not disturb other tokens except the record with same (URI, type); remove deletes exactly that token; when full a set fails with oscore_max_interactions; failed operations change nothing.", "quantifier": "all tables and arguments", "why_tests_cant": "All states.", "anchors": ["src/oscore/oscore_interactions.c:oscore_interactions_set_record", "src/oscore/oscore_interactions.c:oscore_interactions_get_record", "src/oscore/oscore_interactions.c:oscore_interactions_remove_record"]}
{"id": "C25", "title": "Echo challenge after reboot", "statement": "After a reboot without fresh keys a server delivers no request until it received a request whose decrypted Echo option equals the Echo value it sent; the first request after reboot is always answered with first_request_after_reboot.", "quantifier": "all packet histories after reboot", "why_tests_cant": "History property.", "anchors": ["src/oscore/oscore2coap.c:oscore2coap", "src/oscore/option.c:echo_val_is_fresh", "src/oscore/option.c:cache_echo_val"]}
{"id": "C26", "title": "Non-OSCORE packets are recognised and not touched", "statement": "A parseable packet without OSCORE option makes oscore2coap return not_oscore_pkt without writing output or changing the context.", "quantifier": "all packets without option 9", "why_tests_cant": "All inputs.", "anchors": ["src/oscore/oscore2coap.c:oscore_option_parser", "src/oscore/oscore2coap.c:oscore2coap"]}
{"id": "C27", "title": "Empty ACK messages pass through unprotected and unchanged", "statement": "coap2oscore copies an ACK with code 0.00 to the output byte for byte and does not consume a sequence number; no other message leaves coap2oscore unprotected.", "quantifier": "all packets", "why_tests_cant": "All inputs.", "anchors": ["src/oscore/coap2oscore.c:coap2oscore"]}
{"id": "C28", "title": "The additional authenticated data determine KID, PIV and algorithm", "statement": "The Enc_structure built from (KID, PIV, alg) is injective: equal AAD implies equal KID, PIV, algorithm and options.", "quantifier": "all pairs of inputs", "why_tests_cant": "Pairs of inputs.", "anchors": ["src/oscore/aad.c:create_aad", "src/oscore/oscore_cose.c:create_enc_structure"]}
{"id": "C29", "title": "HKDF info separates keys and IVs", "statement": "The info strings for sender key, recipient key and common IV are pairwise different for different IDs, ID contexts, algorithm or type.", "quantifier": "all pairs of inputs", "why_tests_cant": "Pairs of inputs.", "anchors": ["src/oscore/oscore_hkdf_info.c:oscore_create_hkdf_info"]}
{"id": "C30", "title": "Mirrored contexts agree", "statement": "Two contexts initialised with the same master secret, salt, ID context and swapped IDs derive: sender key of one = recipient key of the other, and equal common IVs.", "quantifier": "all parameters", "why_tests_cant": "All inputs.", "anchors": ["src/oscore/security_context.c:oscore_context_init"]}
{"id": "C31", "title": "Suite and method tables", "statement": "get_suite succeeds exactly for suites 0..3 with the registered algorithm sets, and authentication_type_get exactly for methods 0..3; the MAC, key and IV lengths derived from a suite are those of the algorithms.", "quantifier": "all labels", "why_tests_cant": "All 256/2^32 values plus the table.", "anchors": ["src/edhoc/suites.c", "src/edhoc/edhoc_method_type.c"]}
{"id": "C32", "title": "Suite negotiation: responder only accepts a supported suite", "statement": "selected_suite_is_supported returns true only if the selected suite occurs in the responder's list; otherwise the responder answers with an error and derives nothing.", "quantifier": "all suites and suite lists", "why_tests_cant": "All lists.", "anchors": ["src/edhoc/responder.c:selected_suite_is_supported"]}
{"id": "C33", "title": "CBOR integer and byte string codecs round trip and are prefix-free", "statement": "Decoding an encoded int32 or byte string returns it; encodings are injective and prefix-free, so concatenations decode unambiguously.", "quantifier": "all int32, all byte strings, all trailing data", "why_tests_cant": "All inputs.", "anchors": ["src/edhoc/bstr_encode_decode.c", "src/edhoc/int_encode_decode.c"]}
{"id": "C34", "title": "message_1 codec", "statement": "The responder's parse of the initiator's message_1 recovers method, suites, G_X, C_I and EAD_1.", "quantifier": "all field values in the supported ranges", "why_tests_cant": "All inputs including negative one-byte connection identifiers.", "anchors": ["src/edhoc/initiator.c:msg1_gen", "src/edhoc/responder.c:msg1_parse"]}
{"id": "C35", "title": "Plaintext/ciphertext_2 codec", "statement": "XOR-encryption of plaintext_2 is its own inverse, and splitting the encoded plaintext recovers C_R, ID_CRED_R, Signature_or_MAC and EAD.", "quantifier": "all keystreams and plaintexts", "why_tests_cant": "All inputs.", "anchors": ["src/edhoc/ciphertext.c", "src/edhoc/plaintext_decode.c", "src/edhoc/plaintext_encode.c"]}
{"id": "C36", "title": "Peer authentication: verification is sound", "statement": "signature_or_mac(VERIFY) returns ok only if the received field is the correct MAC (static DH) or a signature valid under the peer's public key.", "quantifier": "all received fields of any length", "why_tests_cant": "All inputs: an attacker chooses the length.", "anchors": ["src/edhoc/signature_or_mac_msg.c:signature_or_mac"]}
{"id": "C37", "title": "Honest run agreement", "statement": "When both parties run with mutually consistent credentials and all callbacks succeed, both finish ok with the same PRK_out, and each learns the other's EAD and (responder) the initiator's public key.", "quantifier": "all key pairs, suites, methods, credentials in range", "why_tests_cant": "All parameters.", "anchors": ["src/edhoc/initiator.c:edhoc_initiator_run", "src/edhoc/responder.c:edhoc_responder_run"]}
{"id": "C38", "title": "ok means the key was derived", "statement": "If edhoc_initiator_run returns ok then message_2 was verified, message_3 was generated and sent, and PRK_out was written.", "quantifier": "all received messages, all failures of the crypto/encoding layer", "why_tests_cant": "All failure points.", "anchors": ["src/edhoc/initiator.c:msg3_gen", "src/edhoc/initiator.c:msg3_only_gen"]}
{"id": "C39", "title": "Credential lookup returns only a matching trusted credential", "statement": "retrieve_cred with a KID/x5t/x5chain ID_CRED returns keys of a credential whose ID_CRED or certificate bytes equal those received, or of a certificate whose signature verified; otherwise credential_not_found or a verification error.", "quantifier": "all credential arrays and received IDs", "why_tests_cant": "All arrays.", "anchors": ["src/edhoc/retrieve_cred.c"]}
{"id": "C40", "title": "Transcript hash inputs are injective", "statement": "The byte strings hashed to TH_2, TH_3, TH_4 determine G_Y and H(message_1), respectively TH, PLAINTEXT and CRED.", "quantifier": "all pairs of inputs", "why_tests_cant": "Pairs of inputs.", "anchors": ["src/edhoc/th.c"]}
{"id": "C41", "title": "Key-derivation labels separate keys", "statement": "edhoc_kdf info strings with different label, context or length are different; the labels used for the twelve keys and for the exporter are pairwise different.", "quantifier": "all pairs of (label, context, length)", "why_tests_cant": "Pairs of inputs.", "anchors": ["src/edhoc/hkdf_info.c", "src/edhoc/okm.c", "inc/edhoc/hkdf_info.h", "src/edhoc/edhoc_exporter.c"]}
{"id": "C42", "title": "URI path used for matching interactions is the path of the request", "statement": "uri_path_create joins the Uri-Path options with '/', gives \"/\" for no option, and refuses paths that do not fit; it never writes outside its buffer.", "quantifier": "all option lists and capacities", "why_tests_cant": "All lists.", "anchors": ["src/oscore/option.c:uri_path_create"]}
{"id": "C43", "title": "Bounded copies never overflow", "statement": "_memcpy_s, byte_array_cpy and byte_array_append either return an error and change nothing, or copy exactly the source without exceeding the destination's capacity.", "quantifier": "all lengths and contents", "why_tests_cant": "All lengths including 32-bit wrap-around.", "anchors": ["src/common/memcpy_s.c", "src/common/byte_array.c"]}
{"id": "C44", "title": "Encrypted content never influences the visible part of a protected message", "statement": "For two messages with the same header, token and class-U options (and both or neither carrying Observe), if the AEAD ciphertexts coincide then the complete outputs of coap2oscore coincide: nothing of code, class-E options or payload leaks outside the ciphertext.", "quantifier": "all pairs of messages, all contexts", "why_tests_cant": "Two-run (non-interference) property.", "anchors": ["src/oscore/coap2oscore.c:coap2oscore"]}
{"id": "C45", "title": "HKDF-Expand output is a prefix-consistent T(1)||T(2)||... stream of the requested length", "statement": "hkdf_expand writes exactly out_len bytes, equal to the first out_len bytes of the RFC 5869 stream, for every length up to 255*32, and fails above.", "quantifier": "all lengths", "why_tests_cant": "Block-boundary arithmetic over all lengths.", "anchors": ["src/common/crypto_wrapper.c:hkdf_expand"]}
{"id": "C46", "title": "Certificate issuer lookup only trusts the right CA key", "statement": "A certificate is verified with the public key of a configured CA whose subject is the certificate's issuer.", "quantifier": "all certificates and CA lists", "why_tests_cant": "All arrays.", "anchors": ["src/edhoc/cert.c:ca_pk_get", "src/edhoc/cert.c:cert_x509_verify"]}
{"id": "C47", "title": "Protocol messages fit the fixed buffers", "statement": "Every message produced by an honest peer within the configured credential sizes is accepted by the size checks of the other side (no spurious buffer_to_small).", "quantifier": "all sizes within configuration", "why_tests_cant": "All size combinations.", "anchors": ["src/edhoc/initiator.c:msg2_process", "inc/edhoc/buffer_sizes.h"]}
{"id": "C48", "title": "Honest parties complete the four-message exchange", "statement": "With message_4 enabled, two honest parties that know each other's credentials and whose messages are delivered both return ok, agree on PRK_out and on EAD_4, and write nothing outside their buffers.", "quantifier": "all parties, credentials, suites, connection identifiers, EAD_4 and configurations", "why_tests_cant": "Every combination of suite (tag length), EAD_4 length and configured size matters.", "anchors": ["src/edhoc/responder.c:msg4_gen", "src/edhoc/initiator.c:msg4_process", "src/edhoc/ciphertext.c:ciphertext_gen", "src/edhoc/ciphertext.c:ciphertext_decrypt_split"]}
{"id": "C49", "title": "An accepted message_4 confirms the session key", "statement": "With message_4 enabled, if the initiator's run function returns ok then PRK_out was written, the responder was authenticated, and message_4 decrypts under keys bound to the transcript including message_3; if the responder's returns ok, message_3 was verified and the message_4 it sent encrypts EAD_4 under these keys.", "quantifier": "all peers, messages and callbacks", "why_tests_cant": "Quantifies over all adversarial messages.", "anchors": ["src/edhoc/initiator.c:edhoc_initiator_run_extended", "src/edhoc/initiator.c:msg4_process", "src/edhoc/responder.c:msg4_gen"]}
{"id": "C50", "title": "A P-256 public key is accepted exactly when it is the x-coordinate of a curve point", "statement": "Decompressing a received P-256 key succeeds if and only if it has 32 bytes, the output has room for 65, and a point of the curve has that x-coordinate; the output is then the uncompressed encoding of such a point. The result depends neither on uninitialised memory nor on the multiplication routine chosen at compile time.", "quantifier": "all byte strings, output sizes, contents of uninitialised arrays and compiled-in multiplications", "why_tests_cant": "2^256 inputs; carries that occur with negligible probability; needs that p is prime for the square root to be found.", "anchors": ["src/common/crypto_p256.c:crypto_p256_uncompress_point", "src/common/crypto_p256.c:m256_mul", "src/common/crypto_p256.c:u32_muladd64"]}
{"id": "C51", "title": "The Diffie-Hellman secret does not depend on the y-coordinate that was not sent", "statement": "Only the x-coordinate of a P-256 key is exchanged. For every peer key on the curve, decompression succeeds and every scalar multiple of the decompressed point has the same x-coordinate as that multiple of the peer's own point.", "quantifier": "all points of the curve, all scalars", "why_tests_cant": "Quantifies over all keys; a wrong choice between the two roots shows up only with half of the keys.", "anchors": ["src/common/crypto_p256.c:crypto_p256_uncompress_point", "src/common/crypto_wrapper.c:shared_secret_derive"]}
{"id": "C52", "title": "Equal session keys mean the same session", "statement": "If an initiator and a responder return ok and their PRK_out (of at least 32 bytes) are equal, then the responder received exactly the message_1 the initiator sent, the initiator has the responder's G_Y and C_R, each looked up the identifier the other one sent, and the credentials found are the ends of the owners' ones; otherwise a hash or HMAC collision can be read off the two runs.", "quantifier": "all parties, configurations, credential lists and network behaviour, including active attackers", "why_tests_cant": "Quantifies over all pairs of runs with arbitrary messages injected by the network.", "anchors": ["src/edhoc/initiator.c:edhoc_initiator_run", "src/edhoc/responder.c:edhoc_responder_run_extended", "src/edhoc/th.c", "src/edhoc/okm.c"]}
{"id": "C53", "title": "A peer that authenticates with a signature took part in the session", "statement": "If a run returns ok and the peer's signature in the accepted message was made by the owner of the key for some session of theirs, then that session has the same message_1, ephemeral keys, identifiers and role as the own one (or a hash or HMAC collision is exhibited); and the only signatures a party makes are for its own session and role.", "quantifier": "all parties, configurations, credential lists, sessions of the signer and network behaviour", "why_tests_cant": "Quantifies over all pairs of sessions and active attackers (reflection, role confusion, replay).", "anchors": ["src/edhoc/signature_or_mac_msg.c", "src/edhoc/initiator.c", "src/edhoc/responder.c"]}
{"id": "C54", "title": "An application can go from the handshake to protected traffic", "statement": "Two parties whose configurations fit run EDHOC over a network that delivers, derive the OSCORE master secret and salt from PRK_out with the exporter and set up contexts with the connection identifiers as the sample programs do. From then on every sequence of CoAP request/response exchanges started by either side works: no call fails and each application receives byte for byte what the other one sent, until the sequence numbers run out; and the two sides never encrypt with the same key and nonce.", "quantifier": "all configurations that fit, all keys, identifiers and credentials, all sequences of exchanges of any length below 2^23 with any messages within the limits", "why_tests_cant": "Composition of both protocols over all handshakes and traffic histories; a test runs one handshake and a few messages. The failing case (equal identifiers) has probability below what a test meets.", "anchors": ["samples/linux_edhoc_oscore/initiator_client/src/main.cpp:main", "samples/linux_edhoc_oscore/responder_server/src/main.cpp:main", "inc/edhoc.h:edhoc_initiator_run", "inc/edhoc.h:edhoc_responder_run_extended", "inc/edhoc.h:edhoc_exporter", "inc/oscore.h:oscore_context_init", "inc/oscore.h:coap2oscore", "inc/oscore.h:oscore2coap"]}
{"id": "C55", "title": "Protecting a message within the limits succeeds", "statement": "A well-formed CoAP message within the documented limits (payload, path, options, buffer, token not in use, sequence numbers left) is protected with success exactly when removing the visible options does not make the header of an inner option longer; otherwise the call fails, changes nothing and writes nothing. While an Echo value is awaited, a message is protected only if it carries an Echo value not longer than the last one. Between two endpoints that share keys, all four calls of a request/response exchange succeed and deliver the messages.", "quantifier": "all reachable contexts, messages, payloads, tokens and buffers within the limits", "why_tests_cant": "Totality over all contexts reachable by any history and all messages; the failing option combinations depend on the numbers of neighbouring options.", "anchors": ["src/oscore/coap2oscore.c:coap2oscore", "src/oscore/coap2oscore.c:plaintext_setup", "src/oscore/coap2oscore.c:inner_outer_option_split", "src/oscore/oscore2coap.c:oscore2coap"]}
{"id": "C56", "title": "What is delivered was sent by the peer", "statement": "Two endpoints share a Master Secret and have distinct identifiers, and no AEAD ciphertext is forged. A request that one delivers was passed to coap2oscore by the other, with the same code, payload and protected options, and the Partial IV is the number it was sent with. A response that an endpoint delivers under the token of its outstanding request was passed to coap2oscore by the peer, after the peer had decrypted exactly that request, in a packet with the token of the response. An attacker who controls the network can neither mix up requests and responses nor pair a response with another request.", "quantifier": "all crypto providers, all contexts, all histories of calls on both sides, all packets an attacker delivers", "why_tests_cant": "Quantifies over everything an attacker may put together from the ciphertexts of both histories, in any order; tests replay a few manipulations.", "anchors": ["inc/oscore.h:coap2oscore", "inc/oscore.h:oscore2coap", "src/oscore/oscore2coap.c:decrypt_wrapper", "src/oscore/coap2oscore.c:encrypt_wrapper", "src/oscore/oscore_interactions.c:oscore_interactions_read_wrapper"]}
{"id": "C57", "title": "A received packet cannot make the receiver misbehave", "statement": "oscore2coap, called with any byte string as the packet and with an output buffer of reasonable size, never reads or writes outside of its objects, dereferences a null pointer or uses uninitialised memory, whatever the state of the context. For a sender without the key this holds for every packet; for the peer, for every content of the protected message.", "quantifier": "all crypto providers, all reachable contexts, all packets, all output buffers of more than 112 bytes", "why_tests_cant": "Quantifies over all packets, with every combination of lengths that contradict each other, and over all states of the receiver; fuzzing samples some of them and cannot forge valid tags.", "anchors": ["inc/oscore.h:oscore2coap", "src/oscore/oscore2coap.c:oscore_option_parser", "src/oscore/oscore2coap.c:decrypt_wrapper", "src/oscore/oscore_coap.c:options_deserialize", "src/oscore/nonce.c:create_nonce", "src/oscore/option.c:uri_path_create"]}
{"id": "C58", "title": "A received EDHOC message cannot make an endpoint misbehave", "statement": "edhoc_initiator_run and edhoc_responder_run, with sensible own values and correct callbacks, never read or write outside of their objects, dereference a null pointer or use uninitialised memory, whatever bytes the peer or an attacker sends as message_1, message_2 and message_3: a malformed or hostile message ends the protocol with an error.", "quantifier": "all crypto providers, buffer configurations, own credentials and trust stores, all environments, all byte strings received", "why_tests_cant": "Quantifies over all messages, including those encrypted with keys that only the attacker's side of the key exchange knows; a fuzzer does not get past the decryption, and test vectors are well-formed.", "anchors": ["inc/edhoc.h:edhoc_initiator_run", "inc/edhoc.h:edhoc_responder_run", "src/edhoc/plaintext_decode.c:plaintext_split", "src/edhoc/retrieve_cred.c:retrieve_cred", "src/edhoc/signature_or_mac_msg.c:signature_or_mac", "src/common/crypto_wrapper.c:shared_secret_derive"]}
{"id": "C59", "title": "With TinyCrypt, a P-256 key agreement gives the secret of a point of the curve", "statement": "shared_secret_derive with P256 in the build with TinyCrypt: for a public key that is the x-coordinate of a point of the curve, the result is the x-coordinate of the multiple of that point, the same as in the build with Mbed TLS; for every other byte string it is an error.", "quantifier": "all private keys, all public keys, all libraries that multiply correctly", "why_tests_cant": "The set of keys is astronomically large and test vectors contain only valid keys, with one y-coordinate.", "anchors": ["inc/common/crypto_wrapper.h:shared_secret_derive", "src/common/crypto_wrapper.c:uECC_decompress", "src/common/crypto_wrapper.c:mod_sqrt_default"]}
{"id": "C60", "title": "No key stays in the key store of the crypto library", "statement": "The functions of crypto_wrapper.h leave the key store of the PSA library as they found it: no key that they imported or generated remains after they return, on success and on every failure, and no key of the application is destroyed. A key remains only if its destruction is what failed, at most one for each call.", "quantifier": "all sequences of calls, all arguments, all patterns of failures of the library, all contents of the key store", "why_tests_cant": "Needs a failure injected at each of the library calls and every combination of them over a whole sequence of operations; a leak shows only when the store is full.", "anchors": ["inc/common/crypto_wrapper.h:aead", "inc/common/crypto_wrapper.h:sign", "inc/common/crypto_wrapper.h:verify", "inc/common/crypto_wrapper.h:hkdf_extract", "inc/common/crypto_wrapper.h:hkdf_expand", "inc/common/crypto_wrapper.h:shared_secret_derive", "inc/common/crypto_wrapper.h:ephemeral_dh_key_gen", "src/common/crypto_wrapper.c:TRY_EXPECT_PSA"]}
{"id": "C61", "title": "The crypto wrapper computes the standard operations", "statement": "With Mbed TLS, the functions of crypto_wrapper.h compute AES-CCM with the given tag length, ECDSA with SHA-256, Ed25519, HKDF of RFC 5869, SHA-256, P-256 ECDH from the x-coordinate and X25519 in terms of the primitives of the libraries. If the library fails for reasons of its own, an error is returned, never a wrong value; a signature is reported as valid only if it is. Decryption inverts encryption, signatures verify, and both sides of a key agreement get the same secret.", "quantifier": "all correct primitives, all keys, messages and lengths, all patterns of failures of the library", "why_tests_cant": "Equality of functions on unbounded inputs under any pattern of failures; known-answer tests cover a few inputs without failures.", "anchors": ["inc/common/crypto_wrapper.h:aead", "inc/common/crypto_wrapper.h:sign", "inc/common/crypto_wrapper.h:verify", "inc/common/crypto_wrapper.h:hkdf_extract", "inc/common/crypto_wrapper.h:hkdf_expand", "inc/common/crypto_wrapper.h:shared_secret_derive", "inc/common/crypto_wrapper.h:hash"]}
{"id": "C62", "title": "Generated ephemeral keys are usable and depend on the randomness given", "statement": "ephemeral_dh_key_gen with Mbed TLS: when it returns ok, a private key was written that comes from the library's generator (P256) or from the seed (X25519), together with its public key and the lengths of both; two parties get the same secret from such keys; arrays that are too short are rejected.", "quantifier": "all seeds, all random bytes, all array lengths, all patterns of failures of the library", "why_tests_cant": "Whether uninitialised memory reaches the key is invisible in the output, and the quality of a key cannot be seen in a sample.", "anchors": ["inc/common/crypto_wrapper.h:ephemeral_dh_key_gen", "src/common/crypto_wrapper.c:ephemeral_dh_key_gen"]}
{"id": "C63", "title": "Losses, notifications and packets of others do not disturb a session", "statement": "Two endpoints with matching contexts exchange requests, responses and Observe notifications over a network that may lose any packet and may deliver packets made by others without the key. No call of coap2oscore or oscore2coap for a genuine packet fails because of that, packets of others are rejected, and each application gets exactly the messages that were not lost, with their content and in order.", "quantifier": "all correct AEADs, all mirrored contexts, all sequences of events of any length (up to the last sequence number), all choices of lost packets, all injected packets", "why_tests_cant": "Every loss leaves the two endpoints with different sequence numbers and tables of outstanding requests; that no combination of losses blocks the session later is a statement about all histories.", "anchors": ["src/oscore/coap2oscore.c:coap2oscore", "src/oscore/oscore2coap.c:oscore2coap", "src/oscore/oscore_interactions.c:oscore_interactions_set_record", "src/oscore/replay_protection.c:server_is_sequence_number_in_replay_window"]}
{"id": "C64", "title": "What a handshake leaves in the caller's arrays", "statement": "edhoc_initiator_run(_extended) and edhoc_responder_run(_extended) change the PRK_out array and pass EAD_2/EAD_3 to the application only after the peer's message was verified, also in runs that fail later. When a run returns ok, the arrays for C_R, C_I and the initiator's public key show the verified values; a failed authentication leaves no claimed value in them. Lengths never exceed the memory of an array.", "quantifier": "all configurations, all parties, all received bytes, all results of the callbacks, all arrays with a correct length, all memory contents", "why_tests_cant": "Tests look at the outputs of runs that succeed. What a failing run has already written depends on the point of failure, of which there are dozens per role, and on bytes chosen by the attacker.", "anchors": ["src/edhoc/initiator.c:edhoc_initiator_run_extended", "src/edhoc/responder.c:edhoc_responder_run_extended", "src/edhoc/responder.c:msg3_process", "src/edhoc/plaintext_decode.c:plaintext2_split", "src/common/memcpy_s.c:_memcpy_s"]}
{"id": "C65", "title": "The TinyCrypt build computes what the Mbed TLS build computes", "statement": "With TinyCrypt, the crypto wrapper's encryption, decryption, signatures, key agreement, key generation and hash give the results of the Mbed TLS build for the key, nonce and tag lengths that the cipher suites use: either build decrypts, verifies and agrees with the other, and every theorem about OSCORE and EDHOC applies to both. Arguments of other lengths are refused, ephemeral keys are unpredictable, and an output tag is the tag of the ciphertext.", "quantifier": "all keys, nonces, messages, associated data and signatures of any length; all memory contents; all points of the curve", "why_tests_cant": "The test vectors run one build with inputs of the right length. That two libraries agree on all inputs, and what happens with lengths TinyCrypt takes for granted, is not observable from vectors.", "anchors": ["src/common/crypto_wrapper.c:aead", "src/common/crypto_wrapper.c:sign", "src/common/crypto_wrapper.c:verify", "src/common/crypto_wrapper.c:shared_secret_derive", "src/common/crypto_wrapper.c:ephemeral_dh_key_gen", "src/common/crypto_wrapper.c:hash"]}
{"id": "C66", "title": "Sessions survive restarts of the devices", "statement": "Two endpoints set up with matching parameters keep exchanging requests, responses and notifications although devices that store their sequence numbers restart at any time, packets get lost and others send packets. A restarted endpoint does not deliver the first request it gets but answers it with an Echo value; the request that repeats the value and everything after it are delivered. No call fails because of a restart, and every application gets exactly the messages it has to get. An endpoint that waits for an Echo value can still send requests of its own.", "quantifier": "all pairs of matching parameters and memory contents; all finite sequences of dialogues, notifications, injected packets and restarts of either device, any packets lost", "why_tests_cant": "The position of restarts, losses and challenges in a session is unbounded, and the outcome depends on stored numbers, the replay window, the interactions table and the Echo state of both endpoints together.", "anchors": ["src/oscore/oscore2coap.c:oscore2coap", "src/oscore/coap2oscore.c:coap2oscore", "src/oscore/security_context.c:oscore_context_init", "src/oscore/security_context.c:cache_echo_val", "src/oscore/nvm.c:ssn_init", "src/oscore/nvm.c:ssn_store_in_nvm"]}
{"id": "C67", "title": "Identifiers of all permitted lengths work", "statement": "Every Sender and Recipient ID that RFC 8613 permits for the algorithm (0 to 7 bytes) and that context initialisation accepts can be used for the whole life of the context: requests are protected, and authentic requests of a peer are accepted, whatever the length of ID and Partial IV.", "quantifier": "all reachable contexts, ID lengths, sequence numbers, requests, packets and continuations of the session", "why_tests_cant": "The tests use IDs of at most a few bytes and small sequence numbers; with a 6-byte ID the first 256 requests work and all later ones fail.", "anchors": ["src/oscore/oscore_cose.c:oscore_cose_encrypt", "src/oscore/oscore_cose.c:oscore_cose_decrypt", "src/oscore/aad.c:create_aad", "src/oscore/coap2oscore.c:coap2oscore", "src/oscore/oscore2coap.c:oscore2coap", "inc/oscore/oscore_coap_defines.h:MAX_AAD_LEN"]}
{"id": "C68", "title": "Two sides and different sessions never share key and nonce", "statement": "The two endpoints of a session with different IDs encrypt with different keys, and contexts set up with different master secrets, salts, ID contexts or Sender IDs do too, at all times of their lives. Hence, when each side follows the discipline under which its own nonces are unique, no pair of AEAD key and nonce occurs twice in everything the two sides encrypt, also after an EDHOC handshake with different connection identifiers.", "quantifier": "all parameters, histories of API calls of both sides (in any interleaving) and handshakes; HMAC collisions are exhibited explicitly", "why_tests_cant": "Reuse of key and nonce across two endpoints is a statement about pairs of unbounded histories; tests look at one endpoint and a handful of messages.", "anchors": ["src/oscore/security_context.c:derive", "src/oscore/security_context.c:oscore_context_init", "src/oscore/oscore_hkdf_info.c:oscore_create_hkdf_info", "src/common/crypto_wrapper.c:hkdf_sha_256", "src/oscore/nonce.c:create_nonce", "src/oscore/coap2oscore.c:coap2oscore"]}
{"id": "C69", "title": "Contexts keep working whatever the application does with its memory", "statement": "After oscore_context_init has returned, a context behaves as the parameters of that moment determine, even if the application erases or reuses the arrays it passed, initialises and uses further contexts, or moves the context structure; and the contexts of one device, whose sequence numbers are kept in non-volatile memory, do not disturb each other over restarts.", "quantifier": "all histories of initialisations, API calls, writes to arrays, structure assignments and restarts, for any number of contexts", "why_tests_cant": "The tests keep all arrays alive and unchanged and use one context per structure; which pointers survive the initialisation shows only in longer histories.", "anchors": ["src/oscore/security_context.c:oscore_context_init", "inc/oscore/security_context.h:struct context", "inc/oscore/nvm.h:struct nvm_key_t", "src/oscore/coap2oscore.c:generate_new_ssn", "src/oscore/nvm.c:ssn_init"]}
{"id": "C70", "title": "Certificates of the CA are accepted", "statement": "If the peer sends, by value, an X.509 certificate for a P-256 key that the configured CA has signed with ECDSA and SHA-256, the certificate is accepted and the key in it is the one used to authenticate the peer; if the signature is not the CA's, the certificate is refused. This does not depend on names, validity, extensions, the size of the certificate or the value of the signature.", "quantifier": "all certificates of version 3 below 4 GiB with any content, all signatures, all lists of CAs (with Mbed TLS), both builds", "why_tests_cant": "The tests use a few fixed certificates; one signature in 128 has a different encoding, and the encodings of lengths change with the sizes.", "anchors": ["src/edhoc/cert.c:cert_x509_verify", "src/edhoc/cert.c:mbedtls_asn1_get_len", "src/edhoc/cert.c:deser_sign_cb", "src/edhoc/cert.c:ca_pk_get", "src/edhoc/retrieve_cred.c:verify_cert2cred"]}
{"id": "C71", "title": "EAD reaches the application, which decides about it", "statement": "The external authorization data (EAD_1 to EAD_4) that an honest peer puts into the EDHOC messages is handed to the application of the other side as it was given to the library. The application is asked before the next message is sent; if it refuses, the run ends with its error, no further message is sent and no key is output; if the run ends with ok, the application accepted the EAD of every message.", "quantifier": "all runs of the four run functions with any callbacks and any received messages; for delivery, all pairs of parties that agree without EAD, all methods, suites and credentials, and all EADs", "why_tests_cant": "Tests use the EADs of a few test vectors, mostly empty, and callbacks that always accept.", "anchors": ["src/edhoc/initiator.c:edhoc_initiator_run_extended", "src/edhoc/responder.c:edhoc_responder_run_extended", "src/edhoc/responder.c:msg1_parse", "src/edhoc/plaintext_decode.c:plaintext2_split", "src/edhoc/plaintext_decode.c:plaintext3_split", "src/edhoc/signature_or_mac_msg.c:mac", "src/edhoc/ciphertext.c:ciphertext_decrypt_split"]}
{"id": "C72", "title": "Interoperability with other implementations of RFC 8613", "statement": "Everything coap2oscore outputs is a message protected as RFC 8613 describes (outer code, options outside and inside, OSCORE option, nonce and additional data), so that any conforming peer can open it. Conversely, every request that a conforming client sends is delivered byte for byte by oscore2coap, and so is every response and notification that a conforming server sends to a request of this endpoint, in all the forms that the RFC allows: with or without Partial IV, with or without kid.", "quantifier": "all reachable contexts, all supported CoAP messages, all OSCORE options that the RFC allows and all encodings of the peer; the peer is described by the RFC, not by this implementation", "why_tests_cant": "Unit tests let the implementation talk to itself or to the few test vectors of the RFC; a deviation that both sides of the same code share is invisible to them.", "anchors": ["src/oscore/coap2oscore.c:coap2oscore", "src/oscore/oscore2coap.c:oscore2coap", "src/oscore/oscore2coap.c:decrypt_wrapper", "src/oscore/option.c", "src/oscore/nonce.c:create_nonce"]}
{"id": "C73", "title": "Interoperability with other implementations of RFC 9528", "statement": "edhoc_initiator_run and edhoc_responder_run complete a session with every peer that follows RFC 9528, whatever credential identifiers (kid, x5chain, x5t), connection identifiers and External Authorization Data the RFC allows it to choose: the messages sent are those of the RFC, the right messages of the peer are accepted, and the key exported is PRK_out of the RFC. A critical EAD item that is not understood ends the session.", "quantifier": "all sessions of RFC 9528 with one of the four methods and a supported suite that fit into the arrays; all identifiers, connection identifiers, EAD items, credentials and keys; the peer is described by the RFC, not by this implementation", "why_tests_cant": "Tests run the two roles of the same implementation against each other or against recorded test vectors with fixed identifiers; a deviation that both roles share, or that only shows with another form of identifier, cannot be seen there.", "anchors": ["src/edhoc/initiator.c:edhoc_initiator_run", "src/edhoc/responder.c:edhoc_responder_run", "src/edhoc/signature_or_mac_msg.c:mac", "src/edhoc/plaintext_encode.c:id_cred2kid", "src/edhoc/plaintext_decode.c", "src/edhoc/ciphertext.c:ciphertext_gen", "src/edhoc/retrieve_cred.c"]}
{"id": "C74", "title": "The standard algorithms meet the assumptions, and the published vectors come out", "statement": "With AES-CCM, SHA-256 and HMAC-SHA-256 as the standards define them, everything the other properties assume of symmetric cryptography holds: decryption inverts encryption, accepts nothing else, encryption never fails below 64 KiB, and outputs have the stated lengths. With these algorithms oscore_context_init, coap2oscore and oscore2coap compute the keys and packets published in appendix C of RFC 8613, and edhoc_initiator_run and edhoc_responder_run the messages and PRK_out of trace 1 of RFC 9529.", "quantifier": "all keys, nonces, associated data, tag lengths, plaintexts and ciphertexts; every choice of asymmetric algorithms", "why_tests_cant": "A test compares a few outputs of the linked library with published ones; it neither shows that decryption accepts only what encryption made, nor that assumptions made in reasoning about all messages can be met at all.", "anchors": ["src/common/crypto_wrapper.c:aead", "src/common/crypto_wrapper.c:hkdf_extract", "src/common/crypto_wrapper.c:hkdf_expand", "src/common/crypto_wrapper.c:hash", "src/oscore/oscore_hkdf_info.c", "test_vectors/oscore_test_vectors.c"]}
{"id": "C75", "title": "Contexts in different threads do not disturb each other", "statement": "Calls of coap2oscore on different contexts may run at the same time: each sends the message, and uses the sequence number and nonce, that it would if it ran alone.", "quantifier": "all numbers of concurrent calls, contexts, sequence numbers and schedules of the steps of the conversion of the sequence number", "why_tests_cant": "The result depends on the interleaving of single steps of calls in different threads; a test sees a few schedules, and the failing ones last a few instructions.", "anchors": ["src/oscore/security_context.c:ssn2piv", "src/oscore/coap2oscore.c:coap2oscore"]}
