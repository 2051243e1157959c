# uoscore-uedhoc: formal model and proofs — design

Subject: `eriptic/uoscore-uedhoc` (C, in /repo, unchanged, not built, not run).
Tool: Coq 8.16.1, standard library only. Sources in `rocq/theories`.

## 1. Layout

| prefix | content |
|---|---|
| `Base.v` | error codes, result type with undefined behaviour, machine-integer and byte helpers |
| `Model_*.v` | executable Gallina functions, one per C function, each citing file and lines; no proofs |
| `Spec_*.v` | small independent specifications used by property statements |
| `Proof_*.v` | lemmas |
| `Prop_*.v` | the property theorems only: statement, `exact lemma`, `Print Assumptions`, and an `Example` showing the hypotheses are met |

## 2. How C is represented

* A byte and every machine integer is an `N`; a byte string is `list N`. Wrap-around is written
  explicitly (`mod 2^8`, `2^16`, `2^32`, `2^64`); 32-bit subtraction is `(a + 2^32 - b) mod 2^32`.
* Every function returns `res A := Ok a | Err e | UB u`. `Err` carries the C error code. `UB` is
  undefined behaviour (read/write outside an object, null dereference, use of an uninitialised
  object); it is a distinct outcome, never assumed away. Functions that mutate a context return the
  context *and* the result, so "what is left behind after an error" is visible.
* A pointer+length pair becomes the list it designates. A `NULL` pointer with length 0 is the empty
  list. Caller-supplied `byte_array`s with a non-null length and a null pointer are excluded.
  Forming a view `ptr,len` that leaves the object is reported as `UB` at the point where the view
  is formed (C11 6.5.6p8), even if the code only reads it later.
* Output buffers are a capacity plus the produced list.
* Loops are structural recursion on lists or on explicit fuel; out-of-fuel is a separate outcome and
  is proved unreachable where it is used.
* Cryptography (`aead`, `hkdf` on top of an abstract HMAC, hash, DH, sign/verify, key generation) is a record of functions passed
  to the model. Theorems that need it take explicit hypotheses (AEAD correctness, DH commutativity,
  signature correctness). A concrete toy instance inhabits the hypotheses, and so do AES-CCM, SHA-256 and HMAC (C74).
* zcbor primitives (head encoding, bstr, tstr, int32, uint32, list headers) are modelled from their
  documented behaviour (canonical definite-length encoder; decoder accepting any definite head
  width); zcbor itself is not in /repo.
* User callbacks (`tx`, `rx`, `ead_process`, `nvm_read/write_ssn`) are oracle arguments.

## 3. Configuration modelled

OSCORE: `OSCORE_MAX_PLAINTEXT_LEN=1024`, `E_/I_OPTIONS_BUFF_MAX_LEN=100`, `OSCORE_NVM_SUPPORT`
(`makefile_config.mk`).
EDHOC: every size of `inc/edhoc/buffer_sizes.h` is a field of the record `cfg` and the theorems hold
for every configuration unless they name one; `default_cfg` are the defaults of the header.
The run functions are modelled twice, without and with `MESSAGE_4`.
No `VLA`, no debug printing. `BYTE_ARRAY_NEW(x,BUF,SIZE)` is the non-VLA variant: it fails with
`buffer_to_small` if `SIZE>BUF` and gives a null array if `SIZE==0`.

## 4. Plan per property

C01–C03 model `replay_protection.c` on a list of 32 numbers; refinement to "accept n iff n was never
accepted and fewer than 32 larger numbers were accepted", then induction over histories.
C04 the oscore2coap model; `window_update` is called with the first PIV byte only
(`oscore2coap.c:420`): *refuted* for all PIVs >= 256 (Prop_Replayed.v), proved below. The unprotected outer code selects the
branch with or without replay protection (`oscore2coap.c:366`), and a request leaves the table entry that the branch
for responses looks up: C04 and C25 are refuted for packets whose outer code was changed (Prop_OuterCode.v).
C05 invariant over histories of the client side; *refuted* for packets without their outer Observe option, for all keys,
contexts and notifications, with the parser of options as a function of the rest of the packet (Prop_Stripped.v).
C06 arithmetic on big-endian digit lists.
C07 byte-wise XOR cancellation and positional decoding; UB for 8-byte IDs (refuted), partial <= 7.
C08 invariant over operation histories of a context; plain responses reuse the request nonce (expected
refuted in general), partial for all messages that carry a fresh PIV.
C09 crash model: volatile SSN + stored SSN, steps send/sync/crash; induction over traces.
C10 direct case analysis over the whole-function models.
C11–C14 `oscore_coap.c` function by function; round trip by induction on the option list; exact conditions in both
directions for reading a message as it is meant (Prop_CoapExact.v) and for leaving the packet (Prop_Cut.v).
C15 codec round trip by case analysis on presence and lengths.
C16, C17 induction on option lists; the exchange sort is modelled pass by pass.
C18, C19, C20, C21, C22, C25, C26, C27, C44 whole-function models of coap2oscore and oscore2coap with
abstract AEAD and a full context record.
C23, C24 model of `oscore_interactions.c` as a 3-slot (any-size) table; invariant by induction on operations.
C28, C29, C33, C40, C41 CBOR encoder model; prefix-freeness of canonical heads gives injectivity.
C30 context initialisation with abstract HKDF.
C31, C32 finite tables lifted to all labels; list membership (C32 expected refuted: missing braces).
C34, C35, C38, C36, C37, C47 EDHOC messages, key schedule and run functions with abstract crypto and
oracles for callbacks.
C48, C49 the same with `MESSAGE_4`; the 8 bytes left for the tag in the ciphertext buffer are expected to
refute C48 for 16-byte tags, and the unchecked result of the message_3 generation to refute part of C49.
C39, C46 credential arrays as lists; the crude ASN.1 walk (build without Mbed TLS) and the C509 decoder are
modelled byte by byte, parsing by Mbed TLS is an oracle. The comparison of issuer and CA name runs over the length of the CA name, so
the model keeps the bytes of the certificate that follow the issuer (`x_issuer_rest`).
C42, C43 list models with explicit capacity.
C50, C51 limbs as lists of 32-bit words, Montgomery multiplication by induction on the limbs, p proved prime with
Pocklington certificates, so that the exponentiation finds every square root.
C45 hkdf_expand block loop with abstract HMAC.
C52, C53 runs of the two parties with arbitrary callbacks (the network is the attacker). What a party read and
sent is a `view` (Spec_EdhocView.v), determined by the bytes received and sent; equal keys make the views equal
or exhibit a collision of hash or HMAC, by injectivity of every hashed and signed string. Unforgeability is not
an assumption but a premise on the one signature in question: the owner of the key made it for some text.
C54 composition: C37 gives both sides the same PRK_out and each other's identifier, C41 and C30 the mirrored
contexts, and `linked` (Proof_Net.v) with empty tables is an invariant of pairs of contexts under which every exchange succeeds and
which every exchange preserves (induction over the list of exchanges). Equal identifiers refute the last clause.
C55 totality of coap2oscore, field by field; the only obstacle left within the limits is `growth` (Spec_Protect.v),
the bytes by which the inner options get longer when the class-U options between them are removed. Composed with
C19 for a whole exchange in which no call is assumed to succeed. Prop_Lost.v drops the limit that ties
the number of class-U options to the payload: `squeezed_out` is then a second case of success, and in it the peer
gets the message without its payload.
C56 two histories, one per endpoint; that the AEAD is not forged is a premise on the received ciphertexts (`unforged`,
Spec_Channel.v: what the recipient's decryption accepts was encrypted with that nonce and AAD by a call of the peer).
Table entries are traced back through the history (`entry_ind`) to the request sent or received with them, the AAD is
injective in KID and Partial IV, and one number belongs to one request.
C57 the premise `packet` (Spec_Safe.v) reads a byte string from the left without the model's parser and allows reserved fields, cut
headers and any number of options; `osc_value` does the same for the OSCORE option. What the theorem excludes is what the
`_refuted` theorems of C57 reach, besides misread lengths (C13) and small output buffers (C14). Prop_Peer.v states the ones
for authentic messages in general: for all keys and contexts, a request or response whose plaintext is empty, has more than ten options, ends inside
of an option (Spec_Cut.v) or has, with the Uri-Path options around it, a path of exactly 30 bytes, and a request without a Partial IV.
C25 and C09 have their counterexamples in general in Prop_Stale.v (whatever the Echo buffer held before initialisation is as good as a
challenge) and Prop_NvmReuse.v (a memory that lags 20 behind means a nonce twice); the ones with literals stay as examples. So have C63 (Prop_Pending.v:
the nonce of the latest request decrypts the response to an earlier one) and C69 (Prop_Shared.v, `uses`: what a call for a structure encrypts with).

C58 is the same for EDHOC, for a whole run of either party: `correct_callbacks`, `usable_cfg`, `set_up_*` (Spec_EdhocUb.v) say what the
application must provide, nothing is assumed about the bytes received. If the run ends in undefined behaviour, then message_1 had a
short G_X with an X25519 suite, or the plaintext of message_2/3 (which the theorem gives in terms of RFC 9528 keys) is `harmful`: the
list there is closed, and each entry that depends on the message is reached by a `_refuted` theorem for all parties, keys and cryptography (Prop_EdhocUb.v,
Prop_EdhocBadId.v; the fields behind the identifier in message_2, certificates cut off behind a tag or length). The entries for certificates are
given by the certificate verification of the model (C44 says more about it). One of them is a Signature_or_MAC field
of more than 32 bytes where a static DH key is expected: the comparison runs over the received length, past the end of the 32-byte
buffer of the MAC (`C58_long_mac_refuted`). Another one is a peer key of less than 32 bytes (`C58_short_signature_refuted`, `C58_short_static_key_2_refuted`). Prop_EdhocUb4.v is the build with MESSAGE_4: no message_4 harms the initiator (`C58_initiator_4_partial`), the responder only has the overrun of C48 in addition (`C58_responder_4_partial`), and every counterexample carries over (`C58_both_builds`). Prop_EdhocField3.v has the same for message_3 (`answers_3`, `C58_short_signature_3_refuted`, `C58_long_mac_3_refuted`, `C58_extended_mac_3_refuted`, `C58_short_static_key_3_refuted`); what the sender of such a message_3 does is `sends_message_3` (Spec_EdhocUb.v), and `sends_computed` shows that it can be done in every session in which the responder answers. The same file has `C36_short_mac_3_refuted` and `C36_forged_message_3_refuted`: a beginning of MAC_3, also the empty one, passes for it.

C59 the library multiplies whatever pair of coordinates it gets (`multiplies`, Spec_Uecc.v); the square root of crypto_wrapper.c
is not checked, so every x is accepted (*refuted*, with a pair of coordinates of order 5).
C60–C62 the PSA library as a key store, functions on byte strings (`prims`) and a list that says of each call whether it fails for
reasons of its own. C60 is an invariant of every function and then of every list of calls. C61 compares each function with the record
`crypto` that all other theorems are about (`mbed_crypto`, Spec_Wrapper.v) and derives `crypto_ok` from the assumptions on the
primitives (`prims_ok`), which are inhabited by an instance with the generator of P-256 and its double as public keys. C62 is
*refuted* for X25519 (the key comes from uninitialised memory) and for array lengths.
C63 two contexts and a list of events (exchanges, notifications, packets of others), each packet lost or not. `plan` (Spec_Net.v) says
what must be delivered without looking at the contexts; the invariant `calm` (Proof_Loss.v) is `linked` in both directions, all
entries of both tables belong to one of the at most three resources, and a live observation has matching entries on both sides.
More than three resources are *refuted*: entries of unanswered requests are never given up.
C64 Model_EdhocOut.v repeats the runs with the arrays of the caller as memory plus length. PRK_out and EAD_2/EAD_3 only after
verification is proved for every run, also failing ones; C_R and the initiator's key are written before (*refuted*), and a too short
array for the key gets a length beyond its end, which the next run overflows (*refuted*; Prop_EdhocLeft.v, for all parties).
C65 TinyCrypt's P-256 functions are a second record (`tiny`), related to `prims` by `tiny_ok` (Spec_Tiny.v); AES-CCM and SHA-256 are
the functions of `prims`, behind TinyCrypt's conditions on lengths. C65_assumptions gives `crypto_ok` for this build. That no point of
P-256 has y = 0 is proved (Proof_P256Odd.v), so C59 and C65 have no such hypothesis. C65_refused: which lengths TinyCrypt refuses.
Prop_EdhocMsg1Limits.v (C34, C47, C73) says exactly when message_1 can be written, and which suites and sizes end in overflow.
C66 the network of C63 with memories, restarts and servers that challenge (Model_Reboot.v). `course` (Spec_Reboot.v) says per device only
whether it has just restarted, has asked for an Echo value or is in step, and what must be delivered. The invariant `quiet`
(Proof_Reboot.v) is `tied` in both directions plus, per device: the context is what the parameters give, and the stored number is
less than 20 above the next one (a restart adds 20, hence `price`). *Refuted* for what a waiting device sends: without an Echo option
nothing can be protected, so two devices whose first requests cross are stuck.
C67 the COSE Enc_structure buffer has 30 bytes, which is enough only for 7 bytes of request_kid and request_piv together. IDs of at
most 4 bytes always work; longer ones are *refuted* for every context, message and continuation, on the sending and receiving side.
This is why C54, C63 and C66 require 4 bytes.
C68 the sender key is the first 16 bytes of one HMAC, so equal keys mean equal arguments (C29, injectivity of the info) or a collision,
which is stated with its inputs (`key_collision`), not merely as existing. Together with C08 for each side this gives uniqueness of
(key, nonce) over both sides; the restrictions are those of C08.

C69 Model_Store.v makes the pointers of struct context explicit (arrays of the application, buffers inside structures, structures that
can be assigned) and runs the functions of Model_Run.v on the bytes behind them. The frame argument is that what a call writes lies
in places no other structure points to. `solo` (Spec_Store.v) is a device with one context; with `careful` it is a lifetime of C09.
Expected and *refuted*: Sender ID and ID context stay pointers into the caller's arrays, also as key of the non-volatile memory;
structures moved down in an array take the keys of their new neighbour.

C70 Spec_CertDer.v writes certificates as X.690 and RFC 5280 do (`certificate`, `der_uint`); the theorems run `retrieve_cred` on them.
For Mbed TLS the parser is an oracle; the INTEGERs of the signature are given with the bytes in front of them (`x_sig_ints`), because
deserialise takes the last 32 bytes up to the end of the content, wherever the content begins. *Refuted* for signatures with a leading
zero byte in r or s, in both builds.

C71 `decided` (Spec_EdhocEad.v) describes the order of questions to the application and messages for all four run functions at once.
Delivery: EAD_1 arrives. EAD_2 and EAD_3 are authenticated as they are given, but checked as the content of the byte string they
begin with; the theorems take two parties that `fit` (C37) apart from EAD_2 and EAD_3 and show what must coincide (`confused`, with
explicit texts) for the receiver to hand something over. EAD_4 is limited to the length of the EAD_2 received. So of four EADs three
are *refuted*, as are the absent EAD_1 and the key after a refusal.

C72 `rfc_protected` (Spec_Interop.v) says which packets are a protected form of a message, written from RFC 8613 alone. What
coap2oscore outputs is one of them; every request that is one of them is delivered, and the answer is one again. For responses the
server's kid is needed (*refuted* for the usual form, Partial IV without kid, when the server's identifier is not empty), the first
notification needs a Partial IV, and a response without one is opened only if it answers the request sent last.

C73 `talk` (Spec_EdhocInterop.v) is a session of RFC 9528 with the identifiers, C_R and EAD items that the RFC allows; the peer
is anyone who knows a key with which the fields of its messages are right. With certificates (x5chain, x5t), a C_R that is a byte
string, and no EAD_2 and EAD_3, both roles complete the session. Everything else is *refuted*: a kid of the RFC is a byte string, but
the code authenticates an integer (or reads an uninitialised value); C_R enters MAC_2 as a byte string always, and not at all if
it is empty; EAD items are skipped in message_1, critical ones included, and make the other messages fail. Where failure is not
certain the theorems name the two texts whose MACs or signatures would have to coincide (`mixed_up`).
`Params l` is any other header map as ID_CRED (Proof_EdhocParams.v: the decoder on the encoding of an arbitrary CBOR map): the code
keeps at most one x5chain or x5t parameter, so C509 certificates, URIs, bags, chains of several certificates are never accepted,
and a map with further parameters is authenticated as a different, smaller map.

C74 Spec_Standard.v writes SHA-256, HMAC, AES-128 and CCM from FIPS 180-4, RFC 2104, FIPS 197 and RFC 3610, as functions that can be
run. `standard cr` puts them in the place of the symmetric part of a record `crypto`; it satisfies `crypto_ok` and `aead_total`, so
no theorem assumes anything of the symmetric algorithms that AES-CCM and SHA-256 do not have. Running the model with them gives the
values of RFC 8613, appendix C, and of RFC 9529, trace 1 (Prop_Trace.v; there the shared secret and the two signatures are given,
with the texts signed), which are also the vectors of the repository's own tests. This is the one check of the model against
values that come from elsewhere.
C75 Model_Threads.v splits `ssn2piv` into steps that share its static array. An invariant over all schedules gives what every
call gets (each byte from the number of one of the calls); an explicit schedule gives a call the number of the other, hence a
message that belongs to that number and, one call later, the same key and nonce for two plaintexts.

Nothing in the list is left out as inexpressible. Not expressible at all and therefore not in the
list: timing side channels (non-constant-time `memcmp`), secrecy of keys against a computational
attacker.

## 5. Trusted base

* Coq 8.16.1: kernel, including the VM (`vm_compute` is used in examples and witnesses), and the standard
  library. No plugin beyond those of the distribution.
* `Print Assumptions` follows every theorem of the `Prop_*` files. Each prints "Closed under the global
  context": no theorem uses an axiom, of the standard library or otherwise. (Loading the library makes
  the seven parameters of `Coq.ssr.ssrunder.Under_rel` exist; no theorem uses them.)
* Hypotheses on cryptography are premises of the theorems that need them, never axioms:
  `crypto_ok` (Model_Crypto.v: lengths and byte range of the outputs, decryption inverts encryption,
  commutativity of DH, signatures verify under the matching key), `aead_total` (Spec_EdhocRun.v: AES-CCM
  encrypts every byte string below 64 KiB). `cr_pub` stands for key generation outside the library. Both are inhabited:
  `toy_ok`, `toy_total`; for the symmetric part also by the standard algorithms (C74).
* The reading of the C text and the choices of section 2. Not checked against a compiled binary.

## 6. What is modelled

| part of /repo | model |
|---|---|
| `src/common/memcpy_s.c`, `byte_array.c` | Model_Common.v |
| `samples/linux_edhoc_oscore/*/src/main.cpp`: from PRK_out to the contexts and the loop of exchanges, with a network that delivers (CoAP library calls, sockets and the test vectors are not modelled) | Model_App.v; with a network that loses packets and injects others, and Observe notifications: Model_Net.v; with restarts, stored numbers and Echo challenges (also `samples/linux_oscore/server`): Model_Reboot.v |
| `src/common/crypto_p256.c` (all four multiplications that the preprocessor may choose) | Model_P256.v |
| `src/common/crypto_wrapper.c` | with Mbed TLS: all functions, Model_Wrapper.v; with TinyCrypt: HKDF in Model_Crypto.v, decompression and ECDH in Model_Uecc.v, the rest in Model_Tiny.v. The other parts of the model use the record `crypto` (Model_Crypto.v), which C61 relates to Model_Wrapper.v and C65 to Model_Tiny.v |
| `src/cbor/oscore_*.c` | Model_OscorePrims.v on top of Model_Cbor.v |
| `src/cbor/edhoc_*.c` | Model_EdhocCbor.v on top of Model_Cbor.v |
| `src/oscore/nonce.c aad.c oscore_cose.c oscore_hkdf_info.c` | Model_OscorePrims.v |
| `src/oscore/oscore_coap.c option.c` | Model_Coap.v |
| `src/oscore/replay_protection.c` | Model_Replay.v, Model_Recv.v |
| `src/oscore/oscore_interactions.c` | Model_Interactions.v |
| `src/oscore/security_context.c nvm.c` | Model_Context.v; `ssn2piv` in several threads: Model_Threads.v |
| `src/oscore/coap2oscore.c` | Model_Send.v |
| `src/oscore/oscore2coap.c` | Model_Recv.v |
| `inc/edhoc/buffer_sizes.h`, `src/edhoc/suites.c edhoc_method_type.c` | Model_EdhocCfg.v |
| `src/edhoc/hkdf_info.c okm.c prk.c th.c edhoc_exporter.c` | Model_EdhocKeys.v |
| `src/edhoc/bstr_encode_decode.c int_encode_decode.c edhoc_cose.c associated_data_encode.c` | Model_EdhocCbor.v |
| `src/edhoc/cert.c retrieve_cred.c` | Model_EdhocCert.v |
| `src/edhoc/plaintext_*.c ciphertext.c signature_or_mac_msg.c` | Model_EdhocMsg.v |
| `src/edhoc/initiator.c responder.c runtime_context.c` | Model_EdhocRun.v; what is in the arrays of the caller after each kind of exit: Model_EdhocOut.v |
| the parts of `initiator.c responder.c ciphertext.c` compiled with `MESSAGE_4` | Model_EdhocMsg4.v |

Model_Run.v (histories of API calls on one context), Model_Store.v (several contexts in the memory of one device, with the pointers of struct context), Spec_Nvm.v (several boots with crashes) and the
callbacks record `env` of Model_EdhocRun.v are the environment; they model the caller.

## 7. What is not modelled, and simplifications

* zcbor, Mbed TLS, TinyCrypt, compact25519 (not in /repo): zcbor by Model_Cbor.v, X.509 parsing of Mbed TLS as the
  oracle `pf_x509_parse`, cryptographic primitives as the record `crypto`.
* The PSA functions follow the PSA Crypto API as far as crypto_wrapper.c depends on it: key policies, key sizes, buffer sizes. That
  psa_hash_compute works before psa_crypto_init is assumed. The mock of `EDHOC_MOCK_CRYPTO_WRAPPER` is not modelled.
  TinyCrypt's own checks of lengths (tc_ccm_config, the limits of CCM) are those of its headers and sources as published; which
  lengths it takes for granted is in Model_Tiny.v. Pointers passed to it are not NULL.
* zcbor may have written part of the output buffer when an encoder fails; the model keeps the old content. This is
  visible only in message_3 after a failed generation, which is sent although generating it failed.
* Sums of lengths in EDHOC are not reduced modulo 2^32 (all objects together are smaller than 4 GiB);
  subtractions are.
* Debug printing (`PRINT_*`), unit-test hooks, the samples (except the part in Model_App.v, Model_Net.v and Model_Reboot.v), Zephyr glue, the test suite, `scripts`.
* Timing, secrecy in the computational sense. Concurrency except for the one array in `src` with static storage
  duration, the digits of `ssn2piv` (Model_Threads.v: every access is one step, in program order, and the calls share
  nothing else); PSA in several threads.
* `print_util.c`; the generated encoders `edhoc_encode_data_2.c` and `edhoc_encode_message_error.c`, which nothing
  calls. Constant running time of `crypto_p256.c`.
* Randomness (ephemeral keys, the Echo value) comes from the caller and is an argument.
