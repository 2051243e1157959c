(** Properties C06, C07, C28, C29, C33, C43, C45: building blocks. *)
From Verif Require Import Base Model_Common Model_Cbor Proof_Cbor Model_Crypto Spec_Hkdf Proof_Hkdf
  Model_OscorePrims Spec_OscorePrims Proof_OscorePrims Spec_CborTree Proof_CborTree
  Model_Toy Proof_Toy.

(** ** C06 *)

(** Every number of at most 40 bits is encoded, on 1 to 5 bytes, as its minimal
    big-endian form, and decoded back. *)
Theorem C06_piv_of_ssn :
  forall n : N, n < 2 ^ 40 ->
  exists p, ssn2piv n = Ok p /\ minimal_be n p /\ lenN p <= 5 /\ piv2ssn p = Ok n.
Proof.
  exact (fun n H => match ssn2piv_spec n H with
    | ex_intro _ p (conj E (conj M L)) =>
        ex_intro _ p (conj E (conj M (conj L (ssn_piv_round_trip n p E)))) end).
Qed.
Print Assumptions C06_piv_of_ssn.

(** Conversely every minimal byte string of at most 5 bytes is the encoding of
    its value. *)
Theorem C06_ssn_of_piv :
  forall (n : N) (p : bytes), minimal_be n p -> lenN p <= 5 ->
  piv2ssn p = Ok n /\ ssn2piv n = Ok p.
Proof. exact (fun n p => piv_ssn_round_trip p n). Qed.
Print Assumptions C06_ssn_of_piv.

(** Non-minimal strings decode to their value too; longer strings and larger
    numbers are refused. *)
Theorem C06_decode_any :
  forall p : bytes, is_bytes p -> lenN p <= 5 -> piv2ssn p = Ok (be_val p).
Proof. exact piv2ssn_spec. Qed.
Print Assumptions C06_decode_any.

Theorem C06_refuses :
  (forall n : N, 2 ^ 40 <= n -> ssn2piv n = Err wrong_parameter) /\
  (forall p : bytes, 5 < lenN p -> piv2ssn p = Err wrong_parameter).
Proof. exact (conj ssn2piv_large piv2ssn_long). Qed.
Print Assumptions C06_refuses.

Example C06_example :
  ssn2piv 0 = Ok [0] /\ ssn2piv 255 = Ok [255] /\ ssn2piv 256 = Ok [1; 0] /\
  ssn2piv (2 ^ 40 - 1) = Ok [255; 255; 255; 255; 255] /\ ssn2piv (2 ^ 40) = Err wrong_parameter /\
  piv2ssn [0; 1; 2] = Ok 258.
Proof. vm_compute. repeat split. Qed.

(** ** C07 *)

(** The nonce is the one of RFC 8613 section 5.2 for IDs of at most 7 bytes. *)
Theorem C07_nonce_is_rfc :
  forall id piv iv : bytes, lenN id <= 7 -> lenN piv <= 5 -> lenN iv = 13 ->
  create_nonce id piv iv = Ok (rfc_nonce id piv iv).
Proof. exact create_nonce_spec. Qed.
Print Assumptions C07_nonce_is_rfc.

(** Two computed nonces are equal only for equal IDs and equal sequence numbers. *)
Theorem C07_nonce_injective :
  forall id1 piv1 id2 piv2 iv n : bytes, lenN iv = 13 ->
  create_nonce id1 piv1 iv = Ok n -> create_nonce id2 piv2 iv = Ok n ->
  id1 = id2 /\ be_val piv1 = be_val piv2.
Proof. exact create_nonce_inj. Qed.
Print Assumptions C07_nonce_injective.

(** In particular the nonces of two sequence numbers of one sender differ. *)
Theorem C07_nonce_of_ssn_injective :
  forall id iv (m k : N) p q n, lenN iv = 13 ->
  ssn2piv m = Ok p -> ssn2piv k = Ok q ->
  create_nonce id p iv = Ok n -> create_nonce id q iv = Ok n -> m = k.
Proof.
  intros id iv m k p q n Hv Hp Hq H1 H2.
  destruct (create_nonce_inj _ _ _ _ _ _ Hv H1 H2) as [_ E].
  apply ssn2piv_ok in Hp as (_ & (_ & Ep & _) & _). apply ssn2piv_ok in Hq as (_ & (_ & Eq & _) & _).
  congruence.
Qed.
Print Assumptions C07_nonce_of_ssn_injective.

(** The memory-safety half fails for IDs longer than 7 bytes, which
    oscore_context_init accepts (its buffer for the recipient ID has 8 bytes):
    the padded copy starts before the array. *)
Theorem C07_long_id_refuted :
  forall id piv iv : bytes, lenN piv <= 5 -> 7 < lenN id -> create_nonce id piv iv = UB OobWrite.
Proof. exact create_nonce_ub. Qed.
Print Assumptions C07_long_id_refuted.

Example C07_example :
  create_nonce [0] [20] [0x46; 0x22; 0xd4; 0xdd; 0x6d; 0x94; 0x41; 0x68; 0xee; 0xfb; 0x54; 0x98; 0x7c]
  = Ok [0x47; 0x22; 0xd4; 0xdd; 0x6d; 0x94; 0x41; 0x68; 0xee; 0xfb; 0x54; 0x98; 0x68] /\
  create_nonce (repeat 1 8) [20] (repeat 0 13) = UB OobWrite.
Proof. vm_compute. repeat split. Qed.

(** ** C28 *)

(** The AAD passed to the AEAD is the Enc_structure of RFC 8613 section 5.4,
    or an error if it does not fit. *)
Theorem C28_aad_is_rfc :
  forall alg kid piv cap aad,
  create_aad alg kid piv cap = Ok aad ->
  aad = cbor (rfc_external_aad alg kid piv) /\ lenN aad <= cap /\
  forall cap', oscore_enc_structure aad cap' = Ok (cbor (rfc_enc_structure aad)) \/
               oscore_enc_structure aad cap' = Err unexpected_result_from_ext_lib.
Proof.
  intros alg kid piv cap aad H. rewrite aad_is_rfc in H. apply cbor_put_ok in H as [-> H].
  split; [reflexivity|]. split; [exact H|]. intros cap'. rewrite enc_structure_is_rfc.
  unfold cbor_put. destruct (_ <=? _); auto.
Qed.
Print Assumptions C28_aad_is_rfc.

(** Equal Enc_structures come from equal algorithm, KID and Partial IV. *)
Theorem C28_aad_injective :
  forall alg1 kid1 piv1 c1 a1 e1 alg2 kid2 piv2 c2 a2 e2 s,
  is_int32 alg1 -> is_int32 alg2 ->
  lenN kid1 < 2 ^ 32 -> lenN kid2 < 2 ^ 32 -> lenN piv1 < 2 ^ 32 -> lenN piv2 < 2 ^ 32 ->
  c1 < 2 ^ 32 -> c2 < 2 ^ 32 ->
  create_aad alg1 kid1 piv1 c1 = Ok a1 -> oscore_enc_structure a1 e1 = Ok s ->
  create_aad alg2 kid2 piv2 c2 = Ok a2 -> oscore_enc_structure a2 e2 = Ok s ->
  alg1 = alg2 /\ kid1 = kid2 /\ piv1 = piv2.
Proof.
  intros alg1 kid1 piv1 c1 a1 e1 alg2 kid2 piv2 c2 a2 e2 s ? ? ? ? ? ? ? ? H1 H2 H3 H4.
  pose proof (create_aad_len _ _ _ _ _ H1). pose proof (create_aad_len _ _ _ _ _ H3).
  assert (a1 = a2) by (eapply enc_structure_inj; [| |exact H2|exact H4]; lia). subst a2.
  eapply create_aad_inj; [| | | | | |exact H1|exact H3]; assumption.
Qed.
Print Assumptions C28_aad_injective.

Example C28_example :
  create_aad 10 [0; 37] [20] 30 = Ok [0x85; 1; 0x81; 10; 0x42; 0; 37; 0x41; 20; 0x40] /\
  is_int32 10 /\
  oscore_enc_structure [0x85; 1; 0x81; 10; 0x42; 0; 37; 0x41; 20; 0x40] 26
  = Ok [0x83; 0x68; 69; 110; 99; 114; 121; 112; 116; 48; 0x40; 0x4a;
        0x85; 1; 0x81; 10; 0x42; 0; 37; 0x41; 20; 0x40].
Proof. vm_compute. repeat split; congruence. Qed.

(** ** C29 *)

(** The info string is the one of RFC 8613 section 3.2.1 or an error. *)
Theorem C29_info_is_rfc :
  forall id ctx alg t cap s,
  oscore_create_hkdf_info id ctx alg t cap = Ok s ->
  s = cbor (rfc_info id ctx alg (type_is_iv t)) /\ lenN s <= cap.
Proof.
  intros id ctx alg t cap s H. rewrite info_is_rfc in H. apply cbor_put_ok in H as [-> H]. auto.
Qed.
Print Assumptions C29_info_is_rfc.

Theorem C29_info_injective :
  forall id1 ctx1 alg1 t1 c1 id2 ctx2 alg2 t2 c2 s,
  is_int32 alg1 -> is_int32 alg2 ->
  lenN id1 < 2 ^ 32 -> lenN id2 < 2 ^ 32 -> lenN ctx1 < 2 ^ 32 -> lenN ctx2 < 2 ^ 32 ->
  oscore_create_hkdf_info id1 ctx1 alg1 t1 c1 = Ok s ->
  oscore_create_hkdf_info id2 ctx2 alg2 t2 c2 = Ok s ->
  id1 = id2 /\ ctx1 = ctx2 /\ alg1 = alg2 /\ t1 = t2.
Proof. exact hkdf_info_inj. Qed.
Print Assumptions C29_info_injective.

Example C29_example :
  oscore_create_hkdf_info [1] [55; 203] 10 KEY 50
    = Ok [0x85; 0x41; 1; 0x42; 55; 203; 10; 0x63; 75; 101; 121; 16] /\
  oscore_create_hkdf_info [] [] 10 IV 50 = Ok [0x85; 0x40; 0xf6; 10; 0x62; 73; 86; 13].
Proof. vm_compute. repeat split. Qed.

(** ** C33 *)

(** Byte strings and 32-bit integers are recovered whatever follows them, and
    are written as RFC 8949 prescribes. *)
Theorem C33_bstr_round_trip :
  forall b r : bytes, lenN b < 2 ^ 64 ->
  dec_bstr (enc_bstr b ++ r) = Some (b, r) /\ enc_bstr b = cbor (CBytes b).
Proof. exact (fun b r H => conj (dec_enc_bstr b r H) (eq_sym (cbor_bytes b))). Qed.
Print Assumptions C33_bstr_round_trip.

Theorem C33_int_round_trip :
  forall (z : Z) (r : bytes), is_int32 z ->
  dec_int (enc_int z ++ r) = Some (z, r) /\ enc_int z = cbor (CInt z).
Proof. exact (fun z r H => conj (dec_enc_int z r H) (eq_sym (cbor_int z))). Qed.
Print Assumptions C33_int_round_trip.

(** Prefix-freeness and injectivity. *)
Theorem C33_prefix_free :
  (forall b r b' r' : bytes, lenN b < 2 ^ 64 -> lenN b' < 2 ^ 64 ->
     enc_bstr b ++ r = enc_bstr b' ++ r' -> b = b' /\ r = r') /\
  (forall z r z' r', is_int32 z -> is_int32 z' ->
     enc_int z ++ r = enc_int z' ++ r' -> z = z' /\ r = r') /\
  (forall z r b r', is_int32 z -> lenN b < 2 ^ 64 -> enc_int z ++ r <> enc_bstr b ++ r').
Proof.
  split; [exact enc_bstr_inj|]. split; [exact enc_int_inj|].
  intros z r b r' Hz Hb H. apply (f_equal dec_int) in H. rewrite dec_enc_int in H by exact Hz.
  unfold dec_int, enc_bstr in H. rewrite <- app_assoc, dec_enc_head in H by exact Hb. discriminate.
Qed.
Print Assumptions C33_prefix_free.

Example C33_example :
  enc_int (-25) = [0x38; 24] /\ dec_int [0x38; 24; 9] = Some ((-25)%Z, [9]) /\
  enc_bstr (repeat 7 300) = 0x59 :: 1 :: 44 :: repeat 7 300 /\
  dec_bstr (0x59 :: 1 :: 44 :: repeat 7 301) = Some (repeat 7 300, [7]).
Proof. vm_compute. repeat split. Qed.

(** ** C43 *)

(** [_memcpy_s]: [d] is the destination object, of which the caller declares
    [dl] bytes; [s] the source object, of which [n] bytes are to be copied. No
    undefined behaviour, and success exactly if it fits, with exactly the first
    [n] bytes overwritten. *)
Theorem C43_memcpy_s :
  forall (d s : bytes) (dl n : N), dl <= lenN d -> n <= lenN s ->
  memcpy_s (Some d) dl (Some s) n =
    (if (n =? 0) then Ok (Some d)
     else if n <=? dl then Ok (Some (takeN n s ++ dropN n d)) else Err buffer_to_small).
Proof. exact (fun d s dl n => memcpy_s_exact d dl s n). Qed.
Print Assumptions C43_memcpy_s.

(** also with NULL pointers *)
Theorem C43_memcpy_s_never_ub :
  forall (d s : ptr) (dl n : N),
  match d with Some d' => dl <= lenN d' | None => True end ->
  match s with Some s' => n <= lenN s' | None => True end ->
  is_ub (memcpy_s d dl s n) = false.
Proof. exact (fun d s dl n => memcpy_s_no_ub d dl s n). Qed.
Print Assumptions C43_memcpy_s_never_ub.

(** [byte_array_append] for every destination within its capacity, including
    lengths whose sum wraps around 32 bits. *)
Theorem C43_append :
  forall (d s : bytes) (dl : N),
  lenN d < 2 ^ 32 -> dl <= lenN d -> lenN s < 2 ^ 32 ->
  byte_array_append d dl (Some s) (lenN s) (lenN d) =
    (if dl + lenN s <=? lenN d
     then Ok (takeN dl d ++ s ++ dropN (dl + lenN s) d, dl + lenN s)
     else Err buffer_to_small).
Proof. exact (fun d s dl H1 H2 H3 => append_exact d dl s (lenN s) (lenN d) eq_refl H1 H2 eq_refl H3). Qed.
Print Assumptions C43_append.

Theorem C43_cpy :
  forall (d s : bytes) (cap : N), cap <= lenN d ->
  byte_array_cpy (Some d) (Some s) (lenN s) cap =
    (if lenN s <=? cap then Ok (Some (s ++ dropN (lenN s) d), lenN s) else Err buffer_to_small).
Proof.
  intros d s cap H. unfold byte_array_cpy. rewrite memcpy_s_exact by lia.
  destruct (N.eqb_spec (lenN s) 0) as [E|E].
  - apply Proof_Base.lenN_0 in E. subst s.
    destruct (N.leb_spec (lenN (@nil N)) cap) as [L|L]; [reflexivity|].
    change (lenN (@nil N)) with 0 in L. lia.
  - rewrite Proof_Base.takeN_all by lia. destruct (lenN s <=? cap); reflexivity.
Qed.
Print Assumptions C43_cpy.

(** [array_equals] decides equality of contents. *)
Theorem C43_array_equals : forall a b : bytes, array_equals a b = true <-> a = b.
Proof. exact array_equals_eq. Qed.
Print Assumptions C43_array_equals.

Example C43_example :
  byte_array_append [1; 2; 3; 4; 5] 2 (Some [8; 9]) 2 5 = Ok ([1; 2; 8; 9; 5], 4) /\
  byte_array_append [1; 2; 3; 4; 5] 4 (Some [8; 9]) 2 5 = Err buffer_to_small /\
  byte_array_cpy (Some [1; 2; 3]) (Some [8; 9]) 2 3 = Ok (Some [8; 9; 3], 2).
Proof. vm_compute. repeat split. Qed.

(** ** C45 *)

(** Mbed TLS version: the RFC 5869 output for every length up to 255*32 (info
    strings within the fixed buffer of [cap] bytes). *)
Theorem C45_expand_psa :
  forall cr cap prk info outl,
  (forall k m, lenN (cr_hmac cr k m) = 32) -> outl <= 255 * 32 -> lenN info <= cap ->
  hkdf_expand_psa cr cap prk info outl = Ok (hkdf_okm (cr_hmac cr) prk info outl) /\
  lenN (hkdf_okm (cr_hmac cr) prk info outl) = outl.
Proof.
  exact (fun cr cap prk info outl H1 H2 H3 =>
    conj (expand_psa_correct cr cap prk info outl H1 H2 H3) (okm_len _ prk info outl H1)).
Qed.
Print Assumptions C45_expand_psa.

(** TinyCrypt version: only up to 254*32 ... *)
Theorem C45_expand_tinycrypt_partial :
  forall cr prk info outl,
  (forall k m, lenN (cr_hmac cr k m) = 32) -> outl <= 254 * 32 ->
  hkdf_expand_tc cr prk info outl = Ok (hkdf_okm (cr_hmac cr) prk info outl) /\
  lenN (hkdf_okm (cr_hmac cr) prk info outl) = outl.
Proof.
  exact (fun cr prk info outl H1 H2 =>
    conj (expand_tc_correct cr prk info outl H1 H2) (okm_len _ prk info outl H1)).
Qed.
Print Assumptions C45_expand_tinycrypt_partial.

(** ... because for the allowed lengths above that the 8-bit loop counter wraps
    around and the loop writes before the output buffer. *)
Theorem C45_expand_tinycrypt_refuted :
  forall cr prk info outl,
  (forall k m, lenN (cr_hmac cr k m) = 32) -> 254 * 32 < outl <= 255 * 32 ->
  hkdf_expand_tc cr prk info outl = UB OobWrite.
Proof. exact expand_tc_ub. Qed.
Print Assumptions C45_expand_tinycrypt_refuted.

Theorem C45_too_long_refused :
  forall cr prk info outl cap, 255 * 32 < outl -> outl < 2 ^ 32 - 31 ->
  hkdf_expand_tc cr prk info outl = Err hkdf_failed /\
  hkdf_expand_psa cr cap prk info outl = Err hkdf_failed.
Proof. exact expand_too_long. Qed.
Print Assumptions C45_too_long_refused.

Example C45_example :
  (forall k m, lenN (cr_hmac toy_crypto k m) = 32) /\
  (match hkdf_expand_tc toy_crypto [1; 2] [3] 77 with Ok o => lenN o | _ => 0 end) = 77 /\
  hkdf_expand_tc toy_crypto [1; 2] [3] 8160 = UB OobWrite.
Proof. split; [exact (ok_hmac_len _ toy_ok)|]. vm_compute. split; reflexivity. Qed.
