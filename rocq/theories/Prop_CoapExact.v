(** C12: exactly which messages the CoAP parser reads as they are meant. *)
From Verif Require Import Base Proof_Base Model_Common Model_Coap Spec_Coap Proof_Coap Proof_Stripped Proof_CoapExact Prop_Coap.

(** For every well-formed message of less than 2^16 bytes: it is read as it is meant if and
    only if no two neighbouring option numbers are 256 to 268 apart, every value has fewer
    than 256 bytes or a length from 269 on for which the disjunction that the code uses for
    the two length bytes does not lose a carry, the numbers fit in 16 bits, and there are
    at most 19 options. *)
Theorem C12_parse_exact :
  forall (m : message) (bs : bytes), rfc_message m bs -> lenN bs < 2 ^ 16 ->
  (exists k, coap_deserialize bs = Ok k /\ msg_of k = m) <->
  (forall d, In d (deltas 0 (m_opts m)) -> d < 256 \/ 269 <= d) /\
  (forall num v, In (num, v) (m_opts m) -> num < 2 ^ 16 /\
     (lenN v < 256 \/
      269 <= lenN v /\ ((lenN v - 269) mod 256 < 243 /\ (lenN v - 269) / 256 mod 2 = 0 \/
                        243 <= (lenN v - 269) mod 256 /\ (lenN v - 269) / 256 / 2 mod 2 = 0))) /\
  lenN (m_opts m) <= 19.
Proof.
  intros m bs R L. split.
  - intros (k & E & M). assert (MO : m_opts (msg_of k) = m_opts m) by (rewrite M; reflexivity).
    destruct (coap_parse_exact m bs k R L E MO) as (A & B & C & D & _).
    rewrite Forall_forall in A, B, C. split; [exact A|]. split; [|exact D].
    intros num v I. split; [exact (C _ I)|exact (B _ I)].
  - intros (A & B & C). apply C12_parse_partial; [exact R|]. repeat split; try assumption; apply Forall_forall.
    + exact A.
    + intros [num v] I. exact (proj2 (B num v I)).
    + intros [num v] I. exact (proj1 (B num v I)).
Qed.
Print Assumptions C12_parse_exact.

(** Packets that the library writes: what it reads back is the same if and only if no
    distance is 256 to 268 and there are at most 19 options. *)
Theorem C12_round_trip_exact :
  forall (k : cpkt) (cap : N) (w : bytes),
  pkt_wf k -> hdr_wf (k_hdr k) -> cap < 2 ^ 16 ->
  delta_consistent 0 (k_opts k) -> Forall (fun o => o_num o < 2 ^ 16) (k_opts k) ->
  coap_serialize k cap = (w, Ok tt) ->
  (exists k', coap_deserialize w = Ok k' /\ msg_of k' = msg_of k) <->
  (forall d, In d (deltas 0 (map nv (k_opts k))) -> d < 256 \/ 269 <= d) /\ lenN (k_opts k) <= 19.
Proof.
  intros k cap w W H Hc Hd Hn HS. split.
  - intros (k' & E & M). assert (Hc' : cap < 2 ^ 32) by (change (2 ^ 16) with 65536 in Hc; change (2 ^ 32) with 4294967296; lia).
    pose proof (C12_serialize_conforms k cap w W H Hc' Hd Hn HS) as R.
    apply coap_serialize_ok in HS as (_ & HL & _); [|assumption..].
    assert (HL2 : lenN w < 2 ^ 16) by lia.
    destruct (proj1 (C12_parse_exact (msg_of k) w R HL2) (ex_intro _ k' (conj E M))) as (A & _ & C).
    split; [exact A|]. unfold msg_of in C; cbn [m_opts] in C. unfold lenN in *. rewrite map_length in C. exact C.
  - intros (A & C). eapply C12_round_trip_partial; try eassumption. apply Forall_forall. exact A.
Qed.
Print Assumptions C12_round_trip_exact.

(** The lengths from 256 to 268 in particular: no message with such a value is read as it
    is meant, wherever the value stands and whatever it contains. *)
Theorem C12_length_refuted :
  forall (m : message) (bs : bytes) (num : N) (v : bytes), rfc_message m bs -> lenN bs < 2 ^ 16 ->
  In (num, v) (m_opts m) -> 256 <= lenN v -> lenN v < 269 ->
  forall k, coap_deserialize bs = Ok k -> m_opts (msg_of k) <> m_opts m.
Proof.
  intros m bs num v R L I H1 H2 k E M. destruct (coap_parse_exact m bs k R L E M) as (_ & B & _).
  rewrite Forall_forall in B. specialize (B _ I). cbn [snd] in B. unfold len_ok in B. lia.
Qed.
Print Assumptions C12_length_refuted.

Definition long_value (n : nat) : message :=
  {| m_ver := 1; m_type := 0; m_code := 1; m_mid := 0; m_token := []; m_opts := [(4, repeat 0 n)]; m_payload := [] |}.
(** A value of 256 bytes is read as an empty value followed by garbage options. *)
Example C12_length_example :
  rfc_message (long_value 256) ([64; 1; 0; 0; 4 * 16 + 13; 243] ++ repeat 0 256) /\
  coap_deserialize ([64; 1; 0; 0; 4 * 16 + 13; 243] ++ repeat 0 256) = Err too_many_options.
Proof.
  split; [|vm_compute; reflexivity].
  unfold rfc_message; cbn [m_ver m_type m_code m_mid m_token m_opts m_payload long_value].
  repeat split; try (apply N.ltb_lt; reflexivity); try (apply N.leb_le; reflexivity).
  exists ((4 * 16 + 13) :: [] ++ [243] ++ repeat 0 256 ++ []). split.
  - eexists. split; [|symmetry; apply app_nil_r].
    constructor; [lia|apply (field_short 4); lia| |constructor].
    change (lenN (repeat 0 256)) with (243 + 13). constructor. lia.
  - rewrite app_nil_r. reflexivity.
Qed.

(** Values of 269 to 511, and again of 512 to 524 bytes, are read correctly; values of 525 bytes are not. *)
Example C12_parse_example :
  (exists k, coap_deserialize ([64; 1; 0; 0; 4 * 16 + 14; 0; 0] ++ repeat 7 269) = Ok k /\ map nv (k_opts k) = [(4, repeat 7 269)]) /\
  (exists k, coap_deserialize ([64; 1; 0; 0; 4 * 16 + 14; 0; 255] ++ repeat 7 524) = Ok k /\ map nv (k_opts k) = [(4, repeat 7 524)]) /\
  is_ok (coap_deserialize ([64; 1; 0; 0; 4 * 16 + 14; 1; 0] ++ repeat 7 525)) = false.
Proof.
  split; [eexists; split; vm_compute; reflexivity|]. split; [eexists; split; vm_compute; reflexivity|].
  vm_compute. reflexivity.
Qed.

(** C13: even well-formed messages lead outside of the packet. A value of 256 bytes is read
    as an empty one, and its contents as further options; for every header, token, option
    number below 13 and contents that start with an option header for 255 bytes. *)
Theorem C13_conforming_refuted :
  forall (ver ty code mid : N) (token : bytes) (num d : N) (rest : bytes),
  ver < 4 -> ty < 4 -> code < 256 -> mid < 2 ^ 16 -> lenN token <= 8 -> num < 13 -> d < 13 -> lenN rest = 254 ->
  exists bs,
    rfc_message {| m_ver := ver; m_type := ty; m_code := code; m_mid := mid; m_token := token;
                   m_opts := [(num, (d * 16 + 13) :: 242 :: rest)]; m_payload := [] |} bs /\
    coap_deserialize bs = UB OobRead.
Proof.
  intros ver ty code mid token num d rest Hv Ht Hc Hm Hk Hn Hd Hr.
  set (v := (d * 16 + 13) :: 242 :: rest). assert (LV : lenN v = 243 + 13) by (unfold v; rewrite !lenN_cons; lia).
  set (body := (num * 16 + 13) :: [] ++ [243] ++ v ++ []).
  exists ([ver * 64 + ty * 16 + lenN token; code; mid / 256; mid mod 256] ++ token ++ body). split.
  - unfold rfc_message; cbn [m_ver m_type m_code m_mid m_token m_opts m_payload]. repeat split; try assumption.
    exists body. split; [|reflexivity]. exists body. split; [|symmetry; apply app_nil_r].
    unfold body. constructor; [lia| | |constructor].
    + replace (num - 0) with num by lia. constructor. exact Hn.
    + rewrite LV. constructor. lia.
  - set (b0 := ver * 64 + ty * 16 + lenN token).
    assert (LB : lenN body = 258) by (unfold body; cbn [app]; rewrite !lenN_cons, app_nil_r; lia).
    unfold coap_deserialize, HEADER_LEN. rewrite !lenN_app, !lenN_cons, lenN_nil.
    destruct (N.ltb_spec (1 + (1 + (1 + (1 + 0))) + (lenN token + lenN body)) 4); [lia|].
    cbn [app]. set (dd := token ++ body).
    change (rd (b0 :: code :: mid / 256 :: mid mod 256 :: dd) 0) with (@Ok N b0).
    change (rd (b0 :: code :: mid / 256 :: mid mod 256 :: dd) 1) with (@Ok N code).
    change (rd (b0 :: code :: mid / 256 :: mid mod 256 :: dd) 2) with (@Ok N (mid / 256)).
    change (rd (b0 :: code :: mid / 256 :: mid mod 256 :: dd) 3) with (@Ok N (mid mod 256)). cbn [bind].
    change (dropN 4 (b0 :: code :: mid / 256 :: mid mod 256 :: dd)) with dd.
    replace (b0 mod 16) with (lenN token) by (unfold b0; lia).
    destruct (N.ltb_spec 8 (lenN token)); [lia|]. unfold dd. rewrite lenN_app.
    destruct (N.ltb_spec (lenN token + lenN body) (lenN token)); [lia|].
    rewrite dropN_app.
    assert (OD : options_deserialize body MAX_OPTION_COUNT = walk MAX_OPTION_COUNT 20 body 0 0).
    { rewrite <- loop_start by (rewrite LB; reflexivity). reflexivity. }
    rewrite OD. unfold body. rewrite walk_cons. cbn [app]. rewrite app_nil_r.
    destruct (N.eqb_spec (num * 16 + 13) 255); [lia|].
    replace ((num * 16 + 13) / 16) with num by lia. replace ((num * 16 + 13) mod 16) with 13 by lia.
    unfold parse_delta at 1. destruct (N.eqb_spec num 13); [lia|]. destruct (N.eqb_spec num 14); [lia|].
    destruct (N.eqb_spec num 15); [lia|]. cbn [bind]. unfold parse_len at 1. change (13 =? 13) with true. cbn iota.
    change (rd (num * 16 + 13 :: 243 :: v) 1) with (@Ok N 243). cbn [bind].
    change (u8 (243 + 13)) with 0. change (MAX_OPTION_COUNT <=? 0) with false. cbn iota.
    change (slice (num * 16 + 13 :: 243 :: v) (1 + 1) 0) with (if 2 <=? lenN (num * 16 + 13 :: 243 :: v) then Ok (@nil N) else UB OobRead).
    rewrite !lenN_cons, LV. change (2 <=? 1 + (1 + (243 + 13))) with true. cbn iota. cbn [bind].
    change (dropN (1 + 1 + 0) (num * 16 + 13 :: 243 :: v)) with v. unfold v at 1. rewrite walk_cons. fold v.
    destruct (N.eqb_spec (d * 16 + 13) 255); [lia|].
    replace ((d * 16 + 13) / 16) with d by lia. replace ((d * 16 + 13) mod 16) with 13 by lia.
    unfold parse_delta. destruct (N.eqb_spec d 13); [lia|]. destruct (N.eqb_spec d 14); [lia|].
    destruct (N.eqb_spec d 15); [lia|]. cbn [bind]. unfold parse_len. change (13 =? 13) with true. cbn iota.
    change (rd v 1) with (@Ok N 242). cbn [bind].
    change (u8 (242 + 13)) with 255. change (MAX_OPTION_COUNT <=? 0 + 1) with false. cbn iota.
    unfold slice. rewrite LV. change (1 + 1 + 255 <=? 243 + 13) with false. reflexivity.
Qed.
Print Assumptions C13_conforming_refuted.

Example C13_conforming_example :
  coap_deserialize ([64; 1; 0; 0; 4 * 16 + 13; 243] ++ ([13; 242] ++ repeat 0 254)) = UB OobRead.
Proof. vm_compute. reflexivity. Qed.
