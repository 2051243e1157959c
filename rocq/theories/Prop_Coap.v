(** Properties C11 - C14: the CoAP codec (src/oscore/oscore_coap.c). The message
    format is Spec_Coap.v. [msg_of] reads a packet structure as a message,
    [pkt_wf]/[hdr_wf] say that its fields are within their C types and that the
    token has TKL bytes (Proof_Coap.v). *)
From Verif Require Import Base Proof_Base Model_Common Model_Coap Spec_Coap Proof_Coap.

(** ** C11 *)

(** A parsed packet begins with exactly the parsed header fields and token. *)
Theorem C11_parse_is_prefix :
  forall (d : bytes) (k : cpkt), is_bytes d -> lenN d < 2 ^ 32 ->
  coap_deserialize d = Ok k ->
  let h := k_hdr k in
  lenN (k_token k) = h_tkl h /\ h_tkl h <= 8 /\ h_ver h < 4 /\ h_type h < 4 /\
  exists rest, d = [h_ver h * 64 + h_type h * 16 + h_tkl h; h_code h; h_mid h / 256; h_mid h mod 256]
                   ++ k_token k ++ rest.
Proof.
  intros d k HB HL H. destruct (coap_parse_sound d k H HB HL) as (W & (H1 & H2 & H3 & H4 & H5) & _ & _ & _ & _ & _ & rest & E).
  destruct W as (W & _). cbn zeta. repeat split; try assumption. exists rest.
  rewrite header_bytes_rfc in E by lia. exact E.
Qed.
Print Assumptions C11_parse_is_prefix.

Theorem C11_round_trip :
  forall (k k' : cpkt) (cap : N) (w : bytes),
  pkt_wf k -> hdr_wf (k_hdr k) -> cap < 2 ^ 32 -> is_bytes w ->
  coap_serialize k cap = (w, Ok tt) -> coap_deserialize w = Ok k' ->
  k_hdr k' = k_hdr k /\ k_token k' = k_token k.
Proof.
  intros k k' cap w W (H1 & H2 & H3 & H4 & H5) Hcap HB HS HP.
  apply coap_serialize_ok in HS as (-> & HL & _); [|assumption..].
  destruct (C11_parse_is_prefix _ _ HB (N.le_lt_trans _ _ _ HL Hcap) HP) as (T & T8 & V & Ty & rest & E).
  unfold pkt_bytes in E. rewrite header_bytes_rfc in E by lia.
  assert (P := coap_parse_sound _ _ HP HB (N.le_lt_trans _ _ _ HL Hcap)).
  destruct P as (_ & (_ & _ & _ & P4 & P5) & _).
  cbn [app] in E. injection E as E0 E1 E2 E3 E4.
  change (2 ^ 16) with 65536 in *.
  assert (A1 : h_ver (k_hdr k') = h_ver (k_hdr k)) by lia.
  assert (A2 : h_type (k_hdr k') = h_type (k_hdr k)) by lia.
  assert (A3 : h_tkl (k_hdr k') = h_tkl (k_hdr k)) by lia.
  assert (A5 : h_mid (k_hdr k') = h_mid (k_hdr k)) by lia.
  split; [destruct (k_hdr k), (k_hdr k'); cbn in *; congruence|].
  destruct W as (W & _). apply app_eq_len in E4; [symmetry; tauto|]. lia.
Qed.
Print Assumptions C11_round_trip.

Theorem C11_rejects :
  forall d : bytes,
  lenN d < 4 \/ 8 < nth 0 d 0 mod 16 \/ lenN d < 4 + nth 0 d 0 mod 16 ->
  exists e, coap_deserialize d = Err e.
Proof.
  intros d H. unfold coap_deserialize, HEADER_LEN.
  destruct (N.ltb_spec (lenN d) 4); [eauto|].
  destruct d as [|b0 [|b1 [|b2 [|b3 d]]]]; rewrite ?lenN_cons, ?lenN_nil in *; try lia.
  cbn [nth] in H. change (rd (b0 :: b1 :: b2 :: b3 :: d) 0) with (@Ok N b0).
  change (rd (b0 :: b1 :: b2 :: b3 :: d) 1) with (@Ok N b1).
  change (rd (b0 :: b1 :: b2 :: b3 :: d) 2) with (@Ok N b2).
  change (rd (b0 :: b1 :: b2 :: b3 :: d) 3) with (@Ok N b3). cbn [bind].
  change (dropN 4 (b0 :: b1 :: b2 :: b3 :: d)) with d.
  destruct (N.ltb_spec 8 (b0 mod 16)); [eauto|].
  destruct (N.ltb_spec (lenN d) (b0 mod 16)); [eauto|]. lia.
Qed.
Print Assumptions C11_rejects.

(** A confirmable GET with a 2-byte token, one option and a payload. *)
Definition ex_pkt : cpkt :=
  {| k_hdr := {| h_ver := 1; h_type := 0; h_tkl := 2; h_code := 1; h_mid := 0x1234 |};
     k_token := [7; 8];
     k_opts := [{| o_delta := 11; o_num := 11; o_val := [97; 98]; o_tail := [] |};
                {| o_delta := 4; o_num := 15; o_val := repeat 65 20; o_tail := [] |}];
     k_payload := [1; 2; 3] |}.
Example C11_example :
  pkt_wf ex_pkt /\ hdr_wf (k_hdr ex_pkt) /\
  exists w k', coap_serialize ex_pkt 64 = (w, Ok tt) /\ is_bytes w /\ coap_deserialize w = Ok k' /\
    takeN 6 w = [0x42; 1; 0x12; 0x34; 7; 8] /\ msg_of k' = msg_of ex_pkt.
Proof.
  split; [repeat split; try (apply N.ltb_lt; reflexivity); repeat constructor|].
  split; [repeat split; try (apply N.ltb_lt; reflexivity); apply N.leb_le; reflexivity|].
  eexists. eexists. split; [vm_compute; reflexivity|].
  split; [repeat constructor|]. split; [vm_compute; reflexivity|]. split; vm_compute; reflexivity.
Qed.

(** ** C12 *)

(** Whatever the serialiser produces is the RFC 7252 encoding of the packet. *)
Theorem C12_serialize_conforms :
  forall (k : cpkt) (cap : N) (w : bytes),
  pkt_wf k -> hdr_wf (k_hdr k) -> cap < 2 ^ 32 ->
  delta_consistent 0 (k_opts k) -> Forall (fun o => o_num o < 2 ^ 16) (k_opts k) ->
  coap_serialize k cap = (w, Ok tt) -> rfc_message (msg_of k) w.
Proof.
  intros k cap w W H Hc Hd Hn HS. apply coap_serialize_ok in HS as (-> & _); [|assumption..].
  apply pkt_bytes_rfc; assumption.
Qed.
Print Assumptions C12_serialize_conforms.

(** Missing for the full claim: the parser misreads the deltas 256..268 and most
    value lengths >= 256 and refuses 20 options; [parsable] excludes exactly these
    (C12_parse_exact in Prop_CoapExact.v). *)
Theorem C12_parse_partial :
  forall (m : message) (bs : bytes), rfc_message m bs -> parsable m bs ->
  exists k, coap_deserialize bs = Ok k /\ msg_of k = m.
Proof.
  intros m bs H P. destruct (coap_parse_rfc m bs H P) as (k & E & M & _). eauto.
Qed.
Print Assumptions C12_parse_partial.

Theorem C12_round_trip_partial :
  forall (k : cpkt) (cap : N) (w : bytes),
  pkt_wf k -> hdr_wf (k_hdr k) -> cap < 2 ^ 16 ->
  delta_consistent 0 (k_opts k) -> Forall (fun o => o_num o < 2 ^ 16) (k_opts k) ->
  Forall delta_ok (deltas 0 (map nv (k_opts k))) -> lenN (k_opts k) <= 19 ->
  coap_serialize k cap = (w, Ok tt) ->
  exists k', coap_deserialize w = Ok k' /\ msg_of k' = msg_of k.
Proof.
  intros k cap w W H Hc Hd Hn Hdo Hcnt HS.
  assert (Hc' : cap < 2 ^ 32) by (change (2 ^ 16) with 65536 in Hc; change (2 ^ 32) with 4294967296; lia).
  pose proof (C12_serialize_conforms k cap w W H Hc' Hd Hn HS) as R.
  apply coap_serialize_ok in HS as (-> & HL & HF); [|assumption..].
  apply C12_parse_partial; [exact R|].
  unfold parsable, msg_of; cbn [m_opts]. repeat split; auto.
  - unfold opts_fit in HF. clear - HF. induction (k_opts k) as [|o l IH]; cbn [map opt_sum] in *; constructor.
    + left. unfold nv; cbn. lia.
    + apply IH. lia.
  - clear - Hn. induction Hn; cbn; constructor; auto.
  - unfold lenN. rewrite map_length. exact Hcnt.
  - lia.
Qed.
Print Assumptions C12_round_trip_partial.

(** Every option distance from 256 to 268 is read back 256 too small. *)
Theorem C12_delta_refuted :
  forall x : N, 256 <= x -> x < 269 ->
  exists bs k, rfc_message {| m_ver := 1; m_type := 0; m_code := 1; m_mid := 0; m_token := [];
                              m_opts := [(x, [])]; m_payload := [] |} bs /\
    coap_deserialize bs = Ok k /\ m_opts (msg_of k) = [(x - 256, [])].
Proof.
  intros x Hl Hu.
  exists [64; 1; 0; 0; 208; x - 13].
  assert (E : rfc_message {| m_ver := 1; m_type := 0; m_code := 1; m_mid := 0; m_token := [];
      m_opts := [(x, [])]; m_payload := [] |} [64; 1; 0; 0; 208; x - 13]).
  { unfold rfc_message; cbn [m_ver m_type m_code m_mid m_token m_opts m_payload].
    repeat split; try (apply N.ltb_lt; reflexivity); try (apply N.leb_le; reflexivity).
    exists [208; x - 13]. split; [|reflexivity]. exists [208; x - 13]. split; [|reflexivity].
    change [208; x - 13] with ((13 * 16 + 0) :: [x - 13] ++ [] ++ [] ++ []).
    constructor; [lia| |apply (field_short 0); lia|constructor].
    replace (x - 0) with (x - 13 + 13) by lia. constructor. lia. }
  assert (X : exists i, (i < 13)%nat /\ x = 256 + N.of_nat i) by (exists (N.to_nat (x - 256)); lia).
  destruct X as (i & Hi & ->).
  do 13 (destruct i as [|i];
    [eexists; split; [exact E|]; split; [vm_compute; reflexivity|vm_compute; reflexivity]|]). lia.
Qed.
Print Assumptions C12_delta_refuted.

Example C12_example :
  delta_consistent 0 (k_opts ex_pkt) /\ Forall delta_ok (deltas 0 (map nv (k_opts ex_pkt))) /\
  is_ok (snd (coap_serialize ex_pkt 64)) = true.
Proof.
  repeat split; repeat constructor; cbn; try (apply N.leb_le; reflexivity); try (apply N.ltb_lt; reflexivity).
Qed.

(** ** C13 *)

(** On every well-formed message (of the supported kind, [parsable]) the parser
    stays inside the packet. *)
Theorem C13_wellformed_partial :
  forall (m : message) (bs : bytes), rfc_message m bs -> parsable m bs ->
  is_ub (coap_deserialize bs) = false.
Proof.
  intros m bs H P. destruct (C12_parse_partial m bs H P) as (k & -> & _). reflexivity.
Qed.
Print Assumptions C13_wellformed_partial.

(** Whatever the bytes, an accepted packet has at most 19 options, each value is
    shorter than 2^16 and the payload is not longer than the packet. *)
Theorem C13_accepted_sizes :
  forall (d : bytes) (k : cpkt), is_bytes d -> lenN d < 2 ^ 32 -> coap_deserialize d = Ok k ->
  lenN (k_opts k) <= 19 /\ Forall (fun o => lenN (o_val o) < 2 ^ 16) (k_opts k) /\
  lenN (k_payload k) < 2 ^ 32.
Proof.
  intros d k HB HL H. destruct (coap_parse_sound d k H HB HL) as (W & _ & Hc & _).
  destruct W as (_ & _ & W3 & W4 & _). auto.
Qed.
Print Assumptions C13_accepted_sizes.

(** For every header and token, a packet that ends after an option header which
    announces a value makes the parser leave the packet. *)
Theorem C13_truncated_refuted :
  forall (ver ty code mid_h mid_l : N) (token : bytes) (delta len : N),
  ver < 4 -> ty < 4 -> lenN token <= 8 -> delta < 13 -> 0 < len -> len < 13 ->
  coap_deserialize ([ver * 64 + ty * 16 + lenN token; code; mid_h; mid_l] ++ token ++ [delta * 16 + len])
    = UB OobRead.
Proof.
  intros ver ty code mid_h mid_l token delta len Hv Ht Hk Hd Hl0 Hl.
  set (b0 := ver * 64 + ty * 16 + lenN token).
  unfold coap_deserialize, HEADER_LEN. rewrite !lenN_app, !lenN_cons, lenN_nil.
  destruct (N.ltb_spec (1 + (1 + (1 + (1 + 0))) + (lenN token + (1 + 0))) 4); [lia|].
  cbn [app]. set (d := token ++ [delta * 16 + len]).
  change (rd (b0 :: code :: mid_h :: mid_l :: d) 0) with (@Ok N b0).
  change (rd (b0 :: code :: mid_h :: mid_l :: d) 1) with (@Ok N code).
  change (rd (b0 :: code :: mid_h :: mid_l :: d) 2) with (@Ok N mid_h).
  change (rd (b0 :: code :: mid_h :: mid_l :: d) 3) with (@Ok N mid_l). cbn [bind].
  change (dropN 4 (b0 :: code :: mid_h :: mid_l :: d)) with d.
  replace (b0 mod 16) with (lenN token) by (unfold b0; lia).
  destruct (N.ltb_spec 8 (lenN token)); [lia|]. unfold d. rewrite lenN_app.
  destruct (N.ltb_spec (lenN token + lenN [delta * 16 + len]) (lenN token)); [lia|].
  rewrite dropN_app. unfold options_deserialize. change (N.to_nat MAX_OPTION_COUNT) with 20%nat.
  rewrite loop_unfold. set (b := delta * 16 + len).
  change (lenN [b]) with 1. change (0 <? 1) with true. cbn iota.
  change (rd [b] 0) with (@Ok N b). cbn [bind].
  destruct (N.eqb_spec b OPTION_PAYLOAD_MARKER) as [E|_]; [unfold OPTION_PAYLOAD_MARKER, b in E; lia|].
  replace (b / 16) with delta by (unfold b; lia). replace (b mod 16) with len by (unfold b; lia).
  unfold parse_delta. destruct (N.eqb_spec delta 13); [lia|]. destruct (N.eqb_spec delta 14); [lia|].
  destruct (N.eqb_spec delta 15); [lia|]. cbn [bind].
  unfold parse_len. destruct (N.eqb_spec len 13); [lia|]. destruct (N.eqb_spec len 14); [lia|].
  destruct (N.eqb_spec len 15); [lia|]. cbn [bind].
  change (lenN (@nil copt)) with 0. change (MAX_OPTION_COUNT <=? 0) with false. cbn iota.
  unfold slice. change (lenN [b]) with 1. destruct (N.leb_spec (0 + 1 + len) 1); [lia|]. reflexivity.
Qed.
Print Assumptions C13_truncated_refuted.

(** ** C14 *)

(** The bytes of the encoded packet. *)
Definition needed (k : cpkt) : N := lenN (pkt_bytes k).

(** Exact behaviour of the serialiser for every packet and every capacity. The
    only undefined behaviours are: a buffer of less than 4 bytes, and a buffer
    that ends exactly where the payload marker goes. *)
Theorem C14_exact_partial :
  forall (k : cpkt) (cap : N), pkt_wf k -> cap < 2 ^ 32 ->
  (is_ub (snd (coap_serialize k cap)) = true <->
     cap < 4 \/ (opts_fit k /\ k_payload k <> [] /\
                 cap = 4 + h_tkl (k_hdr k) + lenN (ser_opts (k_opts k)))) /\
  (is_ub (snd (coap_serialize k cap)) = false -> lenN (fst (coap_serialize k cap)) <= cap) /\
  (snd (coap_serialize k cap) = Ok tt <-> opts_fit k /\ needed k <= cap).
Proof.
  intros k cap W Hcap. destruct (coap_serialize_spec k cap W Hcap) as [A B].
  unfold needed. pose proof (pkt_bytes_len k W) as PL. rewrite marked_len in PL.
  set (base := 4 + h_tkl (k_hdr k) + lenN (ser_opts (k_opts k))) in *.
  assert (PB : base <= lenN (pkt_bytes k)) by (destruct (lenN (k_payload k) =? 0); lia).
  assert (PB4 : 4 + h_tkl (k_hdr k) <= base) by (unfold base; lia).
  destruct (N.lt_ge_cases cap 4) as [C|C].
  { specialize (A C). rewrite A. cbn [is_ub snd fst]. split; [tauto|]. split; [discriminate|].
    split; [discriminate|]. intros [_ X]. lia. }
  destruct (B C) as [B1 B2]. clear A B.
  destruct (N.lt_ge_cases cap (4 + h_tkl (k_hdr k))) as [D|D].
  { destruct (B1 D) as [-> L]. cbn [is_ub snd fst]. split; [split; [discriminate|intros [X|[_ [_ X]]]; lia]|].
    split; [auto|]. split; [discriminate|]. intros [_ X]. lia. }
  destruct (B2 D) as [B3 B4]. clear B1 B2.
  destruct (N.le_gt_cases (opt_sum (k_opts k)) 100) as [F|F].
  2:{ destruct B3 as [-> L]; [unfold opts_fit; lia|]. cbn [is_ub snd fst]. unfold opts_fit.
      split; [split; [discriminate|intros [X|[X _]]; lia]|].
      split; [auto|]. split; [discriminate|]. intros [X _]. lia. }
  destruct (B4 F) as (B5 & B6 & B7 & B8 & B9). clear B3 B4.
  destruct (N.lt_ge_cases cap base) as [G|G].
  { destruct (B5 G) as [-> L]. cbn [is_ub snd fst]. split; [split; [discriminate|intros [X|[_ [_ X]]]; lia]|].
    split; [auto|]. split; [discriminate|]. intros [_ X]. lia. }
  destruct (k_payload k) as [|p pl] eqn:P.
  { rewrite (B6 G eq_refl). cbn [is_ub snd fst]. change (lenN (@nil N) =? 0) with true in PL. cbn iota in PL.
    split; [split; [discriminate|intros [X|[_ [X _]]]; [lia|congruence]]|].
    split; [lia|]. split; [intros _; split; [exact F|lia]|reflexivity]. }
  assert (NE : p :: pl <> []) by discriminate. rewrite lenN_cons in *.
  destruct (N.eqb_spec (1 + lenN pl) 0) as [Z|_]; [lia|].
  destruct (N.eq_dec base cap) as [H|H].
  { rewrite (B7 H NE). cbn [is_ub snd fst]. split; [split; [intros _; right; repeat split; auto|auto]|].
    split; [discriminate|]. split; [discriminate|]. intros [_ X]. lia. }
  assert (H' : base < cap) by lia.
  destruct (N.lt_ge_cases cap (base + 1 + (1 + lenN pl))) as [I|I].
  - destruct (B8 H' I NE) as [-> L]. cbn [is_ub snd fst]. split; [split; [discriminate|intros [X|[_ [_ X]]]; lia]|].
    split; [auto|]. split; [discriminate|]. intros [_ X]. lia.
  - rewrite (B9 H' I NE). cbn [is_ub snd fst]. split; [split; [discriminate|intros [X|[_ [_ X]]]; lia]|].
    split; [lia|]. split; [intros _; split; [exact F|lia]|reflexivity].
Qed.
Print Assumptions C14_exact_partial.

(** Any packet written to a buffer of less than 4 bytes overflows it. *)
Theorem C14_small_buffer_refuted :
  forall (k : cpkt) (cap : N), cap < 4 -> snd (coap_serialize k cap) = UB OobWrite.
Proof.
  intros k cap H. unfold coap_serialize. destruct (N.ltb_spec cap 4); [reflexivity|lia].
Qed.
Print Assumptions C14_small_buffer_refuted.

(** A buffer that holds everything up to the payload marker is overrun by one byte. *)
Theorem C14_marker_refuted :
  forall (k : cpkt), pkt_wf k -> opts_fit k -> k_payload k <> [] ->
  let cap := 4 + h_tkl (k_hdr k) + lenN (ser_opts (k_opts k)) in
  cap < 2 ^ 32 -> snd (coap_serialize k cap) = UB OobWrite.
Proof.
  intros k W F NE cap HC. destruct (coap_serialize_spec k cap W HC) as [_ B].
  destruct B as [_ B]; [unfold cap; lia|]. destruct B as [_ B]; [unfold cap; lia|].
  destruct (B F) as (_ & _ & B7 & _). rewrite B7; [reflexivity|reflexivity|exact NE].
Qed.
Print Assumptions C14_marker_refuted.
(** The example packet needs 35 bytes; a buffer of 31 bytes is overrun by one. *)
Example C14_marker_ex :
  pkt_wf ex_pkt /\ hdr_wf (k_hdr ex_pkt) /\ needed ex_pkt = 35 /\ opts_fit ex_pkt /\
  4 + h_tkl (k_hdr ex_pkt) + lenN (ser_opts (k_opts ex_pkt)) = 31 /\
  snd (coap_serialize ex_pkt 31) = UB OobWrite /\ snd (coap_serialize ex_pkt 30) = Err buffer_to_small.
Proof.
  destruct C11_example as (A & B & _). split; [exact A|]. split; [exact B|]. split; [reflexivity|].
  split; [apply N.leb_le; reflexivity|]. vm_compute. repeat split.
Qed.
