(** Proofs for C54: sequences of exchanges between two contexts. *)
From Verif Require Import Base Proof_Base Model_Common Model_Crypto Model_OscorePrims Proof_OscorePrims
  Model_Coap Spec_Coap Proof_Coap Model_Interactions Model_Replay Spec_Replay Proof_Replay Model_Context Spec_Options
  Model_Send Model_Recv Model_Run Spec_Interactions Proof_Interactions Proof_Send Proof_Recv Proof_Run Proof_Session Proof_Nonce Proof_Wire
  Spec_RoundTrip Proof_RoundTrip Spec_UriPath Spec_Protect Proof_Protect Spec_EdhocRun Model_App Spec_Traffic Proof_Net.

(** Both sides are between two exchanges and no request is outstanding. *)
Record ready (c d : ctx) : Prop := { rd_linked : linked c d; rd_idle : forall x, ~ held (c_inter c) x }.

Lemma idle_not_full t : table_ok t -> (forall x, ~ held t x) -> ~ full t.
Proof.
  intros (L & _ & _) H F. destruct t as [|[x|] t]; [discriminate L| |].
  - apply (H x). left. reflexivity.
  - apply F. left. reflexivity.
Qed.

Lemma idle_room t m : table_ok t -> (forall x, ~ held t x) -> room t m.
Proof. intros T H. split; [intros F; destruct (idle_not_full t T H F)|intros x Hx; destruct (H x Hx)]. Qed.

Section Exchange.
Variable cr : crypto.
Hypothesis OK : crypto_ok cr.
Hypothesis AT : aead_total cr.

Lemma exchange_step c d x : ready c d -> ready d c -> good_exchange x ->
  c_ssn c + 1 < OSCORE_SSN_OVERFLOW_VALUE -> c_ssn d < OSCORE_SSN_OVERFLOW_VALUE ->
  exists c' d', app_exchange cr c d x = Some (c', d', (x_request x, x_response x)) /\
    ready c' d' /\ ready d' c' /\ c_ssn c' = c_ssn c + 1 /\ c_ssn d' = c_ssn d.
Proof.
  intros [LC IC] [LD ID] (m & m' & GM & CO & GM' & CO' & TOK & NN & L2 & L2') SSC SSD.
  destruct (request_step cr OK AT (x_nw_c x) c d m (x_request x) (x_buf_c x) LC LD GM CO (idle_room _ _ (proj1 (lk_usable _ _ LC)) IC) ltac:(lia) SSD)
    as (s & wire & n & piv & HS & P3 & LC1 & LD1 & KS & NS & HX & RCV).
  destruct (RCV (x_buf_s x) (idle_room _ _ (proj1 (lk_usable _ _ LD)) ID) L2) as (d1 & E & LC2 & LD2 & KR & NR & HX1 & NE & N13).
  assert (NR' : received m' = m') by (apply received_plain; exact NN).
  destruct (response_step cr OK AT (x_nw_s x) (s_ctx s) d1 m' (x_response x) (x_buf_s' x) (record_for m piv (c_sid c)) LC2 LD2)
    as (s' & wire' & n' & HS' & LD3 & LC3 & KS' & NS' & HX' & RCV').
  { rewrite NN. exact GM'. }
  { exact CO'. }
  { apply HX1. auto. }
  { symmetry. exact TOK. }
  { cbn [record_for i_kid i_piv]. pose proof (lk_sid _ _ LC). lia. }
  { intros _. exact N13. }
  { rewrite NS. exact SSC. }
  { rewrite NR. exact SSD. }
  rewrite NN in NS'. rewrite NR' in RCV'.
  destruct (RCV' (x_buf_c' x)) as (c1 & o & RO & E' & LC4 & LD4 & KR' & NR2 & HX2).
  { intros o RO. rewrite (message_unique m' o (x_response x) RO (proj1 GM')). apply L2'. }
  { apply L2'. }
  { exists (record_for m piv (c_sid c)). split; [apply HX; auto|]. auto. }
  { intros _. congruence. }
  assert (o = x_response x) as -> by (apply (message_unique m' o (x_response x) RO (proj1 GM'))).
  exists c1, (s_ctx s'). split.
  { unfold app_exchange. rewrite HS, E, HS', E'. rewrite !written_take. reflexivity. }
  split; [|split; [|split; [congruence|rewrite NS', NR; lia]]]; constructor; try assumption.
  - intros y Hy. apply HX2 in Hy as [Hy G]. apply HX in Hy as [->|[Hy _]]; [|exact (IC y Hy)]. apply G. split; [exact NN|]. symmetry. exact TOK.
  - intros y Hy. apply HX' in Hy as [Hy G]. apply HX1 in Hy as [->|[Hy _]]; [|exact (ID y Hy)]. apply G. split; [exact NN|]. symmetry. exact TOK.
Qed.

Lemma traffic_total l : forall c d, ready c d -> ready d c -> Forall (fun p => good_exchange (snd p)) l ->
  c_ssn c + c_ssn d + lenN l < OSCORE_SSN_OVERFLOW_VALUE ->
  exists c' d', app_traffic cr c d l = Some (c', d', map (fun p => (x_request (snd p), x_response (snd p))) l).
Proof.
  induction l as [|[fwd x] l IH]; intros c d RC RD G L; [cbn; eauto|].
  inversion G as [|? ? GX GL]; subst. cbn [snd] in GX. rewrite lenN_cons in L. cbn [app_traffic map snd].
  destruct fwd.
  - destruct (exchange_step c d x RC RD GX) as (c1 & d1 & E & R1 & R2 & N1 & N2); [lia|lia|]. rewrite E.
    destruct (IH c1 d1 R1 R2 GL) as (c2 & d2 & E2); [lia|]. rewrite E2. cbn [option_map]. eauto.
  - destruct (exchange_step d c x RD RC GX) as (d1 & c1 & E & R1 & R2 & N1 & N2); [lia|lia|]. rewrite E. cbn [option_map].
    destruct (IH c1 d1 R2 R1 GL) as (c2 & d2 & E2); [lia|]. rewrite E2. cbn [option_map]. eauto.
Qed.
End Exchange.
