(** Looking up credentials and verifying certificates. *)
From Verif Require Import Base Proof_Base Model_Common Model_Cbor Proof_Cbor Model_Crypto
  Spec_CborTree Proof_CborTree Spec_Edhoc Spec_EdhocRun Model_EdhocCfg Model_EdhocCbor Model_EdhocKeys
  Proof_EdhocBase Model_EdhocCert Proof_EdhocMsg Spec_EdhocCred.

(* ---------- parts of byte strings ---------- *)
Lemma infix_trans a b c : infix a b -> infix b c -> infix a c.
Proof. intros (p & q & ->) (p' & q' & ->). exists (p' ++ p), (q ++ q'). now rewrite <- !app_assoc. Qed.
Lemma infix_suffix a p l : infix a l -> infix a (p ++ l).
Proof. intros (x & y & ->). exists (p ++ x), y. now rewrite <- app_assoc. Qed.
Lemma slice_infix l i n s : slice l i n = Ok s -> infix s l.
Proof.
  intros H. destruct (slice_ok _ _ _ _ H) as (_ & _ & ->). exists (takeN i l), (dropN n (dropN i l)).
  now rewrite takeN_dropN, takeN_dropN.
Qed.
Lemma infix_nil l : infix [] l.
Proof. exists [], l. reflexivity. Qed.

(* ---------- decoders consume a prefix ---------- *)
Lemma dec_head_part l mt v r : dec_head l = Some (mt, v, r) ->
  exists h, l = h ++ r /\ 1 <= lenN h /\ (24 <= v -> 2 <= lenN h).
Proof.
  destruct l as [|b l]; [discriminate|]. unfold dec_head.
  destruct (N.ltb_spec (b mod 32) 24) as [L|L].
  - intros [= <- <- <-]. exists [b]. split; [reflexivity|]. split; [apply N.leb_le; reflexivity|lia].
  - set (w := match b mod 32 with 24 => 1 | 25 => 2 | 26 => 4 | 27 => 8 | _ => 0 end). clearbody w.
    destruct (N.eqb_spec w 0) as [|W]; [discriminate|]. unfold dec_arg. destruct (N.leb_spec w (lenN l)) as [LW|]; [|discriminate].
    intros [= <- <- <-]. exists (b :: takeN w l). split; [cbn [app]; now rewrite takeN_dropN|].
    rewrite lenN_cons, lenN_takeN. lia.
Qed.
Lemma dec_bstr_part l s r : dec_bstr l = Some (s, r) ->
  exists h, l = h ++ s ++ r /\ 1 <= lenN h /\ (24 <= lenN s -> 2 <= lenN h).
Proof.
  unfold dec_bstr. destruct (dec_head l) as [[[mt v] q]|] eqn:E; [|discriminate].
  intros H. assert (K : v <= lenN q /\ s = takeN v q /\ r = dropN v q).
  { destruct mt as [|[[]|[]|]]; try discriminate H. destruct (N.leb_spec v (lenN q)); [|discriminate H].
    injection H as <- <-. auto. }
  clear H. destruct K as (L & -> & ->). destruct (dec_head_part _ _ _ _ E) as (h & -> & L1 & L2). exists h.
  rewrite takeN_dropN. split; [reflexivity|]. split; [exact L1|]. rewrite lenN_takeN. intros Q. apply L2. lia.
Qed.
Lemma dec_tstr_part l s r : dec_tstr l = Some (s, r) -> exists h, l = h ++ r.
Proof.
  unfold dec_tstr. destruct (dec_head l) as [[[mt v] q]|] eqn:E; [|discriminate].
  intros H. assert (K : r = dropN v q).
  { destruct mt as [|[[[]|[]|]|[[]|[]|]|]]; try discriminate H. destruct (N.leb_spec v (lenN q)); [|discriminate H].
    injection H as <- <-. auto. }
  clear H. subst r. destruct (dec_head_part _ _ _ _ E) as (h & -> & _). exists (h ++ takeN v q).
  now rewrite <- app_assoc, takeN_dropN.
Qed.
Lemma dec_int_part l z r : dec_int l = Some (z, r) -> exists h, l = h ++ r.
Proof.
  unfold dec_int. destruct (dec_head l) as [[[mt v] q]|] eqn:E; [|discriminate].
  destruct (dec_head_part _ _ _ _ E) as (h & -> & _). intros H. exists h.
  destruct mt as [|[[]|[]|]]; try discriminate H; destruct (v <? 2 ^ 31); try discriminate H; now injection H as _ <-.
Qed.
Lemma dec_uint_part l z r : dec_uint l = Some (z, r) -> exists h, l = h ++ r.
Proof.
  unfold dec_uint. destruct (dec_head l) as [[[mt v] q]|] eqn:E; [|discriminate].
  destruct (dec_head_part _ _ _ _ E) as (h & -> & _). intros H. exists h.
  destruct mt; try discriminate H; destruct (v <? 2 ^ 32); try discriminate H; now injection H as _ <-.
Qed.
Lemma dec_map_part l n r : dec_map l = Some (n, r) -> exists h, l = h ++ r.
Proof.
  unfold dec_map. destruct (dec_head l) as [[[mt v] q]|] eqn:E; [|discriminate].
  destruct (dec_head_part _ _ _ _ E) as (h & -> & _). intros H. exists h.
  destruct mt as [|[[[]|[]|]|[[]|[]|]|]]; try discriminate H. now injection H as _ <-.
Qed.
Lemma dec_list_part l n r : dec_list l = Some (n, r) -> exists h, l = h ++ r.
Proof.
  unfold dec_list. destruct (dec_head l) as [[[mt v] q]|] eqn:E; [|discriminate].
  destruct (dec_head_part _ _ _ _ E) as (h & -> & _). intros H. exists h.
  destruct mt as [|[[[]|[]|]|[[]|[]|]|]]; try discriminate H. now injection H as _ <-.
Qed.

(** an entry of a map that was decoded with [dec] *)
Lemma dec_entry_part {A} (P : A -> bytes -> Prop) key (dec : bytes -> option (A * bytes)) :
  (forall l a r, dec l = Some (a, r) -> (exists h, l = h ++ r) /\ P a l) ->
  (forall a p l, P a l -> P a (p ++ l)) ->
  forall n l o n' l', dec_entry key dec (n, l) = (o, (n', l')) ->
  (exists h, l = h ++ l') /\ (forall a, o = Some a -> P a l).
Proof.
  intros D M n l o n' l'. unfold dec_entry.
  assert (T : (None, (n, l)) = (o, (n', l')) -> (exists h, l = h ++ l') /\ (forall a, o = Some a -> P a l)).
  { intros [= <- <- <-]. split; [now exists []|discriminate]. }
  destruct (n =? 0); [exact T|]. destruct (dec_uint l) as [[k r]|] eqn:EU; [|exact T]. destruct (k =? key); [|exact T].
  destruct (dec r) as [[a r']|] eqn:ED; [|exact T]. intros [= <- <- <-].
  destruct (dec_uint_part _ _ _ EU) as (h & ->). destruct (D _ _ _ ED) as ((h' & ->) & PA).
  split; [exists (h ++ h'); now rewrite <- app_assoc|]. intros b [= <-]. now apply M.
Qed.
Definition any {A} (_ : A) (_ : bytes) : Prop := True.
Lemma dec_int_or_bstr_part l a r : dec_int_or_bstr l = Some (a, r) -> (exists h, l = h ++ r) /\ any a l.
Proof.
  unfold dec_int_or_bstr. destruct (dec_int l) as [[z q]|] eqn:E1.
  - intros [= <- <-]. split; [eapply dec_int_part; eassumption|exact I].
  - destruct (dec_bstr l) as [[b q]|] eqn:E2; [|discriminate]. intros [= <- <-].
    destruct (dec_bstr_part _ _ _ E2) as (h & -> & _). split; [exists (h ++ b); now rewrite <- app_assoc|exact I].
Qed.
Lemma dec_hash_pair_part l a r : dec_hash_pair l = Some (a, r) -> (exists h, l = h ++ r) /\ any a l.
Proof.
  unfold dec_hash_pair. destruct (dec_list l) as [[n q]|] eqn:E0; [|discriminate]. destruct (dec_list_part _ _ _ E0) as (h0 & ->).
  intros H. assert (K : exists a' q', (match dec_int q with
             | Some (z, r1) => Some (UInt z, r1)
             | None => match dec_tstr q with Some (b, r1) => Some (UStr b, r1) | None => None end
             end) = Some (a', q') /\ exists h', dec_bstr q' = Some (h', r)).
  { destruct n as [|[|[]|]]; try discriminate H. destruct (dec_int q) as [[z r1]|].
    - eexists _, _. split; [reflexivity|]. destruct (dec_bstr r1) as [[? ?]|]; [|discriminate H]. injection H as _ <-. eauto.
    - destruct (dec_tstr q) as [[z r1]|]; [|discriminate H].
      eexists _, _. split; [reflexivity|]. destruct (dec_bstr r1) as [[? ?]|]; [|discriminate H]. injection H as _ <-. eauto. }
  destruct K as (a' & q' & K1 & h' & K2). split; [|exact I]. destruct (dec_bstr_part _ _ _ K2) as (h2 & -> & _).
  assert (K3 : exists h, q = h ++ h2 ++ h' ++ r).
  { destruct (dec_int q) as [[z r1]|] eqn:E1; [injection K1 as <- ->; eapply dec_int_part; exact E1|].
    destruct (dec_tstr q) as [[z r1]|] eqn:E2; [injection K1 as <- ->; eapply dec_tstr_part; exact E2|discriminate K1]. }
  destruct K3 as (h & ->). exists (h0 ++ h ++ h2 ++ h'). now rewrite <- !app_assoc.
Qed.
Lemma dec_bstr_infix l s r : dec_bstr l = Some (s, r) -> (exists h, l = h ++ r) /\ infix s l.
Proof.
  intros H. destruct (dec_bstr_part _ _ _ H) as (h & -> & _). split; [exists (h ++ s); now rewrite <- app_assoc|now exists h, r].
Qed.

(** the certificates in a decoded map are parts of the map *)
Lemma map_certs l m r : dec_id_cred_map l = Some (m, r) ->
  forall c, ic_x5bag m = Some c \/ ic_x5chain m = Some c \/ ic_c5b m = Some c \/ ic_c5c m = Some c -> infix c l.
Proof.
  unfold dec_id_cred_map. destruct (dec_map l) as [[n q]|] eqn:EM; [|discriminate]. destruct (dec_map_part _ _ _ EM) as (h0 & ->).
  pose proof (fun (a : int_or_str) (p l : bytes) (_ : any a l) => I : any a (p ++ l)) as MI.
  pose proof (fun (a : int_or_str * bytes) (p l : bytes) (_ : any a l) => I : any a (p ++ l)) as MP.
  destruct (dec_entry 4 dec_int_or_bstr (n, q)) as [a1 [n1 s1]] eqn:E1.
  destruct (dec_entry_part _ _ _ dec_int_or_bstr_part MI _ _ _ _ _ E1) as ((h1 & ->) & _).
  destruct (dec_entry 32 dec_bstr (n1, s1)) as [a2 [n2 s2]] eqn:E2.
  destruct (dec_entry_part infix _ _ dec_bstr_infix infix_suffix _ _ _ _ _ E2) as ((h2 & ->) & P2).
  destruct (dec_entry 33 dec_bstr (n2, s2)) as [a3 [n3 s3]] eqn:E3.
  destruct (dec_entry_part infix _ _ dec_bstr_infix infix_suffix _ _ _ _ _ E3) as ((h3 & ->) & P3).
  destruct (dec_entry 34 dec_hash_pair (n3, s3)) as [a4 [n4 s4]] eqn:E4.
  destruct (dec_entry_part _ _ _ dec_hash_pair_part MP _ _ _ _ _ E4) as ((h4 & ->) & _).
  destruct (dec_entry 35 dec_bstr (n4, s4)) as [a5 [n5 s5]] eqn:E5.
  destruct (dec_entry_part infix _ _ dec_bstr_infix infix_suffix _ _ _ _ _ E5) as ((h5 & ->) & _).
  destruct (dec_entry 52 dec_bstr (n5, s5)) as [a6 [n6 s6]] eqn:E6.
  destruct (dec_entry_part infix _ _ dec_bstr_infix infix_suffix _ _ _ _ _ E6) as ((h6 & ->) & P6).
  destruct (dec_entry 53 dec_bstr (n6, s6)) as [a7 [n7 s7]] eqn:E7.
  destruct (dec_entry_part infix _ _ dec_bstr_infix infix_suffix _ _ _ _ _ E7) as ((h7 & ->) & P7).
  destruct (dec_entry 54 dec_hash_pair (n7, s7)) as [a8 [n8 s8]] eqn:E8.
  destruct (dec_entry 55 dec_bstr (n8, s8)) as [a9 [n9 s9]] eqn:E9.
  cbn [fst snd]. destruct (n9 =? 0); [|discriminate]. intros [= <- <-] c. cbn [ic_x5bag ic_x5chain ic_c5b ic_c5c].
  intros [Q|[Q|[Q|Q]]]; [do 2 apply infix_suffix|do 3 apply infix_suffix|do 6 apply infix_suffix|do 7 apply infix_suffix]; auto.
Qed.

(* ---------- the local search ---------- *)
Lemma copy_to_ok cap b x : copy_to cap b = Ok x -> x = b.
Proof.
  unfold copy_to. destruct (N.eqb_spec (lenN b) 0) as [Z|Z].
  - apply lenN_0 in Z. subst b. now intros [= <-].
  - intros HO. destruct (proj1 (bind_ok _ _ _) HO) as (u & _ & Q). now injection Q as <-.
Qed.
Lemma get_local_inv sd creds id cap f : get_local_cred sd creds id cap = Ok f ->
  exists c, first_with creds id c /\ f_cred f = oc_cred c /\
    (if sd then f_pk f = [] /\ f_g f = dh_key_of (oc_g c) else f_pk f = oc_pk c /\ f_g f = []).
Proof.
  induction creds as [|c creds IH]; [discriminate|]. cbn [get_local_cred]. destruct (beqb (oc_id_cred c) id) eqn:E.
  - apply beqb_eq in E. intros HO. exists c. split; [exists [], creds; split; [reflexivity|]; split; [exact E|intros d []]|].
    destruct (proj1 (bind_ok _ _ _) HO) as (cred & HC & HR). apply copy_to_ok in HC. subst cred. clear HO. destruct sd.
    + unfold dh_key_of. destruct (lenN (oc_g c) =? 65) eqn:L.
      * destruct (proj1 (bind_ok _ _ _) HR) as (x & HX & Q). destruct (slice_ok _ _ _ _ HX) as (_ & _ & ->). injection Q as <-. cbn. auto.
      * destruct (proj1 (bind_ok _ _ _) HR) as (x & HX & Q). apply copy_to_ok in HX. subst x. injection Q as <-. cbn. auto.
    + destruct (proj1 (bind_ok _ _ _) HR) as (x & HX & Q). apply copy_to_ok in HX. subst x. injection Q as <-. cbn. auto.
  - intros HO. destruct (IH HO) as (d & (b & a & -> & EI & NB) & Q). exists d. split; [|exact Q].
    exists (c :: b), a. split; [reflexivity|]. split; [exact EI|]. intros e [<-|I]; [|now apply NB].
    now apply beqb_neq in E.
Qed.
Lemma get_local_none sd creds id cap : (forall c, In c creds -> oc_id_cred c <> id) ->
  get_local_cred sd creds id cap = Err credential_not_found.
Proof.
  induction creds as [|c creds IH]; intros H; [reflexivity|]. cbn [get_local_cred]. destruct (beqb (oc_id_cred c) id) eqn:E.
  - apply beqb_eq in E. exfalso. now apply (H c (or_introl eq_refl)).
  - apply IH. intros d I. apply H. now right.
Qed.

(* ---------- certificates ---------- *)
Lemma issuer_match s i : issuer_matches s i = Ok true -> begins i s.
Proof.
  unfold issuer_matches. destruct (_ <? _); [discriminate|]. intros [= Q]. apply beqb_eq in Q. exists (dropN (lenN s) i).
  rewrite Q at 1. now rewrite takeN_dropN.
Qed.
Lemma issuer_nomatch s i : issuer_matches s i = Ok false -> ~ begins i s.
Proof.
  unfold issuer_matches. destruct (_ <? _); [discriminate|]. intros [= Q] (t & ->). apply beqb_neq in Q. apply Q.
  now rewrite takeN_app.
Qed.
Lemma ca_search_inv pf creds issuer k : ca_search pf creds issuer = Ok k ->
  exists c before after x s, oc_ca_pk c = k /\ creds = before ++ c :: after /\ oc_ca c <> [] /\
     pf_x509_parse pf (oc_ca c) = Some x /\ x_subject_cn x = Some s /\
     begins issuer s /\
     forall d xd sd, In d before -> oc_ca d <> [] -> pf_x509_parse pf (oc_ca d) = Some xd -> x_subject_cn xd = Some sd ->
       ~ begins issuer sd.
Proof.
  induction creds as [|c creds IH]; [discriminate|]. cbn [ca_search]. destruct (oc_ca c) as [|a0 ca] eqn:EC.
  - intros HO. destruct (IH HO) as (d & b & a & x & s & E1 & -> & NC & PX & PS & PM & NB).
    exists d, (c :: b), a, x, s. repeat split; auto. intros e xd sd' [<-|I] ND; [contradiction|]. eapply NB; eassumption.
  - intros HO. destruct (proj1 (bind_ok _ _ _) HO) as (x & HX & HR). apply ext_ok in HX. destruct (x_subject_cn x) as [s|] eqn:ES; [|discriminate].
    destruct (proj1 (bind_ok _ _ _) HR) as (b & HB & HQ). destruct b.
    + injection HQ as <-. pose proof (issuer_match _ _ HB) as M1.
      exists c, [], creds, x, s. rewrite EC. repeat split; auto; try discriminate; intros d xd sd [].
    + destruct (IH HQ) as (d & b & a & x' & s' & E1 & -> & NC & PX & PS & PM & NB).
      exists d, (c :: b), a, x', s'. repeat split; auto. intros e xd sd' [<-|I] ND PP PP'; [|eapply NB; eassumption].
      rewrite EC in PP. rewrite HX in PP. injection PP as <-. rewrite ES in PP'. injection PP' as <-.
      now apply issuer_nomatch.
Qed.
Lemma ca_pk_inv pf creds issuer k : ca_pk_get pf creds issuer = Ok k ->
  exists c, In c creds /\ oc_ca_pk c = k /\ ca_entry pf creds issuer c.
Proof.
  unfold ca_pk_get.
  assert (S : ca_search pf creds issuer = Ok k -> pf_mbedtls pf = true ->
              exists c, In c creds /\ oc_ca_pk c = k /\ ca_entry pf creds issuer c).
  { intros HO M. destruct (ca_search_inv _ _ _ _ HO) as (c & b & a & x & s & E & -> & R). exists c.
    split; [apply in_or_app; right; now left|]. split; [exact E|]. right. split; [exact M|]. exists b, a, x, s. tauto. }
  assert (S' : (if pf_mbedtls pf then ca_search pf creds issuer else Err no_such_ca) = Ok k ->
              exists c, In c creds /\ oc_ca_pk c = k /\ ca_entry pf creds issuer c).
  { destruct (pf_mbedtls pf); [auto|discriminate]. }
  destruct creds as [|c [|c' r]]; [exact S'| |exact S'].
  destruct (negb (pf_mbedtls pf) || (lenN (oc_ca c) =? 0)) eqn:Q; [|exact S'].
  intros HO. assert (K : oc_ca_pk c = k /\ oc_ca_pk c <> []).
  { destruct (oc_ca_pk c) as [|b l]; [discriminate|]. injection HO as <-. split; [reflexivity|discriminate]. }
  destruct K as [<- NE]. exists c. split; [now left|]. split; [reflexivity|]. left. split; [reflexivity|]. split; [exact NE|].
  intros M. rewrite M in Q. cbn in Q. apply N.eqb_eq in Q. now apply lenN_0.
Qed.

Section Certs.
Variable cr : crypto.
Variable pf : platform.
Lemma verify_ok alg pk msg sgn v : verify cr alg pk msg sgn = Ok v -> exists g used,
  cr_verify cr g pk msg used = Some v /\ (used = sgn \/ used = takeN 64 sgn /\ 64 <= lenN sgn).
Proof.
  unfold verify. destruct alg.
  - intros HO. apply ext_ok in HO. eexists _, _. split; [exact HO|]. auto.
  - destruct (N.ltb_spec (lenN sgn) 64); [discriminate|]. destruct (lenN pk <? 32); [discriminate|]. cbn [orb].
    intros HO. apply ext_ok in HO. eexists _, _. split; [exact HO|]. auto.
Qed.

Lemma c509_decode cert c : cbor_decode_cert cert = Some c -> exists a b rest h,
  cert = a ++ c5_pk c ++ b ++ h ++ c5_signature c ++ rest /\ 1 <= lenN h /\ (24 <= lenN (c5_signature c) -> 2 <= lenN h) /\
  2 <= lenN a.
Proof.
  unfold cbor_decode_cert. intros H.
  destruct (dec_int cert) as [[z0 l0]|] eqn:E0; [|discriminate H]. destruct (dec_int_part _ _ _ E0) as (h0 & ->).
  destruct (dec_int l0) as [[z1 l1]|] eqn:E1; [|discriminate H]. destruct (dec_int_part _ _ _ E1) as (h1 & ->).
  destruct (dec_tstr l1) as [[z2 l2]|] eqn:E2; [|discriminate H]. destruct (dec_tstr_part _ _ _ E2) as (h2 & ->).
  destruct (dec_int l2) as [[z3 l3]|] eqn:E3; [|discriminate H]. destruct (dec_int_part _ _ _ E3) as (h3 & ->).
  destruct (dec_int l3) as [[z4 l4]|] eqn:E4; [|discriminate H]. destruct (dec_int_part _ _ _ E4) as (h4 & ->).
  destruct (dec_bstr l4) as [[z5 l5]|] eqn:E5; [|discriminate H]. destruct (dec_bstr_part _ _ _ E5) as (h5 & -> & L5 & _).
  destruct (dec_int l5) as [[z6 l6]|] eqn:E6; [|discriminate H]. destruct (dec_int_part _ _ _ E6) as (h6 & ->).
  destruct (dec_bstr l6) as [[z7 l7]|] eqn:E7; [|discriminate H]. destruct (dec_bstr_part _ _ _ E7) as (h7 & -> & L7 & _).
  destruct (dec_int l7) as [[z8 l8]|] eqn:E8; [|discriminate H]. destruct (dec_int_part _ _ _ E8) as (h8 & ->).
  destruct (dec_int l8) as [[z9 l9]|] eqn:E9; [|discriminate H]. destruct (dec_int_part _ _ _ E9) as (h9 & ->).
  destruct (dec_bstr l9) as [[z10 l10]|] eqn:E10; [|discriminate H]. destruct (dec_bstr_part _ _ _ E10) as (h10 & -> & L10 & L10').
  injection H as <-. cbn [c5_pk c5_signature].
  exists (h0 ++ h1 ++ h2 ++ h3 ++ h4 ++ h5 ++ z5 ++ h6 ++ h7), (h8 ++ h9), l10, h10.
  split; [now rewrite <- !app_assoc|]. split; [exact L10|]. split; [exact L10'|]. rewrite !lenN_app. lia.
Qed.
Lemma c509_inv cert creds cap key : lenN cert < 2 ^ 32 -> cert_c509_verify cr pf cert creds cap = Ok (key, true) ->
  exists k, key = Some k /\ certified cr pf creds C509 cert k.
Proof.
  intros LC HO. unfold cert_c509_verify in HO.
  destruct (proj1 (bind_ok _ _ _) HO) as (c & HC & HR). apply ext_ok in HC. clear HO.
  destruct (proj1 (bind_ok _ _ _) HR) as (root & HP & HQ). clear HR. destruct (ca_pk_inv _ _ _ _ HP) as (e & IE & EK & _).
  destruct (proj1 (bind_ok _ _ _) HQ) as (m & HM & HV). clear HQ.
  destruct (proj1 (bind_ok _ _ _) HV) as (v & HVV & HK). clear HV.
  destruct (proj1 (bind_ok _ _ _) HK) as (u & _ & HE). clear HK. injection HE as <- ->.
  exists (c5_pk c). split; [reflexivity|].
  destruct (sign_alg_of (c5_sig_alg c)) as [alg|]; [|discriminate]. apply verify_ok in HVV. destruct HVV as (g & used & HVV & US).
  destruct (c509_decode _ _ HC) as (a & b & rest & h & EC & LH & LH' & LA).
  destruct (slice_ok _ _ _ _ HM) as (LM & LM' & ->).
  assert (LT : lenN cert = lenN a + lenN (c5_pk c) + lenN b + lenN h + lenN (c5_signature c) + lenN rest)
    by (rewrite EC, !lenN_app; lia).
  rewrite dropN_0 in *. set (n := sub32 (sub32 (lenN cert) 2) (lenN (c5_signature c))) in *.
  assert (EN : n = lenN cert - 2 - lenN (c5_signature c)).
  { unfold n. rewrite (sub32_exact (lenN cert)), sub32_exact by lia. reflexivity. }
  exists (takeN n cert), (dropN n cert), (c5_signature c), used. split; [now rewrite takeN_dropN|].
  split; [exists (a ++ c5_pk c ++ b ++ h), rest; rewrite EC at 1; now rewrite <- !app_assoc|].
  split; [exact US|]. split; [exists e, g; split; [exact IE|]; now rewrite EK|].
  split; [exists a, (b ++ h ++ c5_signature c ++ rest); exact EC|].
  intros L24. specialize (LH' L24).
  assert (Q : takeN n cert = (a ++ c5_pk c) ++ takeN (n - lenN (a ++ c5_pk c)) (b ++ h ++ c5_signature c ++ rest)).
  { rewrite EC at 1. rewrite (app_assoc a). unfold takeN. rewrite firstn_app. f_equal.
    - apply firstn_all2. unfold lenN in *. rewrite app_length. lia.
    - f_equal. unfold lenN. lia. }
  rewrite Q. exists a, (takeN (n - lenN (a ++ c5_pk c)) (b ++ h ++ c5_signature c ++ rest)). now rewrite <- app_assoc.
Qed.

Lemma x509_inv cert creds cap key : cert_x509_verify cr pf cert creds cap = Ok (Some key, true) ->
  certified cr pf creds X509 cert key.
Proof.
  unfold cert_x509_verify, certified. destruct (pf_mbedtls pf) eqn:M.
  - unfold cert_x509_verify_mbedtls. intros HO.
    destruct (proj1 (bind_ok _ _ _) HO) as (x & HX & HR). apply ext_ok in HX. clear HO.
    destruct (x_ecdsa x); [|discriminate]. cbn [negb] in HR. destruct (x_md_len x) as [un|]; [|discriminate].
    destruct (x_issuer_cn x) as [iss|]; [|discriminate].
    destruct (proj1 (bind_ok _ _ _) HR) as (root & HP & HQ). clear HR. destruct (ca_pk_inv _ _ _ _ HP) as (e & IE & EK & _).
    destruct (proj1 (bind_ok _ _ _) HQ) as (sg & HS & HV). clear HQ. destruct (lenN sg <? SIGNATURE_SIZE); [discriminate|].
    destruct (proj1 (bind_ok _ _ _) HV) as (v & HVV & HK). clear HV.
    destruct (proj1 (bind_ok _ _ _) HK) as (u & _ & HE). clear HK. injection HE as <- ->.
    apply verify_ok in HVV. destruct HVV as (g & used & HVV & US).
    exists x, used. split; [exact HX|]. split; [reflexivity|]. exists e, g. split; [exact IE|]. now rewrite EK.
  - unfold cert_x509_verify_crude. intros HO.
    destruct (proj1 (bind_ok _ _ _) HO) as (((tbs & pk) & sg) & HP & HR). clear HO.
    destruct creds as [|c creds]; [discriminate|].
    destruct (proj1 (bind_ok _ _ _) HR) as (root & HC & HQ). clear HR. destruct (ca_pk_inv _ _ _ _ HC) as (e & IE & EK & _).
    destruct sg as [s|]; [|discriminate]. destruct (proj1 (bind_ok _ _ _) HQ) as (v & HV & HE). clear HQ. injection HE as -> ->.
    apply ext_ok in HV. exists tbs, s.
    unfold x509_crude_parse in HP.
    destruct (proj1 (bind_ok _ _ _) HP) as ((c1 & l1) & _ & HP1). clear HP. destruct (proj1 (bind_ok _ _ _) HP1) as ((c2 & l2) & _ & HP2). clear HP1.
    destruct (proj1 (bind_ok _ _ _) HP2) as (n2 & _ & HP3). clear HP2. destruct (proj1 (bind_ok _ _ _) HP3) as ((c3 & l3) & _ & HP4). clear HP3.
    destruct (proj1 (bind_ok _ _ _) HP4) as ((c4 & l4) & _ & HP5). clear HP4. destruct (proj1 (bind_ok _ _ _) HP5) as ((c5 & l5) & _ & HP6). clear HP5.
    destruct (proj1 (bind_ok _ _ _) HP6) as (n6 & _ & HP7). clear HP6. destruct (proj1 (bind_ok _ _ _) HP7) as ((c7 & l7) & _ & HP8). clear HP7.
    destruct (proj1 (bind_ok _ _ _) HP8) as (n8 & _ & HP9). clear HP8. destruct (proj1 (bind_ok _ _ _) HP9) as (pk9 & HK9 & HP10). clear HP9.
    destruct (proj1 (bind_ok _ _ _) HP10) as ((c10 & l10) & _ & HP11). clear HP10. destruct (proj1 (bind_ok _ _ _) HP11) as (n11 & _ & HP12). clear HP11.
    destruct (proj1 (bind_ok _ _ _) HP12) as ((c12 & l12) & _ & HP13). clear HP12. destruct (proj1 (bind_ok _ _ _) HP13) as ((c13 & l13) & _ & HP14). clear HP13.
    destruct (proj1 (bind_ok _ _ _) HP14) as ((c14 & l14) & _ & HP15). clear HP14. destruct (proj1 (bind_ok _ _ _) HP15) as (n15 & _ & HP16). clear HP15.
    destruct (lenN cert <? c14 + n15); [discriminate|].
    destruct (proj1 (bind_ok _ _ _) HP16) as (r16 & _ & HP17). clear HP16. destruct (proj1 (bind_ok _ _ _) HP17) as ((c17 & l17) & _ & HP18). clear HP17.
    destruct (proj1 (bind_ok _ _ _) HP18) as (n18 & _ & HP19). clear HP18. destruct (lenN cert <? c17 + n18); [discriminate|].
    destruct (proj1 (bind_ok _ _ _) HP19) as (s19 & _ & HP20). clear HP19. destruct (proj1 (bind_ok _ _ _) HP20) as (tbs' & HT & HE). clear HP20.
    injection HE as -> -> ES. split; [eapply slice_infix; exact HT|]. split.
    { destruct (n8 =? 0); [injection HK9 as <-; apply infix_nil|]. destruct (cap <? n8); [discriminate|].
      destruct (proj1 (bind_ok _ _ _) HK9) as (b & HB & HE). injection HE as ->. eapply slice_infix; exact HB. }
    destruct (_ && _) eqn:Q in ES; [|discriminate]. injection ES as <-. apply andb_prop in Q. destruct Q as [_ Q]. apply N.eqb_eq in Q.
    split; [exact Q|]. exists e, (sign_sel ES256). split; [exact IE|]. now rewrite EK.
Qed.

Lemma cert2cred_inv sd creds k cert cap f : lenN cert < 2 ^ 32 -> verify_cert2cred cr pf sd creds k cert cap = Ok f ->
  f_cred f = cbor (CBytes cert) /\ exists key, certified cr pf creds k cert key /\
    (if sd then f_pk f = [] /\ f_g f = key else f_pk f = key /\ f_g f = []).
Proof.
  intros LC HO. unfold verify_cert2cred in HO. destruct (proj1 (bind_ok _ _ _) HO) as (cred & HC & HR). clear HO.
  apply encode_bstr_ok in HC. destruct HC as [-> _].
  destruct (proj1 (bind_ok _ _ _) HR) as ((key & v) & HK & HQ). clear HR. destruct v; [|discriminate]. destruct key as [key|]; [|discriminate].
  injection HQ as <-. rewrite cbor_bytes. split; [now destruct sd|]. exists key. split; [|destruct sd; cbn; auto].
  destruct k.
  - eapply x509_inv; exact HK.
  - destruct (c509_inv _ _ _ _ LC HK) as (k & [= <-] & Q). exact Q.
Qed.

Lemma retrieve_inv sd creds id cap f : lenN id < 2 ^ 32 -> retrieve_cred cr pf sd creds (Some id) cap = Ok f ->
  (exists c, first_with creds id c /\ f_cred f = oc_cred c /\
     (if sd then f_pk f = [] /\ f_g f = dh_key_of (oc_g c) else f_pk f = oc_pk c /\ f_g f = [])) \/
  (exists k cert key, infix cert id /\ f_cred f = cbor (CBytes cert) /\ certified cr pf creds k cert key /\
     (if sd then f_pk f = [] /\ f_g f = key else f_pk f = key /\ f_g f = [])).
Proof.
  intros LI HO. unfold retrieve_cred in HO. destruct (proj1 (bind_ok _ _ _) HO) as ((m & r) & HM & HR). clear HO. apply ext_ok in HM.
  pose proof (map_certs _ _ _ HM) as IC.
  assert (LF : forall c, infix c id -> lenN c < 2 ^ 32).
  { intros c (p & q & ->). rewrite !lenN_app in LI. lia. }
  assert (CC : forall k c, infix c id -> verify_cert2cred cr pf sd creds k c cap = Ok f ->
    (exists k cert key, infix cert id /\ f_cred f = cbor (CBytes cert) /\ certified cr pf creds k cert key /\
     (if sd then f_pk f = [] /\ f_g f = key else f_pk f = key /\ f_g f = []))).
  { intros k c I HV. destruct (cert2cred_inv _ _ _ _ _ _ (LF c I) HV) as (EC & key & CE & EK). exists k, c, key. auto. }
  assert (LL : get_local_cred sd creds id cap = Ok f -> exists c, first_with creds id c /\ f_cred f = oc_cred c /\
     (if sd then f_pk f = [] /\ f_g f = dh_key_of (oc_g c) else f_pk f = oc_pk c /\ f_g f = []))
    by apply get_local_inv.
  destruct (ic_kid m); [left; auto|]. destruct (ic_x5u m); [left; auto|]. destruct (ic_x5t m); [left; auto|].
  destruct (ic_c5u m); [left; auto|]. destruct (ic_c5t m); [left; auto|]. right.
  destruct (ic_x5chain m) as [c|] eqn:X1; [eapply CC; [|exact HR]; auto|].
  destruct (ic_x5bag m) as [c|] eqn:X2; [eapply CC; [|exact HR]; auto|].
  destruct (ic_c5c m) as [c|] eqn:X3; [eapply CC; [|exact HR]; auto 6|].
  destruct (ic_c5b m) as [c|] eqn:X4; [eapply CC; [|exact HR]; auto 6|]. discriminate.
Qed.
End Certs.

(* ---------- the parser of the build without Mbed TLS on DER ---------- *)
Lemma rd_at (l a b : bytes) x p : l = a ++ x :: b -> p = lenN a -> rd l p = Ok x.
Proof. intros -> ->. apply rd_app_here. Qed.
Lemma get_len_der l a n b p old : l = a ++ der_len n ++ b -> p = lenN a -> n < 2 ^ 32 ->
  asn1_get_len l p old = Ok (lenN (a ++ der_len n), Some n).
Proof.
  intros El Ep Hn. subst p. unfold asn1_get_len.
  assert (LL : lenN l = lenN a + lenN (der_len n) + lenN b) by (rewrite El, !lenN_app; lia).
  rewrite lenN_app. unfold der_len in *. destruct (N.ltb_spec n 128) as [C1|C1].
  - change (lenN [n]) with 1 in *. destruct (N.leb_spec (lenN l) (lenN a)); [lia|].
    rewrite (rd_at l a b n) by (exact El || reflexivity). cbn [bind]. destruct (N.ltb_spec n 128); [reflexivity|lia].
  - destruct (N.ltb_spec n 256) as [C2|C2].
    + change (lenN [129; n]) with 2 in *. destruct (N.leb_spec (lenN l) (lenN a)); [lia|].
      rewrite (rd_at l a ([n] ++ b) 129) by (exact El || reflexivity). cbn [bind]. change (129 <? 128) with false. cbv iota.
      change (129 - 128) with 1. cbv iota. destruct (N.ltb_spec (lenN l - lenN a) 2); [lia|].
      rewrite (rd_at l (a ++ [129]) b n); [reflexivity|now rewrite El, <- app_assoc|rewrite lenN_app; reflexivity].
    + destruct (N.ltb_spec n (2 ^ 16)) as [C3|C3]; [|destruct (N.ltb_spec n (2 ^ 24)) as [C4|C4]].
      change (lenN [130; n / 256; n mod 256]) with 3 in *. destruct (N.leb_spec (lenN l) (lenN a)); [lia|].
      rewrite (rd_at l a ([n / 256; n mod 256] ++ b) 130) by (exact El || reflexivity). cbn [bind]. change (130 <? 128) with false. cbv iota.
      change (130 - 128) with 2. cbv iota. destruct (N.ltb_spec (lenN l - lenN a) 3); [lia|].
      rewrite (rd_at l (a ++ [130]) ([n mod 256] ++ b) (n / 256)); [|now rewrite El, <- app_assoc|rewrite lenN_app; reflexivity].
      cbn [bind]. rewrite (rd_at l (a ++ [130; n / 256]) b (n mod 256)); [|now rewrite El, <- app_assoc|rewrite lenN_app; reflexivity].
      cbn [bind]. rewrite (N.mul_comm (n / 256)), <- (N.div_mod n 256) by lia. reflexivity.
      * set (x := n / 65536) in *. set (y := n / 256 mod 256) in *. set (z := n mod 256) in *.
        change (lenN [131; x; y; z]) with 4 in *. destruct (N.leb_spec (lenN l) (lenN a)); [lia|].
        rewrite (rd_at l a ([x; y; z] ++ b) 131) by (exact El || reflexivity). cbn [bind]. change (131 <? 128) with false. cbv iota.
        change (131 - 128) with 3. cbv iota. destruct (N.ltb_spec (lenN l - lenN a) 4); [lia|].
        rewrite (rd_at l (a ++ [131]) ([y; z] ++ b) x); [|now rewrite El, <- app_assoc|rewrite lenN_app; reflexivity].
        cbn [bind]. rewrite (rd_at l (a ++ [131; x]) ([z] ++ b) y); [|now rewrite El, <- app_assoc|rewrite lenN_app; reflexivity].
        cbn [bind]. rewrite (rd_at l (a ++ [131; x; y]) b z); [|now rewrite El, <- app_assoc|rewrite lenN_app; reflexivity].
        cbn [bind]. do 3 f_equal.
        pose proof (N.div_mod n 256 ltac:(lia)) as D1. pose proof (N.div_mod (n / 256) 256 ltac:(lia)) as D2.
        rewrite N.div_div in D2 by lia. change (256 * 256) with 65536 in D2. fold x y z in D1, D2. lia.
      * set (w := n / 16777216) in *. set (x := n / 65536 mod 256) in *. set (y := n / 256 mod 256) in *. set (z := n mod 256) in *.
        change (lenN [132; w; x; y; z]) with 5 in *. destruct (N.leb_spec (lenN l) (lenN a)); [lia|].
        rewrite (rd_at l a ([w; x; y; z] ++ b) 132) by (exact El || reflexivity). cbn [bind]. change (132 <? 128) with false. cbv iota.
        change (132 - 128) with 4. cbv iota. destruct (N.ltb_spec (lenN l - lenN a) 5); [lia|].
        rewrite (rd_at l (a ++ [132]) ([x; y; z] ++ b) w); [|now rewrite El, <- app_assoc|rewrite lenN_app; reflexivity].
        cbn [bind]. rewrite (rd_at l (a ++ [132; w]) ([y; z] ++ b) x); [|now rewrite El, <- app_assoc|rewrite lenN_app; reflexivity].
        cbn [bind]. rewrite (rd_at l (a ++ [132; w; x]) ([z] ++ b) y); [|now rewrite El, <- app_assoc|rewrite lenN_app; reflexivity].
        cbn [bind]. rewrite (rd_at l (a ++ [132; w; x; y]) b z); [|now rewrite El, <- app_assoc|rewrite lenN_app; reflexivity].
        cbn [bind]. do 3 f_equal.
        pose proof (N.div_mod n 256 ltac:(lia)) as D1. pose proof (N.div_mod (n / 256) 256 ltac:(lia)) as D2.
        pose proof (N.div_mod (n / 256 / 256) 256 ltac:(lia)) as D3.
        rewrite !N.div_div in D3 by lia. rewrite N.div_div in D2 by lia. change (256 * 256) with 65536 in *.
        change (65536 * 256) with 16777216 in D3. change (256 * 65536) with 16777216 in D3. fold w x y z in D1, D2, D3. lia.
Qed.
Lemma der_len_len n : 1 <= lenN (der_len n) <= 5.
Proof.
  unfold der_len. destruct (n <? 128); [|destruct (n <? 256); [|destruct (n <? 2 ^ 16); [|destruct (n <? 2 ^ 24)]]];
    rewrite !lenN_cons, lenN_nil; lia.
Qed.
Lemma expecto_der l a tag n z b p old : l = a ++ tag :: der_len n ++ z :: b -> p = lenN a -> n < 2 ^ 32 -> z <> 0 ->
  expecto_tag l tag p old = Ok (lenN (a ++ tag :: der_len n), Some n).
Proof.
  intros El -> Hn Hz. unfold expecto_tag. rewrite (rd_at l a (der_len n ++ z :: b) tag) by (exact El || reflexivity).
  cbn [bind]. rewrite N.eqb_refl. cbn [negb].
  rewrite (get_len_der l (a ++ [tag]) n (z :: b)); [|now rewrite El, <- app_assoc|rewrite lenN_app; reflexivity|exact Hn].
  cbn [bind]. rewrite (rd_at l ((a ++ [tag]) ++ der_len n) b z); [|now rewrite El, <- !app_assoc|reflexivity].
  cbn [bind]. destruct (N.eqb_spec z 0); [contradiction|]. now rewrite <- app_assoc.
Qed.
Lemma expecto_der0 l a tag n b p old : l = a ++ tag :: der_len n ++ 0 :: b -> p = lenN a -> n < 2 ^ 32 -> 1 <= n ->
  expecto_tag l tag p old = Ok (lenN (a ++ tag :: der_len n ++ [0]), Some (n - 1)).
Proof.
  intros El -> Hn Hz. unfold expecto_tag. rewrite (rd_at l a (der_len n ++ 0 :: b) tag) by (exact El || reflexivity).
  cbn [bind]. rewrite N.eqb_refl. cbn [negb].
  rewrite (get_len_der l (a ++ [tag]) n (0 :: b)); [|now rewrite El, <- app_assoc|rewrite lenN_app; reflexivity|exact Hn].
  cbn [bind]. rewrite (rd_at l ((a ++ [tag]) ++ der_len n) b 0); [|now rewrite El, <- !app_assoc|reflexivity].
  cbn [bind used]. change (0 =? 0) with true. cbv iota. rewrite sub32_exact by lia. do 3 f_equal.
  rewrite <- app_assoc. cbn [app]. rewrite !lenN_app, !lenN_cons, lenN_app. change (lenN [0]) with 1. lia.
Qed.
Lemma skip_der els : forall l a b p old, l = a ++ elems els ++ b -> p = lenN a ->
  Forall (fun e => lenN (snd e) < 2 ^ 32) els ->
  exists old', skip_elems (length els) l p old = Ok (lenN (a ++ elems els), old').
Proof.
  induction els as [|[t c] els IH]; intros l a b p old El -> HF.
  - exists old. cbn. now rewrite app_nil_r.
  - inversion HF as [|? ? HC HF']; subst. cbn [snd] in HC. cbn [length skip_elems].
    rewrite (get_len_der _ (a ++ [t]) (lenN c) (c ++ elems els ++ b)); [|cbn [elems flat_map fst snd]; unfold der; cbn [app];
      rewrite <- !app_assoc; reflexivity|rewrite lenN_app; reflexivity|exact HC]. cbn [bind used].
    destruct (IH (a ++ elems ((t, c) :: els) ++ b) (a ++ der t c) b (lenN ((a ++ [t]) ++ der_len (lenN c)) + lenN c) (Some (lenN c))) as (o & Eo).
    + cbn [elems flat_map fst snd]. now rewrite <- !app_assoc.
    + unfold der. rewrite !lenN_app, !lenN_cons, !lenN_app, lenN_nil. lia.
    + exact HF'.
    + exists o. rewrite Eo. cbn [elems flat_map fst snd]. now rewrite <- app_assoc.
Qed.
Lemma elems_bound els : lenN (elems els) < 2 ^ 31 -> Forall (fun e => lenN (snd e) < 2 ^ 32) els.
Proof.
  intros L. induction els as [|[t c] els IH]; [constructor|]. cbn [elems flat_map fst snd] in L. fold (elems els) in L.
  unfold der in L. rewrite lenN_app, lenN_cons, lenN_app in L. constructor; [cbn [snd]; lia|apply IH; lia].
Qed.
Lemma slice_at (l a m b : bytes) p n : l = a ++ m ++ b -> p = lenN a -> n = lenN m -> slice l p n = Ok m.
Proof. intros -> -> ->. apply slice_app. Qed.

(** A certificate of version 1 (six elements) where the signature algorithm, which
    is not signed, is replaced by a public key. *)
Lemma crude_forged els t0 c0 rest key r s cap : els = (t0, c0) :: rest -> t0 <> 0 -> length els = 6%nat ->
  Forall (fun e => lenN (snd e) < 2 ^ 32) els -> lenN (elems els) < 2 ^ 31 ->
  1 <= lenN key <= 65 -> lenN key <= cap -> lenN r = 32 -> lenN s = 32 ->
  x509_crude_parse (x509 (der 48 (elems els)) (spki [] key) r s) cap =
    Ok (der 48 (elems els), Some key, Some (r ++ s)).
Proof.
  intros EE T0 L6 FE LE LK LC LR LS. set (tbs := der 48 (elems els)). set (l := x509 tbs (spki [] key) r s).
  set (sg := der_ecdsa r s).
  assert (DL : forall n, n < 128 -> der_len n = [n]) by (intros n Hn; unfold der_len; destruct (N.ltb_spec n 128); [reflexivity|lia]).
  assert (Esg : sg = 48 :: 70 :: 2 :: 33 :: 0 :: r ++ 2 :: 33 :: 0 :: s).
  { unfold sg, der_ecdsa, der. rewrite !lenN_cons, LR, LS. change (1 + 32) with 33. rewrite (DL 33) by lia. cbn [app].
    rewrite !lenN_cons, lenN_app, !lenN_cons, LR, LS. change (1 + (1 + (1 + (32 + (1 + (1 + (1 + 32))))))) with 70.
    rewrite (DL 70) by lia. reflexivity. }
  assert (Lsg : lenN sg = 72) by (rewrite Esg, !lenN_cons, lenN_app, !lenN_cons, LR, LS; reflexivity).
  set (k := lenN key) in *.
  assert (Esp : spki [] key = 48 :: (k + 5) :: 48 :: 0 :: 3 :: (k + 1) :: 0 :: key).
  { unfold spki, der. rewrite lenN_cons. fold k. rewrite (DL (1 + k)) by lia. change (lenN (@nil N)) with 0. rewrite (DL 0) by lia.
    cbn [app]. rewrite !lenN_cons. fold k. replace (1 + (1 + (1 + (1 + (1 + k))))) with (k + 5) by lia. rewrite (DL (k + 5)) by lia.
    rewrite (N.add_comm 1 k). reflexivity. }
  set (tail := 3 :: 73 :: 0 :: sg).
  assert (Etl : der 3 (0 :: sg) = tail).
  { unfold der. rewrite lenN_cons, Lsg. change (1 + 72) with 73. rewrite (DL 73) by lia. reflexivity. }
  set (n0 := lenN (tbs ++ spki [] key ++ tail)). set (nb := lenN (elems els)).
  assert (Etb : tbs = 48 :: der_len nb ++ elems els) by reflexivity.
  assert (Ld : lenN (der_len nb) <= 5) by apply der_len_len.
  assert (Hn0 : n0 < 2 ^ 32).
  { unfold n0. rewrite Etb, Esp. unfold tail. rewrite !lenN_app, !lenN_cons, !lenN_app, Lsg. fold nb k. fold nb in LE. lia. }
  set (a0 := 48 :: der_len n0).
  assert (El0 : l = a0 ++ tbs ++ spki [] key ++ tail).
  { unfold l, x509. fold sg. rewrite Etl. unfold der at 1. fold n0. reflexivity. }
  assert (EF : exists z er, elems els = z :: er /\ z <> 0) by (subst els; eexists _, _; split; [reflexivity|exact T0]).
  destruct EF as (z & er & EF & Hz).
  unfold x509_crude_parse. unfold ASN1_SEQUENCE, ASN1_BIT_STRING, ASN1_INTEGER.
  rewrite (expecto_der l [] 48 n0 48 (der_len nb ++ elems els ++ spki [] key ++ tail) 0 None);
    [|rewrite El0, Etb; unfold a0; cbn [app]; now rewrite <- !app_assoc|reflexivity|exact Hn0|discriminate].
  cbn [bind app]. fold a0.
  rewrite (expecto_der l a0 48 nb z (er ++ spki [] key ++ tail) (lenN a0) (Some n0));
    [|rewrite El0, Etb, EF; cbn [app]; now rewrite <- !app_assoc|reflexivity|unfold nb; lia|exact Hz].
  cbn [bind used].
  destruct (skip_der els l (a0 ++ 48 :: der_len nb) (spki [] key ++ tail) (lenN (a0 ++ 48 :: der_len nb)) (Some nb)) as (o & Eo);
    [rewrite El0, Etb; cbn [app]; now rewrite <- !app_assoc|reflexivity|exact FE|].
  rewrite L6 in Eo. rewrite Eo. clear Eo. cbn [bind]. rewrite <- (app_assoc a0). cbn [app]. change (48 :: der_len nb ++ elems els) with tbs.
  set (a1 := a0 ++ tbs).
  assert (El1 : l = a1 ++ spki [] key ++ tail) by (rewrite El0; unfold a1; now rewrite <- app_assoc).
  rewrite Esp in El1. cbn [app] in El1.
  rewrite (expecto_der l a1 48 (k + 5) 48 (0 :: 3 :: (k + 1) :: 0 :: key ++ tail) (lenN a1) o);
    [|rewrite El1, (DL (k + 5)) by lia; reflexivity|reflexivity|lia|discriminate].
  cbn [bind]. rewrite (DL (k + 5)) by lia.
  rewrite (expecto_der l (a1 ++ [48; k + 5]) 48 0 3 ((k + 1) :: 0 :: key ++ tail) _ (Some (k + 5)));
    [|rewrite El1, <- app_assoc; reflexivity|reflexivity|lia|discriminate].
  cbn [bind used]. change (der_len 0) with [0]. rewrite <- (app_assoc a1). cbn [app].
  rewrite (expecto_der0 l (a1 ++ [48; k + 5; 48; 0]) 3 (k + 1) (key ++ tail) _ (Some 0));
    [|rewrite El1, (DL (k + 1)) by lia; rewrite <- app_assoc; reflexivity|rewrite N.add_0_r; reflexivity|lia|lia].
  cbn [bind used]. rewrite N.add_sub. destruct (N.eqb_spec k 0); [lia|]. destruct (N.ltb_spec cap k); [lia|].
  rewrite (DL (k + 1)) by lia. rewrite <- (app_assoc a1). cbn [app].
  rewrite (slice_at l (a1 ++ [48; k + 5; 48; 0; 3; k + 1; 0]) key tail);
    [|rewrite El1, <- app_assoc; reflexivity|reflexivity|reflexivity].
  cbn [bind].
  assert (Et : lenN (a0 ++ 48 :: der_len nb) + nb = lenN a1)
    by (unfold a1; rewrite Etb, !lenN_app, !lenN_cons, lenN_app; unfold nb; lia).
  rewrite Et.
  rewrite (expecto_der l a1 48 (k + 5) 48 (0 :: 3 :: (k + 1) :: 0 :: key ++ tail) (lenN a1) (Some k));
    [|rewrite El1, (DL (k + 5)) by lia; reflexivity|reflexivity|lia|discriminate].
  cbn [bind used]. rewrite (DL (k + 5)) by lia.
  set (a2 := a1 ++ spki [] key).
  assert (El2 : l = a2 ++ tail) by (rewrite El1; unfold a2; rewrite Esp, <- app_assoc; reflexivity).
  unfold tail in El2.
  rewrite (expecto_der0 l a2 3 73 sg _ (Some (k + 5)));
    [|exact El2|unfold a2; rewrite Esp, !lenN_app, !lenN_cons; fold k; change (lenN (@nil N)) with 0; lia|lia|lia].
  cbn [bind]. change (der_len 73) with [73]. cbn [app]. change (73 - 1) with 72.
  rewrite Esg in El2.
  rewrite (expecto_der l (a2 ++ [3; 73; 0]) 48 70 2 (33 :: 0 :: r ++ 2 :: 33 :: 0 :: s) _ (Some 72));
    [|rewrite El2, <- app_assoc; reflexivity|reflexivity|lia|discriminate].
  cbn [bind]. change (der_len 70) with [70]. rewrite <- (app_assoc a2). cbn [app].
  rewrite (expecto_der0 l (a2 ++ [3; 73; 0; 48; 70]) 2 33 (r ++ 2 :: 33 :: 0 :: s) _ (Some 70));
    [|rewrite El2, <- app_assoc; reflexivity|reflexivity|lia|lia].
  cbn [bind used]. change (der_len 33) with [33]. rewrite <- (app_assoc a2). cbn [app]. change (33 - 1) with 32.
  assert (LL : lenN l = lenN a2 + 75) by (rewrite El2, lenN_app, !lenN_cons, lenN_app, !lenN_cons, LR, LS; lia).
  destruct (N.ltb_spec (lenN l) (lenN (a2 ++ [3; 73; 0; 48; 70; 2; 33; 0]) + 32)) as [Q|_];
    [rewrite LL, lenN_app in Q; change (lenN [3; 73; 0; 48; 70; 2; 33; 0]) with 8 in Q; lia|].
  change (32 =? 0) with false. change (SIGNATURE_SIZE <? 32) with false. cbv iota.
  rewrite (slice_at l (a2 ++ [3; 73; 0; 48; 70; 2; 33; 0]) r (2 :: 33 :: 0 :: s));
    [|rewrite El2, <- app_assoc; reflexivity|reflexivity|now rewrite LR].
  cbn [bind].
  rewrite (expecto_der0 l (a2 ++ [3; 73; 0; 48; 70; 2; 33; 0] ++ r) 2 33 s _ (Some 32));
    [|rewrite El2, <- app_assoc; cbn [app]; reflexivity|rewrite (app_assoc a2), (lenN_app (a2 ++ _) r), LR; reflexivity|lia|lia].
  cbn [bind used]. change (der_len 33) with [33]. change (33 - 1) with 32.
  destruct (N.ltb_spec (lenN l) (lenN ((a2 ++ [3; 73; 0; 48; 70; 2; 33; 0] ++ r) ++ 2 :: [33] ++ [0]) + 32)) as [Q|_];
    [rewrite LL, !lenN_app, LR in Q; change (lenN [3; 73; 0; 48; 70; 2; 33; 0]) with 8 in Q; change (lenN (2 :: [33] ++ [0])) with 3 in Q; lia|].
  change (32 =? 0) with false. change (sub32 SIGNATURE_SIZE 32 <? 32) with false. change (SIGNATURE_SIZE <? 32 + 32) with false. cbv iota.
  rewrite (slice_at l ((a2 ++ [3; 73; 0; 48; 70; 2; 33; 0] ++ r) ++ 2 :: [33] ++ [0]) s []);
    [|rewrite El2, app_nil_r, <- !app_assoc; reflexivity|reflexivity|now rewrite LS].
  cbn [bind].
  rewrite (slice_at l a0 tbs (spki [] key ++ tail)); [|exact El0|reflexivity|unfold a1; rewrite lenN_app; lia].
  cbn [bind]. rewrite lenN_app, LR, LS. reflexivity.
Qed.

(* ---------- C509 ---------- *)
Lemma decode_c509 ty sn iss nb na sub ka pk ex sa sgn :
  Forall is_int32 [ty; sn; nb; na; ka; ex; sa] -> lenN iss < 2 ^ 64 -> lenN sub < 2 ^ 64 -> lenN pk < 2 ^ 64 -> lenN sgn < 2 ^ 64 ->
  cbor_decode_cert (c509_of (c509_tbs ty sn iss nb na sub ka pk ex sa) sgn) =
    Some {| c5_issuer := iss; c5_issuer_rest := c509_rest nb na sub ka pk ex sa sgn; c5_subject := sub; c5_pk := pk; c5_sig_alg := sa; c5_signature := sgn |}.
Proof.
  intros F L1 L2 L3 L4.
  inversion F as [|? ? F1 G1]; subst. inversion G1 as [|? ? F2 G2]; subst. inversion G2 as [|? ? F3 G3]; subst.
  inversion G3 as [|? ? F4 G4]; subst. inversion G4 as [|? ? F5 G5]; subst. inversion G5 as [|? ? F6 G6]; subst.
  inversion G6 as [|? ? F7 G7]; subst.
  unfold c509_of, c509_tbs, cbor_decode_cert. rewrite !cbor_seq_cons, cbor_seq_nil, !cbor_int, cbor_text, !cbor_bytes, app_nil_r.
  rewrite <- !app_assoc.
  rewrite dec_enc_int by assumption. rewrite dec_enc_int by assumption. rewrite dec_enc_tstr by assumption.
  rewrite dec_enc_int by assumption. rewrite dec_enc_int by assumption. rewrite dec_enc_bstr by assumption.
  rewrite dec_enc_int by assumption. rewrite dec_enc_bstr by assumption. rewrite dec_enc_int by assumption.
  rewrite dec_enc_int by assumption. rewrite <- (app_nil_r (enc_bstr sgn)), dec_enc_bstr by assumption. unfold c509_rest. rewrite !cbor_seq_cons, cbor_seq_nil, !cbor_int, !cbor_bytes. reflexivity.
Qed.
Lemma dec_c5c c : lenN c < 2 ^ 64 -> exists m, dec_id_cred_map (map1 53 (cbor (CBytes c))) = Some (m, []) /\
  ic_kid m = None /\ ic_x5u m = None /\ ic_x5t m = None /\ ic_c5u m = None /\ ic_c5t m = None /\ ic_x5chain m = None /\
  ic_x5bag m = None /\ ic_c5c m = Some c.
Proof.
  intros L. unfold dec_id_cred_map. change 53%Z with (Z.of_N 53).
  rewrite map1_enc, cbor_bytes, dec_map_enc by lia. rewrite !entry_skip by lia.
  erewrite (entry_hit 53); [|lia|rewrite <- (app_nil_r (enc_bstr c)), dec_enc_bstr by exact L; reflexivity].
  rewrite !entry_zero. cbn [fst snd]. change (0 =? 0) with true. cbv iota. eexists. split; [reflexivity|]. cbn. tauto.
Qed.
