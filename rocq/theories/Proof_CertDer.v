(** Both parsers on the certificates of Spec_CertDer.v. *)
From Verif Require Import Base Proof_Base Model_Common Model_Cbor Proof_Cbor Model_Crypto Spec_CborTree Proof_CborTree Spec_Edhoc
  Model_EdhocCfg Model_EdhocCbor Model_EdhocKeys Proof_EdhocBase Model_EdhocCert Proof_EdhocRun Spec_EdhocCred Proof_EdhocCred Spec_CertDer.

Lemma significant_len b : lenN (significant b) <= lenN b.
Proof. induction b as [|[|p] b IH]; cbn [significant]; [lia|rewrite lenN_cons; lia|lia]. Qed.
Lemma significant_head b x r : significant b = x :: r -> x <> 0.
Proof. induction b as [|[|p] b IH]; cbn [significant]; [discriminate|exact IH|intros H; injection H as <- _; discriminate]. Qed.
Lemma significant_full b : lenN (significant b) = lenN b -> significant b = b.
Proof.
  destruct b as [|[|p] b]; cbn [significant]; [reflexivity| |reflexivity].
  intros H. pose proof (significant_len b). rewrite lenN_cons in H. lia.
Qed.
Lemma der_len_small n : n < 128 -> der_len n = [n].
Proof. intros H. unfold der_len. destruct (N.ltb_spec n 128); [reflexivity|lia]. Qed.

(** reading an INTEGER: the cursor is at the number without leading zeros *)
Lemma expecto_uint l a v b p old : lenN v <= 32 -> l = a ++ der_uint v ++ b -> p = lenN a -> (b <> [] \/ v <> []) ->
  exists a', l = a' ++ significant v ++ b /\ lenN a' + lenN (significant v) = lenN a + lenN (der_uint v) /\
    expecto_tag l 2 p old = Ok (lenN a', Some (lenN (significant v))).
Proof.
  intros LV El -> NB. pose proof (significant_len v) as SL. unfold der_uint in *.
  destruct (significant v) as [|x r] eqn:ES.
  - exists (a ++ [2; 1; 0]). unfold der in *. change (lenN [0]) with 1 in *. change (der_len 1) with [1] in *. cbn [app] in *.
    split; [now rewrite El, <- app_assoc|]. split; [rewrite !lenN_app, !lenN_cons, lenN_nil; lia|].
    rewrite (expecto_der0 l a 2 1 b); [|exact El|reflexivity|lia|lia]. reflexivity.
  - pose proof (significant_head v x r ES) as NX. unfold der in *. rewrite lenN_cons in SL. destruct (N.ltb_spec x 128) as [C|C].
    + exists (a ++ [2; lenN (x :: r)]). rewrite der_len_small in * by (rewrite lenN_cons; lia). cbn [app] in *.
      split; [now rewrite El, <- app_assoc|]. split; [rewrite !lenN_app, !lenN_cons, lenN_nil; lia|].
      rewrite (expecto_der l a 2 (lenN (x :: r)) x (r ++ b)); [|rewrite El, der_len_small by (rewrite lenN_cons; lia); reflexivity|reflexivity|rewrite lenN_cons; lia|exact NX].
      now rewrite der_len_small by (rewrite lenN_cons; lia).
    + exists (a ++ [2; lenN (0 :: x :: r); 0]). rewrite der_len_small in * by (rewrite !lenN_cons; lia). cbn [app] in *.
      split; [now rewrite El, <- app_assoc|]. split; [rewrite !lenN_app, !lenN_cons, lenN_nil; lia|].
      rewrite (expecto_der0 l a 2 (lenN (0 :: x :: r)) (x :: r ++ b)); [|rewrite El, der_len_small by (rewrite !lenN_cons; lia); reflexivity|reflexivity|rewrite !lenN_cons; lia|rewrite !lenN_cons; lia].
      rewrite der_len_small by (rewrite !lenN_cons; lia). cbn [app]. rewrite !lenN_cons. do 3 f_equal. lia.
Qed.

Lemma der_lenN t c : lenN (der t c) = 1 + lenN (der_len (lenN c)) + lenN c.
Proof. unfold der. rewrite lenN_cons, lenN_app. lia. Qed.
Lemma elems_lenN_bound els m : lenN (elems els) < m -> Forall (fun e => lenN (snd e) < m) els.
Proof.
  intros L. induction els as [|[t c] els IH]; [constructor|]. cbn [elems flat_map fst snd] in L. fold (elems els) in L.
  rewrite lenN_app, der_lenN in L. constructor; [cbn [snd]; lia|apply IH; lia].
Qed.

Lemma app_cons {A} (x : A) a b : (x :: a) ++ b = x :: a ++ b.
Proof. reflexivity. Qed.
Ltac norm := repeat (rewrite <- app_assoc || rewrite app_cons); rewrite ?app_nil_r; reflexivity.
Lemma crude_v3 els t0 c0 more ka k0 kr key rest alg g0 gr r s cap :
  els = (t0, c0) :: more -> t0 <> 0 -> length els = 6%nat ->
  ka = k0 :: kr -> k0 <> 0 -> alg = g0 :: gr -> g0 <> 0 ->
  1 <= lenN key -> lenN key <= cap -> lenN r <= 32 -> lenN s <= 32 -> s <> [] ->
  lenN (certificate (tbs_of els ka key rest) alg r s) < 2 ^ 32 ->
  x509_crude_parse (certificate (tbs_of els ka key rest) alg r s) cap =
    Ok (tbs_of els ka key rest, Some key,
        if lenN (significant r) + lenN (significant s) =? 64 then Some (significant r ++ significant s) else None).
Proof.
  intros EE T0 L6 EK K0 EA G0 LK LC LR LS NS LL.
  set (tbs := tbs_of els ka key rest) in *. set (l := certificate tbs alg r s) in *.
  set (body := elems els ++ spki ka key ++ rest). set (sgn := der 3 (0 :: ecdsa_value r s)).
  set (n0 := lenN (tbs ++ der 48 alg ++ sgn)). set (nb := lenN body).
  assert (El : l = 48 :: der_len n0 ++ tbs ++ der 48 alg ++ sgn) by reflexivity.
  assert (Et : tbs = 48 :: der_len nb ++ body) by reflexivity.
  assert (B0 : 1 + lenN (der_len n0) + n0 < 2 ^ 32).
  { unfold n0 at 2. rewrite El, lenN_cons, lenN_app in LL. lia. }
  assert (B1 : n0 = 1 + lenN (der_len nb) + nb + lenN (der 48 alg) + lenN sgn).
  { unfold n0. rewrite !lenN_app, Et, lenN_cons, lenN_app. fold nb. lia. }
  set (ki := der 48 ka ++ der 3 (0 :: key)).
  assert (B2 : nb = lenN (elems els) + (1 + lenN (der_len (lenN ki)) + lenN ki) + lenN rest).
  { unfold nb, body, spki. fold ki. rewrite !lenN_app, der_lenN. lia. }
  assert (B3 : lenN ki = 1 + lenN (der_len (lenN ka)) + lenN ka + (1 + lenN (der_len (lenN (0 :: key))) + lenN (0 :: key))).
  { unfold ki. rewrite lenN_app, !der_lenN. lia. }
  assert (B4 : lenN (der 48 alg) = 1 + lenN (der_len (lenN alg)) + lenN alg) by apply der_lenN.
  set (ev := ecdsa_value r s) in *. set (iv := der_uint r ++ der_uint s).
  assert (B5 : lenN sgn = 1 + lenN (der_len (lenN (0 :: ev))) + lenN (0 :: ev)) by apply der_lenN.
  assert (B6 : lenN ev = 1 + lenN (der_len (lenN iv)) + lenN iv) by apply der_lenN.
  assert (UL : forall v, lenN v <= 32 -> lenN (der_uint v) <= 35).
  { intros v Lv. pose proof (significant_len v) as Q. unfold der_uint. rewrite der_lenN. destruct (significant v) as [|x q].
    - change (lenN [0]) with 1. change (lenN (der_len 1)) with 1. lia.
    - rewrite lenN_cons in Q. destruct (x <? 128); rewrite der_len_small by (rewrite !lenN_cons; lia); rewrite !lenN_cons, lenN_nil; lia. }
  assert (B7 : lenN iv <= 70) by (unfold iv; rewrite lenN_app; pose proof (UL r LR); pose proof (UL s LS); lia).
  assert (Ebd : body = elems els ++ spki ka key ++ rest) by reflexivity.
  assert (Eki : spki ka key = 48 :: der_len (lenN ki) ++ ki) by reflexivity.
  assert (Eki' : ki = der 48 ka ++ der 3 (0 :: key)) by reflexivity.
  assert (Esg : sgn = 3 :: der_len (lenN (0 :: ev)) ++ 0 :: ev) by reflexivity.
  assert (Eev : ev = 48 :: der_len (lenN iv) ++ iv) by reflexivity.
  assert (Eiv : iv = der_uint r ++ der_uint s) by reflexivity.
  assert (Enb : lenN body = nb) by reflexivity.
  assert (Eal : der 48 alg = 48 :: der_len (lenN alg) ++ alg) by reflexivity.
  assert (Ekk : der 48 ka = 48 :: der_len (lenN ka) ++ ka) by reflexivity.
  assert (Eke : der 3 (0 :: key) = 3 :: der_len (lenN (0 :: key)) ++ 0 :: key) by reflexivity.
  assert (Edr : der_uint r = 2 :: tl (der_uint r)) by reflexivity.
  assert (Nds : der_uint s <> []) by discriminate.
  clearbody l n0 tbs nb body sgn ki ev iv. clear LL.
  assert (EF : exists er, elems els = t0 :: er) by (rewrite EE; eexists; reflexivity). destruct EF as (er & EF).
  unfold x509_crude_parse, ASN1_SEQUENCE, ASN1_BIT_STRING, ASN1_INTEGER.
  rewrite (expecto_der l [] 48 n0 48 (der_len nb ++ body ++ der 48 alg ++ sgn) 0 None);
    [|rewrite El, Et; cbn [app]; now rewrite <- !app_assoc|reflexivity|lia|discriminate].
  cbn [bind app]. remember (48 :: der_len n0) as a0 eqn:Ea0.
  assert (El0 : l = a0 ++ tbs ++ der 48 alg ++ sgn) by (rewrite El, Ea0; reflexivity).
  rewrite (expecto_der l a0 48 nb t0 (er ++ spki ka key ++ rest ++ der 48 alg ++ sgn) (lenN a0) (Some n0));
    [|rewrite El0, Et, Ebd, EF; norm|reflexivity|lia|exact T0].
  cbn [bind used].
  remember (a0 ++ 48 :: der_len nb) as a1 eqn:Ea1.
  assert (El1 : l = a1 ++ elems els ++ spki ka key ++ rest ++ der 48 alg ++ sgn)
    by (rewrite El0, Ea1, Et, Ebd; norm).
  destruct (skip_der els l a1 (spki ka key ++ rest ++ der 48 alg ++ sgn) (lenN a1) (Some nb)) as (o & Eo);
    [exact El1|reflexivity|apply elems_lenN_bound; lia|].
  rewrite L6 in Eo. rewrite Eo. clear Eo. cbn [bind].
  remember (a1 ++ elems els) as a2 eqn:Ea2.
  assert (El2 : l = a2 ++ 48 :: der_len (lenN ki) ++ 48 :: der_len (lenN ka) ++ ka ++ der 3 (0 :: key) ++ rest ++ der 48 alg ++ sgn)
    by (rewrite El1, Ea2, Eki; rewrite Eki' at 2; rewrite Ekk; norm).
  rewrite (expecto_der l a2 48 (lenN ki) 48 (der_len (lenN ka) ++ ka ++ der 3 (0 :: key) ++ rest ++ der 48 alg ++ sgn) (lenN a2) o);
    [|exact El2|reflexivity|lia|discriminate].
  cbn [bind]. remember (a2 ++ 48 :: der_len (lenN ki)) as a3 eqn:Ea3.
  assert (El3 : l = a3 ++ 48 :: der_len (lenN ka) ++ ka ++ der 3 (0 :: key) ++ rest ++ der 48 alg ++ sgn)
    by (rewrite El2, Ea3; norm).
  rewrite (expecto_der l a3 48 (lenN ka) k0 (kr ++ der 3 (0 :: key) ++ rest ++ der 48 alg ++ sgn) (lenN a3) (Some (lenN ki)));
    [|rewrite El3, EK; reflexivity|reflexivity|lia|exact K0].
  cbn [bind used]. remember ((a3 ++ 48 :: der_len (lenN ka)) ++ ka) as a4 eqn:Ea4.
  assert (El4 : l = a4 ++ 3 :: der_len (lenN (0 :: key)) ++ 0 :: key ++ rest ++ der 48 alg ++ sgn)
    by (rewrite El3, Ea4, Eke; norm).
  rewrite (expecto_der0 l a4 3 (lenN (0 :: key)) (key ++ rest ++ der 48 alg ++ sgn) _ (Some (lenN ka)));
    [|exact El4|rewrite Ea4; now rewrite (lenN_app _ ka)|lia|rewrite lenN_cons; lia].
  cbn [bind used]. replace (lenN (0 :: key) - 1) with (lenN key) by (rewrite lenN_cons; lia).
  destruct (N.eqb_spec (lenN key) 0); [lia|]. destruct (N.ltb_spec cap (lenN key)); [lia|].
  rewrite (slice_at l (a4 ++ 3 :: der_len (lenN (0 :: key)) ++ [0]) key (rest ++ der 48 alg ++ sgn));
    [|rewrite El4; norm|reflexivity|reflexivity].
  cbn [bind].
  remember (a0 ++ tbs) as a5 eqn:Ea5.
  assert (E5 : lenN a1 + nb = lenN a5) by (rewrite Ea1, Ea5, !lenN_app, Et, !lenN_cons, lenN_app; lia).
  rewrite E5.
  assert (El5 : l = a5 ++ 48 :: der_len (lenN alg) ++ alg ++ sgn)
    by (rewrite El0, Ea5, Eal; norm).
  rewrite (expecto_der l a5 48 (lenN alg) g0 (gr ++ sgn) (lenN a5) (Some (lenN key)));
    [|rewrite El5, EA; reflexivity|reflexivity|lia|exact G0].
  cbn [bind used]. remember ((a5 ++ 48 :: der_len (lenN alg)) ++ alg) as a6 eqn:Ea6.
  assert (El6 : l = a6 ++ 3 :: der_len (lenN (0 :: ev)) ++ 0 :: ev)
    by (rewrite El5, Ea6, Esg; norm).
  rewrite (expecto_der0 l a6 3 (lenN (0 :: ev)) ev _ (Some (lenN alg)));
    [|exact El6|rewrite Ea6; now rewrite (lenN_app _ alg)|lia|rewrite lenN_cons; lia].
  cbn [bind]. remember (a6 ++ 3 :: der_len (lenN (0 :: ev)) ++ [0]) as a7 eqn:Ea7.
  assert (El7 : l = a7 ++ 48 :: der_len (lenN iv) ++ iv)
    by (rewrite El6, Ea7; rewrite Eev at 2; norm).
  rewrite (expecto_der l a7 48 (lenN iv) 2 (tl (der_uint r) ++ der_uint s) (lenN a7) _);
    [|rewrite El7; rewrite Eiv at 2; reflexivity|reflexivity|lia|discriminate].
  cbn [bind]. remember (a7 ++ 48 :: der_len (lenN iv)) as a8 eqn:Ea8.
  assert (El8 : l = a8 ++ der_uint r ++ der_uint s)
    by (rewrite El7, Ea8, <- Eiv; norm).
  destruct (expecto_uint l a8 r (der_uint s) (lenN a8) (Some (lenN iv)) LR El8 eq_refl) as (a9 & E9 & L9 & X9); [left; discriminate|].
  rewrite X9. cbn [bind used].
  assert (LT : lenN l = lenN a9 + lenN (significant r) + lenN (der_uint s)) by (rewrite E9, !lenN_app; lia).
  destruct (N.ltb_spec (lenN l) (lenN a9 + lenN (significant r))); [lia|].
  pose proof (significant_len r) as SR. pose proof (significant_len s) as SS.
  assert (RS : (if lenN (significant r) =? 0 then Ok [] else if SIGNATURE_SIZE <? lenN (significant r) then Ok []
                else slice l (lenN a9) (lenN (significant r))) = Ok (significant r)).
  { destruct (N.eqb_spec (lenN (significant r)) 0) as [Z|Z]; [apply lenN_0 in Z; now rewrite Z|].
    change SIGNATURE_SIZE with 64. destruct (N.ltb_spec 64 (lenN (significant r))); [lia|].
    apply (slice_at l a9 (significant r) (der_uint s)); [exact E9|reflexivity..]. }
  rewrite RS. cbn [bind]. clear RS.
  destruct (expecto_uint l (a9 ++ significant r) s [] (lenN a9 + lenN (significant r)) (Some (lenN (significant r))) LS) as (a10 & E10 & L10 & X10);
    [rewrite E9, <- app_assoc, app_nil_r; reflexivity|now rewrite lenN_app|now right|].
  rewrite X10. cbn [bind used]. rewrite app_nil_r in E10.
  assert (LT' : lenN l = lenN a10 + lenN (significant s)) by (rewrite E10, !lenN_app; lia).
  destruct (N.ltb_spec (lenN l) (lenN a10 + lenN (significant s))); [lia|].
  assert (RS : (if lenN (significant s) =? 0 then Ok [] else if sub32 SIGNATURE_SIZE (lenN (significant r)) <? lenN (significant s) then Ok []
                else if SIGNATURE_SIZE <? lenN (significant r) + lenN (significant s) then UB OobWrite
                else slice l (lenN a10) (lenN (significant s))) = Ok (significant s)).
  { destruct (N.eqb_spec (lenN (significant s)) 0) as [Z|Z]; [apply lenN_0 in Z; now rewrite Z|].
    change SIGNATURE_SIZE with 64. rewrite sub32_exact by lia.
    destruct (N.ltb_spec (64 - lenN (significant r)) (lenN (significant s))); [lia|].
    destruct (N.ltb_spec 64 (lenN (significant r) + lenN (significant s))); [lia|].
    apply (slice_at l a10 (significant s) []); [rewrite app_nil_r; exact E10|reflexivity..]. }
  rewrite RS. cbn [bind]. clear RS.
  rewrite (slice_at l a0 tbs (der 48 alg ++ sgn)); [|exact El0|reflexivity|rewrite Ea5, lenN_app; lia].
  cbn [bind]. rewrite lenN_app, N.eqb_refl. change SIGNATURE_SIZE with 64. reflexivity.
Qed.
