(** Credential identifiers, plaintexts, ciphertexts and Signature_or_MAC against
    RFC 9528. *)
From Verif Require Import Base Proof_Base Model_Common Model_Cbor Proof_Cbor Model_Crypto
  Spec_CborTree Proof_CborTree Spec_Hkdf Proof_Hkdf Spec_Edhoc Model_EdhocCfg Model_EdhocCbor Model_EdhocKeys
  Proof_EdhocBase Model_EdhocCert Model_EdhocMsg Model_EdhocRun Proof_EdhocMsg1.

(* ---------- XOR ---------- *)

Lemma xor_len a : forall b, lenN b = lenN a -> lenN (xor_bytes a b) = lenN a.
Proof.
  induction a as [|x a IH]; intros [|y b] H; try reflexivity; rewrite ?lenN_cons, ?lenN_nil in H; try lia.
  cbn [xor_bytes]. rewrite !lenN_cons, IH by lia. reflexivity.
Qed.
Lemma xor_xor a : forall b, lenN b = lenN a -> xor_bytes (xor_bytes a b) b = a.
Proof.
  induction a as [|x a IH]; intros [|y b] H; try reflexivity; rewrite ?lenN_cons, ?lenN_nil in H; try lia.
  cbn [xor_bytes]. rewrite IH by lia. f_equal. rewrite N.lxor_assoc, N.lxor_nilpotent, N.lxor_0_r. reflexivity.
Qed.

Lemma rfc_xor_eq a : forall b, rfc_xor a b = xor_bytes a b.
Proof.
  unfold rfc_xor. induction a as [|x a IH]; intros [|y b]; try reflexivity.
  cbn [combine map xor_bytes fst snd]. rewrite IH. reflexivity.
Qed.

(* ---------- credential identifiers ---------- *)

Definition cid_map (i : cred_id) : id_cred_map :=
  match i with
  | KidInt z => {| ic_kid := Some (UInt z); ic_x5bag := None; ic_x5chain := None; ic_x5t := None; ic_x5u := None;
                   ic_c5b := None; ic_c5c := None; ic_c5t := None; ic_c5u := None |}
  | X5chain c => {| ic_kid := None; ic_x5bag := None; ic_x5chain := Some c; ic_x5t := None; ic_x5u := None;
                    ic_c5b := None; ic_c5c := None; ic_c5t := None; ic_c5u := None |}
  | X5t a h => {| ic_kid := None; ic_x5bag := None; ic_x5chain := None; ic_x5t := Some (UInt a, h); ic_x5u := None;
                  ic_c5b := None; ic_c5c := None; ic_c5t := None; ic_c5u := None |}
  end.
Definition cid_ok (i : cred_id) : Prop :=
  match i with
  | KidInt z => is_int32 z
  | X5chain c => lenN c < 2 ^ 64
  | X5t a h => is_int32 a /\ lenN h < 2 ^ 64
  end.

Lemma map1_enc k v : map1 (Z.of_N k) v = enc_map 1 ++ enc_uint k ++ v.
Proof. unfold map1. rewrite rfc_head_eq, cbor_int, enc_uint_int. reflexivity. Qed.
Lemma pair_enc a h : cbor (CArr [CInt a; CBytes h]) = enc_hash_pair (UInt a, h).
Proof. cbor_norm. reflexivity. Qed.

Lemma enc_cid i : enc_id_cred_map (cid_map i) = rfc_id_cred i.
Proof.
  destruct i as [z|c|a h]; unfold rfc_id_cred.
  - change 4%Z with (Z.of_N 4). rewrite map1_enc, cbor_int. unfold enc_id_cred_map, cid_map; cbn -[enc_map enc_uint enc_int].
    rewrite !app_nil_r. reflexivity.
  - change 33%Z with (Z.of_N 33). rewrite map1_enc, cbor_bytes. unfold enc_id_cred_map, cid_map; cbn -[enc_map enc_uint enc_bstr].
    rewrite !app_nil_r. reflexivity.
  - change 34%Z with (Z.of_N 34). rewrite map1_enc, pair_enc. unfold enc_id_cred_map, cid_map; cbn -[enc_map enc_uint enc_hash_pair].
    rewrite !app_nil_r. reflexivity.
Qed.

Lemma entry_skip {A} k (dec : bytes -> option (A * bytes)) n key l : key < 2 ^ 32 -> k <> key ->
  dec_entry k dec (n, enc_uint key ++ l) = (None, (n, enc_uint key ++ l)).
Proof.
  intros HK H. unfold dec_entry. destruct (n =? 0); [reflexivity|]. rewrite dec_enc_uint by assumption.
  destruct (N.eqb_spec key k); [congruence|reflexivity].
Qed.
Lemma entry_zero {A} k (dec : bytes -> option (A * bytes)) l : dec_entry k dec (0, l) = (None, (0, l)).
Proof. reflexivity. Qed.
Lemma entry_hit {A} k (dec : bytes -> option (A * bytes)) l a r : k < 2 ^ 32 -> dec l = Some (a, r) ->
  dec_entry k dec (1, enc_uint k ++ l) = (Some a, (0, r)).
Proof.
  intros HK H. unfold dec_entry. change (1 =? 0) with false. cbv iota. rewrite dec_enc_uint by assumption.
  rewrite N.eqb_refl, H. reflexivity.
Qed.
Lemma dec_map_enc n l : n < 2 ^ 64 -> dec_map (enc_map n ++ l) = Some (n, l).
Proof. intros H. unfold dec_map, enc_map. rewrite dec_enc_head by assumption. reflexivity. Qed.
Lemma dec_pair a h r : is_int32 a -> lenN h < 2 ^ 64 -> dec_hash_pair (enc_hash_pair (UInt a, h) ++ r) = Some ((UInt a, h), r).
Proof.
  intros HA HH. unfold dec_hash_pair, enc_hash_pair, dec_list. cbn [fst snd]. rewrite <- !app_assoc. unfold enc_list.
  rewrite dec_enc_head by lia. rewrite dec_enc_int by assumption. rewrite dec_enc_bstr by assumption. reflexivity.
Qed.

Lemma dec_cid i r : cid_ok i -> dec_id_cred_map (rfc_id_cred i ++ r) = Some (cid_map i, r).
Proof.
  intros H. unfold dec_id_cred_map. destruct i as [z|c|a h]; unfold rfc_id_cred; cbn in H.
  - change 4%Z with (Z.of_N 4). rewrite map1_enc, cbor_int, <- !app_assoc, dec_map_enc by lia.
    erewrite (entry_hit 4); [|lia|unfold dec_int_or_bstr; rewrite dec_enc_int by assumption; reflexivity].
    rewrite !entry_zero. reflexivity.
  - change 33%Z with (Z.of_N 33). rewrite map1_enc, cbor_bytes, <- !app_assoc, dec_map_enc by lia.
    rewrite !entry_skip by lia.
    erewrite (entry_hit 33); [|lia|rewrite dec_enc_bstr by assumption; reflexivity].
    rewrite !entry_zero. reflexivity.
  - destruct H as [HA HH]. change 34%Z with (Z.of_N 34). rewrite map1_enc, pair_enc, <- !app_assoc, dec_map_enc by lia.
    rewrite !entry_skip by lia.
    erewrite (entry_hit 34); [|lia|rewrite dec_pair by assumption; reflexivity].
    rewrite !entry_zero. reflexivity.
Qed.

Lemma cid_kid i : cid_ok i ->
  id_cred2kid (rfc_id_cred i) = Ok (match i with KidInt z => enc_int z | _ => [] end).
Proof.
  intros H. unfold id_cred2kid. rewrite <- (app_nil_r (rfc_id_cred i)), dec_cid by exact H. cbn [ext bind].
  destruct i as [z|c|a h]; cbn [cid_map ic_kid]; try reflexivity.
  apply put_fits. cbn in H. unfold is_int32 in H. change KID_SIZE with 8. unfold enc_int.
  destruct (0 <=? z)%Z eqn:E; rewrite enc_head_len;
    match goal with |- head_len ?x <= _ => pose proof (head_len_le x) end; lia.
Qed.
Lemma enc_int_nonempty z : enc_int z <> [].
Proof.
  intros Q. apply (f_equal lenN) in Q. unfold enc_int in Q. destruct (0 <=? z)%Z; rewrite enc_head_len in Q;
    match type of Q with head_len ?x = _ => pose proof (head_len_pos x) end;
    change (lenN (@nil N)) with 0 in Q; lia.
Qed.
Lemma cid_compact i : cid_ok i -> exists k, id_cred2kid (rfc_id_cred i) = Ok k /\
  (if lenN k =? 0 then rfc_id_cred i else k) = rfc_id_cred_compact i.
Proof.
  intros H. eexists. split; [apply cid_kid, H|]. destruct i as [z|c|a h]; cbn [rfc_id_cred_compact]; try reflexivity.
  rewrite cbor_int. destruct (N.eqb_spec (lenN (enc_int z)) 0) as [E|E]; [|reflexivity].
  apply lenN_0 in E. now apply enc_int_nonempty in E.
Qed.

Lemma dec_map_int z r : is_int32 z -> dec_id_cred_map (enc_int z ++ r) = None /\ dec_bstr (enc_int z ++ r) = None.
Proof.
  unfold is_int32. intros H. unfold dec_id_cred_map, dec_map, dec_bstr, enc_int.
  destruct (0 <=? z)%Z eqn:E; rewrite dec_enc_head by lia; split; reflexivity.
Qed.

(** ID_CRED as received: the identifier, in its full form *)
Lemma dec_choice i r cap : cid_ok i -> lenN (rfc_id_cred i) <= cap ->
  exists ch, dec_id_cred_choice (rfc_id_cred_compact i ++ r) = Some (ch, r) /\
  id_cred_split ch cap = Ok (Some (rfc_id_cred i)).
Proof.
  intros H HC. unfold dec_id_cred_choice. pose proof (enc_cid i) as EN.
  destruct i as [z|c|a h]; unfold rfc_id_cred_compact.
  - rewrite cbor_int. destruct (dec_map_int z r H) as [-> ->]. rewrite dec_enc_int by exact H.
    eexists. split; [reflexivity|]. cbn [id_cred_split]. unfold id_cred_kid_encode.
    fold (cid_map (KidInt z)). rewrite EN, put_fits by exact HC. reflexivity.
  - rewrite dec_cid by exact H. eexists. split; [reflexivity|]. cbn [id_cred_split cid_map ic_x5chain ic_x5t].
    unfold id_cred_x5chain_encode. fold (cid_map (X5chain c)). rewrite EN, put_fits by exact HC. reflexivity.
  - rewrite dec_cid by exact H. eexists. split; [reflexivity|]. cbn [id_cred_split cid_map ic_x5chain ic_x5t bind].
    unfold id_cred_x5t_encode. fold (cid_map (X5t a h)). rewrite EN, put_fits by exact HC. reflexivity.
Qed.

(* ---------- plaintexts ---------- *)

Lemma append_ok cap a b : lenN b + lenN a <= cap -> append cap a b = Ok (a ++ b).
Proof. intros H. unfold append. destruct (N.ltb_spec cap (lenN b + lenN a)); [lia|reflexivity]. Qed.
Lemma append_inv cap a b x : append cap a b = Ok x -> x = a ++ b /\ lenN a + lenN b <= cap.
Proof.
  unfold append. destruct (N.ltb_spec cap (lenN b + lenN a)); intros Q; [discriminate|].
  assert (E : forall u v : bytes, Ok u = Ok v -> v = u) by (intros u v K; inversion K; reflexivity).
  apply E in Q. split; [exact Q|lia].
Qed.

Lemma ead_append cap p ead : lenN p + lenN ead <= cap ->
  (if 0 <? lenN ead then append cap p ead else Ok p) = Ok (p ++ ead).
Proof.
  intros H. destruct (N.ltb_spec 0 (lenN ead)) as [Q|Q].
  - apply append_ok. lia.
  - assert (E : lenN ead = 0) by lia. apply lenN_0 in E. subst. now rewrite app_nil_r.
Qed.

Section Plaintext.
Variable cf : cfg.

Lemma as_bstr_mono a b : a <= b -> as_bstr_size a <= as_bstr_size b.
Proof.
  intros H. unfold as_bstr_size, bstr_overhead.
  destruct (N.leb_spec a 5), (N.leb_spec a 255), (N.leb_spec a 65535),
    (N.leb_spec b 5), (N.leb_spec b 255), (N.leb_spec b 65535); lia.
Qed.

Lemma conn_id_len c : lenN c < 2 ^ 32 -> lenN (rfc_conn_id c) <= as_bstr_size (lenN c).
Proof.
  intros H. unfold rfc_conn_id. destruct (one_byte_int c).
  - pose proof (as_bstr_lower (lenN c)). lia.
  - rewrite cbor_bytes. apply as_bstr_ge, H.
Qed.

Lemma plaintext2_gen_fits c_r i sig ead cap :
  cid_ok i -> lenN c_r <= C_I_SIZE cf -> lenN c_r < 2 ^ 32 -> lenN sig <= 64 ->
  lenN (rfc_plaintext_2 c_r i sig ead) <= cap ->
  plaintext_gen cf (Some c_r) (rfc_id_cred i) sig ead cap = Ok (rfc_plaintext_2 c_r i sig ead).
Proof.
  intros HI HC HC' HS HL. unfold plaintext_gen.
  rewrite new_fits by (apply as_bstr_mono; exact HS). cbn [bind].
  rewrite encode_bstr_fits by lia. cbn [bind].
  unfold rfc_plaintext_2 in HL. rewrite !lenN_app in HL. rewrite cbor_bytes in HL.
  assert (E : (if c_x_is_encoded_int c_r then append cap [] c_r
               else let* _ := byte_array_new (as_bstr_size (C_I_SIZE cf)) (as_bstr_size (lenN c_r)) in
                    let* e := encode_bstr c_r (as_bstr_size (lenN c_r)) in append cap [] e) = Ok (rfc_conn_id c_r)).
  { rewrite is_encoded_int. unfold rfc_conn_id in *. destruct (one_byte_int c_r).
    - apply append_ok. change (lenN (@nil N)) with 0. lia.
    - rewrite new_fits by (apply as_bstr_mono; exact HC). cbn [bind].
      rewrite encode_bstr_fits by exact HC'. cbn [bind]. rewrite cbor_bytes in *.
      apply append_ok. change (lenN (@nil N)) with 0. lia. }
  rewrite E. cbn [bind]. destruct (cid_compact i HI) as (k & -> & EK). cbn [bind]. rewrite EK.
  rewrite append_ok by lia. cbn [bind]. rewrite append_ok by (rewrite lenN_app; lia). cbn [bind].
  rewrite ead_append by (rewrite !lenN_app; lia). unfold rfc_plaintext_2. rewrite cbor_bytes, <- !app_assoc. reflexivity.
Qed.
Lemma plaintext3_gen_fits i sig ead cap :
  cid_ok i -> lenN sig <= 64 -> lenN (rfc_plaintext_3 i sig ead) <= cap ->
  plaintext_gen cf None (rfc_id_cred i) sig ead cap = Ok (rfc_plaintext_3 i sig ead).
Proof.
  intros HI HS HL. unfold plaintext_gen.
  rewrite new_fits by (apply as_bstr_mono; exact HS). cbn [bind].
  rewrite encode_bstr_fits by lia. cbn [bind].
  unfold rfc_plaintext_3 in HL. rewrite !lenN_app in HL. rewrite cbor_bytes in HL.
  destruct (cid_compact i HI) as (k & -> & EK). cbn [bind]. rewrite EK.
  rewrite append_ok by (change (lenN (@nil N)) with 0; lia). cbn [bind].
  rewrite append_ok by (rewrite lenN_app; change (lenN (@nil N)) with 0; lia). cbn [bind].
  rewrite ead_append by (rewrite !lenN_app; change (lenN (@nil N)) with 0; lia).
  unfold rfc_plaintext_3. rewrite cbor_bytes, <- !app_assoc. reflexivity.
Qed.
End Plaintext.

(** EAD as the receiver reads it: the content of the byte string it starts with *)
Definition read_ead (ead : bytes) : bytes :=
  match dec_bstr ead with Some (b, _) => b | None => [] end.
Lemma read_ead_nil : read_ead [] = [].
Proof. reflexivity. Qed.
Lemma read_ead_bstr e r : lenN e < 2 ^ 64 -> read_ead (cbor (CBytes e) ++ r) = e.
Proof. intros H. unfold read_ead. rewrite cbor_bytes, dec_enc_bstr by exact H. reflexivity. Qed.
Lemma ead_split ead cap : lenN (read_ead ead) <= cap ->
  match dec_opt_bstr ead with Some e => copy_null cap e | None => Ok [] end = Ok (read_ead ead).
Proof.
  intros H. unfold dec_opt_bstr, read_ead in *. destruct (dec_bstr ead) as [[b r]|]; [|reflexivity].
  apply copy_null_ok, H.
Qed.

Lemma plaintext2_split_fits c_r i sig ead c_cap id_cap ead_cap :
  cid_ok i -> lenN c_r <= c_cap -> lenN c_r < 2 ^ 64 -> lenN (rfc_id_cred i) <= id_cap -> lenN sig <= 64 ->
  lenN (read_ead ead) <= ead_cap ->
  plaintext2_split (rfc_plaintext_2 c_r i sig ead) c_cap id_cap ead_cap =
  Ok {| sp_c_r := c_r; sp_id_cred := Some (rfc_id_cred i); sp_sig := sig; sp_ead := read_ead ead |}.
Proof.
  intros HI HC HC' HID HS HE. unfold plaintext2_split, cbor_decode_ptxt2, rfc_plaintext_2, cbor_decode_ptxt3.
  rewrite dec_conn_id by exact HC'. destruct (dec_choice i (cbor (CBytes sig) ++ ead) id_cap HI HID) as (ch & D & SP).
  rewrite D. rewrite cbor_bytes, dec_enc_bstr by lia.
  cbn [ext bind pt_c_r pt_id_cred pt_sgn_or_mac pt_ead].
  assert (EC : match (if one_byte_int c_r then UInt (match decode_int c_r with Ok z => z | _ => 0%Z end) else UStr c_r) with
               | UStr b => copy_null c_cap b | UInt z => encode_int z c_cap end = Ok c_r).
  { destruct (one_byte_int c_r) eqn:E; [|apply copy_null_ok, HC]. apply reencode_one_byte; [exact E|].
    destruct c_r as [|b [|? ?]]; try discriminate. exact HC. }
  destruct (one_byte_int c_r); rewrite EC; cbn [bind]; rewrite SP; cbn [bind];
    rewrite copy_null_ok by exact HS; cbn [bind]; rewrite ead_split by exact HE; reflexivity.
Qed.
Lemma plaintext3_split_fits i sig ead id_cap ead_cap :
  cid_ok i -> lenN (rfc_id_cred i) <= id_cap -> lenN sig <= 64 -> lenN (read_ead ead) <= ead_cap ->
  plaintext3_split (rfc_plaintext_3 i sig ead) id_cap ead_cap =
  Ok {| sp_c_r := []; sp_id_cred := Some (rfc_id_cred i); sp_sig := sig; sp_ead := read_ead ead |}.
Proof.
  intros HI HID HS HE. unfold plaintext3_split, cbor_decode_ptxt3, rfc_plaintext_3.
  destruct (dec_choice i (cbor (CBytes sig) ++ ead) id_cap HI HID) as (ch & D & SP).
  rewrite D. rewrite cbor_bytes, dec_enc_bstr by lia.
  cbn [ext bind pt_c_r pt_id_cred pt_sgn_or_mac pt_ead]. rewrite SP. cbn [bind].
  rewrite copy_null_ok by exact HS. cbn [bind]. rewrite ead_split by exact HE. reflexivity.
Qed.

(* ---------- Signature_or_MAC ---------- *)

(** C_R in context_2: a byte string, or nothing if it is empty *)
Definition mac_c (c_r : bytes) : bytes := match c_r with [] => [] | _ => cbor (CBytes c_r) end.
Definition mac_len (static_dh : bool) (st : suite) : N := if static_dh then edhoc_mac_len_static_dh st else 32.

Section Mac.
Variable cr : crypto.
Variable cf : cfg.
Hypothesis hmac32 : forall k m, lenN (cr_hmac cr k m) = 32.

Definition the_mac (prk c_r th id_cred cred ead : bytes) (label : N) (sdh : bool) (st : suite) : bytes :=
  rfc_mac (cr_hmac cr) prk label (rfc_context (mac_c c_r) id_cred th cred ead) (mac_len sdh st).

Lemma mac_ok prk c_r th id_cred cred ead label sdh st m :
  mac_len sdh st <= 254 * 32 ->
  mac cr cf prk c_r th id_cred cred ead label sdh st = Ok m ->
  m = the_mac prk c_r th id_cred cred ead label sdh st /\ lenN m = mac_len sdh st.
Proof.
  intros HM H. unfold mac in H. apply bind_ok in H as ([] & _ & H). apply bind_ok in H as (te & ET & H).
  apply encode_bstr_ok in ET as [-> _].
  apply bind_ok in H as ([] & _ & H). apply bind_ok in H as (x1 & E1 & H).
  apply bind_ok in H as (x2 & E2 & H). apply bind_ok in H as (x3 & E3 & H). apply bind_ok in H as (x4 & E4 & H).
  apply bind_ok in H as (x5 & E5 & H). apply append_inv in E2 as [-> _]. apply append_inv in E3 as [-> _].
  apply append_inv in E4 as [-> _].
  assert (Q1 : x1 = mac_c c_r).
  { unfold mac_c. destruct c_r as [|c c_r]; [injection E1 as <-; reflexivity|]. rewrite lenN_cons in E1.
    destruct (N.eqb_spec (1 + lenN c_r) 0); [lia|]. apply bind_ok in E1 as ([] & _ & E1).
    destruct (c_r_is_raw_int (c :: c_r)); [discriminate|]. apply bind_ok in E1 as (e & EE & E1).
    apply encode_bstr_ok in EE as [-> _]. apply append_inv in E1 as [-> _]. rewrite cbor_bytes. reflexivity. }
  assert (Q5 : x5 = (((x1 ++ id_cred) ++ enc_bstr th) ++ cred) ++ ead).
  { destruct (N.ltb_spec 0 (lenN ead)) as [Q|Q].
    - apply append_inv in E5 as [-> _]. reflexivity.
    - assert (E : lenN ead = 0) by lia. apply lenN_0 in E. subst ead. injection E5 as <-. now rewrite app_nil_r. }
  apply kdf_ok in H; [|exact hmac32|exact HM]. destruct H as [-> HL]. split; [|exact HL].
  unfold the_mac, rfc_mac, rfc_context. rewrite Q5, Q1, cbor_bytes, <- !app_assoc. reflexivity.
Qed.

Lemma enc_bstr32 th : lenN th = 32 -> lenN (enc_bstr th) = 34.
Proof. apply bstr32_len. Qed.

Lemma mac_fits prk c_r th id_cred cred ead label sdh st :
  label < 24 -> mac_len sdh st <= 254 * 32 -> lenN th = 32 -> c_r_is_raw_int c_r = false ->
  lenN c_r <= C_R_SIZE cf -> lenN id_cred <= ID_CRED_MAX_SIZE cf -> lenN cred <= CRED_MAX_SIZE cf ->
  lenN ead <= EAD_SIZE cf -> lenN c_r + lenN id_cred + lenN cred + lenN ead < 2 ^ 31 ->
  mac cr cf prk c_r th id_cred cred ead label sdh st = Ok (the_mac prk c_r th id_cred cred ead label sdh st).
Proof.
  intros HLB HM HT HR HC HI HCR HE HS. unfold mac. rewrite HT.
  rewrite new_fits by reflexivity. cbn [bind].
  assert (ET : encode_bstr th (as_bstr_size 32) = Ok (enc_bstr th)).
  { apply encode_bstr_ok. rewrite bstr32_len by exact HT. split; [reflexivity|]. apply N.leb_le. reflexivity. }
  rewrite ET. cbn [bind]. rewrite (enc_bstr32 th HT).
  pose proof (as_bstr_mono _ _ HC) as HA.
  set (cap := as_bstr_size (lenN c_r) + lenN id_cred + lenN cred + lenN ead + 34).
  assert (HCM : as_bstr_size cap <= CONTEXT_MAC_SIZE cf).
  { unfold CONTEXT_MAC_SIZE. apply as_bstr_mono. change (as_bstr_size HASH_SIZE) with 34. unfold cap. lia. }
  pose proof (as_bstr_lower cap) as HLO. rewrite new_fits by lia. cbn [bind].
  assert (E1 : (if lenN c_r =? 0 then Ok []
                else let* _ := byte_array_new (as_bstr_size (C_R_SIZE cf)) (as_bstr_size (lenN c_r)) in
                     if c_r_is_raw_int c_r then UB OobRead
                     else let* e := encode_bstr c_r (as_bstr_size (lenN c_r)) in append cap [] e) = Ok (mac_c c_r) /\
               lenN (mac_c c_r) <= as_bstr_size (lenN c_r)).
  { unfold mac_c. destruct c_r as [|c c_r]; [split; [reflexivity|apply N.leb_le; reflexivity]|]. set (cc := c :: c_r) in *.
    assert (lenN cc <> 0) by (unfold cc; rewrite lenN_cons; lia). destruct (N.eqb_spec (lenN cc) 0); [lia|].
    rewrite new_fits by exact HA. cbn [bind]. rewrite HR. rewrite encode_bstr_fits by lia. cbn [bind].
    rewrite cbor_bytes. pose proof (as_bstr_ge cc ltac:(lia)). split; [|assumption].
    apply append_ok. change (lenN (@nil N)) with 0. unfold cap. lia. }
  destruct E1 as [-> HMC]. cbn [bind].
  rewrite append_ok by (unfold cap; lia). cbn [bind].
  rewrite append_ok by (rewrite lenN_app, (enc_bstr32 th HT); unfold cap; lia). cbn [bind].
  rewrite append_ok by (rewrite !lenN_app, (enc_bstr32 th HT); unfold cap; lia). cbn [bind].
  rewrite ead_append by (rewrite !lenN_app, (enc_bstr32 th HT); unfold cap; lia). cbn [bind].
  rewrite <- !app_assoc. change (if sdh then edhoc_mac_len_static_dh st else get_hash_len) with (mac_len sdh st).
  rewrite (kdf_fits cr cf hmac32); [|exact HLB|exact HM| |].
  - unfold the_mac, rfc_mac, rfc_context. rewrite cbor_bytes. reflexivity.
  - rewrite !lenN_app, (enc_bstr32 th HT).
    assert (as_bstr_size (lenN c_r) <= 5 + lenN c_r).
    { unfold as_bstr_size, bstr_overhead. destruct (lenN c_r <=? 5), (lenN c_r <=? 255), (lenN c_r <=? 65535); lia. }
    lia.
  - unfold INFO_MAX_SIZE. change (2 * CBOR_ENCODED_UINT) with 4.
    assert (as_bstr_size (lenN (mac_c c_r ++ id_cred ++ enc_bstr th ++ cred ++ ead)) <= as_bstr_size cap).
    { apply as_bstr_mono. rewrite !lenN_app, (enc_bstr32 th HT). unfold cap. lia. }
    lia.
Qed.

Lemma the_mac_len prk c_r th id_cred cred ead label sdh st :
  lenN (the_mac prk c_r th id_cred cred ead label sdh st) = mac_len sdh st.
Proof. apply kdf_len, hmac32. Qed.

Lemma tbs_ok th id_cred cred ead m t :
  to_be_signed cf th id_cred cred ead m = Ok t -> t = rfc_tbs id_cred th cred ead m.
Proof.
  clear hmac32. intros H. unfold to_be_signed in H. apply bind_ok in H as ([] & _ & H).
  unfold signature_struct_gen in H. apply bind_ok in H as (te & ET & H). apply encode_bstr_ok in ET as [-> _].
  apply bind_ok in H as ([] & _ & H). apply cbor_put_ok in H as [-> _].
  unfold rfc_tbs. cbor_norm. reflexivity.
Qed.
Lemma tbs_fits th id_cred cred ead m :
  lenN th = 32 -> lenN m <= 32 -> lenN id_cred <= ID_CRED_MAX_SIZE cf -> lenN cred <= CRED_MAX_SIZE cf ->
  lenN ead <= EAD_SIZE cf -> lenN id_cred + lenN cred + lenN ead < 2 ^ 31 ->
  to_be_signed cf th id_cred cred ead m = Ok (rfc_tbs id_cred th cred ead m).
Proof.
  clear hmac32. intros HT HM HI HC HE HS. unfold to_be_signed. rewrite HT. change (as_bstr_size 32) with 34.
  assert (S : sig_struct_size_calc COSE_SIGN1_STR_LEN (lenN id_cred) (34 + lenN cred + lenN ead) (lenN m)
              <= SIG_STRUCT_SIZE cf).
  { unfold SIG_STRUCT_SIZE, sig_struct_size_calc. change (as_bstr_size HASH_SIZE) with 34.
    pose proof (as_bstr_mono _ _ HI). pose proof (as_bstr_mono (lenN m) MAC23_SIZE HM).
    pose proof (as_bstr_mono (34 + lenN cred + lenN ead) (34 + CRED_MAX_SIZE cf + EAD_SIZE cf)). lia. }
  rewrite new_fits by exact S. cbn [bind]. unfold signature_struct_gen.
  assert (ET : encode_bstr th (as_bstr_size HASH_SIZE) = Ok (enc_bstr th)).
  { apply encode_bstr_ok. rewrite bstr32_len by exact HT. split; [reflexivity|]. apply N.leb_le. reflexivity. }
  rewrite ET. cbn [bind]. rewrite (bstr32_len th HT). change (as_bstr_size HASH_SIZE) with 34.
  rewrite new_fits by lia. cbn [bind]. unfold cose_sig_structure_encode. rewrite put_fits.
  - f_equal. unfold rfc_tbs. cbor_norm. reflexivity.
  - rewrite !lenN_app. unfold sig_struct_size_calc.
    change (lenN (enc_list 4)) with 1. change (lenN (enc_tstr str_signature1)) with 11.
    change (as_bstr_size COSE_SIGN1_STR_LEN) with 12.
    pose proof (as_bstr_ge id_cred ltac:(lia)). pose proof (as_bstr_ge m ltac:(lia)).
    assert (Q : lenN (enc_bstr th ++ cred ++ ead) = 34 + lenN cred + lenN ead)
      by (rewrite !lenN_app, (bstr32_len th HT); lia).
    pose proof (as_bstr_ge (enc_bstr th ++ cred ++ ead) ltac:(lia)) as Q2. rewrite Q in Q2. lia.
Qed.
End Mac.
