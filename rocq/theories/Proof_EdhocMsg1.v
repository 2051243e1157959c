(** message_1: what the initiator encodes and what the responder reads from it. *)
From Verif Require Import Base Proof_Base Model_Common Model_Cbor Proof_Cbor Model_Crypto
  Spec_CborTree Proof_CborTree Spec_Edhoc Model_EdhocCfg Model_EdhocCbor Model_EdhocKeys Proof_EdhocBase
  Model_EdhocCert Model_EdhocMsg Model_EdhocRun.

Lemma is_encoded_int c : c_x_is_encoded_int c = one_byte_int c.
Proof.
  destruct c as [|b [|? ?]]; try reflexivity. cbn. lia.
Qed.
Lemma decode_one_byte c : one_byte_int c = true ->
  exists z, decode_int c = Ok z /\ enc_int z = c /\ (-24 <= z <= 23)%Z.
Proof.
  destruct c as [|b [|? ?]]; try discriminate. cbn. intros H. unfold decode_int, dec_int, dec_head.
  assert (Q : b <= 23 \/ 32 <= b <= 55) by lia. destruct Q as [Q|Q].
  - assert (E1 : b / 32 = 0) by (apply N.div_small; lia).
    assert (E2 : b mod 32 = b) by (apply N.mod_small; lia). rewrite E1, E2.
    destruct (N.ltb_spec b 24); [|lia]. destruct (N.ltb_spec b (2 ^ 31)); [|lia]. cbn.
    change (lenN [b]) with 1. change (lenN (@nil N)) with 0. cbn.
    exists (Z.of_N b). split; [reflexivity|]. split; [|lia].
    unfold enc_int. destruct (Z.leb_spec 0 (Z.of_N b)); [|lia]. rewrite N2Z.id. unfold enc_head.
    destruct (N.ltb_spec b 24); [f_equal; lia|lia].
  - assert (E1 : b / 32 = 1) by (symmetry; apply N.div_unique with (b - 32); lia).
    assert (E2 : b mod 32 = b - 32) by (symmetry; apply N.mod_unique with 1; lia). rewrite E1, E2.
    destruct (N.ltb_spec (b - 32) 24); [|lia]. destruct (N.ltb_spec (b - 32) (2 ^ 31)); [|lia]. cbn.
    change (lenN [b]) with 1. change (lenN (@nil N)) with 0. cbn.
    exists (-1 - Z.of_N (b - 32))%Z. split; [reflexivity|]. split; [|lia].
    unfold enc_int. destruct (Z.leb_spec 0 (-1 - Z.of_N (b - 32))); [lia|]. unfold enc_head.
    match goal with |- context [N.ltb ?x 24] => destruct (N.ltb_spec x 24); [f_equal; lia|lia] end.
Qed.

(** the integer or string that stands for a connection identifier in the structures *)
Lemma conn_id_struct c : exists u,
  (if c_x_is_encoded_int c then let* z := decode_int c in Ok (UInt z) else Ok (UStr c)) = Ok u /\
  enc_int_or_bstr u = rfc_conn_id c /\
  u = (if one_byte_int c then UInt (match decode_int c with Ok z => z | _ => 0%Z end) else UStr c).
Proof.
  rewrite is_encoded_int. unfold rfc_conn_id. destruct (one_byte_int c) eqn:E.
  - destruct (decode_one_byte c E) as (z & D & EN & _). rewrite D. exists (UInt z). cbn. auto.
  - exists (UStr c). split; [reflexivity|]. split; [|reflexivity]. cbn [enc_int_or_bstr]. now rewrite cbor_bytes.
Qed.

Lemma dec_int_bstr b r : lenN b < 2 ^ 64 -> dec_int (enc_bstr b ++ r) = None.
Proof. intros H. unfold enc_bstr, dec_int. rewrite <- app_assoc, dec_enc_head by assumption. reflexivity. Qed.

(** what is read back from an encoded connection identifier *)
Lemma dec_conn_id c r : lenN c < 2 ^ 64 ->
  dec_int_or_bstr (rfc_conn_id c ++ r) =
  Some (if one_byte_int c then UInt (match decode_int c with Ok z => z | _ => 0%Z end) else UStr c, r).
Proof.
  intros Hc. unfold rfc_conn_id, dec_int_or_bstr. destruct (one_byte_int c) eqn:E.
  - destruct (decode_one_byte c E) as (z & D & EN & B). rewrite D. rewrite <- EN.
    rewrite dec_enc_int by (unfold is_int32; lia). reflexivity.
  - rewrite cbor_bytes, dec_int_bstr, dec_enc_bstr by assumption. reflexivity.
Qed.

(** encode_int after decode_int gives the identifier back *)
Lemma reencode_one_byte c cap : one_byte_int c = true -> 1 <= cap ->
  encode_int (match decode_int c with Ok z => z | _ => 0%Z end) cap = Ok c.
Proof.
  intros E HC. destruct (decode_one_byte c E) as (z & D & EN & _). rewrite D. unfold encode_int. rewrite EN.
  apply put_fits. destruct c as [|b [|? ?]]; try discriminate. exact HC.
Qed.

Lemma rfc_suites_enc l : cbor (rfc_suites_i l) =
  match l with [s] => enc_int (Z.of_N s) | _ => enc_list (lenN l) ++ flat_map enc_int (map Z.of_N l) end.
Proof.
  assert (Q : forall l, flat_map cbor (map (fun s => CInt (Z.of_N s)) l) = flat_map enc_int (map Z.of_N l)).
  { clear. induction l as [|x l IH]; [reflexivity|]. cbn [map flat_map]. rewrite IH, cbor_int. reflexivity. }
  destruct l as [|s [|s' l]]; [reflexivity|apply cbor_int|].
  unfold rfc_suites_i. rewrite cbor_arr. unfold cbor_seq. rewrite Q. f_equal. f_equal.
  unfold lenN. rewrite map_length. reflexivity.
Qed.

Section Msg1.
Variable cr : crypto.
Variable cf : cfg.

Lemma msg1_gen_ok (c : initiator) m1 st h :
  msg1_gen cr cf c = Ok (m1, st, h) ->
  1 <= lenN (i_suites c) <= 10 /\
  m1 = rfc_message_1 (i_method c) (i_suites c) (i_g_x c) (i_c_i c) (i_ead_1 c) /\
  get_suite (last (i_suites c) 0) = Ok st /\ h = cr_hash cr m1 /\ lenN m1 <= MSG_MAX_SIZE cf.
Proof.
  intros H. unfold msg1_gen in H. apply bind_ok in H as (m & EM & H).
  apply bind_ok in H as (msg & EC & H). apply bind_ok in H as (st' & ES & H). injection H as <- <- <-.
  unfold msg1_struct in EM. apply bind_ok in EM as (su & ESU & EM).
  destruct (conn_id_struct (i_c_i c)) as (u & EU & EE & _). rewrite EU in EM. cbn [bind] in EM.
  injection EM as <-. unfold cbor_encode_message_1 in EC. apply bind_ok in EC as (b & EB & EC).
  apply cbor_put_ok in EC as [-> HL]. apply ext_ok in EB.
  assert (R : 1 <= lenN (i_suites c) <= 10 /\
              b = rfc_message_1 (i_method c) (i_suites c) (i_g_x c) (i_c_i c) (i_ead_1 c)).
  { unfold enc_message_1 in EB. cbn [m1_suites m1_g_x m1_c_i m1_ead_1 m1_method] in EB.
    unfold rfc_message_1. rewrite rfc_suites_enc, <- EE.
    assert (T : match match i_ead_1 c with [] => None | e => Some e end with Some e => enc_bstr e | None => [] end
                = match i_ead_1 c with [] => [] | _ => cbor (CBytes (i_ead_1 c)) end).
    { destruct (i_ead_1 c); [reflexivity|]. now rewrite cbor_bytes. }
    rewrite T in EB. rewrite (cbor_int (Z.of_N (i_method c))), (cbor_bytes (i_g_x c)).
    destruct (i_suites c) as [|s [|s' l]]; [discriminate| |].
    - injection ESU as <-. injection EB as <-. split; [change (lenN [s]) with 1; lia|reflexivity].
    - destruct (N.ltb_spec 10 (lenN (s :: s' :: l))) as [|HB]; [discriminate|].
      assert (Q : su = SList (map Z.of_N (s :: s' :: l))) by congruence. rewrite Q in EB.
      assert (LM : lenN (map Z.of_N (s :: s' :: l)) = lenN (s :: s' :: l)) by (unfold lenN; now rewrite map_length).
      rewrite LM in EB. destruct ((2 <=? _) && _) eqn:EQ in EB; [|discriminate]. injection EB as <-.
      split; [lia|reflexivity]. }
  destruct R as [R1 ->]. repeat split; try lia; try assumption.
Qed.

Lemma msg1_gen_fits (c : initiator) st :
  1 <= lenN (i_suites c) <= 10 -> get_suite (last (i_suites c) 0) = Ok st ->
  lenN (rfc_message_1 (i_method c) (i_suites c) (i_g_x c) (i_c_i c) (i_ead_1 c)) <= MSG_MAX_SIZE cf ->
  msg1_gen cr cf c =
    Ok (rfc_message_1 (i_method c) (i_suites c) (i_g_x c) (i_c_i c) (i_ead_1 c), st,
        cr_hash cr (rfc_message_1 (i_method c) (i_suites c) (i_g_x c) (i_c_i c) (i_ead_1 c))).
Proof.
  intros HS HG HL. unfold msg1_gen.
  set (msg := rfc_message_1 _ _ _ _ _) in *.
  assert (Q : exists m, msg1_struct c = Ok m /\ enc_message_1 m = Some msg).
  { unfold msg1_struct. destruct (conn_id_struct (i_c_i c)) as (u & EU & EE & _). rewrite EU. subst msg.
    unfold rfc_message_1. rewrite rfc_suites_enc, <- EE, cbor_int, (cbor_bytes (i_g_x c)).
    assert (T : match match i_ead_1 c with [] => None | e => Some e end with Some e => enc_bstr e | None => [] end
                = match i_ead_1 c with [] => [] | _ => cbor (CBytes (i_ead_1 c)) end).
    { destruct (i_ead_1 c); [reflexivity|]. now rewrite cbor_bytes. }
    destruct (i_suites c) as [|s [|s' l]]; [change (lenN (@nil N)) with 0 in HS; lia| |].
    - cbn [bind]. eexists. split; [reflexivity|]. unfold enc_message_1.
      cbn [m1_suites m1_g_x m1_c_i m1_ead_1 m1_method]. rewrite T. reflexivity.
    - cbv zeta. destruct (N.ltb_spec 10 (lenN (s :: s' :: l))); [lia|]. cbn [bind]. eexists. split; [reflexivity|].
      unfold enc_message_1. cbn [m1_suites m1_g_x m1_c_i m1_ead_1 m1_method]. rewrite T.
      assert (LM : lenN (map Z.of_N (s :: s' :: l)) = lenN (s :: s' :: l)) by (unfold lenN; now rewrite map_length).
      rewrite LM. assert (2 <= lenN (s :: s' :: l)) by (rewrite !lenN_cons; lia).
      destruct ((2 <=? lenN (s :: s' :: l)) && _) eqn:EQ; [reflexivity|lia]. }
  destruct Q as (m & -> & Q). cbn [bind]. unfold cbor_encode_message_1. rewrite Q. cbn [ext bind].
  rewrite put_fits by exact HL. cbn [bind]. rewrite HG. reflexivity.
Qed.

Lemma dec_ints_enc l r : Forall (fun z => is_int32 z) l ->
  dec_ints (length l) (flat_map enc_int l ++ r) = Some (l, r).
Proof.
  induction l as [|z l IH]; intros F; [reflexivity|]. inversion F; subst.
  cbn [dec_ints length flat_map]. rewrite <- app_assoc, dec_enc_int by assumption. rewrite IH by assumption.
  reflexivity.
Qed.
Lemma dec_suites_rfc su r : 1 <= lenN su <= 10 -> is_bytes su ->
  dec_suites (cbor (rfc_suites_i su) ++ r) =
  Some (match su with [s] => SInt (Z.of_N s) | _ => SList (map Z.of_N su) end, r).
Proof.
  intros HL HB. rewrite rfc_suites_enc. unfold dec_suites, dec_list.
  destruct su as [|s [|s' l]].
  - change (lenN (@nil N)) with 0 in HL. lia.
  - inversion HB as [|? ? Hs _]; subst. unfold is_byte in Hs.
    unfold enc_int at 1. destruct (Z.leb_spec 0 (Z.of_N s)); [|lia].
    rewrite dec_enc_head by lia. rewrite dec_enc_int by (unfold is_int32; lia). reflexivity.
  - set (q := s :: s' :: l) in *. unfold enc_list. rewrite <- app_assoc, dec_enc_head by lia.
    assert (2 <= lenN q) by (unfold q; rewrite !lenN_cons; lia).
    destruct ((2 <=? lenN q) && (lenN q <=? 10)) eqn:E; [|lia].
    replace (N.to_nat (lenN q)) with (length (map Z.of_N q)) by (unfold lenN; rewrite map_length; lia).
    rewrite dec_ints_enc; [reflexivity|].
    clear - HB. induction q as [|x q IH]; constructor; inversion HB as [|? ? Hs Hq]; subst.
    + unfold is_byte in Hs. unfold is_int32. lia.
    + apply IH. assumption.
Qed.

Lemma z_u8_of_N s : s < 256 -> z_u8 (Z.of_N s) = s.
Proof. intros. unfold z_u8. rewrite Z.mod_small by lia. apply N2Z.id. Qed.
Lemma map_z_u8 l : is_bytes l -> map z_u8 (map Z.of_N l) = l.
Proof.
  induction l as [|x l IH]; intros H; [reflexivity|]. inversion H; subst. cbn [map].
  rewrite z_u8_of_N, IH by assumption. reflexivity.
Qed.

(** what C_I arrives as *)
Definition arrived (c : bytes) : bytes :=
  match c with [b] => if (0x20 <=? b) && (b <=? 0x37) then [287 - b] else [b] | _ => c end.

Lemma arrived_one c : one_byte_int c = true ->
  [z_u8 (match decode_int c with Ok z => z | _ => 0%Z end)] = arrived c.
Proof.
  intros E. destruct (decode_one_byte c E) as (z & D & EN & B). rewrite D. rewrite <- EN. unfold enc_int.
  destruct (Z.leb_spec 0 z); unfold enc_head.
  - destruct (N.ltb_spec (Z.to_N z) 24); [|lia]. unfold arrived.
    destruct ((32 <=? 0 * 32 + Z.to_N z) && _) eqn:Q; [lia|]. unfold z_u8. rewrite Z.mod_small by lia. f_equal.
  - destruct (N.ltb_spec (Z.to_N (-1 - z)) 24); [|lia]. unfold arrived.
    destruct ((32 <=? 1 * 32 + Z.to_N (-1 - z)) && _) eqn:Q; [|lia]. f_equal. unfold z_u8.
    replace (z mod 256)%Z with (z + 256)%Z; [lia|].
    apply Z.mod_unique with (-1)%Z; lia.
Qed.
Lemma arrived_id c : one_byte_int c = false -> arrived c = c.
Proof.
  destruct c as [|b [|? ?]]; try reflexivity. cbn. intros H.
  destruct ((32 <=? b) && (b <=? 55)) eqn:E; [lia|reflexivity].
Qed.
Lemma arrived_same c : (forall b, c = [b] -> ~ (0x20 <= b <= 0x37)) -> arrived c = c.
Proof.
  intros H. destruct c as [|b [|? ?]]; try reflexivity. cbn. specialize (H b eq_refl).
  destruct ((32 <=? b) && (b <=? 55)) eqn:E; [lia|reflexivity].
Qed.

Lemma copy_null_ok cap b : lenN b <= cap -> copy_null cap b = Ok b.
Proof.
  intros H. unfold copy_null. destruct (N.eqb_spec (lenN b) 0) as [E|E].
  - apply lenN_0 in E. now subst.
  - destruct (N.eqb_spec cap 0); [lia|]. rewrite check_fits by lia. reflexivity.
Qed.

Lemma msg1_parse_rfc me su g_x c_i ead ci_cap :
  me <= 3 -> is_bytes su -> 1 <= lenN su <= 10 -> lenN su <= SUITES_I_SIZE cf ->
  lenN g_x <= 32 -> lenN c_i <= ci_cap -> lenN c_i < 2 ^ 64 -> lenN ead <= EAD_SIZE cf -> lenN ead < 2 ^ 64 ->
  msg1_parse cf (rfc_message_1 me su g_x c_i ead) ci_cap =
  Ok (me, su, g_x, arrived c_i, match ead with [] => None | _ => Some ead end).
Proof.
  intros HM HB HS HS' HG HC HC' HE HE'. unfold msg1_parse.
  assert (D : cbor_decode_message_1 (rfc_message_1 me su g_x c_i ead) =
    Some {| m1_method := Z.of_N me;
            m1_suites := match su with [s] => SInt (Z.of_N s) | _ => SList (map Z.of_N su) end;
            m1_g_x := g_x;
            m1_c_i := if one_byte_int c_i then UInt (match decode_int c_i with Ok z => z | _ => 0%Z end) else UStr c_i;
            m1_ead_1 := match ead with [] => None | _ => Some ead end |}).
  { unfold cbor_decode_message_1, rfc_message_1. rewrite cbor_int, dec_enc_int by (unfold is_int32; lia).
    rewrite dec_suites_rfc by assumption. rewrite cbor_bytes, dec_enc_bstr by lia.
    rewrite dec_conn_id by assumption. do 2 f_equal. unfold dec_opt_bstr. destruct ead as [|e ead]; [reflexivity|].
    rewrite cbor_bytes, <- (app_nil_r (enc_bstr _)), dec_enc_bstr by assumption. reflexivity. }
  rewrite D. cbn [ext bind m1_method m1_suites m1_g_x m1_c_i m1_ead_1].
  destruct ((3 <? Z.of_N me) || (Z.of_N me <? 0))%Z eqn:EM; [lia|].
  assert (ES : match match su with [s] => SInt (Z.of_N s) | _ => SList (map Z.of_N su) end with
               | SInt z => if SUITES_I_SIZE cf =? 0 then UB NullDeref else Ok [z_u8 z]
               | SList l => if SUITES_I_SIZE cf <? lenN l then Err suites_i_list_to_long else Ok (map z_u8 l)
               end = Ok su).
  { destruct su as [|s [|s' l]].
    - change (lenN (@nil N)) with 0 in HS. lia.
    - change (lenN [s]) with 1 in *. destruct (N.eqb_spec (SUITES_I_SIZE cf) 0); [lia|].
      inversion HB; subst. rewrite z_u8_of_N by assumption. reflexivity.
    - assert (LM : lenN (map Z.of_N (s :: s' :: l)) = lenN (s :: s' :: l)) by (unfold lenN; now rewrite map_length).
      cbv beta iota. rewrite LM. destruct (N.ltb_spec (SUITES_I_SIZE cf) (lenN (s :: s' :: l))); [lia|].
      rewrite map_z_u8 by assumption. reflexivity. }
  rewrite ES. cbn [bind]. rewrite copy_null_ok by exact HG. cbn [bind].
  assert (EC : match (if one_byte_int c_i then UInt (match decode_int c_i with Ok z => z | _ => 0%Z end) else UStr c_i) with
               | UInt z => if ci_cap =? 0 then UB NullDeref else Ok [z_u8 z]
               | UStr b => copy_null ci_cap b
               end = Ok (arrived c_i)).
  { destruct (one_byte_int c_i) eqn:E.
    - rewrite arrived_one by exact E. destruct c_i as [|b [|? ?]]; try discriminate.
      change (lenN [b]) with 1 in HC. destruct (N.eqb_spec ci_cap 0); [lia|]. reflexivity.
    - rewrite arrived_id by exact E. apply copy_null_ok, HC. }
  rewrite EC. cbn [bind]. rewrite N2Z.id. destruct ead as [|e ead]; [reflexivity|].
  rewrite copy_null_ok by exact HE. reflexivity.
Qed.
End Msg1.
