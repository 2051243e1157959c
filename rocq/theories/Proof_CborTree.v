From Verif Require Import Base Proof_Base Model_Common Model_Cbor Proof_Cbor Model_Crypto
  Model_OscorePrims Proof_OscorePrims Spec_CborTree.

Lemma be_enc_digits4 n : n < 2 ^ 32 -> be_enc 4 n = [digit 3 n; digit 2 n; digit 1 n; digit 0 n].
Proof.
  intros H. unfold digit. cbn [be_enc app].
  rewrite !N.div_div by lia. change (256 * 256) with (256 ^ 2). change (256 * 256 ^ 2) with (256 ^ 3).
  change (256 ^ 2 * 256) with (256 ^ 3).
  change (256 ^ 0) with 1. rewrite N.div_1_r. reflexivity.
Qed.

Lemma be_enc_digits8 n : be_enc 8 n =
  [digit 7 n; digit 6 n; digit 5 n; digit 4 n; digit 3 n; digit 2 n; digit 1 n; digit 0 n].
Proof.
  unfold digit. cbn [be_enc app]. rewrite !N.div_div by lia.
  change (256 ^ 0) with 1. rewrite N.div_1_r. reflexivity.
Qed.

Lemma rfc_head_eq mt n : rfc_head mt n = enc_head mt n.
Proof.
  unfold rfc_head, enc_head. rewrite (N.mul_comm mt 32).
  destruct (N.leb_spec n 23); destruct (N.ltb_spec n 24); try lia; [reflexivity|].
  destruct (N.leb_spec n 255); destruct (N.ltb_spec n (2 ^ 8)); try lia.
  { cbn [be_enc app]. rewrite N.mod_small by lia. reflexivity. }
  destruct (N.leb_spec n 65535); destruct (N.ltb_spec n (2 ^ 16)); try lia.
  { unfold digit. cbn [be_enc app]. change (256 ^ 0) with 1. rewrite N.div_1_r. reflexivity. }
  destruct (N.leb_spec n 0xFFFFFFFF); destruct (N.ltb_spec n (2 ^ 32)); try lia.
  { rewrite be_enc_digits4 by lia. reflexivity. }
  rewrite be_enc_digits8. reflexivity.
Qed.

Lemma cbor_int z : cbor (CInt z) = enc_int z.
Proof.
  cbn [cbor]. unfold enc_int. rewrite !rfc_head_eq.
  destruct (Z.ltb_spec z 0); destruct (Z.leb_spec 0 z); try lia; [|reflexivity].
  f_equal. lia.
Qed.
Lemma cbor_bytes b : cbor (CBytes b) = enc_bstr b.
Proof. cbn [cbor]. rewrite rfc_head_eq. reflexivity. Qed.
Lemma cbor_text b : cbor (CText b) = enc_tstr b.
Proof. cbn [cbor]. rewrite rfc_head_eq. reflexivity. Qed.

Lemma cbor_arr l : cbor (CArr l) = enc_list (lenN l) ++ cbor_seq l.
Proof. cbn [cbor]. rewrite rfc_head_eq. reflexivity. Qed.

Lemma cbor_seq_cons i l : cbor_seq (i :: l) = cbor i ++ cbor_seq l.
Proof. reflexivity. Qed.
Lemma cbor_seq_nil : cbor_seq [] = [].
Proof. reflexivity. Qed.

Ltac cbor_norm := repeat (rewrite ?cbor_arr, ?cbor_seq_cons, ?cbor_seq_nil, ?cbor_int, ?cbor_bytes, ?cbor_text);
  rewrite ?app_nil_r, <- ?app_assoc.

Lemma aad_is_rfc alg kid piv cap :
  create_aad alg kid piv cap = cbor_put cap (cbor (rfc_external_aad alg kid piv)).
Proof. unfold create_aad, rfc_external_aad. f_equal. cbor_norm. reflexivity. Qed.

Lemma enc_structure_is_rfc aad cap :
  oscore_enc_structure aad cap = cbor_put cap (cbor (rfc_enc_structure aad)).
Proof. unfold oscore_enc_structure, rfc_enc_structure. f_equal. cbor_norm. reflexivity. Qed.

Definition type_is_iv (t : derive_type) : bool := match t with KEY => false | IV => true end.

Lemma info_is_rfc id ctx alg t cap :
  oscore_create_hkdf_info id ctx alg t cap = cbor_put cap (cbor (rfc_info id ctx alg (type_is_iv t))).
Proof.
  unfold oscore_create_hkdf_info, rfc_info.
  destruct t; cbn [type_is_iv]; f_equal; cbor_norm; f_equal; f_equal; f_equal;
    destruct ctx as [|c ctx]; rewrite ?lenN_cons; try reflexivity;
    (destruct (N.eqb_spec (1 + lenN ctx) 0); [lia|apply eq_sym, cbor_bytes]).
Qed.
