(** RFC 8949 deterministic encoding of the CBOR data items that occur in OSCORE
    and EDHOC structures, and the structures themselves as data items. *)
From Verif Require Import Base.

Inductive item :=
| CInt (z : Z)
| CBytes (b : bytes)
| CText (b : bytes)
| CArr (l : list item)
| CMap (l : list (item * item))
| CNull.

(** RFC 8949 section 3: initial byte (major type, additional information) and
    argument in network byte order, shortest form. *)
Definition digit (k n : N) : N := n / 256 ^ k mod 256.
Definition rfc_head (mt n : N) : bytes :=
  if n <=? 23 then [32 * mt + n]
  else if n <=? 0xFF then [32 * mt + 24; n]
  else if n <=? 0xFFFF then [32 * mt + 25; digit 1 n; digit 0 n]
  else if n <=? 0xFFFFFFFF then [32 * mt + 26; digit 3 n; digit 2 n; digit 1 n; digit 0 n]
  else [32 * mt + 27; digit 7 n; digit 6 n; digit 5 n; digit 4 n; digit 3 n; digit 2 n; digit 1 n; digit 0 n].

Fixpoint cbor (i : item) : bytes :=
  match i with
  | CInt z => if (z <? 0)%Z then rfc_head 1 (Z.to_N (- z - 1)) else rfc_head 0 (Z.to_N z)
  | CBytes b => rfc_head 2 (lenN b) ++ b
  | CText b => rfc_head 3 (lenN b) ++ b
  | CArr l => rfc_head 4 (lenN l) ++ flat_map cbor l
  | CMap l => rfc_head 5 (lenN l) ++ flat_map (fun p => cbor (fst p) ++ cbor (snd p)) l
  | CNull => [0xF6]
  end.

(** CBOR sequence (RFC 8742) *)
Definition cbor_seq (l : list item) : bytes := flat_map cbor l.

(** RFC 8613 section 5.4: aad_array without class I options. *)
Definition rfc_external_aad (alg : Z) (kid piv : bytes) : item :=
  CArr [CInt 1; CArr [CInt alg]; CBytes kid; CBytes piv; CBytes []].
(** RFC 8613 section 5.4: Enc_structure = ["Encrypt0", h'', external_aad]. *)
Definition rfc_enc_structure (aad : bytes) : item :=
  CArr [CText [0x45; 0x6E; 0x63; 0x72; 0x79; 0x70; 0x74; 0x30]; CBytes []; CBytes aad].
(** RFC 8613 section 3.2.1: info = [id, id_context / nil, alg_aead, type, L]. *)
Definition rfc_info (id id_context : bytes) (alg : Z) (is_iv : bool) : item :=
  CArr [CBytes id;
        match id_context with [] => CNull | _ => CBytes id_context end;
        CInt alg;
        CText (if is_iv then [0x49; 0x56] else [0x4B; 0x65; 0x79]);
        CInt (if is_iv then 13 else 16)].
