(** SHA-256 (FIPS 180-4), HMAC (RFC 2104), AES-128 (FIPS 197) and CCM (RFC 3610 with L = 2,
    the AES-CCM-16-64-128 and AES-CCM-16-128-128 of RFC 9053, 4.2), written from the
    standards. In /repo they are in the libraries (externals/mbedtls, externals/tinycrypt). *)
From Verif Require Import Base Model_Cbor Model_Crypto.

(** ** SHA-256 *)
Definition word (x : N) : N := N.land x 0xffffffff.
Definition rotr (n x : N) : N := N.lor (N.shiftr x n) (word (N.shiftl x (32 - n))).
Definition big_sigma_0 (x : N) : N := N.lxor (N.lxor (rotr 2 x) (rotr 13 x)) (rotr 22 x).
Definition big_sigma_1 (x : N) : N := N.lxor (N.lxor (rotr 6 x) (rotr 11 x)) (rotr 25 x).
Definition sigma_0 (x : N) : N := N.lxor (N.lxor (rotr 7 x) (rotr 18 x)) (N.shiftr x 3).
Definition sigma_1 (x : N) : N := N.lxor (N.lxor (rotr 17 x) (rotr 19 x)) (N.shiftr x 10).
Definition choose (x y z : N) : N := N.lxor (N.land x y) (N.land (N.lxor x 0xffffffff) z).
Definition majority (x y z : N) : N := N.lxor (N.lxor (N.land x y) (N.land x z)) (N.land y z).
Definition sha_k : list N :=
  [
    0x428a2f98; 0x71374491; 0xb5c0fbcf; 0xe9b5dba5; 0x3956c25b; 0x59f111f1; 0x923f82a4; 0xab1c5ed5;
    0xd807aa98; 0x12835b01; 0x243185be; 0x550c7dc3; 0x72be5d74; 0x80deb1fe; 0x9bdc06a7; 0xc19bf174;
    0xe49b69c1; 0xefbe4786; 0x0fc19dc6; 0x240ca1cc; 0x2de92c6f; 0x4a7484aa; 0x5cb0a9dc; 0x76f988da;
    0x983e5152; 0xa831c66d; 0xb00327c8; 0xbf597fc7; 0xc6e00bf3; 0xd5a79147; 0x06ca6351; 0x14292967;
    0x27b70a85; 0x2e1b2138; 0x4d2c6dfc; 0x53380d13; 0x650a7354; 0x766a0abb; 0x81c2c92e; 0x92722c85;
    0xa2bfe8a1; 0xa81a664b; 0xc24b8b70; 0xc76c51a3; 0xd192e819; 0xd6990624; 0xf40e3585; 0x106aa070;
    0x19a4c116; 0x1e376c08; 0x2748774c; 0x34b0bcb5; 0x391c0cb3; 0x4ed8aa4a; 0x5b9cca4f; 0x682e6ff3;
    0x748f82ee; 0x78a5636f; 0x84c87814; 0x8cc70208; 0x90befffa; 0xa4506ceb; 0xbef9a3f7; 0xc67178f2].
Record sha_state := { h0 : N; h1 : N; h2 : N; h3 : N; h4 : N; h5 : N; h6 : N; h7 : N }.
Definition sha_start : sha_state :=
  {| h0 := 0x6a09e667; h1 := 0xbb67ae85; h2 := 0x3c6ef372; h3 := 0xa54ff53a; h4 := 0x510e527f; h5 := 0x9b05688c; h6 := 0x1f83d9ab; h7 := 0x5be0cd19 |}.

Fixpoint words_of (l : bytes) : list N :=
  match l with a :: b :: c :: d :: r => be_val [a; b; c; d] :: words_of r | _ => [] end.
(** FIPS 180-4, 6.2.2 step 1, newest word first *)
Fixpoint extend (n : nat) (w : list N) : list N :=
  match n with
  | O => w
  | S n' => extend n' (word (sigma_1 (nth 1 w 0) + nth 6 w 0 + sigma_0 (nth 14 w 0) + nth 15 w 0) :: w)
  end.
Definition sha_round (s : sha_state) (kw : N * N) : sha_state :=
  let t1 := h7 s + big_sigma_1 (h4 s) + choose (h4 s) (h5 s) (h6 s) + fst kw + snd kw in
  let t2 := big_sigma_0 (h0 s) + majority (h0 s) (h1 s) (h2 s) in
  {| h0 := word (t1 + t2); h1 := h0 s; h2 := h1 s; h3 := h2 s;
     h4 := word (h3 s + t1); h5 := h4 s; h6 := h5 s; h7 := h6 s |}.
Definition sha_block (s : sha_state) (block : bytes) : sha_state :=
  let w := rev (extend 48 (rev (words_of block))) in
  let r := fold_left sha_round (combine sha_k w) s in
  {| h0 := word (h0 s + h0 r); h1 := word (h1 s + h1 r); h2 := word (h2 s + h2 r); h3 := word (h3 s + h3 r);
     h4 := word (h4 s + h4 r); h5 := word (h5 s + h5 r); h6 := word (h6 s + h6 r); h7 := word (h7 s + h7 r) |}.
(** [l] in pieces of [n] bytes; [fuel] is at least their number *)
Fixpoint pieces (fuel : nat) (n : N) (l : bytes) : list bytes :=
  match fuel, l with
  | S f, _ :: _ => takeN n l :: pieces f n (dropN n l)
  | _, _ => []
  end.
Definition sha_pad (m : bytes) : bytes :=
  m ++ [0x80] ++ repeat 0 (N.to_nat ((119 - lenN m mod 64) mod 64)) ++ be_enc 8 (8 * lenN m).
Definition sha256 (m : bytes) : bytes :=
  let p := sha_pad m in
  let s := fold_left sha_block (pieces (length p) 64 p) sha_start in
  be_enc 4 (h0 s) ++ be_enc 4 (h1 s) ++ be_enc 4 (h2 s) ++ be_enc 4 (h3 s) ++
  be_enc 4 (h4 s) ++ be_enc 4 (h5 s) ++ be_enc 4 (h6 s) ++ be_enc 4 (h7 s).

(** ** HMAC *)
Definition hmac_key (k : bytes) : bytes :=
  let k' := if 64 <? lenN k then sha256 k else k in k' ++ repeat 0 (64 - length k').
Definition hmac_sha256 (k m : bytes) : bytes :=
  sha256 (map (N.lxor 0x5c) (hmac_key k) ++ sha256 (map (N.lxor 0x36) (hmac_key k) ++ m)).

(** ** AES-128 *)
Definition sbox : list N :=
  [
    0x63; 0x7c; 0x77; 0x7b; 0xf2; 0x6b; 0x6f; 0xc5; 0x30; 0x01; 0x67; 0x2b; 0xfe; 0xd7; 0xab; 0x76;
    0xca; 0x82; 0xc9; 0x7d; 0xfa; 0x59; 0x47; 0xf0; 0xad; 0xd4; 0xa2; 0xaf; 0x9c; 0xa4; 0x72; 0xc0;
    0xb7; 0xfd; 0x93; 0x26; 0x36; 0x3f; 0xf7; 0xcc; 0x34; 0xa5; 0xe5; 0xf1; 0x71; 0xd8; 0x31; 0x15;
    0x04; 0xc7; 0x23; 0xc3; 0x18; 0x96; 0x05; 0x9a; 0x07; 0x12; 0x80; 0xe2; 0xeb; 0x27; 0xb2; 0x75;
    0x09; 0x83; 0x2c; 0x1a; 0x1b; 0x6e; 0x5a; 0xa0; 0x52; 0x3b; 0xd6; 0xb3; 0x29; 0xe3; 0x2f; 0x84;
    0x53; 0xd1; 0x00; 0xed; 0x20; 0xfc; 0xb1; 0x5b; 0x6a; 0xcb; 0xbe; 0x39; 0x4a; 0x4c; 0x58; 0xcf;
    0xd0; 0xef; 0xaa; 0xfb; 0x43; 0x4d; 0x33; 0x85; 0x45; 0xf9; 0x02; 0x7f; 0x50; 0x3c; 0x9f; 0xa8;
    0x51; 0xa3; 0x40; 0x8f; 0x92; 0x9d; 0x38; 0xf5; 0xbc; 0xb6; 0xda; 0x21; 0x10; 0xff; 0xf3; 0xd2;
    0xcd; 0x0c; 0x13; 0xec; 0x5f; 0x97; 0x44; 0x17; 0xc4; 0xa7; 0x7e; 0x3d; 0x64; 0x5d; 0x19; 0x73;
    0x60; 0x81; 0x4f; 0xdc; 0x22; 0x2a; 0x90; 0x88; 0x46; 0xee; 0xb8; 0x14; 0xde; 0x5e; 0x0b; 0xdb;
    0xe0; 0x32; 0x3a; 0x0a; 0x49; 0x06; 0x24; 0x5c; 0xc2; 0xd3; 0xac; 0x62; 0x91; 0x95; 0xe4; 0x79;
    0xe7; 0xc8; 0x37; 0x6d; 0x8d; 0xd5; 0x4e; 0xa9; 0x6c; 0x56; 0xf4; 0xea; 0x65; 0x7a; 0xae; 0x08;
    0xba; 0x78; 0x25; 0x2e; 0x1c; 0xa6; 0xb4; 0xc6; 0xe8; 0xdd; 0x74; 0x1f; 0x4b; 0xbd; 0x8b; 0x8a;
    0x70; 0x3e; 0xb5; 0x66; 0x48; 0x03; 0xf6; 0x0e; 0x61; 0x35; 0x57; 0xb9; 0x86; 0xc1; 0x1d; 0x9e;
    0xe1; 0xf8; 0x98; 0x11; 0x69; 0xd9; 0x8e; 0x94; 0x9b; 0x1e; 0x87; 0xe9; 0xce; 0x55; 0x28; 0xdf;
    0x8c; 0xa1; 0x89; 0x0d; 0xbf; 0xe6; 0x42; 0x68; 0x41; 0x99; 0x2d; 0x0f; 0xb0; 0x54; 0xbb; 0x16].
Definition sub_byte (b : N) : N := nth (N.to_nat b) sbox 0.
Definition xtime (b : N) : N := N.land (N.lxor (2 * b) (if 128 <=? b then 0x11b else 0)) 0xff.
(** bytes of two blocks, xored; the state is listed by columns (FIPS 197, 3.4) *)
Definition add_block (a b : bytes) : bytes := map (fun i => u8 (N.lxor (nth i a 0) (nth i b 0))) (seq 0 16).
Definition shift_rows (s : bytes) : bytes :=
  map (fun i => nth i s 0) [0; 5; 10; 15; 4; 9; 14; 3; 8; 13; 2; 7; 12; 1; 6; 11]%nat.
Fixpoint mix_columns (s : bytes) : bytes :=
  match s with
  | a :: b :: c :: d :: r =>
      N.lxor (N.lxor (xtime a) (N.lxor (xtime b) b)) (N.lxor c d) ::
      N.lxor (N.lxor (xtime b) (N.lxor (xtime c) c)) (N.lxor a d) ::
      N.lxor (N.lxor (xtime c) (N.lxor (xtime d) d)) (N.lxor a b) ::
      N.lxor (N.lxor (xtime d) (N.lxor (xtime a) a)) (N.lxor b c) :: mix_columns r
  | _ => []
  end.
Definition xor4 (a b : bytes) : bytes := map (fun p => N.lxor (fst p) (snd p)) (combine a b).
(** FIPS 197, 5.2: the next round key *)
Definition next_key (k : bytes) (rcon : N) : bytes :=
  let w i := firstn 4 (skipn (4 * i) k) in
  let t := map sub_byte (skipn 1 (w 3%nat) ++ firstn 1 (w 3%nat)) in
  let a := xor4 (xor4 (w 0%nat) t) [rcon; 0; 0; 0] in
  let b := xor4 (w 1%nat) a in
  let c := xor4 (w 2%nat) b in
  a ++ b ++ c ++ xor4 (w 3%nat) c.
Fixpoint round_keys (k : bytes) (rcons : list N) : list bytes :=
  match rcons with [] => [k] | c :: r => k :: round_keys (next_key k c) r end.
Definition expand_key (k : bytes) : list bytes :=
  round_keys k [0x01; 0x02; 0x04; 0x08; 0x10; 0x20; 0x40; 0x80; 0x1b; 0x36].
Fixpoint aes_rounds (s : bytes) (ks : list bytes) : bytes :=
  match ks with
  | [] => s
  | [k] => add_block (shift_rows (map sub_byte s)) k
  | k :: r => aes_rounds (add_block (mix_columns (shift_rows (map sub_byte s))) k) r
  end.
Definition aes (ks : list bytes) (b : bytes) : bytes := aes_rounds (add_block b (hd [] ks)) (tl ks).
Definition aes128 (k b : bytes) : bytes := aes (expand_key k) b.

(** ** CCM *)
Definition zero_pad (l : bytes) : bytes := l ++ repeat 0 (N.to_nat ((16 - lenN l mod 16) mod 16)).
(** RFC 3610, 2.2 *)
Definition ccm_first (n a : bytes) (t : N) (p : bytes) : bytes :=
  ((if lenN a =? 0 then 0 else 64) + 8 * ((t - 2) / 2) + 1) :: n ++ be_enc 2 (lenN p).
Definition ccm_aad (a : bytes) : bytes :=
  if lenN a =? 0 then []
  else zero_pad ((if lenN a <? 0xff00 then be_enc 2 (lenN a)
                  else if lenN a <? 2 ^ 32 then [0xff; 0xfe] ++ be_enc 4 (lenN a)
                  else [0xff; 0xff] ++ be_enc 8 (lenN a)) ++ a).
Definition ccm_mac (ks : list bytes) (n a : bytes) (t : N) (p : bytes) : bytes :=
  let l := ccm_aad a ++ zero_pad p in
  fold_left (fun x b => aes ks (add_block x b)) (pieces (length l) 16 l) (aes ks (ccm_first n a t p)).
(** RFC 3610, 2.3 *)
Definition ccm_stream (ks : list bytes) (n : bytes) (i : nat) : bytes := aes ks (1 :: n ++ be_enc 2 (N.of_nat i)).
Definition ccm_xor (ks : list bytes) (n p : bytes) : bytes :=
  let s := flat_map (ccm_stream ks n) (seq 1 (N.to_nat (lenN p / 16 + 1))) in
  map (fun q => N.lxor (fst q) (snd q)) (combine p s).
Definition ccm_tag (ks : list bytes) (n a : bytes) (t : N) (p : bytes) : bytes :=
  takeN t (add_block (ccm_mac ks n a t p) (ccm_stream ks n 0)).
(** What can be encrypted: a key of 128 bits, a nonce of 13 bytes, tags of 4, 6, ..., 16
    bytes, at most 65535 bytes. *)
Definition ccm_args (k n : bytes) (t : N) (p : bytes) : bool :=
  (lenN k =? 16) && (lenN n =? 13) && (4 <=? t) && (t <=? 16) && N.even t && (lenN p <? 65536) &&
  forallb (fun b => b <? 256) p.
Definition ccm_encrypt (k n a : bytes) (t : N) (p : bytes) : option bytes :=
  if ccm_args k n t p then
    let ks := expand_key k in Some (ccm_xor ks n p ++ ccm_tag ks n a t p)
  else None.
Definition ccm_decrypt (k n a : bytes) (t : N) (c : bytes) : option bytes :=
  if lenN c <? t then None
  else
    let ks := expand_key k in
    let p := ccm_xor ks n (takeN (lenN c - t) c) in
    if ccm_args k n t p && beqb (dropN (lenN c - t) c) (ccm_tag ks n a t p) then Some p else None.

(** The library with these algorithms; curves and signatures are those of [cr]. *)
Definition standard (cr : crypto) : crypto := {|
  cr_hmac := hmac_sha256; cr_hash := sha256; cr_aead_enc := ccm_encrypt; cr_aead_dec := ccm_decrypt;
  cr_dh := cr_dh cr; cr_pub := cr_pub cr; cr_sign := cr_sign cr; cr_verify := cr_verify cr |}.

(** What remains to be assumed of them. *)
Record asymmetric_ok (cr : crypto) : Prop := {
  as_dh : forall g a b, cr_dh cr g a (cr_pub cr g b) = cr_dh cr g b (cr_pub cr g a);
  as_sign : forall g sk m s, cr_sign cr g sk (cr_pub cr g sk) m = Some s -> cr_verify cr g (cr_pub cr g sk) m s = Some true;
  as_sign_form : forall g sk pk m s, cr_sign cr g sk pk m = Some s -> lenN s = 64 /\ is_bytes s;
  as_dh_form : forall g a b s, cr_dh cr g a b = Some s -> lenN s = 32 /\ is_bytes s
}.
