(** The key store after the functions of crypto_wrapper.c *)
From Verif Require Import Base Proof_Base Model_Cbor Model_Crypto Model_EdhocCfg Model_P256 Model_Wrapper Spec_Wrapper.

(** [s0] and [s] have the same keys; or [s] has one more, with the identifier [id] *)
Definition used (s0 s : psa) : Prop := incl (faults s) (faults s0).
Definition same (s0 s : psa) : Prop := keys s = keys s0 /\ next s0 <= next s /\ wrong s = wrong s0 /\ lost s = lost s0 /\ used s0 s.
Definition own (id : N) (s0 s : psa) : Prop :=
  (exists k, keys s = (id, k) :: keys s0) /\ next s0 <= id < next s /\ wrong s = wrong s0 /\ lost s = lost s0 /\ used s0 s.
Definition post {B} (s0 : psa) (p : res B * psa) : Prop :=
  is_ub (fst p) = true \/
  (next s0 <= next (snd p) /\ wrong (snd p) = wrong s0 /\ used s0 (snd p) /\
   (keys (snd p) = keys s0 /\ lost (snd p) = lost s0 \/
    (exists e, keys (snd p) = e :: keys s0 /\ fst e < next (snd p)) /\ lost (snd p) = true /\ In true (faults s0))).

Lemma same_refl s : same s s. Proof. repeat split; [lia|apply incl_refl]. Qed.
Lemma fault_same s : same s (snd (fault s)).
Proof.
  unfold fault, same, used. destruct (faults s) eqn:F; cbn [snd]; repeat split; cbn [next faults]; try lia; rewrite ?F; [apply incl_refl|apply incl_tl, incl_refl].
Qed.
Lemma fault_true s : fst (fault s) = true -> In true (faults s).
Proof. unfold fault. destruct (faults s) as [|b l]; cbn [fst]; [discriminate|]. intros ->. now left. Qed.
Lemma same_trans a b c : same a b -> same b c -> same a c.
Proof. intros (K & N1 & W & L & U) (K' & N' & W' & L' & U'). repeat split; [congruence|lia|congruence|congruence|eapply incl_tran; eassumption]. Qed.
Lemma own_same id a b c : own id a b -> same b c -> own id a c.
Proof.
  intros ((k & K) & N1 & W & L & U) (K' & N' & W' & L' & U'). split; [exists k; congruence|].
  repeat split; [lia|lia|congruence|congruence|eapply incl_tran; eassumption].
Qed.
Lemma with_key_same {A} id u g ty (f : bytes -> option A) s : same s (snd (with_key id u g ty f s)).
Proof.
  unfold with_key. pose proof (fault_same s) as F. destruct (fault s) as [b s1]. cbn [snd] in F. destruct b; [exact F|].
  destruct (lookup id (keys s1)); exact F.
Qed.
Lemma post_same {B} s0 s (r : res B) : same s0 s -> post s0 (r, s).
Proof. intros (K & N1 & W & L & U). right. cbn [snd]. split; [exact N1|]. split; [exact W|]. split; [exact U|]. left. now split. Qed.

Section Pr.
Variable pr : prims.
Variable s0 : psa.
Hypothesis S0 : store_ok s0.
Lemma id_pos id s : own id s0 s -> id =? 0 = false.
Proof. intros (_ & I & _). destruct S0 as [P _]. apply N.eqb_neq. lia. Qed.
Lemma lookup_own id s : own id s0 s -> exists k, lookup id (keys s) = Some k.
Proof. intros ((k & ->) & _). cbn [lookup fst]. rewrite N.eqb_refl. eauto. Qed.
Lemma remove_own id k : next s0 <= id -> remove id ((id, k) :: keys s0) = keys s0.
Proof.
  intros I. unfold remove. cbn [filter fst]. rewrite N.eqb_refl. cbn [negb].
  destruct S0 as [_ F]. induction F as [|e l He Hl IH]; [reflexivity|]. cbn [filter]. destruct (N.eqb_spec (fst e) id); [lia|]. cbn [negb]. now rewrite IH.
Qed.
(** psa_destroy_key with the identifier that this call has got: either the store is as
    before or the failure is recorded *)
Lemma destroy_own {B} id s (r r' : res B) : own id s0 s ->
  match psa_destroy_key id s with
  | (Some _, s1) => same s0 s1
  | (None, s1) => post s0 (r, s1)
  end.
Proof.
  intros O. unfold psa_destroy_key. pose proof (fault_same s) as F. pose proof (fault_true s) as T. destruct (fault s) as [b s1]. cbn [fst snd] in F, T.
  pose proof (own_same _ _ _ _ O F) as O1. destruct (lookup_own id s1 O1) as [k ->]. destruct O1 as ((k1 & K) & I & W & L & U).
  destruct b.
  - right. cbn [snd keys next wrong lost]. split; [lia|]. split; [exact W|]. split; [exact U|]. right. split; [|split; [reflexivity|]].
    + exists (id, k1). split; [exact K|]. cbn [fst]. lia.
    + destruct O as (_ & _ & _ & _ & U0). now apply U0, T.
  - unfold same. cbn [keys next wrong lost]. rewrite K, remove_own by lia. repeat split; [lia|exact W|exact L|exact U].
Qed.
Lemma try_expect_destroy {B} id s (k : unit -> psa -> res B * psa) : own id s0 s ->
  (forall u s1, same s0 s1 -> post s0 (k u s1)) -> post s0 (try_expect (psa_destroy_key id s) k).
Proof.
  intros O HK. pose proof (destroy_own id s (Err unexpected_result_from_ext_lib : res B) (Err unexpected_result_from_ext_lib) O) as D. unfold try_expect.
  destruct (psa_destroy_key id s) as [[u|] s1]; [now apply HK|exact D].
Qed.
Lemma try_psa_own {A B} (r : option A * psa) id e (k : A -> psa -> res B * psa) : own id s0 (snd r) ->
  (forall a s, own id s0 s -> post s0 (k a s)) -> post s0 (try_psa r id e k).
Proof.
  intros O HK. unfold try_psa. destruct r as [[a|] s]; cbn [snd] in O; [now apply HK|]. rewrite (id_pos id s O).
  pose proof (destroy_own id s (Err e : res B) (Err e) O) as D. destruct (psa_destroy_key id s) as [[u|] s1]; cbn [snd]; [now apply post_same|exact D].
Qed.
Lemma try_psa_clean {A B} (r : option A * psa) e (k : A -> psa -> res B * psa) : same s0 (snd r) ->
  (forall a s, same s0 s -> post s0 (k a s)) -> post s0 (try_psa r 0 e k).
Proof. intros O HK. unfold try_psa. destruct r as [[a|] s]; cbn [snd] in O; [now apply HK|]. now apply post_same. Qed.
Lemma import_spec a data s : same s0 s ->
  match psa_import_key pr a data s with
  | (Some _, id, s1) => own id s0 s1
  | (None, id, s1) => id = 0 /\ same s0 s1
  end.
Proof.
  intros H. unfold psa_import_key. pose proof (same_trans _ _ _ H (fault_same s)) as F. destruct (fault s) as [b s1]. cbn [snd] in F.
  destruct b; [now split|]. destruct (key_ok pr a data); [|now split]. destruct F as (K & N1 & W & L & U).
  split; cbn [keys next wrong lost]; [eexists; now rewrite K|]. repeat split; [lia|lia|exact W|exact L|exact U].
Qed.
Lemma try_import_post {B} a data s (k : N -> psa -> res B * psa) : same s0 s ->
  (forall id s1, own id s0 s1 -> post s0 (k id s1)) -> post s0 (try_import pr a data s k).
Proof.
  intros H HK. unfold try_import. pose proof (import_spec a data s H) as I. destruct (psa_import_key pr a data s) as [[[u|] id] s1].
  - apply try_psa_own; [exact I|]. intros _ s2. apply HK.
  - destruct I as [-> I]. now apply post_same.
Qed.
Lemma init_same s : same s0 s -> same s0 (snd (psa_crypto_init s)).
Proof. intros H. unfold psa_crypto_init. pose proof (same_trans _ _ _ H (fault_same s)) as F. now destruct (fault s). Qed.
Lemma hash_same m s : same s0 s -> same s0 (snd (psa_hash_compute pr m s)).
Proof. intros H. unfold psa_hash_compute. pose proof (same_trans _ _ _ H (fault_same s)) as F. now destruct (fault s). Qed.

Ltac start := apply try_psa_clean; [apply init_same, same_refl|]; intros _ ? ?; apply try_import_post; [assumption|]; intros ?id ? ?.
Ltac op := apply try_psa_own; [eapply own_same; [eassumption|apply with_key_same]|]; intros ? ? ?.
Ltac finish := apply try_expect_destroy; [assumption|]; intros _ ? ?; now apply post_same.

Lemma encrypt_post i k n a t : post s0 (w_encrypt pr i k n a t s0).
Proof. unfold w_encrypt. start. op. finish. Qed.
Lemma decrypt_post i k n a t o : post s0 (w_decrypt pr i k n a t o s0).
Proof. unfold w_decrypt. start. op. finish. Qed.
Lemma sign_post b g sk pk m : post s0 (w_sign pr b g sk pk m s0).
Proof.
  unfold w_sign. destruct g; [|apply post_same, same_refl]. start. op. apply try_psa_own; [assumption|]. intros ? ? ?. finish.
Qed.
Lemma verify_post b g pk m x : post s0 (w_verify pr b g pk m x s0).
Proof.
  unfold w_verify. destruct g; [|apply post_same, same_refl]. start.
  match goal with H : own id s0 ?s |- context [psa_verify_message pr id EcdsaSha256 m x ?s] =>
    pose proof (own_same _ _ _ _ H (with_key_same id VerifyMessage EcdsaSha256 is_public (fun k => if pr_ec_verify pr k m x then Some tt else None) s)) as O end.
  unfold psa_verify_message. destruct (with_key _ _ _ _ _ _) as [st s2]. cbn [snd] in O. finish.
Qed.
Lemma extract_post salt ikm : post s0 (w_hkdf_extract pr salt ikm s0).
Proof. unfold w_hkdf_extract. start. op. finish. Qed.
Lemma loop_post id info outl n : forall i off t acc s, own id s0 s ->
  match w_expand_loop pr n id info outl i off t acc s with
  | (Ok _, s1) => own id s0 s1
  | p => post s0 p
  end.
Proof.
  induction n as [|n IH]; intros i off t acc s O; cbn [w_expand_loop]; [exact O|].
  pose proof (own_same _ _ _ _ O (with_key_same id SignMessage HmacSha256 is_hmac (fun k => Some (pr_hmac pr k (dropN off (t ++ info ++ [u8 i])))) s)) as O1.
  unfold psa_mac_compute. destruct (with_key _ _ _ _ _ _) as [[m|] s1]; cbn [snd] in O1; cbn [try_psa].
  - now apply IH.
  - rewrite (id_pos id s1 O1). pose proof (destroy_own id s1 (Err unexpected_result_from_ext_lib : res bytes) (Err unexpected_result_from_ext_lib) O1) as D.
    destruct (psa_destroy_key id s1) as [[u|] s2]; cbn [snd]; [now apply post_same|exact D].
Qed.
Lemma expand_post cap prk info l : post s0 (w_hkdf_expand pr cap prk info l s0).
Proof.
  unfold w_hkdf_expand. cbv zeta. destruct (255 <? _); [apply post_same, same_refl|]. start.
  apply try_psa_own; [assumption|]. intros ? s9 O.
  pose proof (loop_post id info l (N.to_nat (u32 (l + 31) / 32)) 1 32 (repeat 0 32) [] s9 O) as Q.
  destruct (w_expand_loop _ _ _ _ _ _ _ _ _ _) as [[out|e|u] s2]; [finish|exact Q|exact Q].
Qed.
Lemma derive_post b mi j1 j2 j3 g sk pk : post s0 (w_derive pr b mi j1 j2 j3 g sk pk s0).
Proof.
  unfold w_derive. destruct g; [|apply post_same, same_refl]. start.
  match goal with H : own id s0 ?s |- _ => rename H into O; rename s into s9 end.
  match goal with |- context [let (x, y) := ?p in _] => assert (Q : own id s0 (snd p)); [|destruct p as [r s2]] end.
  { destruct (uncompress_point _ _ _ _ _ _) as [pt|]; [|exact O].
    pose proof (own_same _ _ _ _ O (with_key_same id Derive Ecdh is_pair (fun k => if pr_ec_pk_ok pr pt then
      match pr_ec_agree pr k pt with Some c => if lenN sk <? lenN c then None else Some c | None => None end else None) s9)) as O1.
    unfold psa_raw_key_agreement. destruct (with_key _ _ _ _ _ _) as [[c|] s3]; exact O1. }
  cbn [snd] in Q. rewrite (id_pos id s2 Q). finish.
Qed.
Lemma export_same id o s : same s (snd (psa_export_key id o s)).
Proof. unfold psa_export_key. pose proof (fault_same s) as F. destruct (fault s) as [b s1]. cbn [snd] in F. destruct b; [exact F|]. destruct (lookup id (keys s1)); exact F. Qed.
Lemma export_public_same id o s : same s (snd (psa_export_public_key pr id o s)).
Proof. unfold psa_export_public_key. pose proof (fault_same s) as F. destruct (fault s) as [b s1]. cbn [snd] in F. destruct b; [exact F|]. destruct (lookup id (keys s1)); exact F. Qed.
Lemma generate_spec a s : same s0 s ->
  match psa_generate_key pr a s with
  | (Some _, id, s1) => own id s0 s1
  | (None, id, s1) => id = 0 /\ same s0 s1
  end.
Proof. intros H. unfold psa_generate_key. destruct (rnd s) as [|d r]; [now split|]. apply import_spec. exact H. Qed.
Lemma keygen_post b j g seed a p : post s0 (w_keygen pr b j g seed a p s0).
Proof.
  unfold w_keygen. destruct g.
  - destruct (p <? 32); [apply post_same, same_refl|]. apply try_psa_clean; [apply init_same, same_refl|]. intros _ s1 H.
    pose proof (generate_spec gen_attr s1 H) as I. destruct (psa_generate_key pr gen_attr s1) as [[[u|] id] s2].
    2:{ destruct I as [-> I]. now apply post_same. }
    apply try_psa_own; [exact I|]. intros _ s3 O. destruct (a <? 32); [now left|].
    apply try_psa_own; [eapply own_same; [eassumption|apply export_same]|]. intros sk s4 O4.
    apply try_psa_own; [eapply own_same; [eassumption|apply export_public_same]|]. intros pub s5 O5.
    apply try_psa_own; [exact O5|]. intros _ s6 O6. finish.
  - destruct b; [|apply post_same, same_refl]. cbn [negb]. destruct (a <? 32); [now left|].
    pose proof (hash_same (rev (be_enc 4 seed)) s0 (same_refl s0)) as F. destruct (psa_hash_compute pr _ s0) as [[h|] s1]; cbn [snd] in F; cbn [try_expect]; [|now apply post_same].
    destruct (negb _); [now apply post_same|]. destruct (p <? 32); [now left|now apply post_same].
Qed.
Lemma hash_post m : post s0 (w_hash pr m s0).
Proof.
  unfold w_hash. pose proof (hash_same m s0 (same_refl s0)) as F. destruct (psa_hash_compute pr m s0) as [[h|] s1]; cbn [snd] in F; cbn [try_expect]; [|now apply post_same].
  destruct (negb _); now apply post_same.
Qed.
(** every call *)
Lemma call_post c : let (u, s) := run_call pr c s0 in u = true \/
  (next s0 <= next s /\ wrong s = wrong s0 /\ incl (faults s) (faults s0) /\
   (keys s = keys s0 /\ lost s = lost s0 \/ (exists e, keys s = e :: keys s0 /\ fst e < next s) /\ lost s = true /\ In true (faults s0))).
Proof.
  destruct c; cbn [run_call]; unfold outcome; [apply encrypt_post|apply decrypt_post|apply sign_post|apply verify_post|apply extract_post|
    apply expand_post|apply derive_post|apply keygen_post|apply hash_post].
Qed.
End Pr.
