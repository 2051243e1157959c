(** Lemmas about the OSCORE option codec. *)
From Verif Require Import Base Proof_Base Model_Common Model_Coap Model_Context Model_Send Model_Recv
  Spec_OscoreOption.

Definition opt_get (b : option bytes) : bytes := match b with Some x => x | None => [] end.

Lemma parse_bytes o tail :
  lenN (oo_piv o) <= 5 -> (forall c, oo_ctx o = Some c -> lenN c < 256) ->
  lenN (rfc_oscore_bytes o) < 256 ->
  oscore_value_parse (rfc_oscore_bytes o ++ tail) (lenN (rfc_oscore_bytes o)) =
    Ok {| co_piv := oo_piv o; co_kid_context := opt_get (oo_ctx o);
          co_kid_len := lenN (opt_get (oo_kid o));
          co_kid_mem := match oo_kid o with Some k => k ++ tail | None => [] end |}.
Proof.
  destruct o as [piv ctx kid]; cbn [oo_piv oo_ctx oo_kid]. intros Hp Hc HL.
  unfold rfc_oscore_bytes in *; cbn [oo_piv oo_ctx oo_kid] in *.
  set (fl := flag_bit ctx 16 + flag_bit kid 8 + lenN piv) in *.
  set (cpart := match ctx with Some c => lenN c :: c | None => [] end) in *.
  set (kpart := match kid with Some k => k | None => [] end) in *.
  assert (Hfl : fl = (match ctx with Some _ => 16 | None => 0 end) + (match kid with Some _ => 8 | None => 0 end) + lenN piv) by reflexivity.
  unfold oscore_value_parse. rewrite lenN_cons in *. rewrite !lenN_app in *.
  destruct (N.eqb_spec (1 + (lenN piv + (lenN cpart + lenN kpart))) 0); [lia|].
  cbn [app]. rewrite <- !app_assoc. change (rd (fl :: piv ++ cpart ++ kpart ++ tail) 0) with (@Ok N fl). cbn [bind].
  assert (F1 : fl / 16 mod 2 = match ctx with Some _ => 1 | None => 0 end) by (rewrite Hfl; destruct ctx, kid; lia).
  assert (F2 : fl / 8 mod 2 = match kid with Some _ => 1 | None => 0 end) by (rewrite Hfl; destruct ctx, kid; lia).
  assert (F3 : fl mod 8 = lenN piv) by (rewrite Hfl; destruct ctx, kid; lia).
  rewrite F1, F2, F3. clear F1 F2 F3 Hfl.
  destruct (N.eqb_spec (lenN piv) 6); [lia|]. destruct (N.eqb_spec (lenN piv) 7); [lia|]. cbn [orb].
  assert (S1 : slice (fl :: piv ++ cpart ++ kpart ++ tail) 1 (lenN piv) = Ok piv).
  { exact (slice_app [fl] piv (cpart ++ kpart ++ tail)). }
  rewrite S1. cbn [bind].
  assert (L1 : (if lenN piv =? 0 then 1 + (lenN piv + (lenN cpart + lenN kpart)) - 1
                else u8 (1 + (lenN piv + (lenN cpart + lenN kpart)) - 1 + 2 ^ 32 - lenN piv)) = lenN cpart + lenN kpart).
  { unfold u8. change (2 ^ 8) with 256. change (2 ^ 32) with 4294967296. destruct (N.eqb_spec (lenN piv) 0); lia. }
  rewrite L1. clear L1.
  assert (E1 : fl :: piv ++ cpart ++ kpart ++ tail = (fl :: piv) ++ cpart ++ kpart ++ tail) by reflexivity.
  destruct ctx as [c|].
  - change (1 =? 0) with false. cbn iota. specialize (Hc c eq_refl).
    assert (R1 : rd (fl :: piv ++ cpart ++ kpart ++ tail) (1 + lenN piv) = Ok (lenN c)).
    { rewrite E1. unfold cpart. change ((lenN c :: c) ++ kpart ++ tail) with (lenN c :: c ++ kpart ++ tail).
      rewrite <- (lenN_cons fl piv). apply rd_app_here. }
    rewrite R1. cbn [bind].
    assert (S2 : slice (fl :: piv ++ cpart ++ kpart ++ tail) (1 + lenN piv + 1) (lenN c) = Ok c).
    { unfold cpart. change (fl :: piv ++ (lenN c :: c) ++ kpart ++ tail) with ((fl :: piv) ++ [lenN c] ++ c ++ kpart ++ tail).
      rewrite app_assoc. replace (1 + lenN piv + 1) with (lenN ((fl :: piv) ++ [lenN c])) by (rewrite lenN_app, lenN_cons; reflexivity).
      apply slice_app. }
    rewrite S2. cbn [bind]. unfold cpart in *. rewrite lenN_cons in *.
    destruct kid as [k|]; unfold kpart in *; cbn [opt_get].
    + change (1 =? 0) with false. cbn iota. do 2 f_equal.
      * unfold u8. change (2 ^ 8) with 256. change (2 ^ 32) with 4294967296. lia.
      * change (fl :: piv ++ (lenN c :: c) ++ k ++ tail) with ((fl :: piv) ++ ([lenN c] ++ c) ++ k ++ tail).
        rewrite app_assoc. replace (1 + lenN piv + 1 + lenN c) with (lenN ((fl :: piv) ++ [lenN c] ++ c))
          by (rewrite !lenN_app, lenN_cons; change (lenN [lenN c]) with 1; lia).
        apply dropN_app.
    + reflexivity.
  - change (0 =? 0) with true. cbn iota. cbn [bind]. unfold cpart in *. cbn [app] in *. rewrite lenN_nil in *.
    destruct kid as [k|]; unfold kpart in *; cbn [opt_get].
    + change (1 =? 0) with false. cbn iota. do 2 f_equal.
      change (fl :: piv ++ k ++ tail) with ((fl :: piv) ++ k ++ tail).
      replace (1 + lenN piv) with (lenN (fl :: piv)) by (rewrite lenN_cons; reflexivity). apply dropN_app.
    + reflexivity.
Qed.

(** The option the generator writes for given values: the KID flag is always set
    when the value is not empty, an empty KID context counts as absent. *)
Definition gen_opt (piv kid ctx : bytes) : oscore_opt :=
  {| oo_piv := piv; oo_ctx := match ctx with [] => None | _ => Some ctx end; oo_kid := Some kid |}.

Definition gen_len (piv kid ctx : bytes) : N :=
  match piv, kid, ctx with
  | [], [], [] => 0
  | _, _, _ => 1 + lenN piv + lenN kid + match ctx with [] => 0 | _ => 1 + lenN ctx end
  end.

Lemma gen_len_pos piv kid ctx : ~ (piv = [] /\ kid = [] /\ ctx = []) ->
  gen_len piv kid ctx = 1 + lenN piv + lenN kid + match ctx with [] => 0 | _ => 1 + lenN ctx end.
Proof. destruct piv, kid, ctx; intros H; try reflexivity. exfalso; auto. Qed.

Lemma get_len_gen piv kid ctx : lenN piv + lenN kid + lenN ctx + 2 < 2 ^ 32 ->
  get_oscore_opt_val_len (lenN piv) (lenN kid) (lenN ctx) = gen_len piv kid ctx.
Proof.
  intros H. unfold get_oscore_opt_val_len, u32. change (2 ^ 32) with 4294967296 in *.
  rewrite (N.mod_small (lenN piv + lenN kid + lenN ctx)) by lia.
  destruct (N.eqb_spec (lenN piv + lenN kid + lenN ctx) 0) as [E|E].
  - assert (piv = []) by (apply lenN_0; lia). assert (kid = []) by (apply lenN_0; lia).
    assert (ctx = []) by (apply lenN_0; lia). subst. reflexivity.
  - rewrite gen_len_pos by (intros (-> & -> & ->); apply E; reflexivity).
    destruct ctx as [|c ctx].
    + rewrite lenN_nil in *. change (0 =? 0) with true. cbn iota. rewrite N.mod_small by lia. lia.
    + rewrite lenN_cons in *. destruct (N.eqb_spec (1 + lenN ctx) 0); [lia|]. rewrite !N.mod_small by lia. lia.
Qed.

Lemma gen_flags (piv ctx : bytes) : lenN piv <= 5 ->
  N.lor (N.lor (u8 (lenN piv)) (if lenN ctx =? 0 then 0 else 16)) 8 =
  flag_bit (match ctx with [] => None | _ => Some ctx end) 16 + 8 + lenN piv.
Proof.
  intros H. assert (E : lenN piv = 0 \/ lenN piv = 1 \/ lenN piv = 2 \/ lenN piv = 3 \/ lenN piv = 4 \/ lenN piv = 5) by lia.
  destruct ctx as [|c ctx].
  - change (lenN (@nil N)) with 0. destruct E as [->|[->|[->|[->|[->| ->]]]]]; reflexivity.
  - rewrite lenN_cons. destruct (N.eqb_spec (1 + lenN ctx) 0); [lia|].
    destruct E as [->|[->|[->|[->|[->| ->]]]]]; reflexivity.
Qed.

Lemma check_ok a b : b <= a -> check_buffer_size a b = Ok tt.
Proof. intros H. unfold check_buffer_size. destruct (N.ltb_spec a b); [lia|reflexivity]. Qed.
Lemma check_err a b : a < b -> check_buffer_size a b = Err buffer_to_small.
Proof. intros H. unfold check_buffer_size. destruct (N.ltb_spec a b); [reflexivity|lia]. Qed.
Lemma sub32_exact a b : b <= a -> a < 2 ^ 32 -> sub32 a b = a - b.
Proof. unfold sub32. change (2 ^ 32) with 4294967296. lia. Qed.

Lemma gen_len_bytes piv kid ctx : ~ (piv = [] /\ kid = [] /\ ctx = []) ->
  lenN (rfc_oscore_bytes (gen_opt piv kid ctx)) = gen_len piv kid ctx.
Proof.
  intros H. rewrite gen_len_pos by assumption. unfold rfc_oscore_bytes, gen_opt; cbn [oo_piv oo_ctx oo_kid].
  rewrite lenN_cons, !lenN_app. destruct ctx; rewrite ?lenN_cons, ?lenN_nil; lia.
Qed.

Lemma generate_exact piv kid ctx : lenN piv <= 5 -> gen_len piv kid ctx < 256 ->
  oscore_option_generate piv kid ctx =
    if 23 <? gen_len piv kid ctx then Err buffer_to_small
    else if gen_len piv kid ctx =? 0 then Ok []
    else Ok (rfc_oscore_bytes (gen_opt piv kid ctx)).
Proof.
  intros Hp HL. unfold oscore_option_generate, OSCORE_OPT_VALUE_LEN.
  assert (B : lenN piv + lenN kid + lenN ctx + 2 < 2 ^ 32).
  { change (2 ^ 32) with 4294967296. destruct piv, kid, ctx; cbn [gen_len] in HL; rewrite ?lenN_nil, ?lenN_cons in *; lia. }
  rewrite get_len_gen by exact B. rewrite gen_flags by assumption.
  unfold u8. change (2 ^ 8) with 256. rewrite (N.mod_small (gen_len piv kid ctx)) by assumption.
  unfold check_buffer_size at 1. destruct (N.ltb_spec 23 (gen_len piv kid ctx)) as [|H23]; [reflexivity|]. cbn [bind].
  destruct (N.eqb_spec (gen_len piv kid ctx) 0) as [|H0]; [reflexivity|].
  assert (NE : ~ (piv = [] /\ kid = [] /\ ctx = [])) by (intros (-> & -> & ->); apply H0; reflexivity).
  pose proof (gen_len_pos _ _ _ NE) as GL.
  unfold rfc_oscore_bytes, gen_opt; cbn [oo_piv oo_ctx oo_kid flag_bit].
  set (fl := _ + 8 + lenN piv).
  assert (W1 : (if lenN piv =? 0 then Ok [fl] else
      let* _ := check_buffer_size (sub32 (gen_len piv kid ctx) 1) (lenN piv) in
      if 23 <? 1 + lenN piv then UB OobWrite else Ok ([fl] ++ piv)) = Ok (fl :: piv)).
  { destruct (N.eqb_spec (lenN piv) 0) as [E|E].
    - apply lenN_0 in E. subst. reflexivity.
    - rewrite sub32_exact, check_ok by (change (2 ^ 32) with 4294967296; lia). cbn [bind].
      destruct (N.ltb_spec 23 (1 + lenN piv)); [lia|reflexivity]. }
  rewrite W1. cbn [bind]. clear W1. rewrite lenN_cons.
  set (cp := match match ctx with [] => None | _ => Some ctx end with Some c => lenN c :: c | None => [] end).
  assert (CL : lenN cp = match ctx with [] => 0 | _ => 1 + lenN ctx end)
    by (unfold cp; destruct ctx; [reflexivity|rewrite lenN_cons; reflexivity]).
  assert (W2 : (if lenN ctx =? 0 then Ok (fl :: piv) else
      if 23 <? 1 + lenN piv + 1 then UB OobWrite else
      let* _ := check_buffer_size (sub32 (gen_len piv kid ctx) (1 + lenN piv + 1)) (lenN ctx) in
      if 23 <? 1 + lenN piv + 1 + lenN ctx then UB OobWrite
      else Ok ((fl :: piv) ++ [(lenN ctx) mod 256] ++ ctx)) = Ok ((fl :: piv) ++ cp)).
  { destruct ctx as [|c ctx]; [change cp with (@nil N); rewrite (app_nil_r (fl :: piv)); reflexivity|].
    destruct (N.eqb_spec (lenN (c :: ctx)) 0) as [E|E]; [rewrite lenN_cons in E; lia|].
    destruct (N.ltb_spec 23 (1 + lenN piv + 1)); [lia|].
    rewrite sub32_exact, check_ok by (change (2 ^ 32) with 4294967296; lia). cbn [bind].
    destruct (N.ltb_spec 23 (1 + lenN piv + 1 + lenN (c :: ctx))); [lia|].
    unfold cp. rewrite N.mod_small by lia. reflexivity. }
  rewrite W2. cbn [bind]. clear W2. rewrite lenN_app, lenN_cons.
  assert (W3 : (if lenN kid =? 0 then Ok ((fl :: piv) ++ cp) else
      let* _ := check_buffer_size (sub32 (gen_len piv kid ctx) (1 + lenN piv + lenN cp)) (lenN kid) in
      if 23 <? 1 + lenN piv + lenN cp + lenN kid then UB OobWrite else Ok (((fl :: piv) ++ cp) ++ kid))
      = Ok (((fl :: piv) ++ cp) ++ kid)).
  { destruct (N.eqb_spec (lenN kid) 0) as [E|E].
    - apply lenN_0 in E. subst. rewrite app_nil_r. reflexivity.
    - rewrite sub32_exact, check_ok by (change (2 ^ 32) with 4294967296; lia). cbn [bind].
      destruct (N.ltb_spec 23 (1 + lenN piv + lenN cp + lenN kid)); [lia|reflexivity]. }
  rewrite W3. cbn [bind]. clear W3. f_equal. rewrite takeN_all.
  - rewrite <- app_assoc. reflexivity.
  - rewrite !lenN_app, lenN_cons. lia.
Qed.
