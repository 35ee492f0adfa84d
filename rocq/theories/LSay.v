(** Proofs about output of characters and texts (C66). *)
From Coq Require Import ZArith List Bool Lia ZifyBool ZifyNat.
From Verif Require Import Base Stack Mem Parser State CoreM IoM Exec LBase LStack Spec Spec2 Spec4 Spec5 Spec6 Spec7 Spec9 Spec10 Spec11 Spec12 Spec14
  LState LMem LMon LMemWords LTask LCode LComp LRun LDict3 LDict5 LParse.
Import ListNotations.
Open Scope Z_scope.
Open Scope m_scope.
Ltac Zify.zify_post_hook ::= Z.div_mod_to_equations.

Section C.
Context {E : Env}.
Implicit Types (v w : vm).

Lemma out_push_printed s v : exists v', out_push s v = Ok (tt, v') /\ printed v s v'.
Proof. eexists. split; [reflexivity|]. reflexivity. Qed.

(** ** EMIT *)
Lemma latin1_char c : 0 <= c < 256 -> utf8_char (utf8_latin1 c) c.
Proof.
  intro H. unfold utf8_latin1. destruct (Z.ltb_spec c 128).
  - apply U1. lia.
  - replace (utf8_char _ c) with (utf8_char [192 + c / 64; 128 + c mod 64] ((192 + c / 64 - 192) * 64 + (128 + c mod 64 - 128))) by (f_equal; lia).
    apply U2; [lia|]. unfold tail_byte. lia.
Qed.
Lemma emit_prints fuel v c l : stack_has (t_s (cur v)) (c :: l) ->
  exists bs v1 v', utf8_char bs (c mod 256) /\ quiet fuel P_emit v v' /\ only_data_stack v v1 /\
    stack_has (t_s (cur v1)) l /\ printed v1 bs v'.
Proof.
  intro HS. destruct (pop_then v c l HS) as (s1 & EP & S1 & S2 & _).
  destruct (out_push_printed (utf8_latin1 (to_u8 c)) (set_s s1 v)) as (v' & E1 & P1).
  exists (utf8_latin1 (c mod 256)), (set_s s1 v), v'. split; [apply latin1_char; lia|].
  split; [intro ew; cbn [exec_prim]; unfold emit; rewrite EP; exact E1|].
  split; [apply only_data_set_s; exact S2|]. split; [rewrite cur_set_s; exact S1|exact P1].
Qed.
Lemma emit_ascii fuel v c l : stack_has (t_s (cur v)) (c :: l) -> 0 <= c < 128 ->
  exists v1 v', quiet fuel P_emit v v' /\ only_data_stack v v1 /\ stack_has (t_s (cur v1)) l /\ printed v1 [c] v'.
Proof.
  intros HS HC. destruct (emit_prints fuel v c l HS) as (bs & v1 & v' & U & Q & O & S & P). exists v1, v'. rewrite Z.mod_small in U by lia.
  replace [c] with bs; [auto|]. inversion U; subst; unfold tail_byte in *; try reflexivity; lia.
Qed.
Lemma emit_two fuel v c l : stack_has (t_s (cur v)) (c :: l) -> 128 <= c < 256 ->
  exists v1 v', quiet fuel P_emit v v' /\ only_data_stack v v1 /\ stack_has (t_s (cur v1)) l /\ printed v1 [192 + c / 64; 128 + c mod 64] v'.
Proof.
  intros HS HC. destruct (pop_then v c l HS) as (s1 & EP & S1 & S2 & _).
  exists (set_s s1 v). eexists. split; [intro ew; cbn [exec_prim]; unfold emit; rewrite EP; reflexivity|].
  split; [apply only_data_set_s; exact S2|]. split; [rewrite cur_set_s; exact S1|]. unfold printed.
  replace (utf8_latin1 (to_u8 c)) with [192 + c / 64; 128 + c mod 64]; [reflexivity|].
  unfold to_u8, utf8_latin1. replace (c mod 256) with c by lia. replace (c <? 128) with false by lia. reflexivity.
Qed.

(** ** TYPE *)
Definition say (s : bytes) v : vm := match v_out v with Some o => set_v_out (Some (o ++ s)) v | None => v end.
Lemma type_eq fuel ew v xa a n l s : stack_has (t_s (cur v)) (n :: xa :: l) -> addr_of xa a -> n = zlen s -> zlen s < 2 ^ 63 ->
  bytes_at (v_ds v) a s -> zlen l <= 128 -> sget (t_s (cur v)) 255 = canary (t_s (cur v)) ->
  exec_prim fuel ew P_p_type v = Ok (tt, say s (drop_s 2 v)).
Proof.
  intros HS HA -> HZ (B1 & (B2 & B3 & B4) & B5) HL HC. pose proof (pop2_items _ _ _ _ HS) as EP. set (s1 := drop_items 2 (t_s (cur v))) in *.
  cbn [exec_prim]. unfold p_type. rewrite (bind_Ok s_pop2 _ v (xa, zlen s) (set_s s1 v)) by (apply s_pop2_eq; exact EP). cbv beta iota. rewrite bind_gets.
  replace (s_underflow (set_s s1 v)) with false.
  2:{ symmetry. unfold s_underflow, underflow, s_stk. rewrite cur_set_s. cbn [t_s set_t_s]. unfold s1, drop_items.
      rewrite sget_set_len, canary_set_len, HC, Z.eqb_refl. cbn [negb orb]. rewrite len_set_len.
      pose proof (stack_has_len _ _ HS) as K4. rewrite !zlen_cons in K4. lia. }
  unfold when_out. rewrite bind_gets. change (v_out (set_s s1 v)) with (v_out v). unfold say. change (v_out (drop_s 2 v)) with (v_out v).
  destruct (v_out v) as [o|] eqn:EO; [|reflexivity].
  rewrite (addr_of_to_u64 _ _ HA). replace (to_u64 (zlen s)) with (zlen s) by (unfold to_u64; change (2 ^ 63) with 9223372036854775808 in *; unfold two64; lia).
  assert (HR : read_bytes (v_ds v) a (zlen s) = Ok s).
  { destruct s as [|x r]; [unfold read_bytes; cbn; replace (a =? 0) with false by lia; reflexivity|]. apply read_bytes_ok; [discriminate|lia|lia|exact B5]. }
  unfold ds_get, bind at 1. change (v_ds (set_s s1 v)) with (v_ds v). rewrite HR. cbn [rbind]. unfold out_push, modify. change (v_out (set_s s1 v)) with (v_out v). rewrite EO. reflexivity.
Qed.
Lemma type_prints fuel v xa a n l s : stack_has (t_s (cur v)) (n :: xa :: l) -> addr_of xa a -> n = zlen s -> zlen s < 2 ^ 63 ->
  bytes_at (v_ds v) a s -> zlen l <= 128 -> sget (t_s (cur v)) 255 = canary (t_s (cur v)) ->
  exists v1 v', quiet fuel P_p_type v v' /\ only_data_stack v v1 /\ stack_has (t_s (cur v1)) l /\ printed v1 s v'.
Proof.
  intros HS HA Hn HZ HB HL HC. exists (drop_s 2 v), (say s (drop_s 2 v)).
  split; [intro ew; eapply type_eq; eassumption|]. split; [|split; [unfold drop_s; rewrite cur_set_s; apply (drop_has _ [n; xa] l HS)|reflexivity]].
  apply only_data_set_s. split; [reflexivity|]. intros i _ _ _. reflexivity.
Qed.

(** ** Text up to the next double quote *)
Lemma char_no_quote bs c : utf8_char bs c -> c <> 34 -> Forall (fun x => x <> 34) bs.
Proof. intros H N. destruct H; repeat (constructor; unfold tail_byte in *; [lia|]); constructor. Qed.
Lemma until_quote_app p s : Forall (fun x => x <> 34) p -> until_quote (p ++ s) = p ++ until_quote s.
Proof. induction 1 as [|x p Hx _ IH]; [reflexivity|]. cbn [app until_quote]. replace (x =? 34) with false by lia. rewrite IH. reflexivity. Qed.
Lemma text_no_quote s cs : utf8_text s cs -> ~ In 34 cs -> Forall (fun x => x <> 34) s.
Proof.
  induction 1 as [|bs c s cs Hc _ IH]; intro N; [constructor|]. apply Forall_app. split.
  - eapply char_no_quote; [exact Hc|]. intros ->. apply N. left. reflexivity.
  - apply IH. intro K. apply N. right. exact K.
Qed.
Lemma quote_char bs : utf8_char bs 34 -> bs = [34].
Proof. intro H. inversion H; subst; unfold tail_byte in *; try reflexivity; lia. Qed.
Lemma until_quote_upto s t r : text_upto 34 s t r -> until_quote s = t.
Proof.
  intros [s0 cs HU HN|t0 ct db r0 cr HU HN Hd Hr].
  - rewrite <- (app_nil_r s0) at 1. rewrite until_quote_app by (eapply text_no_quote; eassumption). cbn. apply app_nil_r.
  - apply quote_char in Hd. subst db. rewrite until_quote_app by (eapply text_no_quote; eassumption). cbn. apply app_nil_r.
Qed.

(** ** s-quote and dot-quote *)
Section V0.
Variable v0 : vm.
Let S0 := start (v_ds v0).
Let L0 := limit (v_ds v0).
Hypothesis HR : compiler_ready v0.
Notation h := (here (v_ds v0)).

Lemma str_ok v open s : J v0 v open -> here (v_ds v) + 8 + zlen s <= L0 ->
  exists v', ds_upd (fun d => rbind (compile_str d s) (fun p => Ok (snd p))) v = Ok (tt, v') /\ J v0 v' open /\
    here (v_ds v') = here (v_ds v) + 8 + zlen s /\ code_cell T v' (here (v_ds v)) (zlen s) /\ code_text T v' (here (v_ds v) + 8) s /\
    kept (upto S0 (here (v_ds v))) v v' /\ st_idx (st v') = st_idx (st v) /\ v_tkn v' = v_tkn v.
Proof.
  intros HJ HB. pose proof HJ as (H1 & H2 & H3 & H4 & H5 & H6 & H7). pose proof (J_range _ _ _ HJ). pose proof (zlen_nonneg s).
  unfold S0, L0 in *.
  destruct (compile_str_ok (v_ds v) s H1 ltac:(lia)) as (d' & E1 & (M1 & M2 & M3) & Hh & I1 & I2 & C & Bs).
  exists (set_v_ds d' v). split; [apply ds_upd_eq; rewrite E1; reflexivity|]. split.
  - unfold J. cbn [v_ds set_v_ds]. rewrite cur_set_v_ds. split.
    + destruct H1 as (? & ? & ?). unfold ds_ok. rewrite M1, M2, Hh. lia.
    + split; [congruence|]. split; [congruence|]. split; [eapply sbc_trans; [exact H4|apply sbc_set_ds]|]. auto.
  - split; [exact Hh|]. split; [|split; [|split]].
    + split; [cbn; lia|]. split; [cbn; lia|]. split; [exact C|]. unfold T. auto.
    + split; [cbn; lia|]. split; [cbn; lia|]. intros k x Hk. split; [apply Bs; exact Hk|exact I].
    + apply kept_of; try reflexivity; try assumption. intros a Ha. red in Ha. apply M3; lia.
    + split; reflexivity.
Qed.
Lemma J_set_idx v open n : J v0 v open -> J v0 (set_idx n v) open.
Proof.
  intros (H1 & H2 & H3 & H4 & H5 & H6 & H7). unfold J. rewrite cur_set_idx. cbn [v_ds set_idx].
  repeat (split; [assumption|]). split; [|auto]. eapply sbc_trans; [exact H4|].
  unfold same_but_code, st. rewrite cur_set_idx.
  repeat match goal with |- _ /\ _ => split end; try reflexivity. apply same_other_upd.
Qed.
Ltac rng := unfold upto, but, T in *; intros; lia.
Lemma c_str open s t c r cs fuel : J v0 v0 open -> rest_of_input v0 (c :: s) -> utf8_text s cs -> text_upto 34 s t r ->
  w_cs (word_of v0 (idx_s_quote (v_refs v0))) <> CS_compile_leave ->
  round8 (h + 16 + zlen t) <= L0 ->
  exists v', quiet fuel P_s_quote v0 v' /\ done v0 open (Str t) v' /\
    st_idx (st v') = st_idx (st v0) + zlen t + 2 /\ v_tkn v' = v_tkn v0.
Proof.
  intros HJ (buf & pre & HI & EB & EI & HL) HU HT Hcs HF. unfold S0, L0 in *. pose proof (J_range _ _ _ HJ) as G. pose proof (zlen_nonneg t). pose proof (zlen_nonneg pre).
  assert (round8 (h + 16 + zlen t) = align8 (h + 16 + zlen t)) as EQ by reflexivity. pose proof (align8_range (h + 16 + zlen t)) as G1.
  assert (EL : zlen t <= zlen s).
  { destruct HT; [lia|]. unfold zlen. rewrite !app_length. lia. }
  assert (HZ : zlen buf = zlen pre + 1 + zlen s) by (rewrite EB; unfold zlen; rewrite app_length; cbn [length]; lia).
  destruct (emit_ok v0 v0 open (idx_s_quote (v_refs v0)) HJ ltac:(lia)) as (v1 & E1 & J1 & H1 & C1 & K1).
  assert (TI : st_idx (st v1) = st_idx (st v0) /\ v_tkn v1 = v_tkn v0).
  { unfold ds_upd in E1. destruct (compile_cell (v_ds v0) (idx_s_quote (v_refs v0))); try discriminate. injection E1 as <-. split; reflexivity. }
  destruct (str_ok v1 open t J1 ltac:(rewrite H1; lia)) as (v2 & E2 & J2 & H2 & C2 & T2 & K2 & X2 & Y2). rewrite H1 in *.
  destruct (align_ok v0 (fun _ => panic PIndex) v2 open J2 ltac:(rewrite H2; replace (h + 8 + 8 + zlen t) with (h + 16 + zlen t) by lia; exact HF)) as (v3 & E3 & J3 & H3 & K3). rewrite H2 in *. replace (h + 8 + 8 + zlen t) with (h + 16 + zlen t) in H3 by lia.
  assert (X3 : st_idx (st v3) = st_idx (st v2) /\ v_tkn v3 = v_tkn v2).
  { unfold ds_upd in E3. destruct (ds_align chk (v_ds v2)); try discriminate. injection E3 as <-. split; reflexivity. }
  destruct TI as (T1 & T1'). destruct X3 as (X3 & X3').
  set (n := st_idx (st v0) + zlen t + 2).
  exists (set_idx n v3).
  assert (KI : kept T v3 (set_idx n v3)) by (apply kept_eq; reflexivity).
  assert (WS : word_is v0 (idx_s_quote (v_refs v0)) P_p_s_quote) by (apply HR; unfold compiler_words; cbn [In]; tauto).
  change (2 ^ 63) with 9223372036854775808 in HL.
  split; [|split; [|split]].
  - intro ew. cbn [exec_prim]. unfold s_quote.
    rewrite (bind_Ok expect_inbuf _ v0 buf v0) by (unfold expect_inbuf; rewrite (bind_Ok get_inbuf _ v0 (Some buf) v0) by (apply get_inbuf_ok; exact HI); reflexivity).
    rewrite bind_gets. rewrite (bind_Ok (chk_u64 _) _ _ (st_idx (st v0) + 1) v0) by (apply chk_u64_ok; unfold two64; lia).
    rewrite (bind_Ok (slice_or_panic buf _) _ _ s v0).
    2:{ unfold slice_or_panic. rewrite EI, EB. replace (pre ++ c :: s) with ((pre ++ [c]) ++ s) by (rewrite <- app_assoc; reflexivity).
        replace (zlen pre + 1) with (zlen (pre ++ [c])) by (unfold zlen; rewrite app_length; cbn [length]; lia).
        rewrite (slice_ok (pre ++ [c]) s cs HU). reflexivity. }
    cbv zeta. rewrite (until_quote_upto _ _ _ HT). unfold refs_get. rewrite bind_gets.
    rewrite (bind_Ok (word_at _) _ _ _ v0) by (apply word_at_eq; apply WS).
    rewrite (bind_Ok (run_cs _ _ _) _ v0 tt v1).
    2:{ unfold word_of in Hcs. destruct (w_cs _); try exact E1; congruence. }
    rewrite (bind_Ok _ _ _ _ _ E2), (bind_Ok _ _ _ _ _ E3), bind_gets. rewrite X3, X2, T1.
    rewrite (bind_Ok (chk_u64 _) _ _ n v3).
    + reflexivity.
    + replace n with (st_idx (st v0) + 1 + zlen t + 1) by (unfold n; lia). apply chk_u64_ok. unfold two64. lia.
  - split; [apply J_set_idx; exact J3|]. split; [exact H3|]. split.
    + change (here (v_ds (set_idx n v3))) with (here (v_ds v3)). rewrite H3. cbn [laid].
      pose proof (J_set_idx _ _ n J3) as J4.
      assert (K23 : kept T v2 (set_idx n v3)) by (eapply kept_comp; [exact K3|exact KI|rng|rng]).
      split; [|split; [|split]].
      * eapply (ready_word v0 HR _ _ _ _ P_p_s_quote _ J4); [unfold compiler_words; cbn [In]; tauto| |].
        -- eapply (cell_move T); [|exact K23|rng]. eapply cell_move; [exact C1|exact K2|unfold S0; rng].
        -- intros k Hk. unfold upto. lia.
      * eapply cell_mono; [eapply (cell_move T); [exact C2|exact K23|rng]|]. intros k Hk. unfold upto. lia.
      * pose proof (kept_text _ _ _ _ _ K23 T2) as T4. replace (h + 8 + 8) with (h + 16) in T4 by lia.
        destruct T4 as (Q1 & Q2 & Q3). split; [exact Q1|]. split; [exact Q2|]. intros k x Hk. destruct (Q3 k x Hk) as (Q4 & _). split; [exact Q4|].
        assert (k < length t)%nat by (apply nth_error_Some; congruence). unfold upto, zlen in *. lia.
      * change (v_ds (set_idx n v3)) with (v_ds v3). destruct J3 as (_ & _ & -> & _). exact HF.
    + apply (kept_comp _ (upto (start (v_ds v0)) h) (upto (start (v_ds v0)) h) _ v1); [exact K1| |auto|auto].
      apply (kept_comp _ (upto S0 (h + 8)) T _ v2); [exact K2| |unfold S0; rng|rng].
      apply (kept_comp _ T T _ v3); [exact K3|exact KI|auto|auto].
  - unfold st. rewrite cur_set_idx. reflexivity.
  - change (v_tkn (set_idx n v3)) with (v_tkn v3). congruence.
Qed.
End V0.

Lemma s_quote_compiles fuel v c s cs t r l n : rest_of_input v (c :: s) -> utf8_text s cs -> text_upto 34 s t r ->
  can_compile l n v -> 0 <= n -> w_cs (word_of v (idx_s_quote (v_refs v))) <> CS_compile_leave ->
  fin (Str t) (here (v_ds v)) <= limit (v_ds v) ->
  exists v', quiet fuel P_s_quote v v' /\ compiled (Str t) v v' /\
    st_idx (st v') = st_idx (st v) + zlen t + 2 /\ v_tkn v' = v_tkn v.
Proof.
  intros HI HU HT HC Hn Hcs HF. destruct (can_J _ _ _ HC) as (open & HJ & _ & _ & HR).
  destruct (c_str v HR open s t c r cs fuel HJ HI HU HT Hcs HF) as (v' & E1 & D & X & Y).
  exists v'. split; [exact E1|]. split; [eapply done_compiled; eassumption|]. auto.
Qed.

Lemma dot_quote_compiles fuel v c s cs t r l n : rest_of_input v (c :: s) -> utf8_text s cs -> text_upto 34 s t r ->
  can_compile l n v -> 0 <= n -> w_cs (word_of v (idx_s_quote (v_refs v))) <> CS_compile_leave ->
  0 <= idx_type (v_refs v) < words v ->
  let p := Seq (Str t) (Op (idx_type (v_refs v))) in
  fin p (here (v_ds v)) <= limit (v_ds v) ->
  exists v', quiet fuel P_dot_quote v v' /\ compiled p v v' /\
    st_idx (st v') = st_idx (st v) + zlen t + 2 /\ v_tkn v' = v_tkn v.
Proof.
  intros HI HU HT HC Hn Hcs HW p HF. destruct (can_J _ _ _ HC) as (open & HJ & _ & _ & HR). cbn [fin p] in HF.
  destruct (c_str v HR open s t c r cs fuel HJ HI HU HT Hcs ltac:(lia)) as (v1 & E1 & (J1 & H1 & L1 & K1) & X & Y).
  destruct (emit_ok v v1 open (idx_type (v_refs v)) J1) as (v2 & E2 & J2 & H2 & C2 & K2).
  { rewrite H1. cbn [fin]. exact HF. }
  assert (XY : st_idx (st v2) = st_idx (st v1) /\ v_tkn v2 = v_tkn v1).
  { unfold ds_upd in E2. destruct (compile_cell (v_ds v1) (idx_type (v_refs v))); try discriminate. injection E2 as <-. split; reflexivity. }
  pose proof (J_range _ _ _ HJ) as G. pose proof (align8_range (here (v_ds v) + 16 + zlen t)) as G1. pose proof (zlen_nonneg t).
  change (align8 (here (v_ds v) + 16 + zlen t)) with (round8 (here (v_ds v) + 16 + zlen t)) in G1.
  exists v2. split; [|split; [|destruct XY; split; congruence]].
  - intro ew. specialize (E1 ew). cbn [exec_prim] in E1 |- *. unfold dot_quote. rewrite (bind_Ok _ _ _ _ _ E1). unfold refs_get. rewrite bind_gets.
    rewrite (J_refs _ _ _ J1). exact E2.
  - eapply done_compiled; [exact HJ|]. split; [exact J2|]. cbn [p fin laid]. cbn [fin] in H1. split; [rewrite H2, H1; reflexivity|].
    change (laid (upto (here (v_ds v)) (here (v_ds v1))) v1 (Str t) (here (v_ds v))) in L1.
    destruct HR as [R1 _]. unfold words in HW.
    split; [split; [|split]|].
    + change (laid (upto (here (v_ds v)) (here (v_ds v2))) v2 (Str t) (here (v_ds v))). pose proof (laid_move _ _ _ _ _ _ L1 K2) as L2. eapply laid_mono; [|apply L2].
      * intros i. unfold upto. rewrite H2. lia.
      * intros i. unfold upto. rewrite H1. lia.
    + rewrite <- H1. eapply cell_mono; [exact C2|]. intros k Hk. unfold upto. rewrite H2. split; [rewrite H1; lia|lia].
    + lia.
    + eapply kept_comp; [exact K1|exact K2|intros i Hi; exact Hi|]. intros i. unfold upto. rewrite H1. lia.
Qed.

(** Running what dot-quote has compiled *)
Lemma dot_quote_runs (K : Z -> Prop) v a t i l : holds K v (Seq (Str t) (Op i)) a -> word_is v i P_p_type ->
  stack_has (t_s (cur v)) l -> zlen l <= 128 -> sget (t_s (cur v)) 255 = canary (t_s (cur v)) ->
  exists v1 v', goes v a v' (fin (Seq (Str t) (Op i)) a) /\ stack_has (t_s (cur v1)) l /\ printed v1 t v' /\
    v1 = set_s (t_s (cur v1)) v.
Proof.
  intros (HA & Ha & L1 & L2 & L3) HW HS HL HC. pose proof (zlen_nonneg l) as Hl. pose proof (zlen_nonneg t) as Ht.
  assert (HN : len (t_s (cur v)) = zlen l) by (apply stack_has_len; exact HS).
  destruct (str_run K t v a) as (G1 & KK).
  { split; [exact HA|]. split; [exact Ha|exact L1]. }
  { lia. }
  assert (P1 : stack_has (t_s (cur (add_s (a + 16) v))) (a + 16 :: l)).
  { unfold add_s. rewrite cur_set_s. cbn [t_s set_t_s]. rewrite <- add_item_push by lia. apply push_has; [exact HS|lia]. }
  assert (N1 : len (t_s (cur (add_s (a + 16) v))) = zlen l + 1) by (rewrite (stack_has_len _ _ P1), zlen_cons; lia).
  assert (P2 : stack_has (t_s (cur (add_s (zlen t) (add_s (a + 16) v)))) (zlen t :: a + 16 :: l)).
  { unfold add_s at 1. rewrite cur_set_s. cbn [t_s set_t_s]. rewrite <- add_item_push by lia. apply push_has; [exact P1|rewrite zlen_cons; lia]. }
  set (u := add_s (zlen t) (add_s (a + 16) v)) in *.
  exists (drop_s 2 u), (say t (drop_s 2 u)).
  destruct L1 as (_ & C1 & T1 & R1). cbn [fin] in *.
  assert (CW : code_word K u (round8 (a + 16 + zlen t)) P_p_type).
  { exists i. split; [exact L2|]. split; [exact HW|lia]. }
  destruct HA as (HA1 & HA2). change (2 ^ 63) with 9223372036854775808 in *.
  split; [|split; [|split]].
  - eapply goes_trans; [exact G1|]. eapply goes_word; [split; [exact HA1|exact HA2]|exact CW|]. intros ew f j.
    rewrite (type_eq f ew (at_ j (round8 (a + 16 + zlen t) + 8) u) (a + 16) (a + 16) (zlen t) l t).
    + rewrite drop_at. unfold say. change (v_out (at_ j (round8 (a + 16 + zlen t) + 8) (drop_s 2 u))) with (v_out (drop_s 2 u)).
      destruct (v_out (drop_s 2 u)); reflexivity.
    + rewrite s_at. exact P2.
    + apply addr_of_id. destruct T1 as (T1 & T2 & _). change (2 ^ 64) with 18446744073709551616. lia.
    + reflexivity.
    + destruct T1 as (T1 & T2 & _). change (2 ^ 63) with 9223372036854775808. lia.
    + destruct T1 as (T1 & T2 & T3). split; [lia|]. split; [split; [exact T1|split; [lia|exact T2]]|]. intros k x Hk. apply (proj1 (T3 k x Hk)).
    + exact HL.
    + rewrite s_at. unfold u, add_s. rewrite !cur_set_s. cbn [t_s set_t_s]. unfold add_item. rewrite !sget_set_len, !canary_set_len, !canary_sset, !len_set_len.
      rewrite !sget_sset_other by lia. rewrite !sget_set_len, !sget_sset_other by lia. exact HC.
  - unfold drop_s. rewrite cur_set_s. cbn [t_s set_t_s]. apply (drop_has _ [zlen t; a + 16] l P2).
  - reflexivity.
  - assert (EU : u = set_s (add_item (add_item (t_s (cur v)) (a + 16)) (zlen t)) v).
    { unfold u, add_s. rewrite cur_set_s, set_s_set_s. reflexivity. }
    rewrite EU. unfold drop_s. rewrite set_s_set_s, !cur_set_s. reflexivity.
Qed.

(** ** .( *)
Lemma dot_paren_prints fuel v s cs l : rest_of_input v s -> utf8_text s cs -> v_tkn v <> None -> stack_has (t_s (cur v)) l -> zlen l < 255 ->
  exists t r v1 v2 v', text_upto 41 s t r /\ quiet fuel P_dot_paren v v' /\ only_data_stack1 v v1 /\ stack_has (t_s (cur v1)) l /\
    token_read v1 t (st_idx (st v) + (zlen s - zlen r)) v2 /\ printed v2 t v' /\ rest_of_input v' r.
Proof.
  intros HI HU HT HS HL. destruct (parse_after_push v s cs 41 l HI HU HT HS HL) as (t & r & v1 & v2 & A1 & A2 & A3 & A4 & A5 & A6).
  exists t, r, v1, v2. assert (TK : v_tkn v2 = Some t) by (destruct A5 as [->|(_ & ->)]; reflexivity).
  eexists. split; [exact A1|]. split; [|split; [exact A2|split; [exact A3|split; [exact A5|split; [reflexivity|]]]]].
  - intro ew. cbn [exec_prim]. unfold dot_paren. rewrite <- (bind_bind (s_push 41)). rewrite (bind_Ok _ _ _ _ _ A4).
    rewrite (bind_Ok take_token _ _ t (set_v_tkn None v2)) by (unfold take_token; rewrite TK; reflexivity).
    unfold out_push, modify, set_token, bind. change (v_out (set_v_tkn None v2)) with (v_out v2). 
    destruct v2 as [a1 a2 a3 a4 a5 a6 a7 a8 a9]. cbn in *. subst. destruct a8; reflexivity.
  - destruct A6 as (buf & pre & B). exists buf, pre. destruct (v_out v2); exact B.
Qed.
End C.
