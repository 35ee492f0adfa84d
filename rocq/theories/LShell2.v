(** The terminal program: a turn of the prompt (C88). *)
From Coq Require Import ZArith List Bool Lia String ZifyBool ZifyNat.
From Verif Require Import Base Stack Mem Parser State CoreM IoM FileM Exec LBase LStack Spec Spec2 Spec4 Spec5 Spec6 Spec7 Spec9 Spec10 Spec11 Spec12 Spec14 Spec15 Spec16 Spec17 Spec19 Spec24 Spec25
  LState LMem LMon LMemWords LTask LFuel LCode LComp LRun LCtl LFloat LWords LSay LLib LLibWords LDefine LDefine2 LNoInput LSource LEval LNest Spec27 LShell.
Import ListNotations.
Open Scope list_scope.
Open Scope Z_scope.
Open Scope m_scope.

Section L.
Context {E : Env}.
Variable K : Z -> Prop.
Implicit Types (v w u : vm).
Ltac aeq := rewrite ?at_upd; gnorm; apply upd_ext; cbn;
  match goal with |- context [cur ?v] => destruct (cur v) as [? [? ? ? ? ? ?] ? ? ? ? ? ? ? ?] end; reflexivity.

Lemma put_at s j c v : put s (at_ j c v) = at_ j c (put s v).
Proof. unfold put. change (v_out (at_ j c v)) with (v_out v). destruct (v_out v); reflexivity. Qed.
Lemma kept_put s v : kept K v (put s v).
Proof. unfold put. destruct (v_out v); apply kept_eq; reflexivity. Qed.
Lemma ds_put s v : v_ds (put s v) = v_ds v. Proof. unfold put. destruct (v_out v); reflexivity. Qed.
Lemma wl_put s v : v_wl (put s v) = v_wl v. Proof. unfold put. destruct (v_out v); reflexivity. Qed.
Lemma ds_spoken a s v : v_ds (spoken a s v) = v_ds v. Proof. unfold spoken. rewrite ds_put. reflexivity. Qed.
Lemma wl_spoken a s v : v_wl (spoken a s v) = v_wl v. Proof. unfold spoken. rewrite wl_put. reflexivity. Qed.
Lemma add_drop x k v : k = 1 -> drop_s k (add_s x v) = shown x v. Proof. intros ->. reflexivity. Qed.

(** ** Printing a text *)
Lemma says_gen n v d s a : word_is v (ix n P_p_type) P_p_type -> stack_has (t_s (cur v)) d -> zlen d <= 62 ->
  sget (t_s (cur v)) 255 = canary (t_s (cur v)) -> zlen s < 2 ^ 63 -> xa K a (says n s) v (spoken (a + 16) s v).
Proof.
  intros W HD LD SL LS HH. pose proof (stack_has_len _ _ HD) as L1. pose proof (zlen_nonneg d) as L0.
  pose proof HH as HH0. cbn [says block] in HH. destruct (holds_seq _ _ _ _ _ HH) as [H1 H2].
  eapply (part_trans K _ _ (add_s (zlen s) (add_s (a + 16) v))); [apply str_run; [exact H1|lia]|].
  assert (KK : kept K v (add_s (zlen s) (add_s (a + 16) v))) by (apply kept_eq; reflexivity).
  pose proof (holds_kept K _ _ _ _ KK H2) as H3. change (fin (says n s) a) with (fin (Op (ix n P_p_type)) (fin (Str s) a)). revert H3. generalize (fin (Str s) a). intros c H3.
  destruct H1 as (HA & Ha & _ & _ & (T1 & T2 & T3) & _). destruct HA as [A1 A2].
  assert (AD : addr_of (a + 16) (a + 16)) by (unfold addr_of; pose proof (zlen_nonneg s); split; [lia|exists 0; lia]).
  assert (BS : bytes_at (v_ds v) (a + 16) s).
  { split; [lia|]. split; [|intros k x Hk; apply (T3 k x Hk)]. pose proof (zlen_nonneg s). unfold in_space. lia. }
  revert c H3. change (xp K (Op (ix n P_p_type)) (add_s (zlen s) (add_s (a + 16) v)) (spoken (a + 16) s v)).
  eapply (xp_prim K 0); [exact W|apply kept_eq; [rewrite ds_spoken|rewrite wl_spoken]; reflexivity|].
  intros ew j c. rewrite (type_eq 0 ew _ (a + 16) (a + 16) (zlen s) d s).
  - change (say s) with (put s). unfold spoken. rewrite <- put_at. do 2 f_equal. unfold drop_s. rewrite s_at, set_s_at. reflexivity.
  - rewrite s_at. apply has_push; [apply has_push; [exact HD|lia]|rewrite zlen_cons; lia].
  - exact AD.
  - reflexivity.
  - exact LS.
  - exact BS.
  - lia.
  - rewrite s_at. pose proof (len_add_s (a + 16) v) as LA. rewrite sget_add_s, sget_add_s; try lia. rewrite SL. unfold add_s. rewrite !cur_set_s. reflexivity.
Qed.
Lemma says_part n v s a : word_is v (ix n P_p_type) P_p_type -> steady v -> zlen s < 2 ^ 63 ->
  xa K a (says n s) v (spoken (a + 16) s v).
Proof.
  intros W (A & (d & HD & LD) & _) LS. apply check_iff in A. exact (says_gen n v d s a W HD LD (sound_slot _ A) LS).
Qed.

(** ** Receiving *)
Definition receives o s v : vm := upd_cur (set_t_inbuf (Some s)) (set_idx 0 (set_v_os o v)).
Lemma receive_line o s v : os_receive (v_os v) = (o, Line s) -> t_inbuf (cur v) <> None -> st_sid (st v) = 0 ->
  forall f ew j c, exec_prim f ew P_receive (at_ j c v) = Ok (tt, at_ j c (receives o s v)).
Proof.
  intros HO HB HS f ew j c. cbn [exec_prim]. unfold receive, os_call, bind at 1. change (v_os (at_ j c v)) with (v_os v). rewrite HO.
  unfold set_source, bind, expect_inbuf, get_inbuf, bind, modify, put_inbuf. change (st (set_v_os o (at_ j c v))) with (st (at_ j c v)).
  change (cur (set_v_os o (at_ j c v))) with (cur (at_ j c v)).
  assert (S1 : st_sid (st (at_ j c v)) = 0) by (rewrite st_at; exact HS). rewrite S1. cbn [Z.ltb Z.compare].
  rewrite cur_at. cbn [t_inbuf set_t_state]. destruct (t_inbuf (cur v)); [|congruence]. cbn [ret].
  assert (S2 : st_sid (st (set_idx 0 (set_v_os o (at_ j c v)))) = 0).
  { unfold st. rewrite cur_set_idx. exact S1. }
  rewrite S2. cbn [Z.ltb Z.compare]. do 2 f_equal. unfold receives.
  change (set_v_os o (at_ j c v)) with (at_ j c (set_v_os o v)). rewrite idx_at_. generalize (set_idx 0 (set_v_os o v)). intro u. aeq.
Qed.
Lemma cur_receives o s v : cur (receives o s v) = set_t_inbuf (Some s) (set_t_state (set_st_idx 0 (t_state (cur v))) (cur v)).
Proof. unfold receives. rewrite cur_upd, cur_set_idx. reflexivity. Qed.
Lemma steady_receives o s v : steady v -> steady (receives o s v).
Proof.
  intros (A & B & C & D). apply check_iff in A. unfold steady_on. rewrite check_iff. unfold sound, st in *.
  unfold s_overflow, s_underflow, r_overflow, r_underflow, c_overflow, c_underflow, f_overflow, f_underflow, s_stk, r_stk, c_stk, f_stk in *.
  rewrite cur_receives. split; [exact A|]. split; [exact B|]. split; [discriminate|exact D].
Qed.

Lemma receive_taken o r v : os_receive (v_os v) = (o, r) -> r <> Eof -> t_inbuf (cur v) <> None -> st_sid (st v) = 0 ->
  forall f ew j c, exec_prim f ew P_receive (at_ j c v) = Ok (tt, at_ j c (taken o r v)).
Proof.
  intros HO HN HB HS f ew j c. destruct r as [s| |]; [apply receive_line; assumption|congruence|].
  cbn [exec_prim]. unfold receive, os_call, bind at 1. change (v_os (at_ j c v)) with (v_os v). rewrite HO.
  change (set_v_os o (at_ j c v)) with (at_ j c (set_v_os o v)). cbn [taken]. rewrite <- put_at. generalize (at_ j c (set_v_os o v)). intro u.
  unfold out_push, put, bind, gets, modify. destruct (v_out u); reflexivity.
Qed.
Lemma steady_taken o r v : steady v -> steady (taken o r v).
Proof.
  destruct r as [s| |]; [apply steady_receives|intro H; apply (steady_same v); [exact H|reflexivity]|].
  intro H. apply (steady_same v); [exact H|]. cbn [taken]. rewrite cur_put. reflexivity.
Qed.
Lemma r_taken o r v : t_r (cur (taken o r v)) = t_r (cur v).
Proof. destruct r as [s| |]; cbn [taken]; [fold (receives o s v); rewrite cur_receives; reflexivity|reflexivity|rewrite cur_put; reflexivity]. Qed.
Lemma intact_taken n o r v : intact K n v (taken o r v).
Proof. destruct r as [s| |]; cbn [taken]; apply intact_eq; rewrite ?ds_put, ?wl_put; reflexivity. Qed.

(** ** The end of a turn *)
Lemma steady_put s v : steady v -> steady (put s v).
Proof. intro H. apply (steady_same v); [exact H|apply cur_put]. Qed.
Lemma flushed_same v : v_ds (flushed v) = v_ds v /\ v_wl (flushed v) = v_wl v /\ cur (flushed v) = cur v.
Proof. unfold flushed. destruct (v_out v) as [[|? ?]|]; repeat split. Qed.
Lemma flush_at v f ew j c : exec_prim f ew P_flush_output (at_ j c v) = Ok (tt, at_ j c (flushed v)).
Proof.
  cbn [exec_prim]. unfold flush_output, modify, flushed. change (v_out (at_ j c v)) with (v_out v). destruct (v_out v) as [[|? ?]|]; reflexivity.
Qed.
Lemma pop_shown x v : 0 <= len (t_s (cur v)) < 255 -> pop (t_s (cur (add_s x v))) = (x, t_s (cur (shown x v))).
Proof.
  clear K. intro HL. unfold shown, drop_s, add_s. rewrite !cur_set_s. cbn [t_s set_t_s]. rewrite pop_add by exact HL. f_equal.
  unfold drop_items. f_equal. cbn. lia.
Qed.
Lemma set_shown x v : set_s (t_s (cur (shown x v))) (add_s x v) = shown x v.
Proof. unfold shown, drop_s. rewrite cur_set_s. reflexivity. Qed.
Lemma emit_at x v f ew j c : 0 <= len (t_s (cur v)) < 255 -> 0 <= x < 128 ->
  exec_prim f ew P_emit (at_ j c (add_s x v)) = Ok (tt, at_ j c (put [x] (shown x v))).
Proof.
  clear K. intros HL HX. cbn [exec_prim]. unfold emit, s_pop, bind, s_stk. rewrite s_at, pop_shown by exact HL.
  unfold out_push, modify. rewrite set_s_at, set_shown, <- put_at. unfold utf8_latin1, to_u8. rewrite Z.mod_small by lia. replace (x <? 128) with true by lia. reflexivity.
Qed.


(** ** Facts about the intermediate states *)
Lemma intact_add_r n v u r : intact K n v u -> intact K n v (add_r r u).
Proof. intro H. eapply intact_trans; [exact H|apply intact_eq; reflexivity]. Qed.
Lemma intact_drop_r n v u r : intact K n v u -> intact K n v (drop_r r u).
Proof. intro H. eapply intact_trans; [exact H|apply intact_eq; reflexivity]. Qed.
Lemma intact_shown n v u x : intact K n v u -> intact K n v (shown x u).
Proof. intro H. eapply intact_trans; [exact H|apply intact_eq; reflexivity]. Qed.
Lemma intact_put n v u x : intact K n v u -> intact K n v (put x u).
Proof. intro H. eapply intact_trans; [exact H|apply intact_eq; [apply ds_put|apply wl_put]]. Qed.
Lemma intact_spoken n v u a x : intact K n v u -> intact K n v (spoken a x u).
Proof. intro H. eapply intact_trans; [exact H|apply intact_eq; [apply ds_spoken|apply wl_spoken]]. Qed.
Lemma intact_flushed n v u : intact K n v u -> intact K n v (flushed u).
Proof. intro H. eapply intact_trans; [exact H|]. destruct (flushed_same u) as (A & B & _). apply intact_eq; assumption. Qed.
Lemma r_shown x v : t_r (cur (shown x v)) = t_r (cur v).
Proof. unfold shown, drop_s, add_s. rewrite !cur_set_s. reflexivity. Qed.
Lemma r_spoken a x v : t_r (cur (spoken a x v)) = t_r (cur v).
Proof. unfold spoken. rewrite cur_put. unfold drop_s, add_s. rewrite !cur_set_s. reflexivity. Qed.
Lemma has_add_r r v rs : stack_has (t_r (cur v)) rs -> zlen rs < 255 -> stack_has (t_r (cur (add_r r v))) (r :: rs).
Proof.
  clear K. intros H L. pose proof (stack_has_len _ _ H). pose proof (zlen_nonneg rs). unfold add_r. rewrite cur_set_r. cbn [t_r set_t_r].
  rewrite <- add_item_push by lia. apply push_has; assumption.
Qed.
Lemma steady_drop_r v : steady v -> len (t_r (cur v)) = 1 -> steady (drop_r 1 v).
Proof.
  clear K. intros (A & B & C & D) LR1. apply check_iff in A. unfold drop_r, steady_on. rewrite check_iff. unfold sound, st in *.
  unfold s_overflow, s_underflow, r_overflow, r_underflow, c_overflow, c_underflow, f_overflow, f_underflow, s_stk, r_stk, c_stk, f_stk in *.
  rewrite cur_set_r. cbn [t_s t_r t_c t_f t_inbuf t_state set_t_r]. split; [|exact (conj B (conj C D))]. destruct A as (A1 & A2 & A3 & A4 & A5). repeat (split; try assumption); try apply A5.
  - unfold overflow, drop_items in *. rewrite sget_set_len, canary_set_len, len_set_len. apply orb_false_elim in A3. rewrite (proj1 A3). cbn [orb]. lia.
  - unfold underflow, drop_items in *. rewrite sget_set_len, canary_set_len, len_set_len. apply orb_false_elim in A4. rewrite (proj1 A4). cbn [orb]. lia.
Qed.

(** ** The three parts of a turn *)
Lemma enter_part n o s v : shell K n v -> steady v -> os_receive (v_os v) = (o, s) -> s <> Eof ->
  xa K (prompt_addr n v) (Seq (op n P_receive) (says n (b " "))) v (entered n o s v).
Proof.
  intros HSh HS HO HE. set (P := prompt_addr n v). unfold entered. fold P.
  pose proof (steady_taken o s v HS) as Sa.
  pose proof (intact_taken n o s v) as Ia.
  pose proof (shell_stays K _ _ _ Ia HSh) as Sha. revert Sa Sha.
  assert (RX : xp K (op n P_receive) v (taken o s v)).
  { eapply (xp_prim K 0); [apply (shell_prim K n); [exact HSh|cbn; tauto]|apply Ia|apply receive_taken; [exact HO|exact HE|apply HS|apply HS]]. }
  revert RX Ia. generalize (taken o s v). intros va RX Ia Sa Sha.
  eapply xa_seq; [apply xa_xp; exact RX|]. replace (P + 24) with (fin (op n P_receive) P + 16) by (cbn [op fin]; lia).
  apply says_part; [apply (shell_prim K n); [exact Sha|cbn; tauto]|exact Sa|cbn; lia].
Qed.
Lemma call_part n R v ts v1 : shell K n v -> stack_has (t_r (cur v)) [] -> obeys K n (add_r R v) ts v1 ->
  xa K (R - 8) (Op (n_eval n)) v (drop_r 1 v1) /\ intact K n v (drop_r 1 v1) /\ steady (drop_r 1 v1) /\ stack_has (t_r (cur (drop_r 1 v1))) [].
Proof.
  intros HSh Rb HB.
  pose proof (intact_add_r _ _ _ R (intact_refl K n v)) as Ic. pose proof (shell_stays K _ _ _ Ic HSh) as Shc.
  pose proof HSh as (_ & (WN & _) & _). pose proof Shc as (_ & (_ & _ & HE) & _).
  destruct (holds_seq _ _ _ _ _ HE) as [HE1 HE2].
  destruct (evaluate_part K n _ ts v1 HB Shc) as (PE & IE & S1 & RE).
  pose proof (intact_trans K _ _ _ _ Ic IE) as I1. pose proof (shell_stays K _ _ _ I1 HSh) as Sh1.
  pose proof (RE _ (has_add_r R v [] Rb ltac:(cbn; lia))) as R1.
  split; [|split; [apply intact_drop_r; exact I1|split]].
  - intro HC. destruct HC as (HA & _ & HC & Hi). destruct HE2 as (_ & _ & HE2).
    destruct (call_and_return K v (n_eval n) (R - 8) v1 (fin (d_evaluate n) (w_dfa (word_of (add_r R v) (n_eval n)))) (ix n P_exit) []) as [PP _].
    + exact HA.
    + exact HC.
    + lia.
    + exact WN.
    + rewrite (stack_has_len _ _ Rb). cbn. lia.
    + replace (R - 8 + 8) with R by lia. exact PE.
    + eapply kept_cell; [apply IE|apply HE2].
    + apply HE2.
    + apply (shell_prim K n); [exact Sh1|cbn; tauto].
    + replace (R - 8 + 8) with R by lia. exact R1.
    + exact PP.
  - apply steady_drop_r; [exact S1|]. apply (stack_has_len _ _ R1).
  - unfold drop_r. rewrite cur_set_r. cbn [t_r set_t_r]. apply (drop_has _ [R]). exact R1.
Qed.
Definition ending n : prog :=
  block [op n P_p_compiling; op n P_zero_equals; IfThen (says n (b " ok")); Num 13; op n P_emit; op n P_flush_output].
Lemma not_part n v c : shell K n v -> steady v -> c = st_compiling (st v) ->
  xp K (Seq (op n P_p_compiling) (op n P_zero_equals)) v (add_s (flag_of (negb c)) v).
Proof.
  intros HSh (_ & (d2 & HD2 & LD2) & _) Hc. pose proof (stack_has_len _ _ HD2) as L2. pose proof (zlen_nonneg d2).
  eapply (xp_seq K _ _ _ (add_s (flag_of c) v)).
  - eapply (xp_push K 0); [apply (shell_prim K n); [exact HSh|cbn; tauto]|lia|].
    intros ew j a0. cbn [exec_prim]. unfold p_compiling. rewrite bind_gets. rewrite st_at. cbn [st_compiling set_st_ip set_st_wp]. rewrite <- Hc. destruct c; reflexivity.
  - replace (flag_of (negb c)) with (if flag_of c =? 0 then -1 else 0) by (destruct c; reflexivity).
    apply xp_not; [apply (shell_prim K n); [exact HSh|cbn; tauto]|lia].
Qed.
Lemma ok_part n v c a : shell K n v -> steady v ->
  xa K a (IfThen (says n (b " ok"))) (add_s (flag_of (negb c)) v)
    (let u := shown (flag_of (negb c)) v in if c then u else spoken (a + 32) (b " ok") u).
Proof.
  intros HSh HS HI. pose proof (steady_shown (flag_of (negb c)) v HS) as S3.
  pose proof (shell_stays K _ _ _ (intact_shown _ _ _ (flag_of (negb c)) (intact_refl K n v)) HSh) as Sh3.
  assert (KK : kept K (add_s (flag_of (negb c)) v) (shown (flag_of (negb c)) v)) by (apply kept_eq; reflexivity).
  destruct HS as (_ & (d2 & HD2 & LD2) & _).
  assert (TK : takes (add_s (flag_of (negb c)) v) (flag_of (negb c)) (shown (flag_of (negb c)) v)) by (exists d2; split; [apply has_push; [exact HD2|lia]|reflexivity]).
  revert S3 Sh3 KK TK HI. cbv zeta. generalize (shown (flag_of (negb c)) v). generalize (add_s (flag_of (negb c)) v). intros va vb S3 Sh3 KK TK HI.
  eapply if_then_run; [exact HI|exact TK| |].
  - intro Hc. destruct c; [cbn in Hc; congruence|]. replace (a + 32) with (a + 16 + 16) by lia.
    apply says_part; [apply (shell_prim K n); [exact Sh3|cbn; tauto]|exact S3|cbn; lia|].
    destruct HI as (HA & HB0 & HW & HC & HL). 
    eapply holds_kept; [exact KK|]. pose proof (cell_top _ _ _ _ HC). split; [exact HA|]. split; [|exact HL]. lia.
  - intro Hc. destruct c; [reflexivity|discriminate Hc].
Qed.
Lemma cr_part n v : shell K n v -> steady v -> xp K (Seq (Num 13) (Seq (op n P_emit) (op n P_flush_output))) v (flushed (put [13] (shown 13 v))).
Proof.
  intros HSh (_ & (d4 & HD4 & LD4) & _). pose proof (stack_has_len _ _ HD4) as L4. pose proof (zlen_nonneg d4).
  eapply xp_seq; [apply xp_num; lia|].
  eapply (xp_seq K _ _ _ (put [13] (shown 13 v))).
  - eapply (xp_prim K 0); [apply (shell_prim K n); [exact HSh|cbn; tauto]|apply kept_eq; [rewrite ds_put|rewrite wl_put]; reflexivity|].
    intros. apply emit_at; lia.
  - pose proof (shell_stays K _ _ _ (intact_put _ _ _ [13] (intact_shown _ _ _ 13 (intact_refl K n v))) HSh) as Sh5. revert Sh5. generalize (put [13] (shown 13 v)). intros v5 Sh5.
    destruct (flushed_same v5) as (F1 & F2 & F3).
    eapply (xp_prim K 0); [apply (shell_prim K n); [exact Sh5|cbn; tauto]|apply kept_eq; assumption|]. intros. apply flush_at.
Qed.
Lemma end_part n v : shell K n v -> steady v -> stack_has (t_r (cur v)) [] ->
  xa K (after_line n v) (ending n) v (closed n v) /\ at_prompt K n (closed n v) /\ intact K n v (closed n v).
Proof.
  intros HSh HS HR. set (R := after_line n v). unfold closed. fold R. remember (st_compiling (st v)) as c eqn:Ec.
  pose proof (not_part n v c HSh HS Ec) as PN. pose proof (ok_part n v c (R + 16) HSh HS) as PO. cbv zeta in PO |- *. replace (R + 16 + 32) with (R + 48) in PO by lia.
  set (v4 := if c then shown (flag_of (negb c)) v else spoken (R + 48) (b " ok") (shown (flag_of (negb c)) v)) in *.
  assert (S4 : steady v4) by (unfold v4; destruct c; [|apply steady_spoken]; apply steady_shown; exact HS).
  assert (I4 : intact K n v v4) by (unfold v4; destruct c; [|apply intact_spoken]; apply intact_shown, intact_refl).
  assert (R4 : stack_has (t_r (cur v4)) []) by (unfold v4; destruct c; rewrite ?r_spoken, r_shown; exact HR).
  clearbody v4. pose proof (shell_stays K _ _ _ I4 HSh) as Sh4. pose proof (cr_part n v4 Sh4 S4) as PC.
  pose proof (intact_flushed _ _ _ (intact_put _ _ _ [13] (intact_shown _ _ _ 13 I4))) as I6.
  split; [|split; [split; [exact (shell_stays K _ _ _ I6 HSh)|split]|exact I6]].
  - intro HH. assert (HQ : holds K v (Seq (Seq (op n P_p_compiling) (op n P_zero_equals)) (Seq (IfThen (says n (b " ok"))) (Seq (Num 13) (Seq (op n P_emit) (op n P_flush_output))))) R).
    { unfold ending in HH. cbn [block] in HH. destruct HH as (A & B & C1 & C2 & C3). split; [exact A|]. split; [exact B|]. split; [split; assumption|exact C3]. }
    revert HQ. change (fin (ending n) R) with (fin (Seq (Seq (op n P_p_compiling) (op n P_zero_equals)) (Seq (IfThen (says n (b " ok"))) (Seq (Num 13) (Seq (op n P_emit) (op n P_flush_output))))) R).
    eapply xa_seq; [apply xa_xp; exact PN|]. replace (fin (Seq (op n P_p_compiling) (op n P_zero_equals)) R) with (R + 16) by (cbn [op fin]; lia).
    eapply xa_seq; [exact PO|]. apply xa_xp. exact PC.
  - pose proof (steady_put [13] _ (steady_shown 13 _ S4)) as S5. destruct (flushed_same (put [13] (shown 13 v4))) as (_ & _ & F3). apply (steady_same _ _ S5 F3).
  - destruct (flushed_same (put [13] (shown 13 v4))) as (_ & _ & ->). rewrite cur_put, r_shown. exact R4.
Qed.
Lemma after_stays n v u : shell K n v -> intact K n v u -> prompt_addr n u = prompt_addr n v.
Proof.
  intros (_ & _ & ((W1 & _) & _) & _) [_ H]. unfold prompt_addr. rewrite (proj2 (H (n_quit n) ltac:(cbn; tauto) W1)). reflexivity.
Qed.
Lemma loop_held n v : shell K n v -> holds K v (Again (turn n)) (prompt_addr n v).
Proof.
  intros (_ & _ & (_ & _ & HQ) & _). destruct (holds_seq _ _ _ _ _ HQ) as [HQ1 _]. cbn [d_quit block] in HQ1. destruct (holds_seq _ _ _ _ _ HQ1) as [_ HAg]. exact HAg.
Qed.
Lemma turn_held n v : shell K n v -> holds K v (Seq (Seq (op n P_receive) (says n (b " "))) (Seq (Op (n_eval n)) (ending n))) (prompt_addr n v).
Proof.
  intros HSh. destruct (loop_held n v HSh) as (A & B & C). cbn [laid turn block] in C; cbv zeta in C. destruct C as ((C1 & C2 & C3) & _).
  split; [exact A|]. split; [exact B|]. split; [split; assumption|exact C3].
Qed.
Lemma says_fin n v : fin (Seq (op n P_receive) (says n (b " "))) (prompt_addr n v) = after_line n v - 8.
Proof.
  unfold after_line. generalize (prompt_addr n v). intro P. cbn [says block fin op]. change (zlen (b " ")) with 1.
  replace (P + 8 + 16 + 1) with (P + 25) by lia. lia.
Qed.
Lemma entered_facts n o s v : steady v -> steady (entered n o s v) /\ intact K n v (entered n o s v) /\ t_r (cur (entered n o s v)) = t_r (cur v).
Proof.
  intro HS. unfold entered. split; [apply steady_spoken, steady_taken; exact HS|].
  split; [apply intact_spoken, intact_taken|]. rewrite r_spoken, r_taken. reflexivity.
Qed.
Lemma turn_part n o s v ts v1 : at_prompt K n v -> os_receive (v_os v) = (o, s) -> s <> Eof ->
  obeys K n (add_r (after_line n v) (entered n o s v)) ts v1 ->
  part K v (prompt_addr n v) (closed n (drop_r 1 v1)) (prompt_addr n v) /\ at_prompt K n (closed n (drop_r 1 v1)) /\
  intact K n v (closed n (drop_r 1 v1)).
Proof.
  intros (HSh & HS & HR) HO HE HB. destruct (entered_facts n o s v HS) as (Sb & Ib & Rb). pose proof (shell_stays K _ _ _ Ib HSh) as Shb. rewrite <- Rb in HR.
  pose proof (enter_part n o s v HSh HS HO HE) as PA. revert HB Sb Ib Rb Shb PA HR. generalize (entered n o s v). intros vb HB Sb Ib Rb Shb PA HR.
  destruct (call_part n _ vb ts v1 Shb HR HB) as (PB & I2 & S2 & R2). revert PB I2 S2 R2. generalize (drop_r 1 v1). intros v2 PB I2 S2 R2.
  pose proof (intact_trans K _ _ _ _ Ib I2) as I2'. pose proof (shell_stays K _ _ _ I2' HSh) as Sh2.
  destruct (end_part n v2 Sh2 S2 R2) as (PC & AP & I3). pose proof (intact_trans K _ _ _ _ I2' I3) as I3'.
  assert (AL : after_line n v2 = after_line n v) by (unfold after_line; rewrite (after_stays n v v2 HSh I2'); reflexivity). rewrite AL in PC.
  split; [|split; [exact AP|exact I3']]. revert PC AP I3 I3'. generalize (closed n v2). intros v3 PC AP I3 I3'.
  assert (P3 : part K v (prompt_addr n v) v3 (fin (Seq (Seq (op n P_receive) (says n (b " "))) (Seq (Op (n_eval n)) (ending n))) (prompt_addr n v))).
  { generalize (turn_held n v HSh). eapply xa_seq; [exact PA|]. rewrite says_fin. eapply xa_seq; [exact PB|].
    cbn [fin]. replace (after_line n v - 8 + 8) with (after_line n v) by lia. exact PC. }
  eapply part_trans; [exact P3|]. split; [|apply kept_refl].
  pose proof (holds_kept K _ _ _ _ (proj1 I3') (loop_held n v HSh)) as (HA & Ha & HL). cbn [laid] in HL; cbv zeta in HL. destruct HL as (L & W & C).
  eapply goes_branch; [exact HA|exact W|exact C|]. destruct HA. lia.
Qed.
End L.
