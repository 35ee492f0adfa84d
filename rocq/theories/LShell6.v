(** The terminal program: the meaning of common tokens, sessions, and the end of the run (C87-C90). *)
From Coq Require Import ZArith List Bool Lia String ZifyBool ZifyNat.
From Verif Require Import Base Stack Mem Parser State CoreM IoM FileM Exec LBase LStack Spec Spec2 Spec4 Spec5 Spec6 Spec7 Spec9 Spec10 Spec11 Spec12 Spec14 Spec15 Spec16 Spec17 Spec19 Spec24 Spec25
  LState LMem LMon LMemWords LTask LFuel LCode LComp LRun LCtl LFloat LWords LSay LLib LLibWords LDefine LDefine2 LNoInput LSource LCrash3 LEval LNest LSys Spec27 LShell LShell2 LShell3 LShell4 LShell5.
Import ListNotations.
Open Scope list_scope.
Open Scope Z_scope.
Open Scope m_scope.

Section L.
Context {E : Env}.
Variable K : Z -> Prop.
Implicit Types (v w u y x : vm).

(** ** Tokens *)
Lemma goes_here j r v : goes (at_ j r v) (st_ip (st (at_ j r v))) v r.
Proof.
  clear K. intros w [C1 C2]. exists w. split; [constructor|]. rewrite st_at in C1. split; [exact C1|]. rewrite C2. rewrite !set_ip_wp_at. apply at_at.
Qed.
Lemma newest_at v t r j c : newest v t r -> newest (at_ j c v) t r.
Proof. clear K. intro H. apply (newest_kept v); [reflexivity|reflexivity|exact H]. Qed.
Lemma acts_integer n fuel t v (x : Z) d : newest v t None -> integer_token v t x -> st_compiling (st v) = false -> stack_has (t_s (cur v)) d -> zlen d < 255 ->
  acts K n fuel t v (add_s x (set_v_err None v)).
Proof.
  intros HN HI HC HD HL. split; [apply intact_eq; reflexivity|]. split; [intros rs H; unfold add_s; rewrite cur_set_s; exact H|].
  unfold dispatched. rewrite set_ip_wp_at. set (j := ix n (token_word v)). set (r := token_addr n v + 8). exists (at_ j r (add_s x (set_v_err None v))). split; [|apply goes_here].
  apply (A_integer fuel t _ _ x); [apply newest_at; exact HN|exact HI|rewrite st_at; exact HC|].
  pose proof (stack_has_len _ _ HD). pose proof (zlen_nonneg d).
  change (set_v_err None (at_ j r v)) with (at_ j r (set_v_err None v)). rewrite s_at, set_s_at. f_equal. unfold add_s. f_equal.
  change (cur (set_v_err None v)) with (cur v). symmetry. apply add_item_push. lia.
Qed.
Lemma executes_at v i j c : executes v i -> executes (at_ j c v) i.
Proof. clear K. unfold executes. rewrite st_at. exact (fun H => H). Qed.
Lemma execute_at f i j r v : execute_word f i (at_ j r v) = execute_word f i (set_ip r v).
Proof. clear K. destruct f as [|f]; [reflexivity|]. cbn [execute_word]. rewrite !bind_modify, set_wp_at, set_wp_ip. reflexivity. Qed.
Lemma acts_word n fuel t v i v2 u : newest v t (Some i) -> executes v i -> intact K n v v2 -> (forall rs, stack_has (t_r (cur v)) rs -> stack_has (t_r (cur v2)) rs) ->
  execute_word fuel i (set_ip (token_addr n v + 8) v) = Ok (tt, u) -> goes u (st_ip (st u)) v2 (token_addr n v + 8) -> acts K n fuel t v v2.
Proof.
  intros HN HX HI HR HE HG. split; [exact HI|split; [exact HR|]]. exists u. split; [|exact HG]. unfold dispatched. rewrite set_ip_wp_at.
  apply (A_executed fuel t _ _ i); [apply newest_at; exact HN|apply executes_at; exact HX|]. rewrite execute_at. exact HE.
Qed.
Lemma acts_prim n fuel t v i p v2 : newest v t (Some i) -> executes v i -> word_is v i p -> intact K n v v2 -> (forall rs, stack_has (t_r (cur v)) rs -> stack_has (t_r (cur v2)) rs) ->
  let a := token_addr n v + 8 in
  exec_prim fuel (execute_word fuel) p (set_ip a (set_wp i v)) = Ok (tt, set_ip a (set_wp i v2)) -> acts K n (S fuel) t v v2.
Proof.
  intros HN HX HW HI HR a HE. apply (acts_word n (S fuel) t v i v2 (at_ i a v2)); try assumption; [|apply goes_here].
  fold a. rewrite (execute_word_eq fuel _ _ p), set_wp_ip by exact HW. exact HE.
Qed.
Lemma acts_does n t v i Q : newest v t (Some i) -> executes v i -> does K v i Q -> 0 <= token_addr n v + 8 < 2 ^ 63 ->
  exists f v2, Q v2 /\ forall fuel, (f <= fuel)%nat -> intact K n v v2 -> (forall rs, stack_has (t_r (cur v)) rs -> stack_has (t_r (cur v2)) rs) -> acts K n fuel t v v2.
Proof.
  intros HN HX HD Hr. destruct (HD _ Hr) as (f & u & v2 & HE & HG & _ & HQ). exists f, v2. split; [exact HQ|]. intros fuel Hf HI HR.
  apply (acts_word n fuel t v i v2 u); try assumption. rewrite <- HE. apply execute_word_mle; [exact Hf|]. rewrite HE. discriminate.
Qed.

(** ** Exceptions *)
Lemma fails_abort n f t v e : (forall u, abort_with (execute_word (S f)) e (dispatched n v) = Ok (tt, u) -> performs (S f) t (dispatched n v) u) ->
  fails K n (S f) t v (aborted e (dispatched n v)).
Proof. intro H. apply F_token. exists f. intros u HU. apply H. rewrite abort_with_eq. exact HU. Qed.
Lemma fails_unknown n f t v : newest v t None -> no_integer v t -> (forall s i f es (z : list Z), ~ float_text s i f es z t) ->
  fails K n (S f) t v (aborted (-13) (dispatched n v)).
Proof. intros H1 H2 H3. apply fails_abort. intros u HU. apply A_unknown; [apply newest_at; exact H1|exact H2|exact H3|exact HU]. Qed.
Lemma fails_compile_only n f t v i : newest v t (Some i) -> st_compiling (st v) = false -> w_co (word_of v i) = true ->
  fails K n (S f) t v (aborted (-14) (dispatched n v)).
Proof. intros H1 H2 H3. apply fails_abort. intros u HU. apply (A_compile_only _ _ _ _ i); [apply newest_at; exact H1|unfold dispatched; rewrite set_ip_wp_at, st_at; exact H2|exact H3|exact HU]. Qed.
Lemma fails_prim n f t v i p x : newest v t (Some i) -> executes v i -> word_is v i p ->
  (forall ew, exec_prim (S f) ew p (set_ip (token_addr n v + 8) (set_wp i v)) = ew (v_handler x) x) -> fails K n (S (S f)) t v x.
Proof.
  intros HN HX HW HE. apply F_token. exists f. intros u HU. apply (A_executed _ _ _ _ i); [apply newest_at; exact HN|apply executes_at; exact HX|].
  unfold dispatched. rewrite set_ip_wp_at, execute_at, (execute_word_eq _ _ _ p), set_wp_ip by exact HW. rewrite <- HU. apply HE.
Qed.
Lemma recoverable_aborted n e rs o v j c : shell K n v -> dict_ok v -> v_handler v = n_abort n -> v_tkn v <> None -> v_out v = Some o -> st_sid (st v) = 0 ->
  t_inbuf (cur v) <> None -> stack_has (t_r (cur v)) rs -> zlen rs <= 240 -> 0 <= j < words v -> 0 <= c < 2 ^ 63 ->
  recoverable K n e rs o (aborted e (at_ j c v)).
Proof.
  intros A1 A2 A3 A4 A5 A6 A7 A8 A9 A10 A11. pose proof (aborted_raised e (at_ j c v)) as HR. pose proof HR as (_ & _ & _ & _ & RW & _ & RH & RL & RD & RT & RO & R). 
  destruct R as (_ & _ & _ & _ & _ & _ & _ & _ & _ & _ & RR & _ & RI & _ & _ & _ & RS).
  split; [|split; [|split; [|split; [exists (at_ j c v); exact HR|split; [|split; [|split; [|split; [|split; [|split; [exact A9|split]]]]]]]]]].
  - apply (shell_stays K n v); [apply intact_eq; [exact RD|exact RL]|exact A1].
  - exact A2.
  - rewrite RH. exact A3.
  - rewrite RT. exact A4.
  - rewrite RO. exact A5.
  - unfold aborted. unfold st. rewrite cur_set_v_err, cur_upd. cbn [t_state set_t_state set_t_c set_t_f set_t_s st_sid set_st_awp]. change (t_state (cur (at_ j c v))) with (st (at_ j c v)). rewrite st_at. exact A6.
  - rewrite RI, cur_at. exact A7.
  - rewrite RR, r_at. exact A8.
  - rewrite RW, st_at. exact A10.
  - unfold aborted. unfold st. rewrite cur_set_v_err, cur_upd. cbn [t_state set_t_state set_t_c set_t_f set_t_s st_ip set_st_awp]. change (t_state (cur (at_ j c v))) with (st (at_ j c v)). rewrite st_at. exact A11.
Qed.
Lemma ip_aborted e v j c : st_ip (st (aborted e (at_ j c v))) = c.
Proof. clear K. unfold aborted, st. rewrite cur_set_v_err, cur_upd, cur_at. reflexivity. Qed.
(** A line with an unknown word *)
Lemma line_fails n o s v ts v0 t v1 f o1 e : at_prompt K n v -> os_receive (v_os v) = (o, Line s) ->
  obeyed K n (add_r (after_line n v) (entered n o (Line s) v)) ts v0 -> reads v0 t v1 -> t <> [] -> at_token (S f) v1 t ->
  v_handler v1 = n_abort n -> v_out v1 = Some o1 ->
  (forall u, abort_with (execute_word (S f)) e (dispatched n (noted v1)) = Ok (tt, u) -> performs (S f) t (dispatched n (noted v1)) u) ->
  exists x v' text, raised e (dispatched n (noted v1)) x /\
    goes v (prompt_addr n v) v' (prompt_addr n v') /\ at_prompt K n v' /\ intact K n x v' /\
    report n x [token_addr n (noted v1) + 8; after_line n v] e text /\ recovered x (shown_line (o1 ++ text)) v'.
Proof.
  intros AP HO HB HR Ht HT HH HX HF. set (x := aborted e (dispatched n (noted v1))).
  assert (RC : recoverable K n e [after_line n v] o1 x).
  { destruct (eval_enter K n o (Line s) v AP HO ltac:(discriminate)) as [_ I1]. destruct AP as (HSh & HS & HRs).
    pose proof (entered_facts K n o (Line s) v HS) as (_ & _ & Rb). rewrite <- Rb in HRs.
    pose proof (has_add_r (after_line n v) _ _ HRs ltac:(cbn; lia)) as HRs'. clear HRs.
    revert HB I1 HRs'. generalize (add_r (after_line n v) (entered n o (Line s) v)). intros va HB I1 HRs'. pose proof (shell_stays K _ _ _ I1 HSh) as Sha.
    destruct (obeyed_part K n va ts v0 HB Sha) as (P2 & I2 & S2 & R2). pose proof (shell_stays K _ _ _ I2 Sha) as Sh0. apply R2 in HRs'.
    destruct (reads_state _ _ _ HR) as (D1 & D2 & D3 & D4 & D5 & D6). specialize (D4 _ S2). destruct (noted_facts K n _ _ _ S2 HR) as (I0 & ER & EC).
    pose proof (shell_stays K _ _ _ I0 Sh0) as Sh1. destruct (token_reached K n v0 t v1 S2 HR Ht Sh0) as [_ HH1]. destruct HH1 as (HA & _ & (C & _) & _).
    unfold x, dispatched. rewrite set_ip_wp_at. apply recoverable_aborted.
    - exact Sh1.
    - apply HT.
    - exact HH.
    - change (v_tkn (noted v1)) with (v_tkn v1). rewrite D6. discriminate.
    - exact HX.
    - pose proof (steady_shown (flag_of (st_compiling (st v1))) v1 D4) as Q. apply Q.
    - pose proof (steady_shown (flag_of (st_compiling (st v1))) v1 D4) as Q. apply Q.
    - rewrite ER. exact HRs'.
    - cbn. lia.
    - apply (shell_prim K n _ (token_word (noted v1)) Sh1). unfold token_word. destruct (st_compiling (st (noted v1))); cbn; tauto.
    - pose proof (code_range _ _ _ _ HA C) as RB. lia. }
  pose proof (fails_abort n f t (noted v1) e HF) as FF. fold x in FF.
  assert (IX : st_ip (st x) = token_addr n (noted v1) + 8) by (unfold x, dispatched; apply ip_aborted).
  assert (RX : raised e (dispatched n (noted v1)) x) by (unfold x; apply aborted_raised).
  clearbody x. clear HF.
  destruct (turn_fails K n o (Line s) v ts v0 t v1 (S f) e _ o1 x AP HO ltac:(discriminate) HB HR Ht HT FF RC) as (v' & text & T1 & T2 & T3 & T4 & T5).
  rewrite IX in T4. exists x, v', text. split; [exact RX|]. split; [exact T1|split; [exact T2|split; [exact T3|split; [exact T4|exact T5]]]].
Qed.

(** ** Sessions *)
Lemma session_part n v ss v' : session K n v ss v' -> at_prompt K n v ->
  part K v (prompt_addr n v) v' (prompt_addr n v) /\ at_prompt K n v' /\ intact K n v v'.
Proof.
  induction 1 as [v|v o s ts v1 ss v' HO HB HS IH]; intro AP.
  - split; [split; [|apply kept_refl]|split; [exact AP|apply intact_refl]]. intros w HC. exists w. split; [constructor|exact HC].
  - destruct (turn_part K n o (Line s) v ts v1 AP HO ltac:(discriminate) HB) as (P1 & A1 & I1). destruct (IH A1) as (P2 & A2 & I2).
    rewrite (after_stays K n v _ (proj1 AP) I1) in P2. split; [eapply part_trans; eassumption|split; [exact A2|eapply intact_trans; eassumption]].
Qed.

(** ** Output *)
Lemma put_out s v o : v_out v = Some o -> v_out (put s v) = Some (o ++ s) /\ v_stdout (put s v) = v_stdout v.
Proof. clear K. unfold put. intros ->. split; reflexivity. Qed.
Lemma spoken_out a s v o : v_out v = Some o -> v_out (spoken a s v) = Some (o ++ s) /\ v_stdout (spoken a s v) = v_stdout v.
Proof. clear K. intro H. exact (put_out s (drop_s 2 (add_s (zlen s) (add_s a v))) o H). Qed.
Lemma shown_out (x : Z) v : v_out (shown x v) = v_out v /\ v_stdout (shown x v) = v_stdout v.
Proof. clear K. split; reflexivity. Qed.
Lemma flushed_out v c o : v_out v = Some (c :: o) -> v_out (flushed v) = Some [] /\ v_stdout (flushed v) = v_stdout v ++ c :: o ++ [10].
Proof. clear K. unfold flushed. intros ->. split; reflexivity. Qed.
Lemma closed_out n v o : v_out v = Some o ->
  v_out (closed n v) = Some [] /\ v_stdout (closed n v) = v_stdout v ++ o ++ (if st_compiling (st v) then [] else b " ok") ++ [13; 10].
Proof.
  clear K. intro HO. unfold closed. cbv zeta. remember (if st_compiling (st v) then [] else b " ok") as z eqn:Ez.
  set (u := if st_compiling (st v) then _ else _).
  assert (U : v_out u = Some (o ++ z) /\ v_stdout u = v_stdout v).
  { destruct (shown_out (flag_of (negb (st_compiling (st v)))) v) as [Q1 Q2]. rewrite HO in Q1.
    unfold u. rewrite Ez. revert Q1 Q2. generalize (shown (flag_of (negb (st_compiling (st v)))) v). intros y Q1 Q2.
    destruct (st_compiling (st v)); [rewrite app_nil_r; exact (conj Q1 Q2)|]. destruct (spoken_out (after_line n v + 48) (b " ok") y o Q1) as [Q3 Q4]. rewrite Q3, Q4. exact (conj eq_refl Q2). }
  destruct U as [U1 U2]. clearbody u. destruct (shown_out 13 u) as [Q1 Q2]. rewrite U1 in Q1. rewrite U2 in Q2. revert Q1 Q2. generalize (shown 13 u). intros y Q1 Q2.
  destruct (put_out [13] y _ Q1) as [W1 W2]. rewrite Q2 in W2. revert W1 W2. generalize (put [13] y). intros y' W1 W2.
  destruct ((o ++ z) ++ [13]) as [|c r] eqn:Ec; [apply (f_equal (@List.length Z)) in Ec; rewrite app_length in Ec; cbn in Ec; lia|].
  destruct (flushed_out _ _ _ W1) as [F1 F2]. split; [exact F1|]. rewrite F2, W2.
  replace (c :: r ++ [10]) with (((o ++ z) ++ [13]) ++ [10]) by (rewrite Ec; reflexivity). rewrite <- !app_assoc. reflexivity.
Qed.

(** ** The end of the run *)
Lemma not_running v j : 0 < start (v_ds v) -> running (at_ j 0 v) = Ok (false, at_ j 0 v).
Proof.
  clear K. intro H. unfold running, get_ip, ip. rewrite !bind_gets, st_at. cbn [st_ip set_st_ip]. change (v_ds (at_ j 0 v)) with (v_ds v).
  replace (start (v_ds v) <=? 0) with false by lia. reflexivity.
Qed.
Lemma eof_stops n v o w : at_prompt K n v -> os_receive (v_os v) = (o, Eof) -> continues v (prompt_addr n v) w ->
  exists w' f, run f w = Ok (tt, w') /\ continues (set_v_os o v) 0 w'.
Proof.
  intros (HSh & HS & HR) HO HC. pose proof (turn_held K n v HSh) as HT. destruct (holds_seq _ _ _ _ _ HT) as [H1 _]. destruct (holds_seq _ _ _ _ _ H1) as [(HA & Hb & C & Hi) _].
  destruct (step_cell K _ _ _ w HA HC C Hi) as [R1 R2]. set (c := prompt_addr n v + 8) in *. set (j := ix n P_receive) in *.
  assert (R3 : run_step 1 w = Ok (tt, at_ j 0 (set_v_os o v))).
  { rewrite R2, (execute_word_eq 0 _ _ P_receive), set_wp_ip by (apply (shell_prim K n); [exact HSh|cbn; tauto]).
    cbn [exec_prim]. unfold receive, os_call, bind at 1. change (v_os (at_ j c v)) with (v_os v). rewrite HO.
    change (set_v_os o (at_ j c v)) with (at_ j c (set_v_os o v)). unfold bye, put_ip, modify. rewrite set_ip_at. reflexivity. }
  exists (at_ j 0 (set_v_os o v)), 2%nat. split; [|apply continues_at].
  cbn [run]. rewrite (bind_Ok _ _ _ _ _ R1). rewrite (bind_Ok _ _ _ _ _ R3). rewrite (bind_Ok _ _ _ _ _ (not_running (set_v_os o v) j (proj1 HA))). reflexivity.
Qed.
(** A token that stops the machine, such as BYE *)
Lemma stop_run n v o s ts v0 t v1 fuel u w : at_prompt K n v -> os_receive (v_os v) = (o, Line s) ->
  obeyed K n (add_r (after_line n v) (entered n o (Line s) v)) ts v0 -> reads v0 t v1 -> t <> [] -> at_token fuel v1 t ->
  performs fuel t (dispatched n (noted v1)) u -> running u = Ok (false, u) -> continues v (prompt_addr n v) w ->
  exists f, run f w = Ok (tt, u).
Proof.
  intros AP HO HB HR Ht HT HP HU HC. destruct (eval_enter K n o (Line s) v AP HO ltac:(discriminate)) as [G1 I1]. destruct AP as (HSh & HS & HRs).
  revert HB G1 I1. generalize (add_r (after_line n v) (entered n o (Line s) v)). intros va HB G1 I1. pose proof (shell_stays K _ _ _ I1 HSh) as Sha.
  pose proof HSh as (_ & (WE & _) & _). rewrite <- (proj2 (proj2 I1 (n_eval n) ltac:(cbn; tauto) (proj1 WE))) in G1.
  destruct (obeyed_part K n va ts v0 HB Sha) as (P2 & I2 & S2 & _). pose proof (shell_stays K _ _ _ I2 Sha) as Sh0.
  pose proof Sha as (_ & (WE' & _) & _). pose proof (proj2 (proj2 I2 (n_eval n) ltac:(cbn; tauto) (proj1 WE'))) as E2.
  destruct (token_reached K n v0 t v1 S2 HR Ht Sh0) as [P3 HH]. rewrite E2 in P3. destruct (noted_facts K n _ _ _ S2 HR) as (I0 & _ & _). pose proof (shell_stays K _ _ _ I0 Sh0) as Sh1.
  pose proof (goes_trans _ _ _ _ _ _ G1 (goes_trans _ _ _ _ _ _ (proj1 P2) (proj1 P3))) as G. destruct (goes_run _ _ _ _ _ G HC) as (w1 & C1 & RR).
  apply RR; [discriminate|]. destruct HH as (HA & _ & (C & Hi) & _). destruct (step_cell K _ _ _ w1 HA C1 C Hi) as [R1 R2].
  assert (AT : at_token fuel (noted v1) t) by exact HT. pose proof (token_run K n _ t fuel u AT Sh1 HP) as TR.
  exists (S (S fuel)). cbn [run]. rewrite (bind_Ok _ _ _ _ _ R1). rewrite <- R2 in TR. rewrite (bind_Ok _ _ _ _ _ TR).
  cbn [run]. rewrite (bind_Ok _ _ _ _ _ HU). reflexivity.
Qed.

(** ** A terminal that cannot be read *)
Lemma run_down v v1 f : machine_step v v1 -> run (S f) v <> OutOfFuel -> run f v1 <> OutOfFuel.
Proof.
  clear K. intros (R1 & g & R2) H. cbn [run] in H. rewrite (bind_Ok _ _ _ _ _ R1) in H. unfold bind in H.
  destruct (run_step f v) as [[[] v2]|p| |] eqn:ES; try congruence.
  - assert (v2 = v1) as ->; [|exact H]. pose proof (run_step_mle f (max f g) ltac:(lia) v ltac:(rewrite ES; discriminate)) as Q1.
    pose proof (run_step_mle g (max f g) ltac:(lia) v ltac:(rewrite R2; discriminate)) as Q2. congruence.
  - pose proof (run_step_mle f (max f g) ltac:(lia) v ltac:(rewrite ES; discriminate)) as Q1.
    pose proof (run_step_mle g (max f g) ltac:(lia) v ltac:(rewrite R2; discriminate)) as Q2. congruence.
  - pose proof (run_step_mle f (max f g) ltac:(lia) v ltac:(rewrite ES; discriminate)) as Q1.
    pose proof (run_step_mle g (max f g) ltac:(lia) v ltac:(rewrite R2; discriminate)) as Q2. congruence.
Qed.
Lemma run_downs v v1 f : machine_steps v v1 -> run f v <> OutOfFuel -> run f v1 <> OutOfFuel.
Proof.
  clear K. intros H. induction H as [v|v v1 v2 S1 _ IH]; intro HF; [exact HF|]. apply IH. destruct f as [|f]; [exfalso; apply HF; reflexivity|].
  pose proof (run_down _ _ _ S1 HF) as HD. rewrite (run_mle f (S f) ltac:(lia) v1 HD). exact HD.
Qed.
Lemma reads_nothing v : used_up v -> st_sid (st v) = 0 -> v_tkn v <> None -> reads v [] (set_v_tkn (Some []) v).
Proof.
  clear K. intros (s & HB & HL) HS HT. split; [|reflexivity]. intro ew. cbn [exec_prim]. rewrite parse_word_pure. unfold pw_out. destruct (v_tkn v); [|congruence].
  rewrite HS, HB. cbn [Z.ltb Z.compare rbind]. replace (st_idx (st v) <? zlen s) with false by lia. reflexivity.
Qed.
Lemma sget_add_item (s : stack Z) (x k : Z) : k <> len s -> 0 <= k -> 0 <= len s -> sget (add_item s x) k = sget s k.
Proof. clear K. intros H1 H2 H3. unfold add_item. rewrite sget_set_len. apply sget_sset_other; lia. Qed.
Lemma steady_add_r v (R : Z) : steady v -> stack_has (t_r (cur v)) [] -> steady (add_r R v).
Proof.
  clear K. intros (A & B & C & D) HR. pose proof (stack_has_len _ _ HR) as LR. cbn in LR. apply check_iff in A. unfold add_r, steady_on. rewrite check_iff. unfold sound, st in *.
  unfold s_overflow, s_underflow, r_overflow, r_underflow, c_overflow, c_underflow, f_overflow, f_underflow, s_stk, r_stk, c_stk, f_stk in *.
  rewrite cur_set_r. cbn [t_s t_r t_c t_f t_inbuf t_state set_t_r]. split; [|exact (conj B (conj C D))]. destruct A as (A1 & A2 & A3 & A4 & A5). repeat (split; try assumption); try apply A5.
  - unfold overflow in *. rewrite sget_add_item by lia. change (canary (add_item (t_r (cur v)) R)) with (canary (t_r (cur v))). change (len (add_item (t_r (cur v)) R)) with (len (t_r (cur v)) + 1).
    apply orb_false_elim in A3. rewrite (proj1 A3). cbn [orb]. lia.
  - unfold underflow in *. rewrite sget_add_item by lia. change (canary (add_item (t_r (cur v)) R)) with (canary (t_r (cur v))). change (len (add_item (t_r (cur v)) R)) with (len (t_r (cur v)) + 1).
    apply orb_false_elim in A4. rewrite (proj1 A4). cbn [orb]. lia.
Qed.
Lemma continues_stdout v a w : continues v a w -> v_stdout w = v_stdout v.
Proof. clear K. intros [_ H]. apply (f_equal v_stdout) in H. exact H. Qed.
Section Fail.
Variable P : os -> Prop.
Hypothesis HP : forall o, P o -> exists o', os_receive o = (o', Failed) /\ P o'.
Definition idle n v : Prop := at_prompt K n v /\ used_up v /\ v_tkn v <> None /\ v_out v = Some [] /\ P (v_os v).
Lemma put_same s v : cur (put s v) = cur v /\ v_os (put s v) = v_os v /\ v_tkn (put s v) = v_tkn v.
Proof. clear. unfold put. destruct (v_out v); repeat split. Qed.
Lemma spoken_same a s v : t_inbuf (cur (spoken a s v)) = t_inbuf (cur v) /\ st (spoken a s v) = st v /\ v_os (spoken a s v) = v_os v /\ v_tkn (spoken a s v) = v_tkn v.
Proof. clear. unfold spoken, st. destruct (put_same s (drop_s 2 (add_s (zlen s) (add_s a v)))) as (A & B & C). rewrite A, B, C. unfold drop_s, add_s. rewrite !cur_set_s. repeat split. Qed.
Lemma shown_same (x : Z) v : t_inbuf (cur (shown x v)) = t_inbuf (cur v) /\ st (shown x v) = st v /\ v_os (shown x v) = v_os v /\ v_tkn (shown x v) = v_tkn v.
Proof. clear. unfold shown, st, drop_s, add_s. rewrite !cur_set_s. repeat split. Qed.
Lemma flush_same v : v_os (flushed v) = v_os v /\ v_tkn (flushed v) = v_tkn v.
Proof. clear. unfold flushed. destruct (v_out v) as [[|]|]; split; reflexivity. Qed.
Lemma closed_same n v : t_inbuf (cur (closed n v)) = t_inbuf (cur v) /\ st_idx (st (closed n v)) = st_idx (st v) /\ st_compiling (st (closed n v)) = st_compiling (st v) /\ v_os (closed n v) = v_os v /\ v_tkn (closed n v) = v_tkn v.
Proof.
  clear. unfold closed. cbv zeta. set (u0 := shown _ v). set (u := if st_compiling (st v) then u0 else _).
  assert (U : t_inbuf (cur u) = t_inbuf (cur v) /\ st u = st v /\ v_os u = v_os v /\ v_tkn u = v_tkn v).
  { destruct (shown_same (flag_of (negb (st_compiling (st v)))) v) as (A1 & A2 & A3 & A4). fold u0 in A1, A2, A3, A4. destruct (spoken_same (after_line n v + 48) (b " ok") u0) as (B1 & B2 & B3 & B4).
    unfold u. destruct (st_compiling (st v)); [tauto|]. rewrite B1, B2, B3, B4. tauto. }
  destruct U as (A1 & A2 & A3 & A4). destruct (flush_same (put [13] (shown 13 u))) as (F1 & F2). rewrite F1, F2. unfold st. rewrite (proj2 (proj2 (flushed_same (put [13] (shown 13 u))))).
  destruct (put_same [13] (shown 13 u)) as (B1 & B2 & B3). rewrite B1, B2, B3. destruct (shown_same 13 u) as (C1 & C2 & C3 & C4). rewrite C1, C3, C4.
  change (t_state (cur (shown 13 u))) with (st (shown 13 u)). rewrite C2, A1, A2, A3, A4. repeat split.
Qed.
Lemma idle_round n v : idle n v -> exists v', goes v (prompt_addr n v) v' (prompt_addr n v') /\ idle n v' /\ st_compiling (st v') = st_compiling (st v) /\
  v_stdout v' = v_stdout v ++ b "Other " ++ (if st_compiling (st v) then [] else b " ok") ++ [13; 10].
Proof.
  intros (AP & HU & HT & HO & HQ). destruct (HP _ HQ) as (o & HR & HQ').
  set (ve := add_r (after_line n v) (entered n o Failed v)).
  destruct (put_same (b "Other") (set_v_os o v)) as (A1 & A2 & A3). destruct (spoken_same (prompt_addr n v + 24) (b " ") (put (b "Other") (set_v_os o v))) as (B1 & B2 & B3 & B4).
  assert (EI : t_inbuf (cur ve) = t_inbuf (cur v)) by (unfold ve, entered, add_r; cbn [taken]; rewrite cur_set_r; cbn [t_inbuf set_t_r]; rewrite B1, A1; reflexivity).
  assert (ES : st ve = st v).
  { unfold ve, entered, add_r; cbn [taken]. unfold st. rewrite cur_set_r. cbn [t_state set_t_r]. unfold st in B2. rewrite B2, A1. reflexivity. }
  assert (EO : v_os ve = o) by (unfold ve, entered, add_r; cbn [taken]; change (v_os (spoken (prompt_addr n v + 24) (b " ") (put (b "Other") (set_v_os o v))) = o); rewrite B3, A2; reflexivity).
  assert (ET : v_tkn ve = v_tkn v) by (unfold ve, entered, add_r; cbn [taken]; change (v_tkn (spoken (prompt_addr n v + 24) (b " ") (put (b "Other") (set_v_os o v))) = v_tkn v); rewrite B4, A3; reflexivity).
  destruct (put_out (b "Other") (set_v_os o v) [] HO) as [C1 C2]. destruct (spoken_out (prompt_addr n v + 24) (b " ") _ _ C1) as [C3 C4].
  assert (EX : v_out ve = Some (b "Other ")) by exact C3. assert (ED : v_stdout ve = v_stdout v) by (unfold ve; change (v_stdout (entered n o Failed v) = v_stdout v); unfold entered; cbn [taken]; rewrite C4, C2; reflexivity).
  clear A1 A2 A3 B1 B2 B3 B4 C1 C2 C3 C4.
  assert (UE : used_up ve) by (unfold used_up; rewrite EI, ES; exact HU).
  assert (SE : steady ve).
  { destruct (entered_facts K n o Failed v (proj1 (proj2 AP))) as (Q & _). unfold ve. apply steady_add_r; [exact Q|]. destruct (entered_facts K n o Failed v (proj1 (proj2 AP))) as (_ & _ & Q1). rewrite Q1. apply AP. }
  assert (OB : obeys K n ve [] (shown 0 (set_v_tkn (Some []) ve))).
  { exists ve, (set_v_tkn (Some []) ve). split; [constructor; exact SE|]. split; [|reflexivity]. apply reads_nothing; [exact UE|apply SE|rewrite ET; exact HT]. }
  destruct (turn_part K n o Failed v [] _ AP HR ltac:(discriminate) OB) as (PT & AT & IT).
  revert EI ES EO ET EX ED UE SE OB PT AT IT. generalize ve. clear ve. intros ve EI ES EO ET EX ED UE SE OB PT AT IT.
  set (z := drop_r 1 (shown 0 (set_v_tkn (Some []) ve))) in *.
  assert (ZI : t_inbuf (cur z) = t_inbuf (cur v)) by (unfold z, drop_r; rewrite cur_set_r; cbn [t_inbuf set_t_r]; rewrite (proj1 (shown_same 0 (set_v_tkn (Some []) ve))); exact EI).
  assert (ZS : st z = st v) by (unfold z, drop_r, st; rewrite cur_set_r; cbn [t_state set_t_r]; pose proof (proj1 (proj2 (shown_same 0 (set_v_tkn (Some []) ve)))) as Q; unfold st in Q; rewrite Q; exact ES).
  assert (ZO : v_os z = o) by exact EO. assert (ZT : v_tkn z = Some []) by reflexivity. assert (ZX : v_out z = Some (b "Other ")) by exact EX. assert (ZD : v_stdout z = v_stdout v) by exact ED.
  clearbody z. destruct (closed_same n z) as (G1 & G2 & G3 & G4 & G5). destruct (closed_out n z _ ZX) as [H1 H2].
  revert PT AT IT G1 G2 G3 G4 G5 H1 H2. generalize (closed n z). intros v' PT AT IT G1 G2 G3 G4 G5 H1 H2. exists v'.
  rewrite (after_stays K n v v' (proj1 AP) IT). split; [apply PT|]. split; [|split].
  - split; [exact AT|]. split; [unfold used_up; rewrite G1, G2, ZI, ZS; exact HU|]. split; [rewrite G5, ZT; discriminate|]. split; [exact H1|]. rewrite G4, ZO. exact HQ'.
  - rewrite G3, ZS. reflexivity.
  - rewrite H2, ZD, ZS. reflexivity.
Qed.
Lemma never_ends n : forall f v w, idle n v -> continues v (prompt_addr n v) w -> run f w = OutOfFuel.
Proof.
  induction f as [|f IH]; intros v w HI HC; [reflexivity|]. destruct (idle_round n v HI) as (v' & G & HI' & _ & HD). destruct (G w HC) as (w' & SS & HC').
  destruct (run (S f) w) as [z|p| |] eqn:ER; [exfalso|exfalso|exfalso|reflexivity].
  all: assert (NF : run (S f) w <> OutOfFuel) by (rewrite ER; discriminate); inversion SS as [w0|w0 w1 w2 S1 SS1]; subst.
  all: try (pose proof (run_downs _ _ _ SS1 (run_down _ _ _ S1 NF)) as Q; apply Q; exact (IH v' w' HI' HC')).
  all: assert (QQ : v_stdout v' = v_stdout v) by (transitivity (v_stdout w'); [symmetry|]; eapply continues_stdout; eassumption);
    rewrite QQ in HD; apply (f_equal (@List.length Z)) in HD; rewrite !app_length in HD; cbn in HD; lia.
Qed.
End Fail.
End L.
