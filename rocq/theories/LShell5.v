(** The terminal program: lines that end in an exception (C89). *)
From Coq Require Import ZArith List Bool Lia String ZifyBool ZifyNat.
From Verif Require Import Base Stack Mem Parser State CoreM IoM FileM Exec LBase LStack Spec Spec2 Spec4 Spec5 Spec6 Spec7 Spec9 Spec10 Spec11 Spec12 Spec14 Spec15 Spec16 Spec17 Spec19 Spec24 Spec25
  LState LMem LMon LMemWords LTask LFuel LCode LComp LRun LCtl LFloat LWords LSay LLib LLibWords LDefine LDefine2 LNoInput LSource LCrash3 LEval LNest LSys Spec27 LShell LShell2 LShell3 LShell4.
Import ListNotations.
Open Scope list_scope.
Open Scope Z_scope.
Open Scope m_scope.

Section L.
Context {E : Env}.
Variable K : Z -> Prop.
Implicit Types (v w u y x : vm).

(** ** Giving control to the handler *)
Lemma ip_r_wp d s i x : set_ip d (set_r s (set_wp i x)) = at_ i d (set_r s x).
Proof. rewrite ?at_upd. gnorm. apply upd_ext. cbn. destruct (cur x) as [? [? ? ? ? ? ?] ? ? ? ? ? ? ? ?]. reflexivity. Qed.
Lemma nest_here x i rs : word_is x i P_nest -> stack_has (t_r (cur x)) rs -> zlen rs < 255 -> 0 <= st_ip (st x) < 2 ^ 63 ->
  exists u, (forall f, execute_word (S f) i x = Ok (tt, u)) /\
    forall w z, goes (add_r (st_ip (st x)) x) (w_dfa (word_of x i)) w z -> goes u (st_ip (st u)) w z.
Proof.
  clear K. intros W HR Hl Hr. exists (at_ i (w_dfa (word_of x i)) (add_r (st_ip (st x)) x)). split.
  - intro f. pose proof (stack_has_len _ _ HR) as HN. pose proof (zlen_nonneg rs).
    rewrite (execute_word_eq f i x P_nest W). cbn [exec_prim].
    assert (ES : st (set_wp i x) = set_st_wp i (st x)) by (unfold st; gnorm; reflexivity).
    assert (ER : t_r (cur (set_wp i x)) = t_r (cur x)) by (gnorm; reflexivity).
    unfold nest. rewrite bind_modify. cbv zeta. unfold r_stk, ip. rewrite ES, ER. cbn [st_ip set_st_wp].
    rewrite to_i64_id by (unfold imin, imax, two63; lia).
    rewrite bind_gets. unfold r_stk, ip.
    assert (EW : forall s, st (set_r s (set_wp i x)) = set_st_wp i (st x)) by (intro s; unfold st; gnorm; reflexivity).
    rewrite EW. cbn [st_wp set_st_wp].
    rewrite (bind_Ok _ _ _ _ _ (word_at_eq _ i (proj1 W : 0 <= i < wl_len (v_wl (set_r _ (set_wp i x)))))).
    unfold put_ip, modify. do 2 f_equal. unfold add_r. rewrite <- (add_item_push (t_r (cur x))) by lia.
    change (word_of (set_r (push (t_r (cur x)) (st_ip (st x))) (set_wp i x)) i) with (word_of x i).
    apply ip_r_wp.
  - intros w z G w0 HC. rewrite st_at in HC. cbn [st_ip set_st_ip] in HC. apply G.
    destruct HC as [C1 C2]. split; [exact C1|]. rewrite C2. rewrite !set_ip_wp_at. apply at_at.
Qed.
Lemma breaks_goes v a y c x : goes v a y c -> breaks y c x -> breaks v a x.
Proof. intros G (v' & c' & G' & B). exists v', c'. split; [eapply goes_trans; eassumption|exact B]. Qed.
Lemma recovers n e rs o v a x : breaks v a x -> recoverable K n e rs o x ->
  exists v' text, goes v a v' (prompt_addr n v') /\ at_prompt K n v' /\ intact K n x v' /\
    report n x (st_ip (st x) :: rs) e text /\ recovered x (shown_line (o ++ text)) v'.
Proof.
  intros (y & c & G & B) HR. destruct (handler_part K n e rs o x HR) as (v' & text & GH & AP & IH & RP & RC).
  exists v', text. split; [|tauto]. destruct HR as (HSh & _ & HH & _ & _ & _ & _ & _ & HS & HL & _ & HI).
  rewrite (after_stays K n x v' HSh IH). pose proof HSh as (_ & _ & _ & (WA & _) & _). rewrite <- HH in WA.
  destruct (nest_here x _ rs WA HS ltac:(lia) HI) as (u & EU & GU). rewrite HH in GU. specialize (GU _ _ GH).
  intros w HC. destruct (G w HC) as (w1 & S1 & C1). destruct (B w1 C1) as (R1 & f & HF). destruct (HF u (EU f)) as (fu & R2).
  destruct (GU u (continues_self u)) as (w2 & S2 & C2). exists w2. split; [|exact C2]. eapply steps_trans; [exact S1|].
  econstructor; [split; [exact R1|exists fu; exact R2]|exact S2].
Qed.

(** ** Failing lines *)
Lemma fails_breaks n v t v1 fuel x : steady v -> reads v t v1 -> t <> [] -> at_token fuel v1 t -> fails K n fuel t (noted v1) x -> shell K n v ->
  breaks v (w_dfa (word_of v (n_eval n))) x.
Proof.
  intros HS HR Ht HT HF HSh. destruct (token_reached K n v t v1 HS HR Ht HSh) as [P1 HH]. destruct (noted_facts K n _ _ _ HS HR) as (I0 & ER & EC).
  assert (AT : at_token fuel (noted v1) t) by exact HT. pose proof (shell_stays K _ _ _ I0 HSh) as Sh1.
  eapply breaks_goes; [apply P1|]. clear P1 HS HR HT ER EC I0 HSh. revert AT HF Sh1 HH. generalize (noted v1). clear v v1. intros v AT HF Sh1 HH.
  destruct (holds_seq _ _ _ _ _ HH) as [(HA & Hb & C & Hi) H2]. cbn [op fin] in H2.
  destruct HF as [HF|u PF (y & c & G & B)|v2 HA2 HC2].
  - exists v, (token_addr n v). split; [intros w HC; exists w; split; [constructor|exact HC]|]. intros w HC.
    destruct (step_cell K _ _ _ w HA HC C Hi) as [R1 R2]. split; [exact R1|]. destruct HF as (f & HF). exists f. intros u HU. specialize (HF u HU).
    exists (S fuel). rewrite R2. apply (token_run K n v t); assumption.
  - exists y, c. split; [|exact B]. intros w HC. destruct (step_cell K _ _ _ w HA HC C Hi) as [R1 R2].
    destruct (G u (continues_self u)) as (w' & S1 & C1). exists w'. split; [|exact C1].
    econstructor; [split; [exact R1|]; exists (S fuel)|exact S1]. rewrite R2. apply (token_run K n v t); assumption.
  - exists v2, (token_addr n v + 8). split.
    { apply (token_part K n v t fuel v2 _ AT Sh1 HA2 eq_refl). split; [exact HA|]. split; [exact Hb|]. split; [exact C|exact Hi]. }
    pose proof (holds_kept K _ _ _ _ (proj1 (proj1 HA2)) H2) as (HA' & _ & C' & Hi'). pose proof (shell_stays K _ _ _ (proj1 HA2) Sh1) as Sh2.
    intros w HC. destruct (step_cell K _ _ _ w HA' HC C' Hi') as [R1 R2]. split; [exact R1|].
    exists 0%nat. intros u HU. exists 2%nat. rewrite R2. rewrite (execute_word_eq 1 _ _ P_check_stacks), set_wp_ip by (apply (shell_prim K n); [exact Sh2|cbn; tauto]).
    replace (token_addr n v + 8 + 8) with (token_addr n v + 16) by lia. rewrite <- HU. apply HC2.
Qed.
Lemma eval_enter n o s v : at_prompt K n v -> os_receive (v_os v) = (o, s) -> s <> Eof ->
  goes v (prompt_addr n v) (add_r (after_line n v) (entered n o s v)) (w_dfa (word_of v (n_eval n))) /\
  intact K n v (add_r (after_line n v) (entered n o s v)).
Proof.
  intros (HSh & HS & HR) HO HE. destruct (entered_facts K n o s v HS) as (Sb & Ib & Rb). pose proof (shell_stays K _ _ _ Ib HSh) as Shb. rewrite <- Rb in HR.
  pose proof (enter_part K n o s v HSh HS HO HE) as PA. revert Sb Ib Rb Shb PA HR. generalize (entered n o s v). intros vb Sb Ib Rb Shb PA HR.
  split; [|apply intact_add_r; exact Ib]. pose proof HSh as (_ & (WE & _) & _).
  pose proof (turn_held K n v HSh) as HT. destruct (holds_seq _ _ _ _ _ HT) as [H1 H2]. pose proof (PA H1) as P1. rewrite (says_fin K) in H2, P1.
  destruct (holds_seq _ _ _ _ _ H2) as [H3 _]. eapply goes_trans; [apply P1|]. apply (holds_kept K _ _ _ _ (proj2 P1)) in H3. destruct H3 as (HA & Hb & C & Hi).
  intros w HC. destruct (step_cell K _ _ _ w HA HC C Hi) as [R1 R2].
  pose proof (cell_top _ _ _ _ C) as Ct. destruct C as (Cl & _).
  destruct (nest_enter vb (n_eval n) (after_line n v) [] ) as (u & EU & GU); [eapply word_stays; [exact Ib|cbn; tauto|exact WE]|exact HR|cbn; lia|destruct HA; lia|].
  replace (after_line n v - 8 + 8) with (after_line n v) in R2 by lia.
  assert (G0 : goes (add_r (after_line n v) vb) (w_dfa (word_of vb (n_eval n))) (add_r (after_line n v) vb) (w_dfa (word_of vb (n_eval n)))) by (intros w1 H1'; exists w1; split; [constructor|exact H1']).
  destruct (GU _ _ G0 u (continues_self u)) as (w2 & S2 & C2). exists w2. 
  rewrite (proj2 (proj2 Ib (n_eval n) ltac:(cbn; tauto) (proj1 WE))) in C2. split; [|exact C2]. econstructor; [split; [exact R1|exists 1%nat; rewrite R2; exact EU]|exact S2].
Qed.
Lemma turn_fails n o s v ts v0 t v1 fuel e rs o1 x : at_prompt K n v -> os_receive (v_os v) = (o, s) -> s <> Eof ->
  obeyed K n (add_r (after_line n v) (entered n o s v)) ts v0 -> reads v0 t v1 -> t <> [] -> at_token fuel v1 t ->
  fails K n fuel t (noted v1) x -> recoverable K n e rs o1 x ->
  exists v' text, goes v (prompt_addr n v) v' (prompt_addr n v') /\ at_prompt K n v' /\ intact K n x v' /\
    report n x (st_ip (st x) :: rs) e text /\ recovered x (shown_line (o1 ++ text)) v'.
Proof.
  intros AP HO HE HB HR Ht HT HF HX. destruct (eval_enter n o s v AP HO HE) as [G1 I1]. destruct AP as (HSh & HS & HRs).
  revert HB G1 I1. generalize (add_r (after_line n v) (entered n o s v)). intros va HB G1 I1. pose proof (shell_stays K _ _ _ I1 HSh) as Sha.
  pose proof HSh as (_ & (WE & _) & _). pose proof (proj2 (proj2 I1 (n_eval n) ltac:(cbn; tauto) (proj1 WE))) as E1. rewrite <- E1 in G1.
  destruct (obeyed_part K n va ts v0 HB Sha) as (P2 & I2 & S2 & _). pose proof (shell_stays K _ _ _ I2 Sha) as Sh0.
  pose proof Sha as (_ & (WE' & _) & _). pose proof (proj2 (proj2 I2 (n_eval n) ltac:(cbn; tauto) (proj1 WE'))) as E2.
  pose proof (fails_breaks n v0 t v1 fuel x S2 HR Ht HT HF Sh0) as B. rewrite E2 in B.
  pose proof (breaks_goes _ _ _ _ _ (goes_trans _ _ _ _ _ _ G1 (proj1 P2)) B) as B2. eapply recovers; eassumption.
Qed.
End L.
