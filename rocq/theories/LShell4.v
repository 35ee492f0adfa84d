(** The terminal program: from an exception back to the prompt (C89). *)
From Coq Require Import ZArith List Bool Lia String ZifyBool ZifyNat.
From Verif Require Import Base Stack Mem Parser State CoreM IoM FileM Exec LBase LStack Spec Spec2 Spec4 Spec5 Spec6 Spec7 Spec9 Spec10 Spec11 Spec12 Spec14 Spec15 Spec16 Spec17 Spec19 Spec24 Spec25
  LState LMem LMon LMemWords LTask LFuel LCode LComp LRun LCtl LFloat LWords LSay LLib LLibWords LDefine LDefine2 LNoInput LSource LEval LNest LSys Spec27 LShell LShell2 LShell3.
Import ListNotations.
Open Scope list_scope.
Open Scope Z_scope.
Open Scope m_scope.

Section L.
Context {E : Env}.
Variable K : Z -> Prop.
Implicit Types (v w u y x : vm).

(** ** RESET *)
Definition rst (t : task) : task :=
  set_t_inbuf (Some []) (set_t_r (stack_reset (t_r t))
    (set_t_state (set_st_compiling false (set_st_idx 0 (set_st_awp 0 (set_st_sid 0 (t_state t))))) t)).
Definition resetted w : vm := set_v_err None (upd_cur rst w).
Lemma reset_at w j c ew : t_inbuf (cur w) <> None -> exec_prim 0 ew P_reset (at_ j c w) = Ok (tt, at_ j c (resetted w)).
Proof.
  intro HB. cbn [exec_prim]. unfold reset, set_source_id, left_bracket, set_error. cbn [Z.ltb Z.eqb Z.compare]. rewrite ?bind_bind, !bind_modify.
  unfold get_inbuf, put_inbuf. set (w1 := set_sid 0 (set_r (stack_reset (r_stk (at_ j c w))) (at_ j c w))).
  assert (S1 : st_sid (st w1) = 0).
  { unfold w1, st, set_sid, set_st. rewrite cur_upd. reflexivity. }
  assert (I1 : t_inbuf (cur w1) = t_inbuf (cur w)).
  { unfold w1, set_sid, set_st. rewrite cur_upd. cbn [t_inbuf set_t_state]. rewrite cur_set_r, cur_at. reflexivity. }
  unfold bind at 1. rewrite S1. cbn [Z.ltb Z.compare]. rewrite I1. destruct (t_inbuf (cur w)) as [l|]; [|congruence].
  unfold bind at 1. rewrite S1. cbn [Z.ltb Z.compare]. rewrite !bind_modify. unfold modify. do 2 f_equal.
  unfold resetted. change (at_ j c (set_v_err None (upd_cur rst w))) with (set_v_err None (at_ j c (upd_cur rst w))). f_equal.
  unfold w1. rewrite !at_upd. gnorm. apply upd_ext. unfold rst. destruct (cur w) as [? [? ? ? ? ? ?] ? ? ? ? ? ? ? ?]. reflexivity.
Qed.
Lemma cur_resetted w : cur (resetted w) = rst (cur w).
Proof. unfold resetted. rewrite cur_set_v_err, cur_upd. reflexivity. Qed.

(** QUIT, entered from any state with a line of input *)
Lemma quit_run n w a i : holds K w (Op i) a -> i = n_quit n -> shell K n w -> t_inbuf (cur w) <> None -> 0 <= len (t_r (cur w)) < 255 ->
  part K w a (resetted (add_r (a + 8) w)) (prompt_addr n w).
Proof.
  intros (HA & Ha & C & Hi) -> HSh HB HL. pose proof HSh as (_ & _ & (WN & WX & HQ) & _).
  eapply part_trans; [apply (call_run K w (n_quit n) a HA C ltac:(lia) WN HL)|].
  set (w1 := add_r (a + 8) w).
  assert (K1 : kept K w w1) by (apply kept_eq; reflexivity).
  assert (B1 : t_inbuf (cur w1) <> None) by (unfold w1, add_r; rewrite cur_set_r; exact HB).
  pose proof (holds_kept K _ _ _ _ K1 HQ) as HQ1. destruct (holds_seq _ _ _ _ _ HQ1) as [HQ2 _]. cbn [d_quit block] in HQ2. destruct (holds_seq _ _ _ _ _ HQ2) as [HQ3 _].
  assert (WR : word_is w1 (ix n P_reset) P_reset) by (apply (shell_prim K n w _ HSh); cbn; tauto).
  clearbody w1. unfold prompt_addr. eapply op_part; [exact HQ3|exact WR|apply kept_eq; reflexivity|]. intro ew. apply reset_at. exact B1.
Qed.

(** ** The handler *)
Definition base_of x : vm := set_c (stack_reset (t_c (cur x))) (set_f (stack_reset (t_f (cur x))) x).
Lemma cleared_mid x o ip rs : v_out x = Some o -> stack_has (t_r (cur x)) rs -> zlen rs < 255 ->
  exists u, mid (base_of x) [] (ip :: rs) o u /\ forall j c ew, exec_prim 0 ew P_clear_stacks (at_ j c (add_r ip x)) = Ok (tt, at_ j c u).
Proof.
  intros HO HR HL. exists (set_r (add_item (t_r (cur x)) ip) (set_s (stack_reset (t_s (cur x))) (base_of x))). split.
  - exists (stack_reset (t_s (cur x))), (add_item (t_r (cur x)) ip).
    assert (CB : cur (base_of x) = set_t_c (stack_reset (t_c (cur x))) (set_t_f (stack_reset (t_f (cur x))) (cur x))).
    { unfold base_of, set_c, set_f. rewrite !cur_upd. reflexivity. }
    rewrite CB. split; [|split; [|split]].
    + destruct x. cbn in HO. subst. reflexivity.
    + split; [apply reset_has|]. split; [cbn; lia|]. split; [reflexivity|]. intros k _. exact (proj2 (proj2 (fresh_reset (t_s (cur x)))) k).
    + pose proof (stack_has_len _ _ HR). pose proof (zlen_nonneg rs). rewrite <- add_item_push by lia. apply push_has; [exact HR|lia].
    + reflexivity.
  - intros j c ew. cbn [exec_prim]. unfold clear_stacks. rewrite ?bind_bind, !bind_modify. unfold modify. do 2 f_equal.
    unfold base_of, add_r. rewrite !at_upd. gnorm. apply upd_ext. destruct (cur x) as [? [? ? ? ? ? ?] ? ? ? ? ? ? ? ?]. reflexivity.
Qed.

Definition opening n : list prog := [op n P_clear_stacks; op n P_error; Num (-2); Num 1; op n P_within; op n P_zero_equals].
Definition closing n : list prog := [op n P_flush_output; op n P_clear_error; Op (n_quit n)].
Definition tail n : prog := Seq (op n P_dot_backtrace) (Seq (Num 13) (op n P_emit)).
Lemma abort_shape n a v : holds K v (d_abort n) a -> holds K v (Seq (op n P_clear_stacks) (Seq (block (List.tl (opening n))) (Seq (IfThen (d_report n)) (block (closing n))))) a.
Proof.
  unfold d_abort, opening, closing. cbn [block tl]. intros (A & B & C1 & C2 & C3 & C4 & C5 & C6 & C7 & C8 & C9 & C10).
  split; [exact A|]. split; [exact B|]. split; [exact C1|]. split; [split; [exact C2|split; [exact C3|split; [exact C4|split; [exact C5|exact C6]]]]|].
  split; [exact C7|]. split; [exact C8|]. split; [exact C9|exact C10].
Qed.
Lemma report_shape n a v : holds K v (d_report n) a -> holds K v (Seq (block (heading n)) (tail n)) a.
Proof.
  unfold d_report, heading, tail. cbn [block]. intros (A & B & C1 & C2 & C3 & C4 & C5 & C6 & C7 & C8 & C9 & C10).
  split; [exact A|]. split; [exact B|]. split; [|split; [exact C8|split; [exact C9|exact C10]]].
  split; [exact C1|]. split; [exact C2|]. split; [exact C3|]. split; [exact C4|]. split; [exact C5|]. split; [exact C6|exact C7].
Qed.
Lemma report_run n y rs o e tok u a : mid y [] rs o u -> dict_ok y -> shell K n y -> 0 <= n_space n < 2 ^ 63 -> zlen rs < 255 -> 0 <= st_awp (st y) < words y ->
  v_err y = Some e -> v_tkn y = Some tok -> st_sid (st y) = 0 -> holds K u (d_report n) a -> 0 <= a ->
  exists ts nm z t u', Forall2 (fun (x : Z) t => exists a, addr_of x a /\ location y a t) (rev rs) ts /\
    (st_awp (st y) = 0 /\ nm = [] \/ st_awp (st y) <> 0 /\ exists n', named y (st_awp (st y)) n' /\ nm = n' ++ [32]) /\
    a <= z <= fin (d_report n) a /\ location y z t /\
    mid y [] rs (o ++ tok ++ [32] ++ description e ++ b ", " ++ (b "backtrace: " ++ List.concat ts ++ nm ++ t) ++ [13]) u' /\
    part K u a u' (fin (d_report n) a).
Proof.
  intros HM HD HSh Hn HL HA HE HT HS HH Ha. apply report_shape in HH. change (fin (d_report n) a) with (fin (Seq (block (heading n)) (tail n)) a).
  destruct (holds_seq _ _ _ _ _ HH) as [H1 H2]. destruct (heading_step K n y rs o e tok HSh Hn HL HE HT HS u a HM H1) as (u1 & M1 & P1).
  pose proof (holds_fin K _ _ _ H1) as [F1 _].
  destruct (trace_run K n y rs _ u1 _ M1 HD HSh HA (holds_kept K _ _ _ _ (proj2 P1) H2) ltac:(lia)) as (ts & nm & t & u' & T1 & T2 & T3 & M2 & P2).
  exists ts, nm, (fin (block (heading n)) a + 8), t, u'. split; [exact T1|]. split; [exact T2|].
  split. { change (fin (Seq (block (heading n)) (tail n)) a) with (fin (block (heading n)) a + 8 + 16 + 8). revert F1. generalize (fin (block (heading n)) a). clear. intros; lia. }
  split; [exact T3|]. split; [|eapply part_trans; [exact P1|exact P2]].
  rewrite <- !app_assoc in M2. rewrite <- !app_assoc. exact M2.
Qed.

(** ** What is left afterwards *)
Lemma flushed_mid y d rs o u : mid y d rs o u -> exists s r, good (canary (t_s (cur y))) s d /\ canary r = canary (t_r (cur y)) /\
  flushed u = set_v_out (Some []) (set_v_stdout (v_stdout y ++ shown_line o) (set_r r (set_s s y))).
Proof.
  intros (s & r & -> & A & B & C). exists s, r. split; [exact A|]. split; [exact C|]. unfold flushed, shown_line. cbn [v_out set_v_out].
  destruct o as [|x l].
  - rewrite app_nil_r. unfold set_r, set_s. destruct y. reflexivity.
  - rewrite <- app_comm_cons. cbn [app]. unfold set_r, set_s. destruct y. reflexivity.
Qed.

Lemma fresh_len0 {T} (s0 s : stack T) : fresh_stack s0 s -> stack_has s [].
Proof. intros (A & _). split; [exact A|]. split; [cbn; lia|]. intros [|k] z; discriminate. Qed.
(** Fields that are the same *)
Definition alike x v' : Prop :=
  v_cur v' = v_cur x /\ v_handler v' = v_handler x /\ v_wl v' = v_wl x /\ v_ds v' = v_ds x /\ v_tkn v' = v_tkn x /\
  v_hld v' = v_hld x /\ v_refs v' = v_refs x /\ v_now v' = v_now x /\ v_fwd v' = v_fwd x /\ v_res v' = v_res x /\ v_labels v' = v_labels x /\
  v_os v' = v_os x /\ v_stderr v' = v_stderr x.
Lemma alike_trans x y w : alike x y -> alike y w -> alike x w.
Proof. intros (A1 & A2 & A3 & A4 & A5 & A6 & A7 & A8 & A9 & A10 & A11 & A12 & A13) (B1 & B2 & B3 & B4 & B5 & B6 & B7 & B8 & B9 & B10 & B11 & B12 & B13). repeat split; congruence. Qed.
Lemma alike_upd f x : alike x (upd_cur f x). Proof. repeat split. Qed.
Lemma alike_out e o s x : alike x (set_v_err e (set_v_out o (set_v_stdout s x))). Proof. repeat split. Qed.
Lemma alike_err e x : alike x (set_v_err e x). Proof. repeat split. Qed.
Lemma others_trans x y w : v_cur y = v_cur x -> same_other_tasks x y -> same_other_tasks y w -> same_other_tasks x w.
Proof. intros A B C i H1 H2 H3. rewrite C; [apply B; assumption|exact H1|rewrite A; exact H2|rewrite A; exact H3]. Qed.
Lemma reset_alike c w : alike w (resetted (add_r c w)) /\ same_other_tasks w (resetted (add_r c w)) /\ v_err (resetted (add_r c w)) = None /\
  v_out (resetted (add_r c w)) = v_out w /\ v_stdout (resetted (add_r c w)) = v_stdout w.
Proof.
  split; [|split; [|repeat split]].
  - eapply alike_trans; [apply (alike_upd (set_t_r (add_item (t_r (cur w)) c)))|]. eapply alike_trans; [apply (alike_upd rst)|]. apply alike_err.
  - apply (others_trans _ (add_r c w)); [reflexivity|apply same_other_upd|]. generalize (add_r c w). intro y.
    intros i H1 H2 H3. exact (same_other_upd rst y i H1 H2 H3).
Qed.
Lemma base_alike x : alike x (base_of x) /\ same_other_tasks x (base_of x) /\ v_stdout (base_of x) = v_stdout x.
Proof.
  split; [|split; [|reflexivity]].
  - eapply alike_trans; [apply (alike_upd (set_t_f (stack_reset (t_f (cur x)))))|]. apply (alike_upd (set_t_c (stack_reset (t_c (cur x))))).
  - apply (others_trans _ (set_f (stack_reset (t_f (cur x))) x)); [reflexivity|apply same_other_upd|apply same_other_upd].
Qed.
Lemma line_alike s r S y : let w := set_v_err None (set_v_out (Some []) (set_v_stdout S (set_r r (set_s s y)))) in
  alike y w /\ same_other_tasks y w /\ v_out w = Some [] /\ v_stdout w = S.
Proof.
  cbv zeta. split; [|split; [|split; reflexivity]].
  - eapply alike_trans; [apply (alike_upd (set_t_s s))|]. eapply alike_trans; [apply (alike_upd (set_t_r r))|]. apply alike_out.
  - apply (others_trans _ (set_s s y)); [reflexivity|apply same_other_upd|]. generalize (set_s s y). intro v.
    intros i H1 H2 H3. exact (same_other_upd (set_t_r r) v i H1 H2 H3).
Qed.
Lemma recovered_ok x o u c rs : t_inbuf (cur x) <> None -> mid (base_of x) [] rs o u ->
  let v' := resetted (add_r c (set_v_err None (flushed u))) in
  recovered x (shown_line o) v' /\ steady v' /\ stack_has (t_r (cur v')) [].
Proof.
  intros HB HM. destruct (flushed_mid _ _ _ _ _ HM) as (s & r & (G1 & G2 & G3 & G4) & CR & EF). rewrite EF. clear EF HM.
  assert (CB : cur (base_of x) = set_t_c (stack_reset (t_c (cur x))) (set_t_f (stack_reset (t_f (cur x))) (cur x))).
  { unfold base_of, set_c, set_f. rewrite !cur_upd. reflexivity. }
  rewrite CB in *. cbn [t_s t_r set_t_c set_t_f] in *.
  destruct (base_alike x) as (X1 & X2 & X3). destruct (line_alike s r (v_stdout (base_of x) ++ shown_line o) (base_of x)) as (Y1 & Y2 & Y3 & Y4).
  set (w := set_v_err None (set_v_out (Some []) (set_v_stdout (v_stdout (base_of x) ++ shown_line o) (set_r r (set_s s (base_of x)))))) in *.
  assert (CW : cur w = set_t_r r (set_t_s s (cur (base_of x)))).
  { unfold w. change (cur (set_r r (set_s s (base_of x))) = set_t_r r (set_t_s s (cur (base_of x)))). rewrite cur_set_r, cur_set_s. reflexivity. }
  rewrite CB in CW. clearbody w. pose proof (others_trans _ _ _ (proj1 X1) X2 Y2) as Y2'. pose proof (alike_trans _ _ _ X1 Y1) as Y1'. rewrite X3 in Y4. clear X1 X2 X3 Y1 Y2 CB.
  destruct (reset_alike c w) as (Z1 & Z2 & Z3 & Z4 & Z5).
  assert (CV : cur (resetted (add_r c w)) = rst (set_t_r (add_item (t_r (cur w)) c) (cur w))).
  { rewrite cur_resetted. unfold add_r. rewrite cur_set_r. reflexivity. }
  rewrite CW in CV. cbn [t_r set_t_r] in CV.
  revert Z1 Z2 Z3 Z4 Z5 CV. cbv zeta. generalize (resetted (add_r c w)). intros v' Z1 Z2 Z3 Z4 Z5 CV.
  pose proof (others_trans _ _ _ (proj1 Y1') Y2' Z2) as Y2. pose proof (alike_trans _ _ _ Y1' Z1) as (A1 & A2 & A3 & A4 & A5 & A6 & A7 & A8 & A9 & A10 & A11 & A12 & A13).
  assert (FR : fresh_stack (t_r (cur x)) (stack_reset (add_item r c))).
  { destruct (fresh_reset (add_item r c)) as (F1 & F2 & F3). split; [exact F1|]. split; [rewrite F2; exact CR|exact F3]. }
  split; [|split].
  - unfold recovered, st. rewrite CV, Z4, Z5, Y3, Y4.
    split; [exact G1|]. split; [apply fresh_reset|]. split; [apply fresh_reset|]. split; [exact FR|].
    repeat (split; [first [reflexivity|assumption]|]). reflexivity.
  - unfold steady_on. rewrite check_iff. split; [|split; [|split]].
    + unfold sound, s_overflow, s_underflow, r_overflow, r_underflow, c_overflow, c_underflow, f_overflow, f_underflow, s_stk, r_stk, c_stk, f_stk. rewrite CV.
      pose proof (stack_has_len _ _ G1) as L0. cbn in L0. pose proof (G4 64 ltac:(lia)) as S1. pose proof (G4 255 ltac:(lia)) as S2.
      assert (FO : forall T (eqb : T -> T -> bool) (s0 : stack T), (forall z, eqb z z = true) -> overflow eqb (stack_reset s0) = false /\ underflow eqb (stack_reset s0) = false).
      { intros T eqb s0 HE. unfold overflow, underflow. destruct (fresh_reset s0) as (_ & _ & F3). rewrite !F3, !HE. split; reflexivity. }
      cbn [rst t_s t_r t_c t_f set_t_inbuf set_t_r set_t_s set_t_c set_t_f set_t_state].
      split; [unfold overflow; rewrite S1, G3, L0; rewrite Z.eqb_refl; reflexivity|].
      split; [unfold underflow; rewrite S2, G3, L0; rewrite Z.eqb_refl; reflexivity|].
      repeat (split; [apply FO|]); try apply FO; try apply Z.eqb_refl.
      all: intros z; destruct z; cbn; rewrite ?Z.eqb_refl; reflexivity.
    + exists []. rewrite CV. split; [exact G1|cbn; lia].
    + rewrite CV. discriminate.
    + unfold st. rewrite CV. reflexivity.
  - rewrite CV. apply (fresh_len0 _ _ FR).
Qed.

(** ** From the exception to the prompt *)
Lemma ds_base x : v_ds (base_of x) = v_ds x. Proof. reflexivity. Qed.
Lemma wl_base x : v_wl (base_of x) = v_wl x. Proof. reflexivity. Qed.
Lemma space_num n v (a : Z) : holds K v (d_report n) a -> 0 <= n_space n < 2 ^ 63.
Proof. unfold d_report. cbn [block laid holds]. intros (_ & _ & _ & (_ & H) & _). exact H. Qed.
Lemma base_same x : dict_ok x -> dict_ok (base_of x). Proof. intro H. exact H. Qed.
Lemma location_base x a t : location (base_of x) a t -> location x a t.
Proof. intros [i t0 A B|t0 A B]; [apply (Loc_word _ _ i)|apply Loc_unknown]; assumption. Qed.
Lemma closing_run n x o rs u a : mid (base_of x) [] rs o u -> shell K n x -> t_inbuf (cur x) <> None -> zlen rs < 255 -> holds K u (block (closing n)) a ->
  exists c, part K u a (resetted (add_r c (set_v_err None (flushed u)))) (prompt_addr n x).
Proof.
  intros HM HSh HB HL HH. destruct (mid_same _ _ _ _ _ HM) as (D1 & D2 & _). rewrite ds_base in D1. rewrite wl_base in D2.
  assert (IU : intact K n x u) by (apply intact_eq; assumption). pose proof (shell_stays K _ _ _ IU HSh) as ShU.
  pose proof (mid_r _ _ _ _ _ HM) as HR. pose proof (stack_has_len _ _ HR) as LR. pose proof (zlen_nonneg rs) as LN.
  assert (BU : t_inbuf (cur u) <> None).
  { destruct (mid_cur _ _ _ _ _ HM) as (s1 & r1 & -> & _). unfold base_of, set_c, set_f. rewrite !cur_upd. exact HB. }
  clear HM HR. unfold closing in HH. cbn [block] in HH. destruct (holds_seq _ _ _ _ _ HH) as [H1 H2]. destruct (holds_seq _ _ _ _ _ H2) as [H3 H4]. cbn [op fin] in *.
  destruct (flushed_same u) as (F1 & F2 & F3).
  assert (P1 : part K u a (flushed u) (a + 8)).
  { eapply op_part; [exact H1|apply (shell_prim K n); [exact ShU|cbn; tauto]|apply kept_eq; assumption|]. intro ew. apply flush_at. }
  assert (IF : intact K n u (flushed u)) by (apply intact_eq; assumption).
  pose proof (shell_stays K _ _ _ IF ShU) as ShF. rewrite <- F3 in BU, LR.
  pose proof (holds_kept K _ _ _ _ (proj1 IF) H3) as H3'. pose proof (holds_kept K _ _ _ _ (proj1 IF) H4) as H4'.
  pose proof (after_stays K n _ _ HSh (intact_trans K _ _ _ _ IU IF)) as PA.
  revert P1 IF ShF BU LR H3' H4' PA. generalize (flushed u). intros w P1 IF ShF BU LR H3' H4' PA.
  assert (IE : intact K n w (set_v_err None w)) by (apply intact_eq; reflexivity).
  assert (P2 : part K w (a + 8) (set_v_err None w) (a + 8 + 8)).
  { eapply op_part; [exact H3'|apply (shell_prim K n); [exact ShF|cbn; tauto]|apply IE|]. intro ew. reflexivity. }
  pose proof (shell_stays K _ _ _ IE ShF) as ShE. pose proof (holds_kept K _ _ _ _ (proj1 IE) H4') as H5. pose proof (after_stays K n _ _ ShF IE) as PE.
  change (cur w) with (cur (set_v_err None w)) in BU, LR.
  revert P2 ShE H5 BU LR PE. generalize (set_v_err None w). intros z P2 ShE H5 BU LR PE.
  exists (a + 8 + 8 + 8). eapply part_trans; [exact P1|]. eapply part_trans; [exact P2|]. rewrite <- PA, <- PE.
  eapply quit_run; [exact H5|reflexivity|exact ShE|exact BU|]. lia.
Qed.
Lemma error_steps n y rs o e : shell K n y -> v_err y = Some e ->
  step K (block (List.tl (opening n))) y [] rs o [flag_of (negb ((-2 <=? e) && (e <? 1)))] o.
Proof.
  intros HSh HE. unfold opening. cbn [block tl].
  assert (W : forall p, In p shell_prims -> word_is y (ix n p) p) by (intros; apply (shell_prim K n); assumption).
  eapply step_seq. { eapply (step_push K _ _ e); [apply W; cbn; tauto|cbn; lia|]. intros u HM ew j c. destruct (mid_same _ _ _ _ _ HM) as (_ & _ & _ & T & _).
    cbn [exec_prim]. unfold error. rewrite bind_gets. change (v_err (at_ j c u)) with (v_err u). rewrite T, HE. reflexivity. }
  eapply step_seq; [apply step_num; cbn; lia|]. eapply step_seq; [apply step_num; cbn; lia|].
  eapply step_seq; [apply step_within; apply W; cbn; tauto|].
  replace (flag_of (negb ((-2 <=? e) && (e <? 1)))) with (if flag_of ((-2 <=? e) && (e <? 1)) =? 0 then -1 else 0) by (destruct ((-2 <=? e) && (e <? 1)); reflexivity).
  apply step_not. apply W. cbn; tauto.
Qed.
Lemma handler_part n e rs o x : recoverable K n e rs o x ->
  exists v' text, goes (add_r (st_ip (st x)) x) (w_dfa (word_of x (n_abort n))) v' (prompt_addr n x) /\
    at_prompt K n v' /\ intact K n x v' /\ report n x (st_ip (st x) :: rs) e text /\ recovered x (shown_line (o ++ text)) v'.
Proof.
  intros (HSh & HD & HH0 & (y0 & HRa) & HT & HO & HS & HB & HR & HL & HA & HI). set (ip := st_ip (st x)) in *. set (D := w_dfa (word_of x (n_abort n))).
  destruct (v_tkn x) as [tok|] eqn:ET; [|congruence]. clear HT.
  assert (EE : v_err x = Some e) by apply HRa. clear HRa.
  pose proof HSh as (_ & _ & _ & (_ & _ & HAb) & _). fold D in HAb. destruct (holds_seq _ _ _ _ _ HAb) as [HAb1 _].
  assert (KX : kept K x (add_r ip x)) by (apply kept_eq; reflexivity).
  pose proof (abort_shape n _ _ (holds_kept K _ _ _ _ KX HAb1)) as H0. 
  assert (HD0 : 0 <= D) by (destruct HAb1 as ((A1 & _) & A2 & _); lia).
  destruct (holds_seq _ _ _ _ _ H0) as [H1 H2].
  destruct (cleared_mid x o ip rs HO HR ltac:(lia)) as (u1 & M1 & X1).
  assert (Iy : intact K n x (base_of x)) by (apply intact_eq; reflexivity).
  pose proof (shell_stays K _ _ _ Iy HSh) as Shy.
  assert (K1 : kept K (add_r ip x) u1).
  { destruct (mid_same _ _ _ _ _ M1) as (E1 & E2 & _). apply kept_eq; assumption. }
  assert (P1 : part K (add_r ip x) D u1 (D + 8)).
  { eapply op_part; [exact H1|apply (shell_prim K n x); [exact HSh|cbn; tauto]|exact K1|]. intro ew. apply X1. }
  clear X1 H1. pose proof (holds_kept K _ _ _ _ K1 H2) as H3. change (fin (op n P_clear_stacks) D) with (D + 8) in H3.
  destruct (holds_seq _ _ _ _ _ H3) as [H4 H5].
  assert (EY : v_err (base_of x) = Some e) by exact EE.
  destruct (error_steps n _ (ip :: rs) o e Shy EY u1 (D + 8) M1 H4) as (u2 & M2 & P2).
  set (A := fin (block (tl (opening n))) (D + 8)) in *. assert (HAd : A = D + 64) by (unfold A, opening; cbn [tl block op fin]; lia).
  pose proof (holds_kept K _ _ _ _ (proj2 P2) H5) as H6. destruct (holds_seq _ _ _ _ _ H6) as [H7 H8].
  assert (RL : zlen (ip :: rs) < 255) by (rewrite zlen_cons; lia).
  assert (FIN : forall text u3, report n x (ip :: rs) e text -> mid (base_of x) [] (ip :: rs) (o ++ text) u3 -> part K u2 A u3 (fin (IfThen (d_report n)) A) ->
    exists v' text, goes (add_r ip x) D v' (prompt_addr n x) /\ at_prompt K n v' /\ intact K n x v' /\ report n x (ip :: rs) e text /\ recovered x (shown_line (o ++ text)) v').
  { intros text u3 HRep M3 P3. destruct (closing_run n x _ _ u3 _ M3 HSh HB RL (holds_kept K _ _ _ _ (proj2 P3) H8)) as (c & P4).
    destruct (recovered_ok x _ u3 c _ HB M3) as (R1 & R2 & R3). cbv zeta in R1, R2, R3. revert P4 R1 R2 R3. generalize (resetted (add_r c (set_v_err None (flushed u3)))). intros v' P4 R1 R2 R3.
    exists v', text. assert (Iv : intact K n x v') by (apply intact_eq; apply R1).
    split; [|split; [split; [exact (shell_stays K _ _ _ Iv HSh)|split; assumption]|split; [exact Iv|split; [exact HRep|exact R1]]]].
    pose proof (part_trans K _ _ _ _ _ _ P1 (part_trans K _ _ _ _ _ _ P2 (part_trans K _ _ _ _ _ _ P3 P4))) as [G _]. exact G. }
  destruct ((-2 <=? e) && (e <? 1)) eqn:EQ; cbn [negb flag_of] in M2.
  - destruct (step_skip K (d_report n) _ _ _ _ u2 A M2 H7) as (u3 & M3 & P3). apply (FIN [] u3); [apply Rep_none; lia|rewrite app_nil_r; exact M3|exact P3].
  - destruct (mid_takes _ _ _ _ _ _ M2) as [T M2'].
    assert (K2 : kept K u2 (drop_s 1 u2)) by (apply kept_eq; reflexivity).
    assert (H9 : holds K (drop_s 1 u2) (d_report n) (A + 16)).
    { eapply holds_kept; [exact K2|]. destruct H7 as (A1 & A2 & _ & A3 & A4). pose proof (cell_top _ _ _ _ A3). split; [exact A1|]. split; [lia|exact A4]. }
    pose proof (space_num n _ _ H9) as Hn.
    assert (AY : 0 <= st_awp (st (base_of x)) < words (base_of x)).
    { unfold base_of, set_c, set_f, st. rewrite !cur_upd. exact HA. }
    assert (SY : st_sid (st (base_of x)) = 0).
    { unfold base_of, set_c, set_f, st. rewrite !cur_upd. exact HS. }
    destruct (report_run n _ _ o e tok _ _ M2' (base_same x HD) Shy Hn RL AY EY ET SY H9 ltac:(lia)) as (ts & nm & z & t & u3 & T1 & T2 & T3 & T4 & M3 & P3).
    apply (FIN (tok ++ [32] ++ description e ++ b ", " ++ (b "backtrace: " ++ List.concat ts ++ nm ++ t) ++ [13]) u3).
    + apply Rep_some; [lia|exact ET|]. exists ts, nm, z, t. split; [|split; [|split; [|split; [apply location_base; exact T4|reflexivity]]]].
      * clear - T1. induction T1 as [|x0 t0 l l' (z & Z1 & Z2) _ IH]; constructor; [|exact IH]. exists z. split; [exact Z1|apply location_base; exact Z2].
      * unfold base_of, set_c, set_f, st in T2. rewrite !cur_upd in T2. exact T2.
      * unfold own_code. fold D. change (fin (Seq (d_abort n) (Op (ix n P_exit))) D) with (fin (d_report n) (A + 16) + 8 + 8 + 8 + 8). lia.
    + exact M3.
    + eapply if_then_run; [exact H7|exact T|intros _; exact P3|intro C; discriminate C].
Qed.
End L.
