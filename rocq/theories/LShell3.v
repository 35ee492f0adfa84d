(** The terminal program: the exception handler (C89). *)
From Coq Require Import ZArith List Bool Lia String ZifyBool ZifyNat.
From Verif Require Import Base Stack Mem Parser State CoreM IoM FileM Exec LBase LStack Spec Spec2 Spec4 Spec5 Spec6 Spec7 Spec9 Spec10 Spec11 Spec12 Spec14 Spec15 Spec16 Spec17 Spec19 Spec24 Spec25
  LState LMem LMon LMemWords LTask LFuel LCode LComp LRun LCtl LFloat LWords LSay LLib LLibWords LDefine LDefine2 LNoInput LSource LEval LNest LSys Spec27 LShell LShell2.
Import ListNotations.
Open Scope list_scope.
Open Scope Z_scope.
Open Scope m_scope.

Section L.
Context {E : Env}.
Variable K : Z -> Prop.
Implicit Types (v w u y : vm).
Ltac aeq := rewrite ?at_upd; gnorm; apply upd_ext; cbn;
  match goal with |- context [cur ?v] => destruct (cur v) as [? [? ? ? ? ? ?] ? ? ? ? ? ? ? ?] end; reflexivity.

(** ** Small data stacks *)
Definition good (c : Z) (s : stack Z) (d : list Z) : Prop :=
  stack_has s d /\ zlen d <= 8 /\ canary s = c /\ forall k, 8 <= k < 256 -> sget s k = c.
Lemma good_push c s d x : good c s d -> zlen d < 8 -> good c (push s x) (x :: d).
Proof.
  clear K. intros (A & B & C & D) H. pose proof (stack_has_len _ _ A) as L. pose proof (zlen_nonneg d). split; [apply push_has; [exact A|lia]|].
  split; [rewrite zlen_cons; lia|]. rewrite add_item_push by lia. split; [exact C|]. intros k Hk. unfold add_item. rewrite sget_set_len, sget_sset_other by lia. apply D. exact Hk.
Qed.
Lemma good_drop c s l d : good c s (l ++ d) -> good c (drop_items (zlen l) s) d.
Proof.
  clear K. intros (A & B & C & D). split; [apply drop_has; exact A|]. rewrite zlen_app in B. pose proof (zlen_nonneg l). split; [lia|]. split; [exact C|exact D].
Qed.

(** ** The states in which the message is printed *)
Definition mid y (d rs : list Z) (o : bytes) u : Prop :=
  exists s r, u = set_v_out (Some o) (set_r r (set_s s y)) /\ good (canary (t_s (cur y))) s d /\ stack_has r rs /\ canary r = canary (t_r (cur y)).
Lemma mid_cur y d rs o u : mid y d rs o u -> exists s r, cur u = set_t_r r (set_t_s s (cur y)) /\ good (canary (t_s (cur y))) s d /\ stack_has r rs.
Proof.
  intros (s & r & -> & A & B & C). exists s, r. split; [|split; assumption].
  change (cur (set_v_out (Some o) (set_r r (set_s s y)))) with (cur (set_r r (set_s s y))). rewrite cur_set_r, cur_set_s. reflexivity.
Qed.
Lemma mid_s y d rs o u : mid y d rs o u -> good (canary (t_s (cur y))) (t_s (cur u)) d.
Proof. intro H. destruct (mid_cur _ _ _ _ _ H) as (s & r & -> & A & _). exact A. Qed.
Lemma mid_r y d rs o u : mid y d rs o u -> stack_has (t_r (cur u)) rs.
Proof. intro H. destruct (mid_cur _ _ _ _ _ H) as (s & r & -> & _ & A). exact A. Qed.
Lemma mid_len y d rs o u : mid y d rs o u -> len (t_s (cur u)) = zlen d /\ zlen d <= 8 /\ 0 <= zlen d.
Proof. clear K. intro H. destruct (mid_s _ _ _ _ _ H) as (A & B & _). split; [apply stack_has_len; exact A|]. split; [exact B|apply zlen_nonneg]. Qed.
Lemma out_set_s s o v : set_s s (set_v_out o v) = set_v_out o (set_s s v). Proof. reflexivity. Qed.
Lemma out_set_r s o v : set_r s (set_v_out o v) = set_v_out o (set_r s v). Proof. reflexivity. Qed.
Lemma set_s_r s r v : set_s s (set_r r v) = set_r r (set_s s v).
Proof. unfold set_s, set_r. rewrite !upd_upd. reflexivity. Qed.
Lemma set_r_set_r s r v : set_r s (set_r r v) = set_r s v.
Proof. unfold set_r. rewrite upd_upd. apply upd_ext. reflexivity. Qed.
Lemma mid_set_s y d rs o u s d' : mid y d rs o u -> good (canary (t_s (cur y))) s d' -> mid y d' rs o (set_s s u).
Proof.
  intros (s0 & r & -> & A & B & C) G. exists s, r. split; [|split; [exact G|split; assumption]]. clear. rewrite out_set_s, set_s_r, set_s_set_s. reflexivity.
Qed.
Lemma mid_set_r y d rs o u r rs' : mid y d rs o u -> stack_has r rs' -> canary r = canary (t_r (cur u)) -> mid y d rs' o (set_r r u).
Proof.
  intros (s0 & r0 & -> & A & B & C) G D. exists s0, r. split; [|split; [exact A|split; [exact G|]]].
  - clear. rewrite out_set_r, set_r_set_r. reflexivity.
  - rewrite D. change (cur (set_v_out (Some o) (set_r r0 (set_s s0 y)))) with (cur (set_r r0 (set_s s0 y))). rewrite cur_set_r. exact C.
Qed.
Lemma mid_put y d rs o u s : mid y d rs o u -> mid y d rs (o ++ s) (put s u).
Proof. intros (s0 & r & -> & A & B & C). exists s0, r. split; [reflexivity|split; [exact A|split; assumption]]. Qed.
Lemma mid_same y d rs o u : mid y d rs o u -> v_ds u = v_ds y /\ v_wl u = v_wl y /\ v_out u = Some o /\ v_err u = v_err y /\ v_tkn u = v_tkn y /\ st u = st y.
Proof.
  intros H. pose proof (mid_cur _ _ _ _ _ H) as (s1 & r1 & EC & _). destruct H as (s & r & -> & _). repeat split. unfold st. rewrite EC. reflexivity.
Qed.
Lemma mid_add_s y d rs o u x : mid y d rs o u -> zlen d < 8 -> mid y (x :: d) rs o (add_s x u).
Proof.
  clear K. intros H L. destruct (mid_len _ _ _ _ _ H) as (L1 & L2 & L3). unfold add_s. eapply mid_set_s; [exact H|]. rewrite <- add_item_push by lia.
  apply good_push; [eapply mid_s; exact H|exact L].
Qed.
Lemma mid_drop_s y l d rs o u : mid y (l ++ d) rs o u -> mid y d rs o (drop_s (zlen l) u).
Proof. intros H. unfold drop_s. eapply mid_set_s; [exact H|]. apply good_drop. eapply mid_s. exact H. Qed.
Lemma mid_spoken y d rs o u a s : mid y d rs o u -> zlen d <= 6 -> mid y d rs (o ++ s) (spoken a s u).
Proof.
  clear K. intros H L. unfold spoken. apply mid_put. apply (mid_drop_s y [zlen s; a]). apply mid_add_s; [apply mid_add_s; [exact H|lia]|rewrite zlen_cons; lia].
Qed.

(** ** Steps *)
Lemma op_part v a i p u : holds K v (Op i) a -> word_is v i p -> kept K v u ->
  (forall ew, exec_prim 0 ew p (at_ i (a + 8) v) = Ok (tt, at_ i (a + 8) u)) -> part K v a u (a + 8).
Proof.
  intros (HA & Ha & C & Hi) W HK H. split; [|exact HK]. intros w HC. destruct (step_cell K v a i w HA HC C Hi) as [R1 R2].
  exists (at_ i (a + 8) u). split; [|apply continues_at]. apply one_step. split; [exact R1|]. exists 1%nat.
  rewrite R2, (execute_word_eq 0 i (set_ip (a + 8) v) p W), set_wp_ip. apply H.
Qed.
Definition step (p : prog) y d rs o d' o' : Prop :=
  forall u a, mid y d rs o u -> holds K u p a -> exists u', mid y d' rs o' u' /\ part K u a u' (fin p a).
Lemma step_seq p q y d rs o d1 o1 d2 o2 : step p y d rs o d1 o1 -> step q y d1 rs o1 d2 o2 -> step (Seq p q) y d rs o d2 o2.
Proof.
  intros A B u a HM HH. destruct (holds_seq _ _ _ _ _ HH) as [H1 H2]. destruct (A u a HM H1) as (u1 & M1 & P1).
  destruct (B u1 (fin p a) M1) as (u2 & M2 & P2); [eapply holds_kept; [apply P1|exact H2]|].
  exists u2. split; [exact M2|]. eapply part_trans; [exact P1|exact P2].
Qed.
Lemma mid_word y d rs o u i p : mid y d rs o u -> word_is y i p -> word_is u i p.
Proof. intros H. destruct (mid_same _ _ _ _ _ H) as (_ & A & _). unfold word_is. rewrite A. auto. Qed.
Lemma mid_kept y d rs o u d' rs' o' u' : mid y d rs o u -> mid y d' rs' o' u' -> kept K u u'.
Proof.
  intros H H'. destruct (mid_same _ _ _ _ _ H) as (A & B & _). destruct (mid_same _ _ _ _ _ H') as (A' & B' & _). apply kept_eq; congruence.
Qed.
Lemma step_op i p y d rs o d' o' : word_is y i p ->
  (forall u, mid y d rs o u -> exists u', mid y d' rs o' u' /\ forall ew j c, exec_prim 0 ew p (at_ j c u) = Ok (tt, at_ j c u')) ->
  step (Op i) y d rs o d' o'.
Proof.
  intros W H u a HM HH. destruct (H u HM) as (u' & M' & EX). exists u'. split; [exact M'|]. cbn [fin].
  eapply op_part; [exact HH|eapply mid_word; [exact HM|exact W]|eapply mid_kept; [exact HM|exact M']|]. intro. apply EX.
Qed.
Lemma step_push i p x y d rs o : word_is y i p -> zlen d < 8 ->
  (forall u, mid y d rs o u -> forall ew j c, exec_prim 0 ew p (at_ j c u) = s_push x (at_ j c u)) -> step (Op i) y d rs o (x :: d) o.
Proof.
  intros W L H. eapply step_op; [exact W|]. intros u HM. exists (add_s x u). split; [apply mid_add_s; assumption|]. intros ew j c. rewrite (H u HM).
  apply push_at. destruct (mid_len _ _ _ _ _ HM). lia.
Qed.
Lemma step_num x y d rs o : zlen d < 8 -> step (Num x) y d rs o (x :: d) o.
Proof.
  intros L u a HM HH. exists (add_s x u). split; [apply mid_add_s; assumption|]. apply num_run; [exact HH|]. destruct (mid_len _ _ _ _ _ HM). lia.
Qed.
Lemma step_on_s i p f y d rs o d' : word_is y i p -> (forall ew, exec_prim 0 ew p = on_s f) ->
  (forall s, good (canary (t_s (cur y))) s d -> good (canary (t_s (cur y))) (f s) d') -> step (Op i) y d rs o d' o.
Proof.
  intros W HE HF. eapply step_op; [exact W|]. intros u HM. exists (set_s (f (t_s (cur u))) u). split.
  - eapply mid_set_s; [exact HM|]. apply HF. eapply mid_s; exact HM.
  - intros ew j c. rewrite HE. unfold on_s, modify, s_stk. rewrite s_at, set_s_at. reflexivity.
Qed.
Lemma step_out i p s y d rs o : word_is y i p ->
  (forall u, mid y d rs o u -> forall ew j c, exec_prim 0 ew p (at_ j c u) = out_push s (at_ j c u)) -> step (Op i) y d rs o d (o ++ s).
Proof.
  intros W H. eapply step_op; [exact W|]. intros u HM. exists (put s u). split; [apply mid_put; exact HM|]. intros ew j c. rewrite (H u HM).
  rewrite <- put_at. reflexivity.
Qed.
Lemma step_says n s y d rs o : word_is y (ix n P_p_type) P_p_type -> zlen d <= 6 -> zlen s < 2 ^ 63 -> step (says n s) y d rs o d (o ++ s).
Proof.
  intros W L LS u a HM HH. exists (spoken (a + 16) s u). split; [apply mid_spoken; assumption|]. destruct (mid_s _ _ _ _ _ HM) as (G1 & G2 & G3 & G4).
  apply (says_gen K n u d); [eapply mid_word; [exact HM|exact W]|exact G1|lia| |exact LS|exact HH]. rewrite G3. apply G4. lia.
Qed.
Lemma step_emit i x y d rs o : word_is y i P_emit -> 0 <= x < 128 -> step (Op i) y (x :: d) rs o d (o ++ [x]).
Proof.
  intros W HX. eapply step_op; [exact W|]. intros u HM. exists (put [x] (drop_s 1 u)). split; [apply mid_put, (mid_drop_s y [x]); exact HM|].
  intros ew j c. destruct (mid_s _ _ _ _ _ HM) as (G1 & _). cbn [exec_prim]. unfold emit, s_pop, bind, s_stk. rewrite s_at, (pop_items _ _ _ G1).
  unfold out_push, modify. rewrite set_s_at, <- put_at. unfold utf8_latin1, to_u8. rewrite Z.mod_small by lia. replace (x <? 128) with true by lia. reflexivity.
Qed.
(** A call of a word defined by : *)
Lemma step_call i p x y d rs o d' o' : colon_word K y i p x -> 0 <= i < 2 ^ 63 -> zlen rs < 255 -> (forall ra, step p y d (ra :: rs) o d' o') -> step (Op i) y d rs o d' o'.
Proof.
  intros (W & WX & HB) Hi0 LR HP u a HM HH. pose proof HH as (HA & Ha & C & Hi).
  pose proof (mid_r _ _ _ _ _ HM) as R. pose proof (stack_has_len _ _ R) as RL. pose proof (zlen_nonneg rs) as RN.
  assert (M1 : mid y d (a + 8 :: rs) o (add_r (a + 8) u)).
  { unfold add_r. eapply mid_set_r; [exact HM| |reflexivity]. rewrite <- add_item_push by lia. apply push_has; [exact R|lia]. }
  destruct (mid_same _ _ _ _ _ HM) as (D1 & D2 & _).
  assert (HK : kept K y (add_r (a + 8) u)) by (apply kept_eq; assumption).
  pose proof (holds_kept K _ _ _ _ HK HB) as HB1. destruct (holds_seq _ _ _ _ _ HB1) as [HB2 HB3].
  destruct (HP (a + 8) _ _ M1 HB2) as (u' & M' & P').
  destruct (call_and_return K u i a u' (fin p (w_dfa (word_of y i))) x rs) as [PP R'].
  - exact HA.
  - exact C.
  - lia.
  - eapply mid_word; [exact HM|exact W].
  - lia.
  - replace (wl_get (v_wl u) i) with (word_of y i) by (unfold word_of; rewrite D2; reflexivity). exact P'.
  - eapply kept_cell; [eapply mid_kept; [exact M1|exact M']|apply HB3].
  - apply HB3.
  - eapply mid_word; [exact M'|exact WX].
  - eapply mid_r; exact M'.
  - exists (drop_r 1 u'). split; [|exact PP]. unfold drop_r. eapply mid_set_r; [exact M'| |reflexivity].
    apply (drop_has _ [a + 8]). eapply mid_r; exact M'.
Qed.

(** ** The message *)
Lemma mid_location y d rs o u j c a t : mid y d rs o u -> location (at_ j c u) a t -> location y a t.
Proof.
  intros (s0 & r & -> & _) H. destruct H as [i t A B|t A B]; [apply (Loc_word _ _ i)|apply Loc_unknown]; assumption.
Qed.
Lemma mid_dict y d rs o u j c : mid y d rs o u -> dict_ok y -> dict_ok (at_ j c u).
Proof. intros (s0 & r & -> & _) H. exact H. Qed.
Lemma step_within i e y rs o : word_is y i P_within ->
  step (Op i) y [1; -2; e] rs o [flag_of ((-2 <=? e) && (e <? 1))] o.
Proof.
  intro W. eapply step_on_s; [exact W|reflexivity|]. intros s G. unfold within_. pose proof G as (G1 & _). rewrite (pop3_items _ _ _ _ _ G1).
  change (flag ((-2 <=? e) && (e <? 1))) with (flag_of ((-2 <=? e) && (e <? 1))). apply good_push; [|cbn; lia]. apply (good_drop _ _ [1; -2; e] []). exact G.
Qed.
Lemma step_not i x y d rs o : word_is y i P_zero_equals -> step (Op i) y (x :: d) rs o ((if x =? 0 then -1 else 0) :: d) o.
Proof.
  intro W. eapply step_on_s; [exact W|reflexivity|]. intros s G. pose proof G as (G1 & G2 & _). unfold zero_equals_, un_. rewrite (pop_items _ _ _ G1).
  rewrite zlen_cons in G2. apply good_push; [|lia]. apply (good_drop _ _ [x] d). exact G.
Qed.
Lemma step_dup i x y d rs o : word_is y i P_dup -> zlen d < 7 -> step (Op i) y (x :: d) rs o (x :: x :: d) o.
Proof.
  intros W L. eapply step_on_s; [exact W|reflexivity|]. intros s G. pose proof G as (G1 & G2 & _).
  pose proof (stack_has_len _ _ G1) as L1. rewrite zlen_cons in *. pose proof (zlen_nonneg d) as L0.
  replace (dup_ s) with (push s x); [apply good_push; [exact G|rewrite zlen_cons; lia]|].
  unfold dup_, push. rewrite w8add_ok by lia. rewrite !w8sub_ok by lia. f_equal. rewrite sget_set_len.
  replace (len s + 1 - 2) with (len s - 1) by lia. pose proof (pop_items _ _ _ G1) as EP. unfold pop in EP. rewrite w8sub_ok in EP by lia. congruence.
Qed.
Lemma step_drop i x y d rs o : word_is y i P_p_drop -> step (Op i) y (x :: d) rs o d o.
Proof.
  intro W. eapply step_on_s; [exact W|reflexivity|]. intros s G. pose proof G as (G1 & _).
  replace (drop_ s) with (snd (pop s)) by reflexivity. rewrite (pop_items _ _ _ G1). apply (good_drop _ _ [x] d). exact G.
Qed.
Lemma mid_takes y x d rs o u : mid y (x :: d) rs o u -> takes u x (drop_s 1 u) /\ mid y d rs o (drop_s 1 u).
Proof. intro H. destruct (mid_s _ _ _ _ _ H) as (G & _). split; [exists d; split; [exact G|reflexivity]|apply (mid_drop_s y [x]); exact H]. Qed.
Lemma step_else p q y d rs o d' o' : step q y d rs o d' o' -> step (IfElse p q) y (0 :: d) rs o d' o'.
Proof.
  intros HQ u a HM HH. destruct (mid_takes _ _ _ _ _ _ HM) as [T M1].
  assert (HK : kept K u (drop_s 1 u)) by (eapply mid_kept; [exact HM|exact M1]).
  assert (HB : holds K (drop_s 1 u) q (fin p (a + 16) + 16)).
  { pose proof (holds_kept K _ _ _ _ HK HH) as (A & B & L). cbn [laid] in L; cbv zeta in L. destruct L as (W & C & L & W' & C' & L').
    pose proof (cell_top _ _ _ _ C) as Ct. pose proof (cell_top _ _ _ _ C') as Ct'. pose proof (laid_range K _ _ _ L ltac:(lia)) as R.
    split; [exact A|split; [lia|assumption]]. }
  destruct (HQ _ _ M1 HB) as (u' & M' & P'). exists u'. split; [exact M'|].
  eapply if_else_run; [exact HH|exact T|intro X; congruence|intros _; exact P'].
Qed.
Lemma step_skip p y d rs o : step (IfThen p) y (0 :: d) rs o d o.
Proof.
  intros u a HM HH. destruct (mid_takes _ _ _ _ _ _ HM) as [T M1]. exists (drop_s 1 u). split; [exact M1|].
  eapply if_then_run; [exact HH|exact T|intro X; congruence|reflexivity].
Qed.
Lemma step_space n y rs o : shell K n y -> 0 <= n_space n < 2 ^ 63 -> zlen rs < 255 -> step (Op (n_space n)) y [] rs o [] (o ++ [32]).
Proof.
  intros HSh Hn L. eapply step_call; [apply HSh|exact Hn|exact L|]. intro ra. unfold d_space. cbn [block].
  eapply step_seq; [apply step_num; cbn; lia|]. apply step_emit; [apply (shell_prim K n); [exact HSh|cbn; tauto]|lia].
Qed.

(** All of the message but its end *)
Definition heading n : list prog :=
  [op n P_dot_token; Op (n_space n); op n P_dot_error; op n P_p_source_id; op n P_dup;
    IfElse (block [op n P_dup; says n (b " ("); op n P_dot_source_path; says n (b ":"); Op (n_line n); op n P_fetch; Num 0; op n P_dot_r;
                   says n (b ": "); op n P_dot_source_line; says n (b ")")])
           (op n P_p_drop);
    says n (b ", ")].
Lemma heading_step n y rs o e tok : shell K n y -> 0 <= n_space n < 2 ^ 63 -> zlen rs < 255 -> v_err y = Some e -> v_tkn y = Some tok -> st_sid (st y) = 0 ->
  step (block (heading n)) y [] rs o [] (o ++ tok ++ [32] ++ description e ++ b ", ").
Proof.
  intros HSh Hn L HE HT HS. unfold heading. cbn [block].
  assert (W : forall p, In p shell_prims -> word_is y (ix n p) p) by (intros; apply (shell_prim K n); assumption).
  replace (o ++ tok ++ [32] ++ description e ++ b ", ") with ((((o ++ tok) ++ [32]) ++ description e) ++ b ", ") by (rewrite <- !app_assoc; reflexivity).
  eapply step_seq. { eapply (step_out _ _ tok); [apply W; cbn; tauto|]. intros u HM ew j c. destruct (mid_same _ _ _ _ _ HM) as (_ & _ & _ & _ & T & _).
    cbn [exec_prim]. unfold dot_token. rewrite bind_gets. change (v_tkn (at_ j c u)) with (v_tkn u). rewrite T, HT. reflexivity. }
  eapply step_seq; [apply step_space; assumption|].
  eapply step_seq. { eapply (step_out _ _ (description e)); [apply W; cbn; tauto|]. intros u HM ew j c. destruct (mid_same _ _ _ _ _ HM) as (_ & _ & _ & T & _).
    cbn [exec_prim]. unfold dot_error. rewrite bind_gets. change (v_err (at_ j c u)) with (v_err u). rewrite T, HE. reflexivity. }
  eapply step_seq. { eapply (step_push _ _ 0); [apply W; cbn; tauto|cbn; lia|]. intros u HM ew j c. destruct (mid_same _ _ _ _ _ HM) as (_ & _ & _ & _ & _ & T).
    cbn [exec_prim]. unfold p_source_id. rewrite bind_gets, st_at. cbn [st_sid set_st_ip set_st_wp]. rewrite T, HS. reflexivity. }
  eapply step_seq; [eapply step_dup; [apply W; cbn; tauto|cbn; lia]|].
  eapply step_seq; [apply step_else; eapply step_drop; apply W; cbn; tauto|].
  apply step_says; [apply W; cbn; tauto|cbn; lia|cbn; lia].
Qed.

(** The end of the message, with the words being executed *)
Lemma trace_run n y rs o u a : mid y [] rs o u -> dict_ok y -> shell K n y -> 0 <= st_awp (st y) < words y ->
  holds K u (Seq (op n P_dot_backtrace) (Seq (Num 13) (op n P_emit))) a -> 0 <= a ->
  exists ts nm t u', Forall2 (fun x t => exists a, addr_of x a /\ location y a t) (rev rs) ts /\
    (st_awp (st y) = 0 /\ nm = [] \/ st_awp (st y) <> 0 /\ exists n', named y (st_awp (st y)) n' /\ nm = n' ++ [32]) /\
    location y (a + 8) t /\
    mid y [] rs (o ++ (b "backtrace: " ++ List.concat ts ++ nm ++ t) ++ [13]) u' /\
    part K u a u' (fin (Seq (op n P_dot_backtrace) (Seq (Num 13) (op n P_emit))) a).
Proof.
  intros HM HD HSh HA HH Ha. destruct (holds_seq _ _ _ _ _ HH) as [H1 H2]. destruct (mid_same _ _ _ _ _ HM) as (D1 & D2 & D3 & D4 & D5 & D6).
  pose proof H1 as ((A1 & A2) & A3 & A4 & A5). pose proof (cell_top _ _ _ _ A4) as At.
  set (j := ix n P_dot_backtrace) in *.
  destruct (dot_backtrace_ok (at_ j (a + 8) u) rs o) as (ts & nm & t & T1 & T2 & T3 & T4).
  - eapply mid_dict; [exact HM|exact HD].
  - exact D3.
  - rewrite cur_at. exact (mid_r _ _ _ _ _ HM).
  - rewrite st_at. cbn [st_awp set_st_ip set_st_wp]. rewrite D6. unfold words in *. change (v_wl (at_ j (a + 8) u)) with (v_wl u). rewrite D2. exact HA.
  - rewrite st_at. cbn [st_ip set_st_ip set_st_wp]. lia.
  - rewrite st_at in T2, T3. cbn [st_ip st_awp set_st_ip set_st_wp] in T2, T3. rewrite D6 in T2.
    set (text := b "backtrace: " ++ List.concat ts ++ nm ++ t) in *.
    pose proof (mid_put _ _ _ _ _ text HM) as M1.
    assert (P1 : part K u a (put text u) (a + 8)).
    { eapply op_part; [exact H1|eapply mid_word; [exact HM|apply (shell_prim K n); [exact HSh|cbn; tauto]]|eapply mid_kept; [exact HM|exact M1]|].
      fold j. intro ew. destruct (T4 O) as (v' & Q1 & Q2). rewrite (Q1 ew). rewrite Q2, <- put_at. reflexivity. }
    assert (ST : step (Seq (Num 13) (op n P_emit)) y [] rs (o ++ text) [] ((o ++ text) ++ [13])).
    { eapply step_seq; [apply step_num; cbn; lia|]. apply step_emit; [apply (shell_prim K n); [exact HSh|cbn; tauto]|lia]. }
    destruct (ST _ (a + 8) M1) as (u' & M2 & P2); [eapply holds_kept; [apply P1|exact H2]|].
    exists ts, nm, t, u'. split; [|split; [|split; [|split]]].
    + clear - T1 HM. induction T1 as [|x t0 l l' (z & Z1 & Z2) _ IH]; constructor; [|exact IH]. exists z. split; [exact Z1|eapply mid_location; [exact HM|exact Z2]].
    + destruct T2 as [T2|(T2 & n' & N1 & N2)]; [left; exact T2|right]. split; [exact T2|]. exists n'. split; [|exact N2].
      destruct HM as (s0 & r0 & -> & _). exact N1.
    + eapply mid_location; [exact HM|exact T3].
    + rewrite <- app_assoc in M2. exact M2.
    + eapply part_trans; [exact P1|exact P2].
Qed.
End L.
