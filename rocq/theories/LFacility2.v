(** GET and RELEASE as words: what they do when they return, waiting, and being woken. *)
From Coq Require Import ZArith List Bool String Lia ZifyBool ZifyNat.
From Verif Require Import Base Stack Mem Parser State CoreM Exec LBase LStack Spec Spec2 Spec4 Spec5 Spec7 Spec10 Spec15 Spec16 Spec18
  LState LMem LMon LMemWords LWords LTask LFuel LCode LRun LCtl LLib LLibWords LSafe LFacility.
Import ListNotations.
Open Scope Z_scope.
Open Scope m_scope.
Open Scope list_scope.
Ltac Zify.zify_post_hook ::= Z.div_mod_to_equations.

Section F.
Context {E : Env}.
Implicit Types (v w : vm).
Ltac go := apply lib_action_of; intros K ix v rest rs fs r u L S0 Hr Hrs HD HP I; cbn [app] in I; pose proof (zlen_nonneg rest).
Ltac room := match goal with H : ds_ok _ |- _ => pose proof (proj1 H); pose proof (proj1 (proj2 H)); pose proof (proj2 (proj2 H)) end.

Lemma wp_me (K : Z -> Prop) i v0 d r f m o v (Q : vm -> Prop) : word_is v0 i P_me -> 0 <= v_cur v0 < NUM_TASKS -> inv v0 d r f m o v -> zlen d < 255 ->
  (forall u, inv v0 (v_cur v0 + 1 :: d) r f m o u -> Q u) -> wp K (Op i) Q v.
Proof.
  intros W HC HI HL HQ. eapply wp_quiet; [exact W|exact HI| |exact HQ]. intros fuel ew u J.
  assert (EC : v_cur u = v_cur v0) by apply J. unfold NUM_TASKS in HC.
  cbn [exec_prim]. unfold me. rewrite bind_gets, EC, to_i64_id by (unfold imin, imax; lia).
  assert (HS : stack_has (t_s (cur u)) d) by apply J. pose proof (stack_has_len _ _ HS). pose proof (zlen_nonneg d).
  unfold s_push, modify, s_stk. eexists. split; [reflexivity|]. rewrite cur_set_s. cbn [t_s set_t_s]. split; [apply push_has; assumption|].
  apply only_data_set_s. apply push_high. lia.
Qed.

(** GET from the start, with the facility free *)
Lemma get_wp (K : Z -> Prop) ix v0 x d r f m o v : library ix v0 -> 0 <= v_cur v0 < NUM_TASKS -> ds_ok m -> start m < x -> x + 8 <= limit m ->
  (forall k, K k -> start m <= k /\ (k < x \/ x + 8 <= k)) -> cell_at m x 0 -> zlen d <= 245 -> inv v0 (x :: d) r f m o v ->
  wp K (d_get ix) (fun u => exists m', same_memory_but m m' x 8 /\ here m' = here m /\ cell_at m' x (v_cur v0 + 1) /\ inv v0 d r f m' o u) v.
Proof.
  intros L HC HD H1 H2 H3 C0 Hd HI. room. pose proof (zlen_nonneg d). unfold d_get. seqs.
  refine (wp_while K _ _ (fun _ u => inv v0 (x :: d) r f m o u) _ _ O _ HI). intros n w J.
  by_is (dup_effect x). seqs. eapply wp_fetch with (x := 0); [known_word|eassumption|assumption|lia|lia|assumption|red; lia|]. intros u1 I1.
  exists v0, 0, (x :: d), r, f, m, o. split; [exact I1|]. split; [|intros; exfalso; auto]. intros _ u2 I2.
  seqs. eapply wp_me; [known_word|exact HC|exact I2|wlen|]. intros u3 I3.
  by_is (swap_effect x (v_cur v0 + 1)). seqs. eapply wp_store; [known_word|eassumption|assumption|lia|lia|exact H3|]. intros u5 m5 S5 C5 G5 I5.
  exists m5. auto.
Qed.
Lemma get_lib x : lib_action d_get [x] (fun K v => free_of K v x 8 /\ cell_at (v_ds v) x 0 /\ 0 <= v_cur v < NUM_TASKS)
  (fun v outs m text => outs = [] /\ cell_at m x (v_cur v + 1) /\ same_memory_but (v_ds v) m x 8 /\ here m = here (v_ds v) /\ text = []).
Proof.
  go. destruct HP as ((P1 & P2 & P3) & C & HC). eapply wp_conseq; [|exact (get_wp K ix v x rest _ _ _ _ u L HC HD P1 P2 P3 C Hr I)].
  intros u' (m' & A1 & A2 & A3 & A4). exists [], m', []. auto 8.
Qed.
Lemma release_lib x c : lib_action d_release [x] (fun K v => free_of K v x 8 /\ cell_at (v_ds v) x c /\ is_cell c /\ 0 <= v_cur v < NUM_TASKS)
  (fun v outs m text => outs = [] /\ text = [] /\ (c = v_cur v + 1 -> cell_at m x 0 /\ same_memory_but (v_ds v) m x 8 /\ here m = here (v_ds v)) /\
     (c <> v_cur v + 1 -> m = v_ds v)).
Proof.
  go. destruct HP as ((P1 & P2 & P3) & C & Hc & HC). room. unfold d_release. by_is (dup_effect x).
  seqs. eapply wp_fetch with (x := c); [known_word|eassumption|assumption|lia|lia|assumption|assumption|]. intros u1 I1.
  seqs. eapply wp_me; [known_word|exact HC|exact I1|wlen|]. intros u2 I2.
  by_effect (equals_spec c (v_cur v + 1)). eapply wp_if_else; [eassumption| |].
  - intros Hy u7 I7. assert (Q : c = v_cur v + 1) by (destruct H3 as [[_ ?]|[? _]]; [assumption|contradiction]).
    by_num. by_is (swap_effect x 0). seqs. eapply wp_store; [known_word|eassumption|assumption|lia|lia|exact P3|]. intros u6 m6 S6 C6 G6 I6.
    exists [], m6, []. split; [|exact I6]. split; [reflexivity|]. split; [reflexivity|]. split; [auto|contradiction].
  - intros Hy u7 I7. assert (Q : c <> v_cur v + 1) by (destruct H3 as [[? _]|[_ ?]]; [lia|assumption]).
    by_is (drop_effect x). exists [], (v_ds v), []. split; [|eassumption]. split; [reflexivity|]. split; [reflexivity|]. split; [contradiction|reflexivity].
Qed.

(** A task in the loop of GET that gets control when the facility is free *)
Lemma woken K ix v gt rl g h x d ra rs fs : facility_words K ix v gt rl g h -> ds_ok (v_ds v) -> 0 <= v_cur v < NUM_TASKS -> free_of K v x 8 ->
  cell_at (v_ds v) x 0 -> stacks_are v (x :: d) (ra :: rs) fs -> zlen d <= 245 -> 0 <= ra < 2 ^ 63 ->
  exists v', goes v (g + 40) v' ra /\ stacks_are v' d rs fs /\ cell_at (v_ds v') x (v_cur v + 1) /\ same_memory_but (v_ds v) (v_ds v') x 8 /\
    v_out v' = v_out v /\ calm v v'.
Proof.
  intros (L & (W1 & W2 & HH) & _ & EG & _) HD HC (F1 & F2 & F3) C ST Hd Hra. unfold body in EG. rewrite EG in HH.
  destruct (holds_seq _ _ _ _ _ HH) as [H1 H2]. pose proof H1 as H1'. unfold d_get in H1'. cbn [block] in H1'. destruct (holds_seq _ _ _ _ _ H1') as [H3 _].
  pose proof (while_back K _ _ v g H3) as PB. cbn [fin] in PB. unfold wd in PB. cbn [fin] in PB.
  replace (g + 8 + 8 + 16 + 8) with (g + 40) in PB by lia.
  destruct (get_wp K ix v x d _ _ _ _ v L HC HD F1 F2 F3 C Hd (inv_start v _ _ _ ST) g H1) as (u & PU & m' & A1 & A2 & A3 & A4).
  pose proof (part_trans K _ _ _ _ _ _ PB PU) as P2. pose proof (holds_kept K _ _ _ _ (proj2 PU) H2) as (A & B & CE & Hx).
  assert (HR : stack_has (t_r (cur u)) (ra :: rs)) by apply A4.
  destruct (exit_run K u (ix P_exit) _ ra rs A CE ltac:(lia) ltac:(eapply inv_word; eassumption) HR) as [P3 S3].
  rewrite to_u64_id in P3 by (unfold two64; lia). pose proof (part_trans K _ _ _ _ _ _ P2 P3) as P4. exists (drop_r 1 u). split; [apply P4|].
  pose proof (inv_rdrop v [ra] d rs fs m' _ u A4) as A5. change (zlen [ra]) with 1 in A5. destruct A5 as (B1 & B2 & B3 & B4).
  split; [exact B1|]. rewrite B2. split; [exact A3|]. split; [exact A1|]. split; [exact B3|exact B4].
Qed.

(** ** Waiting *)
Section Wait.
Variable K : Z -> Prop.
Variable ix : prim -> Z.
Variables gt rl g h x : Z.
Local Notation fit := (fit K ix gt rl g h x).

(** The state of a machine whose current task goes through the loop of GET *)
Definition in_loop v (k : Z) (c : Z) (d : list Z) : Prop :=
  (k = 0 /\ stack_has (t_s (cur v)) (x :: d)) \/ (k = 8 /\ stack_has (t_s (cur v)) (x :: x :: d)) \/
  (k = 16 /\ stack_has (t_s (cur v)) (c :: x :: d)) \/ (k = 32 /\ stack_has (t_s (cur v)) (x :: d)) \/ (k = 40 /\ stack_has (t_s (cur v)) (x :: d)).
Lemma loop_step v v' k c d : fit v -> cell_at (v_ds v) x c -> is_cell c -> c <> 0 -> zlen d <= 240 ->
  st_ip (st v) = g + k -> in_loop v k c d -> machine_step v v' -> k <> 32 ->
  exists k', fit v' /\ moved v v' (g + k') /\ v_ds v' = v_ds v /\ t_r (cur v') = t_r (cur v) /\ in_loop v' k' c d.
Proof.
  intros F C Hc Hn Hd HI HL HS HK. pose proof (zlen_nonneg d). destruct (words_code K ix gt rl g h v (proj1 F)) as (A & GC & _).
  destruct GC as (C0 & C1 & C2 & C3 & C4 & C5 & C6 & _ & _ & _ & C10). pose proof (proj1 (proj2 (proj2 (proj2 F)))) as FX.
  assert (FS : forall q, moved v v' q -> v_ds v' = v_ds v -> fit v').
  { intros q M D. apply (fit_same K ix gt rl g h x v); [exact D|apply M|rewrite (proj1 (proj2 M)); apply F|exact F]. }
  pose proof (word_bounds K ix gt rl g h x _ _ _ F C0) as BG. pose proof (word_bounds K ix gt rl g h x _ _ _ F C10) as BG'.
  destruct HL as [[-> T]|[[-> T]|[[-> T]|[[-> T]|[-> T]]]]].
  - rewrite Z.add_0_r in HI. destruct (is_step K ix gt rl g h x v v' _ F HS HI P_dup [x] [x; x] d C0 (dup_effect x) T) as (M & HD & HR & HT); [cbn [app]; rewrite !zlen_cons; lia|].
    exists 8. split; [eapply FS; eassumption|]. split; [exact M|]. split; [exact HD|]. split; [exact HR|]. right. left. auto.
  - destruct (fetch_step K ix gt rl g h x v v' _ F HS HI x (x :: d) C1 T FX) as (M & HD & HR & z & Hz & Cz & T').
    exists 16. replace (g + 8 + 8) with (g + 16) in M by lia. split; [eapply FS; eassumption|]. split; [exact M|]. split; [exact HD|]. split; [exact HR|].
    assert (c = z) by (eapply cell_at_unique; eassumption). subst z. right. right. left. auto.
  - destruct (zbranch_step K ix gt rl g h x v v' _ F HS HI (g + 56) c (x :: d)) as (M & HD & HR & T'); [exact C2|eapply cell_eq2; [| |exact C3]; lia|lia|exact T|].
    replace (c =? 0) with false in M by lia. replace (g + 16 + 16) with (g + 32) in M by lia.
    exists 32. split; [eapply FS; eassumption|]. split; [exact M|]. split; [exact HD|]. split; [exact HR|]. right. right. right. left. auto.
  - contradiction.
  - destruct (branch_step K ix gt rl g h x v v' _ F HS HI g) as (M & HD & HR & HT); [exact C5|eapply cell_eq2; [| |exact C6]; lia|lia|].
    exists 0. rewrite Z.add_0_r. split; [eapply FS; eassumption|]. split; [exact M|]. split; [exact HD|]. split; [exact HR|]. left. split; [reflexivity|]. rewrite HT. exact T.
Qed.
Lemma loop_pause v v' c d : fit v -> st_ip (st v) = g + 32 -> in_loop v 32 c d -> machine_step v v' ->
  exists i j, 0 <= j < NUM_TASKS /\ t_awake (task_at v j) = true /\ v' = set_v_cur j (at_ i (g + 40) v).
Proof.
  intros F HI _ HS. destruct (words_code K ix gt rl g h v (proj1 F)) as (_ & (_ & _ & _ & _ & C4 & _) & _).
  destruct (pause_step K ix gt rl g h x v v' _ F HS HI C4) as (i & j & A). replace (g + 32 + 8) with (g + 40) in A by lia. eauto.
Qed.
(** Nobody else is awake: GET of a facility that is taken never returns *)
Lemma blocked v v' c d : fit v -> cell_at (v_ds v) x c -> is_cell c -> c <> 0 -> zlen d <= 240 ->
  (forall t, 0 <= t < NUM_TASKS -> t <> v_cur v -> t_awake (task_at v t) = false) ->
  (exists k, st_ip (st v) = g + k /\ in_loop v k c d) -> machine_steps v v' ->
  cell_at (v_ds v') x c /\ v_cur v' = v_cur v /\ g <= st_ip (st v') < g + 48.
Proof.
  intros F C Hc Hn Hd HT HL HS. revert F C HT HL. induction HS as [v|v v1 v2 S1 S2 IH]; intros F C HT (k & HI & HL).
  - split; [exact C|]. split; [reflexivity|]. destruct HL as [[-> _]|[[-> _]|[[-> _]|[[-> _]|[-> _]]]]]; lia.
  - destruct (Z.eq_dec k 32) as [-> | Hk].
    + destruct (loop_pause v v1 c d F HI HL S1) as (i & j & Hj & Aj & ->).
      assert (EJ : j = v_cur v) by (destruct (Z.eq_dec j (v_cur v)); [assumption|rewrite HT in Aj by assumption; discriminate]).
      assert (EQ : set_v_cur j (at_ i (g + 40) v) = at_ i (g + 40) v) by (rewrite EJ, at_upd; destruct v; reflexivity). rewrite EQ in *.
      assert (HT1 : forall t, 0 <= t < NUM_TASKS -> t <> v_cur v -> t_awake (task_at (at_ i (g + 40) v) t) = false).
      { intros t Ht Hnt. rewrite at_upd, task_at_upd; [apply HT; assumption|apply Ht|apply F|exact Hnt]. }
      apply IH; [apply (fit_same K ix gt rl g h x v); [reflexivity|reflexivity|apply F|exact F]|exact C|exact HT1|].
      exists 40. split; [rewrite st_at; reflexivity|]. right. right. right. right. split; [reflexivity|]. rewrite s_at.
      destruct HL as [[? _]|[[? _]|[[? _]|[[_ T]|[? _]]]]]; first [exact T|lia].
    + destruct (loop_step v v1 k c d F C Hc Hn Hd HI HL S1 Hk) as (k' & F1 & M & HD & _ & HL1). destruct M as (M1 & M2 & M3 & M4).
      rewrite <- M2. apply IH; [exact F1|rewrite HD; exact C| |eauto]. intros t Ht Hnt. rewrite M2 in Hnt. rewrite M3; [apply HT; assumption|apply Ht|exact Hnt].
Qed.
Lemma blocked_start v v' c d : fit v -> cell_at (v_ds v) x c -> is_cell c -> c <> 0 -> zlen d <= 240 ->
  (forall t, 0 <= t < NUM_TASKS -> t <> v_cur v -> t_awake (task_at v t) = false) ->
  st_ip (st v) = g -> stack_has (t_s (cur v)) (x :: d) -> machine_steps v v' ->
  cell_at (v_ds v') x c /\ v_cur v' = v_cur v /\ g <= st_ip (st v') < g + 48.
Proof.
  intros F C Hc Hn Hd HT HI T. apply (blocked v v' c d F C Hc Hn Hd HT). exists 0. split; [lia|]. left. auto.
Qed.
End Wait.
(** Somebody else is awake: control passes on, the task stays in the loop *)
Lemma next_calm v u i c j : calm v u -> 0 <= v_cur v -> next_awake v j -> next_awake (at_ i c u) j.
Proof.
  intros CA HC (k & Hk & Hj & Ha & Hn). assert (EC : v_cur u = v_cur v) by apply CA.
  assert (AW : forall t, 0 <= t -> t_awake (task_at (at_ i c u) t) = t_awake (task_at v t)).
  { intros t Ht. destruct (Z.eq_dec t (v_cur v)) as [-> | Hne].
    - rewrite <- EC. change (task_at (at_ i c u) (v_cur u)) with (cur (at_ i c u)). rewrite cur_at. cbn [t_awake set_t_state].
      rewrite EC. change (task_at v (v_cur v)) with (cur v). apply CA.
    - rewrite at_upd, task_at_upd by (rewrite ?EC; assumption).
      destruct CA as (_ & _ & _ & _ & _ & _ & _ & _ & _ & _ & _ & _ & _ & SO & _). rewrite SO by assumption. reflexivity. }
  exists k. change (v_cur (at_ i c u)) with (v_cur u). rewrite EC. split; [exact Hk|]. split; [exact Hj|]. split.
  - rewrite AW; [exact Ha|]. rewrite Hj. apply mod5.
  - intros m Hm. rewrite AW by apply mod5. apply Hn. exact Hm.
Qed.
Lemma waits K ix v gt rl g h x c d rs fs j : facility_words K ix v gt rl g h -> ds_ok (v_ds v) -> 0 <= v_cur v < NUM_TASKS -> free_of K v x 8 ->
  cell_at (v_ds v) x c -> is_cell c -> c <> 0 -> stacks_are v (x :: d) rs fs -> zlen d <= 245 -> next_awake v j ->
  st_ip (st v) = g \/ st_ip (st v) = g + 40 ->
  exists v', machine_steps v v' /\ v_cur v' = j /\ v_ds v' = v_ds v /\ v_wl v' = v_wl v /\ v_out v' = v_out v /\
    (forall t, 0 <= t -> t <> v_cur v -> task_at v' t = task_at v t) /\
    ip_of (task_at v' (v_cur v)) = g + 40 /\ stack_has (t_s (task_at v' (v_cur v))) (x :: d) /\ stack_has (t_r (task_at v' (v_cur v))) rs.
Proof.
  intros FW HD HC (F1 & F2 & F3) C Hc Hn ST Hd NX HI. pose proof FW as (L & (W1 & W2 & HH) & _ & EG & _). unfold body in EG. rewrite EG in HH.
  room. pose proof (zlen_nonneg d).
  destruct (holds_seq _ _ _ _ _ HH) as [H3 _]. unfold d_get in H3. cbn [block] in H3. destruct (holds_seq _ _ _ _ _ H3) as [H4 _].
  assert (H5 : holds K v (Seq (wd ix P_dup) (wd ix P_fetch)) g) by (destruct H4 as (A4 & B4 & L4 & _); split; [exact A4|split; [exact B4|exact L4]]).
  assert (WP : wp K (Seq (wd ix P_dup) (wd ix P_fetch)) (fun u => inv v (c :: x :: d) rs fs (v_ds v) (v_out v) u) v).
  { pose proof (inv_start v _ _ _ ST) as I. by_is (dup_effect x). seqs.
    eapply wp_fetch with (x := c); [known_word|eassumption|assumption|lia|lia|assumption|assumption|]. intros u1 I1. exact I1. }
  destruct (WP g H5) as (u0 & P0 & I0). pose proof (while_round K _ _ v g u0 c _ H4 P0 (takes_has _ _ _ (proj1 (proj1 I0)))) as P1.
  replace (c =? 0) with false in P1 by lia. cbn [fin] in P1. unfold wd in P1. cbn [fin] in P1. replace (g + 8 + 8 + 16) with (g + 32) in P1 by lia.
  pose proof (inv_pop _ _ _ _ _ _ _ _ I0) as I1. set (u := drop_s 1 u0) in *.
  assert (GO : exists w, machine_steps v w /\ continues u (g + 32) w).
  { destruct HI as [HI|HI].
    - apply (proj1 P1). split; [exact HI|reflexivity].
    - pose proof (while_back K _ _ v g H4) as PB. cbn [fin] in PB. unfold wd in PB. cbn [fin] in PB. replace (g + 8 + 8 + 16 + 8) with (g + 40) in PB by lia.
      apply (proj1 (part_trans K _ _ _ _ _ _ PB P1)). split; [exact HI|reflexivity]. }
  destruct GO as (w & S1 & CW). destruct I1 as (IS & ID & IO & CA).
  assert (EW : v_wl u = v_wl v) by apply CA.
  pose proof (words_kept K ix gt rl g h v u (proj2 P1) EW FW) as FWu. destruct (words_code K ix gt rl g h u FWu) as (Au & (_ & _ & _ & _ & C4 & _) & _).
  destruct (step_word K u (g + 32) P_pause w Au CW C4) as (i & R & ST1).
  pose proof (next_calm v u i (g + 32 + 8) j CA (proj1 HC) NX) as NX1. assert (EC : v_cur u = v_cur v) by apply CA.
  exists (set_v_cur j (at_ i (g + 32 + 8) u)). split.
  - eapply steps_trans; [exact S1|]. eapply steps_more; [|apply steps_none]. split; [exact R|]. exists 6%nat. rewrite ST1. apply pause_next; [lia|exact NX1].
  - split; [reflexivity|]. split; [exact ID|]. split; [exact EW|]. split; [exact IO|]. split.
    + intros t Ht Hne. change (task_at (set_v_cur j (at_ i (g + 32 + 8) u)) t) with (task_at (at_ i (g + 32 + 8) u) t).
      rewrite at_upd, task_at_upd by (rewrite ?EC; try assumption; apply HC).
      destruct CA as (_ & _ & _ & _ & _ & _ & _ & _ & _ & _ & _ & _ & _ & SO & _). apply SO; [exact Ht|apply HC|exact Hne].
    + change (task_at (set_v_cur j (at_ i (g + 32 + 8) u)) (v_cur v)) with (task_at (at_ i (g + 32 + 8) u) (v_cur v)).
      rewrite <- EC. change (task_at (at_ i (g + 32 + 8) u) (v_cur u)) with (cur (at_ i (g + 32 + 8) u)). rewrite cur_at. unfold ip_of. cbn [t_state t_s t_r set_t_state st_ip set_st_ip].
      split; [lia|]. split; apply IS.
Qed.

(** ** Interleavings in which the facility is taken and given back *)
Section Go.
Variable K : Z -> Prop.
Variable ix : prim -> Z.
Variables gt rl g h a : Z.
Local Notation fit := (fit K ix gt rl g h a).
Local Notation itl := (interleaving K ix gt rl g h a).
Lemma step_exists v c p : fit v -> st_ip (st v) = c -> code_word K v c p ->
  (forall i, exists u, exec_prim 0 (execute_word 0) p (at_ i (c + 8) v) = Ok (tt, u)) -> exists v', machine_step v v'.
Proof.
  intros F HI CW H. destruct (step_word K v c p v (fit_addressable K ix gt rl g h a v F)) as (i & R & S1); [rewrite <- HI; apply continues_self|exact CW|].
  destruct (H i) as (u & X). exists u. split; [exact R|]. exists 1%nat. rewrite S1. exact X.
Qed.
Lemma effect_exists v c p ins Q rest : fit v -> st_ip (st v) = c -> code_word K v c p -> effect p ins Q -> stack_has (t_s (cur v)) (ins ++ rest) ->
  (forall outs, Q outs -> zlen (outs ++ rest) <= 255) -> exists v', machine_step v v'.
Proof.
  intros F HI CW HE HT HL. apply (step_exists v c p F HI CW). intro i. destruct (HE 0%nat (execute_word 0) (at_ i (c + 8) v) rest) as (outs & HQ & HO); [rewrite s_at; exact HT|].
  destruct (HO (HL outs HQ)) as (u & X & _). eauto.
Qed.
Lemma fetch_exists v c x d : fit v -> st_ip (st v) = c -> code_word K v c P_fetch -> stack_has (t_s (cur v)) (x :: d) -> free_of K v x 8 -> exists v', machine_step v v'.
Proof.
  intros F HI CW HT (F1 & F2 & _). apply (step_exists v c _ F HI CW). intro i. destruct F as (_ & (D1 & D2 & D3) & B & _).
  destruct (some_cell (v_ds v) x B) as (z & Hz & Cz); [lia|lia|].
  destruct (fetch_ok 0 (execute_word 0) (at_ i (c + 8) v) z x x d) as (u & X1 & _);
    [split; [exact D1|split; assumption]|rewrite s_at; exact HT|apply addr_of_id; lia|exact F1|exact F2|exact Cz|exact Hz|]. eauto.
Qed.
Lemma store_exists v c x y d : fit v -> st_ip (st v) = c -> code_word K v c P_store -> stack_has (t_s (cur v)) (x :: y :: d) -> free_of K v x 8 -> exists v', machine_step v v'.
Proof.
  intros F HI CW HT (F1 & F2 & _). apply (step_exists v c _ F HI CW). intro i. destruct F as (_ & (D1 & D2 & D3) & B & _).
  destruct (store_ok 0 (execute_word 0) (at_ i (c + 8) v) y x x d) as (u & X1 & _);
    [split; [exact D1|split; assumption]|rewrite s_at; exact HT|apply addr_of_id; lia|exact F1|exact F2|]. eauto.
Qed.
Lemma me_exists v c d : fit v -> st_ip (st v) = c -> code_word K v c P_me -> stack_has (t_s (cur v)) d -> exists v', machine_step v v'.
Proof. intros F HI CW HT. apply (step_exists v c _ F HI CW). intro i. cbn [exec_prim]. unfold me. rewrite bind_gets. unfold s_push, modify. eauto. Qed.

Ltac quiet_ S H := apply (I_step K ix gt rl g h a _ _ _ H S); [left; lia|intros [X _]; lia|intros [X _]; lia].
Ltac quiet_r S H := apply (I_step K ix gt rl g h a _ _ _ H S); [right; lia|intros [X _]; lia|intros [X _]; lia].
Ltac next_fit F M HD := apply (fit_same K ix gt rl g h a _ _ HD (proj1 M)); [rewrite (proj1 (proj2 M)); apply F|exact F].
Lemma takes_it v o d : itl v o -> fit v -> st_ip (st v) = g -> stack_has (t_s (cur v)) (a :: d) -> zlen d <= 240 -> cell_at (v_ds v) a 0 ->
  exists v', machine_steps v v' /\ itl v' (v_cur v :: o) /\ v_cur v' = v_cur v /\ st_ip (st v') = g + 80 /\ stack_has (t_s (cur v')) d.
Proof.
  intros I0 F0 HI0 T0 Hd C0. pose proof (zlen_nonneg d).
  assert (GC : forall u, fit u -> get_code_at K g u /\ free_of K u a 8 /\ 0 < g /\ g + 88 < 2 ^ 63 /\ (g + 88 <= h \/ h + 112 <= g)).
  { intros u F. destruct (words_code K ix gt rl g h u (proj1 F)) as (_ & G & _). split; [exact G|]. split; [apply F|].
    destruct G as (G0 & _ & _ & _ & _ & _ & _ & _ & _ & _ & G10). pose proof (word_bounds K ix gt rl g h a _ _ _ F G0). pose proof (word_bounds K ix gt rl g h a _ _ _ F G10).
    split; [lia|]. split; [lia|apply F]. }
  destruct (GC v F0) as ((W & _) & _ & B1 & B2 & DJ).
  destruct (effect_exists v g P_dup [a] _ d F0 HI0 W (dup_effect a) T0) as (v1 & S1); [intros ? <-; cbn [app]; rewrite !zlen_cons; lia|].
  destruct (is_step K ix gt rl g h a v v1 _ F0 S1 HI0 P_dup [a] [a; a] d W (dup_effect a) T0) as (M1 & D1 & _ & T1); [cbn [app]; rewrite !zlen_cons; lia|].
  assert (I1 : itl v1 o) by quiet_ S1 I0. assert (F1 : fit v1) by next_fit F0 M1 D1. pose proof (proj2 (proj2 (proj2 M1))) as HI1. cbn [app] in T1.
  destruct (GC v1 F1) as ((_ & W1 & _) & FR1 & _).
  destruct (fetch_exists v1 _ a (a :: d) F1 HI1 W1 T1 FR1) as (v2 & S2).
  destruct (fetch_step K ix gt rl g h a v1 v2 _ F1 S2 HI1 a (a :: d) W1 T1 FR1) as (M2 & D2 & _ & z & Hz & Cz & T2).
  assert (z = 0) by (rewrite D1 in Cz; eapply cell_at_unique; [exact Hz| |exact Cz|exact C0]; red; lia). subst z.
  assert (I2 : itl v2 o) by quiet_ S2 I1. assert (F2 : fit v2) by next_fit F1 M2 D2. pose proof (proj2 (proj2 (proj2 M2))) as HI2. replace (g + 8 + 8) with (g + 16) in HI2 by lia.
  destruct (GC v2 F2) as ((_ & _ & W2 & W2' & _) & FR2 & _).
  assert (W2'' : code_cell K v2 (g + 16 + 8) (g + 56)) by (eapply cell_eq2; [| |exact W2']; lia).
  destruct (step_exists v2 _ _ F2 HI2 W2) as (v3 & S3).
  { intro i. eexists. cbn [exec_prim]. eapply (zero_branch_eq K v2 (g + 16 + 8) (g + 56) i 0 (drop_s 1 v2)); [exact (fit_addressable K ix gt rl g h a _ F2)|exact W2''|lia|exists (a :: d); auto]. }
  destruct (zbranch_step K ix gt rl g h a v2 v3 _ F2 S3 HI2 (g + 56) 0 (a :: d)) as (M3 & D3 & _ & T3); [exact W2|exact W2''|lia|exact T2|]. cbn in M3.
  assert (I3 : itl v3 o) by quiet_ S3 I2. assert (F3 : fit v3) by next_fit F2 M3 D3. pose proof (proj2 (proj2 (proj2 M3))) as HI3.
  destruct (GC v3 F3) as ((_ & _ & _ & _ & _ & _ & _ & W3 & W4 & W5 & _) & FR3 & _).
  destruct (me_exists v3 _ _ F3 HI3 W3 T3) as (v4 & S4).
  destruct (me_step K ix gt rl g h a v3 v4 _ F3 S4 HI3 (a :: d) W3 T3) as (M4 & D4 & _ & T4); [rewrite zlen_cons; lia|].
  assert (I4 : itl v4 o) by quiet_ S4 I3. assert (F4 : fit v4) by next_fit F3 M4 D4. pose proof (proj2 (proj2 (proj2 M4))) as HI4. replace (g + 56 + 8) with (g + 64) in HI4 by lia.
  destruct (GC v4 F4) as ((_ & _ & _ & _ & _ & _ & _ & _ & W6 & _) & FR4 & _).
  destruct (effect_exists v4 _ P_swap [v_cur v3 + 1; a] _ d F4 HI4 W6 (swap_effect a _) T4) as (v5 & S5); [intros ? <-; cbn [app]; rewrite !zlen_cons; lia|].
  destruct (is_step K ix gt rl g h a v4 v5 _ F4 S5 HI4 P_swap _ _ d W6 (swap_effect a (v_cur v3 + 1)) T4) as (M5 & D5 & _ & T5); [cbn [app]; rewrite !zlen_cons; lia|].
  assert (I5 : itl v5 o) by quiet_ S5 I4. assert (F5 : fit v5) by next_fit F4 M5 D5. pose proof (proj2 (proj2 (proj2 M5))) as HI5. replace (g + 64 + 8) with (g + 72) in HI5 by lia.
  cbn [app] in T5. destruct (GC v5 F5) as ((_ & _ & _ & _ & _ & _ & _ & _ & _ & W7 & _) & FR5 & _).
  destruct (store_exists v5 _ a _ d F5 HI5 W7 T5 FR5) as (v6 & S6).
  destruct (store_step K ix gt rl g h a v5 v6 _ F5 S6 HI5 a _ d W7 T5 FR5) as (M6 & _ & _ & _ & _ & T6). pose proof (proj2 (proj2 (proj2 M6))) as HI6.
  assert (EC : v_cur v5 = v_cur v) by (rewrite (proj1 (proj2 M5)), (proj1 (proj2 M4)), (proj1 (proj2 M3)), (proj1 (proj2 M2)), (proj1 (proj2 M1)); reflexivity).
  exists v6. split; [|split; [|split; [rewrite (proj1 (proj2 M6)); exact EC|split; [lia|exact T6]]]].
  - repeat (eapply steps_more; [eassumption|]). apply steps_none.
  - rewrite <- EC. apply (I_take K ix gt rl g h a v5 o v6 I5 S6). split; [exact HI5|]. eexists. exact T5.
Qed.
End Go.
End F.
