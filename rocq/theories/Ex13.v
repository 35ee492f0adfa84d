(** GET and RELEASE in the booted machines. *)
From Coq Require Import ZArith List Bool Lia String FMapPositive.
From Verif Require Import Base Stack Mem Parser Flt State CoreM Exec Boot Std Spec Spec2 Spec4 Spec5 Spec7 Spec9 Spec10 Spec15 Spec16 Spec17 Spec18
  LBase LStack LState LMem LDict LComp LCode LDec LRun LLib LLibWords LSource LFacility LFacility2 Ex Ex2 Ex3 Ex5 Ex6 Ex10 Ex11 Ex12.
Import ListNotations.
Open Scope list_scope.
Open Scope Z_scope.
Open Scope m_scope.

(** All entries of a table are bytes *)
Fixpoint tree_bytes (m : PositiveMap.t Z) : bool :=
  match m with
  | PositiveMap.Leaf _ => true
  | PositiveMap.Node l o r => tree_bytes l && match o with Some x => (0 <=? x) && (x <? 256) | None => true end && tree_bytes r
  end.
Lemma tree_bytes_ok m : tree_bytes m = true -> forall k x, PositiveMap.find k m = Some x -> 0 <= x < 256.
Proof.
  induction m as [|l IL o r IR]; cbn [tree_bytes]; intros H k x; [destruct k; discriminate|].
  rewrite !andb_true_iff in H. destruct H as ((H1 & H2) & H3). destruct k; cbn [PositiveMap.find].
  - apply IR. exact H3.
  - apply IL. exact H1.
  - intros ->. lia.
Qed.
Lemma mem_bytes d : tree_bytes (ds_mem d) = true -> mem_ok d.
Proof.
  intros H a. unfold byte_at, tget. destruct (PositiveMap.find _ _) eqn:Q; [|lia]. eapply tree_bytes_ok; eassumption.
Qed.

Section I.
Context {E : Env}.
Variable v : vm.
Hypothesis HD : dict_ok v.
Hypothesis HW : words v < Z.of_nat 400.
Hypothesis HA : 0 < start (v_ds v) /\ limit (v_ds v) < 2 ^ 63.
Variable ix : prim -> Z.
Definition colon_all (i : Z) (p : prog) : bool :=
  colonb v ix i p && (start (v_ds v) <=? body v i) && (fin (Seq p (Op (ix P_exit))) (body v i) <=? here (v_ds v)).
Lemma colon_all_ok i p : colon_all i p = true -> colon_word (allocated v) v i p (ix P_exit).
Proof.
  unfold colon_all. rewrite !andb_true_iff. intros ((H2 & H3) & H4).
  apply (colonb_more v HW HA); [exact H2|]. unfold own_code, allocated. cbv zeta. unfold body in *. intros k Hk. lia.
Qed.
Lemma facility_ok gt rl : forallb (fun p => word_isb v (ix p) p) lib_prims = true ->
  foundb v (b "get") gt && foundb v (b "release") rl && colon_all gt (d_get ix) && colon_all rl (d_release ix) = true ->
  facility_installed ix v /\ facility_words (allocated v) ix v gt rl (body v gt) (body v rl).
Proof.
  rewrite !andb_true_iff, forallb_forall. intros H0 (((N1 & N2) & C1) & C2).
  assert (FW : facility_words (allocated v) ix v gt rl (body v gt) (body v rl)).
  { split; [intros p Hp; apply word_isb_ok, H0, Hp|]. split; [apply colon_all_ok; exact C1|]. split; [apply colon_all_ok; exact C2|]. split; reflexivity. }
  split; [|exact FW]. exists gt, rl. split; [|split; [|exact FW]]; apply (foundb_ok v HD HW); assumption.
Qed.
End I.
Lemma booted_facility_both : @facility_installed env_d ix0 booted_d /\ facility_words (allocated booted_d) ix0 booted_d 304 305 (body booted_d 304) (body booted_d 305).
Proof. apply (facility_ok booted_d booted_dict booted_words booted_addr ix0 304 305); vm_cast_no_check (@eq_refl bool true). Qed.
Lemma booted_facility_r : @facility_installed env_r ix0 booted_r.
Proof. apply (facility_ok booted_r booted_dict_r booted_words_r booted_addr_r ix0 304 305); vm_cast_no_check (@eq_refl bool true). Qed.

(** ** The booted machine, about to execute the code at [c] with return address 0 and the given cells on the data stack *)
Definition fac : Z := 80000.
Definition gg : Z := Eval vm_compute in body booted_d 304.
Definition hh : Z := Eval vm_compute in body booted_d 305.
Definition fg (c : Z) (l : list Z) : @vm env_d := set_ip c (add_r 0 (bs l)).
Lemma fg_wl c l : v_wl (fg c l) = v_wl booted_d. Proof. exact (bs_wl l). Qed.
Lemma fg_ds c l : v_ds (fg c l) = v_ds booted_d. Proof. exact (bs_ds l). Qed.
Lemma bs_cur l : v_cur (bs l) = v_cur booted_d. Proof. induction l; [reflexivity|exact IHl]. Qed.
Lemma fg_cur c l : v_cur (fg c l) = 0. Proof. change (v_cur (bs l) = 0). rewrite bs_cur. reflexivity. Qed.
Lemma fg_task c l t : 0 < t -> task_at (fg c l) t = task_at booted_d t.
Proof.
  intro Ht. unfold fg, set_ip, set_st. rewrite task_at_upd; [|lia|change (0 <= v_cur (bs l)); rewrite bs_cur; discriminate|change (t <> v_cur (bs l)); rewrite bs_cur; change (v_cur booted_d) with 0; lia].
  unfold add_r, set_r. rewrite task_at_upd; [|lia|rewrite bs_cur; discriminate|rewrite bs_cur; change (v_cur booted_d) with 0; lia].
  induction l as [|x l IH]; [reflexivity|]. cbn [bs fold_right]. fold (bs l). unfold add_s, set_s.
  rewrite task_at_upd; [exact IH|lia|rewrite bs_cur; discriminate|rewrite bs_cur; change (v_cur booted_d) with 0; lia].
Qed.
Lemma fg_stacks c l : zlen l < 200 -> stacks_are (fg c l) l [0] [].
Proof.
  intro H. destruct (bs_stacks l H) as (A & B & C). unfold stacks_are, fg.
  assert (EC : cur (set_ip c (add_r 0 (bs l))) = set_t_state (set_st_ip c (st (add_r 0 (bs l)))) (cur (add_r 0 (bs l)))) by (unfold set_ip, set_st; rewrite cur_upd; reflexivity).
  rewrite EC. cbn [t_s t_r t_f set_t_state]. unfold add_r. rewrite cur_set_r. cbn [t_s t_r t_f set_t_r].
  split; [exact A|]. split; [|exact C]. rewrite <- add_item_push by (rewrite (stack_has_len _ _ B); cbn; lia). apply push_has; [exact B|cbn; lia].
Qed.
Lemma fg_ip c l : st_ip (st (fg c l)) = c. Proof. unfold fg, set_ip, st, set_st. rewrite cur_upd. reflexivity. Qed.
Lemma fg_words c l : facility_words (allocated booted_d) ix0 (fg c l) 304 305 gg hh.
Proof.
  apply (words_kept _ _ _ _ _ _ booted_d); [apply kept_eq; [apply fg_ds|apply fg_wl]|apply fg_wl|exact (proj2 booted_facility_both)].
Qed.
Lemma fg_free c l : free_of (allocated booted_d) (fg c l) fac 8.
Proof.
  unfold free_of. rewrite fg_ds. split; [apply Z.ltb_lt; vm_cast_no_check (@eq_refl bool true)|]. split; [apply Z.leb_le; vm_cast_no_check (@eq_refl bool true)|]. intros k [H1 H2]. split; [exact H1|left].
  apply (Z.lt_le_trans _ _ _ H2). apply Z.leb_le. vm_cast_no_check (@eq_refl bool true).
Qed.
Lemma fg_fit c l : fit (allocated booted_d) ix0 304 305 gg hh fac (fg c l).
Proof.
  split; [apply fg_words|]. rewrite fg_ds. split; [exact booted_ds|].
  split; [intros k _; apply mem_bytes; vm_cast_no_check (@eq_refl bool true)|]. split; [apply fg_free|]. rewrite fg_cur. unfold NUM_TASKS, gg, hh. lia.
Qed.
Lemma fac_zero : cell_at (v_ds booted_d) fac 0. Proof. apply cellb_ok. vm_cast_no_check (@eq_refl bool true). Qed.
Lemma booted_asleep : forallb (fun t => negb (t_awake (task_at booted_d t))) [1; 2; 3; 4] = true. Proof. vm_cast_no_check (@eq_refl bool true). Qed.
Lemma booted_ips : forallb (fun t => ip_of (task_at booted_d t) <? 65536) [1; 2; 3; 4] = true. Proof. vm_cast_no_check (@eq_refl bool true). Qed.
Lemma tasks14 t : 0 <= t < NUM_TASKS -> t <> 0 -> In t [1; 2; 3; 4]. Proof. unfold NUM_TASKS. intros. cbn. lia. Qed.
Lemma fg_start c d : c = gg \/ c = hh -> zlen d < 100 -> interleaving (allocated booted_d) ix0 304 305 gg hh fac (fg c (fac :: d)) [].
Proof.
  intros Hc Hd. apply I_start; [apply fg_fit|rewrite fg_ds; exact fac_zero|]. intros t Ht. destruct (Z.eq_dec t 0) as [-> | Hn].
  - right. assert (EC : task_at (fg c (fac :: d)) 0 = cur (fg c (fac :: d))) by (unfold cur; rewrite fg_cur; reflexivity). rewrite EC.
    split; [unfold ip_of; change (t_state (cur (fg c (fac :: d)))) with (st (fg c (fac :: d))); rewrite fg_ip; exact Hc|].
    destruct (fg_stacks c (fac :: d)) as (A & B & _); [rewrite zlen_cons; lia|]. exists fac, d, 0, []. split; [exact A|]. split; [lia|].
    split; [split; [apply fg_free|left; reflexivity]|]. split; [exact B|]. split; [lia|]. unfold inside, gg, hh. lia.
  - left. pose proof booted_ips as H. rewrite forallb_forall in H. specialize (H t (tasks14 t Ht Hn)). rewrite fg_task by lia. unfold inside, gg, hh. lia.
Qed.
Lemma fg_taken d : zlen d < 100 -> exists v', machine_steps (fg gg (fac :: d)) v' /\ interleaving (allocated booted_d) ix0 304 305 gg hh fac v' [0].
Proof.
  intro Hd. destruct (takes_it _ _ _ _ _ _ _ _ _ d (fg_start gg d (or_introl eq_refl) Hd)) as (v' & S1 & I1 & _).
  - apply fg_fit.
  - apply fg_ip.
  - apply fg_stacks. rewrite zlen_cons. lia.
  - lia.
  - rewrite fg_ds. exact fac_zero.
  - rewrite fg_cur in I1. eauto.
Qed.
(** The same with the facility taken by the first task *)
Definition taken_ds : dspace := set_cell_bytes (v_ds booted_d) 1 fac.
Definition fgt : @vm env_d := set_v_ds taken_ds (fg gg [fac; 7]).
Lemma taken_same : same_memory_but (v_ds booted_d) taken_ds fac 8 /\ here taken_ds = here (v_ds booted_d) /\ cell_at taken_ds fac 1.
Proof.
  assert (HS : start (v_ds booted_d) <= fac) by (apply Z.leb_le; vm_cast_no_check (@eq_refl bool true)).
  split; [|split; [reflexivity|apply set_cell_at; exact HS]].
  split; [reflexivity|]. split; [reflexivity|]. intros i H1 H2. unfold taken_ds. rewrite byte_set_cell by assumption.
  replace ((fac <=? i) && (i <? fac + 8)) with false by lia. reflexivity.
Qed.
Lemma fit_set_ds {E : Env} K ix gt rl g h a (v : vm) d x y : same_memory_but (v_ds v) d x 8 -> here d = here (v_ds v) -> cell_at d x y -> free_of K v x 8 ->
  fit K ix gt rl g h a v -> fit K ix gt rl g h a (set_v_ds d v).
Proof. intros H1 H2 H3 H4 H5. apply (fit_store K ix gt rl g h a v (set_v_ds d v) x y); try assumption; reflexivity. Qed.
Lemma fgt_fit : fit (allocated booted_d) ix0 304 305 gg hh fac fgt.
Proof.
  destruct taken_same as (S1 & H1 & C1).
  unfold fgt. eapply (fit_set_ds _ _ _ _ _ _ _ (fg gg [fac; 7]) taken_ds fac 1); [rewrite fg_ds; exact S1|rewrite fg_ds; exact H1|exact C1|apply fg_free|apply fg_fit].
Qed.
Lemma task_set_ds {E : Env} d (v : vm) t : task_at (set_v_ds d v) t = task_at v t. Proof. reflexivity. Qed.
Lemma cur_set_ds {E : Env} d (v : vm) : v_cur (set_v_ds d v) = v_cur v. Proof. reflexivity. Qed.
Lemma fgt_cur : v_cur fgt = 0. Proof. unfold fgt. rewrite cur_set_ds. apply fg_cur. Qed.
Lemma fgt_task t : task_at fgt t = task_at (fg gg [fac; 7]) t. Proof. apply task_set_ds. Qed.
Lemma stacks_set_ds {E : Env} d (v : vm) l r f : stacks_are v l r f -> stacks_are (set_v_ds d v) l r f. Proof. exact (fun H => H). Qed.
Lemma ip_set_ds {E : Env} d (v : vm) c : st_ip (st v) = c -> st_ip (st (set_v_ds d v)) = c. Proof. exact (fun H => H). Qed.
Lemma fgt_stacks : stacks_are fgt [fac; 7] [0] [].
Proof. unfold fgt. apply stacks_set_ds. apply fg_stacks. reflexivity. Qed.
Lemma fgt_ip : st_ip (st fgt) = gg.
Proof. unfold fgt. apply ip_set_ds. apply fg_ip. Qed.
Lemma fgt_awake : t_awake (task_at fgt 0) = true.
Proof. assert (H : Bool.eqb (t_awake (task_at fgt 0)) true = true) by (vm_cast_no_check (@eq_refl bool true)). destruct (t_awake (task_at fgt 0)); [reflexivity|discriminate]. Qed.
Lemma waits_ready : facility_words (allocated booted_d) ix0 fgt 304 305 gg hh /\ ds_ok (v_ds fgt) /\ v_cur fgt = 0 /\ free_of (allocated booted_d) fgt fac 8 /\
  cell_at (v_ds fgt) fac 1 /\ stacks_are fgt [fac; 7] [0] [] /\ next_awake fgt 0 /\ st_ip (st fgt) = gg.
Proof.
  destruct fgt_fit as (F1 & F2 & _ & F4 & _). split; [exact F1|]. split; [exact F2|]. split; [exact fgt_cur|]. split; [exact F4|]. split; [exact (proj2 (proj2 taken_same))|].
  split; [exact fgt_stacks|]. split; [|exact fgt_ip].
  exists 5. rewrite fgt_cur. split; [unfold NUM_TASKS; lia|]. split; [reflexivity|]. split; [exact fgt_awake|].
  intros j Hj. change (0 + j) with j. rewrite Z.mod_small by (unfold NUM_TASKS; lia). rewrite fgt_task, fg_task by lia.
  pose proof booted_asleep as H. rewrite forallb_forall in H. specialize (H j (tasks14 j ltac:(unfold NUM_TASKS; lia) ltac:(lia))). destruct (t_awake (task_at booted_d j)); [discriminate|reflexivity].
Qed.
Lemma blocked_ready : exists (v : @vm env_d) c d, fit (allocated booted_d) ix0 304 305 gg hh fac v /\ cell_at (v_ds v) fac c /\ is_cell c /\ c <> 0 /\ zlen d <= 240 /\
  (forall t, 0 <= t < NUM_TASKS -> t <> v_cur v -> t_awake (task_at v t) = false) /\ st_ip (st v) = gg /\ stack_has (t_s (cur v)) (fac :: d).
Proof.
  exists fgt, 1, [7]. split; [exact fgt_fit|]. split; [exact (proj2 (proj2 taken_same))|]. split; [red; lia|]. split; [discriminate|]. split; [discriminate|].
  split; [|split; [exact fgt_ip|exact (proj1 fgt_stacks)]]. intros t Ht Hn. rewrite fgt_cur in Hn. rewrite fgt_task, fg_task by lia.
  pose proof booted_asleep as H. rewrite forallb_forall in H. specialize (H t (tasks14 t Ht Hn)). destruct (t_awake (task_at booted_d t)); [discriminate|reflexivity].
Qed.
