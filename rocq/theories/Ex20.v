(** The terminal program booted on the modelled machine; machines used by the examples of its properties (C87 - C89). *)
From Coq Require Import ZArith List Bool Lia ZifyBool ZifyNat String.
From Verif Require Import Base Stack Mem Parser Flt State CoreM IoM FloatM FileM Exec Boot Term Std Shell Spec Spec2 Spec4 Spec5 Spec7 Spec9 Spec10 Spec11 Spec14 Spec15 Spec16 Spec19 Spec24 Spec25 Spec27
  LBase LStack LState LMem LMon LTask LDict LComp LCode LDec LText LRun LEval LLib LLibWords LSource LShell LShell2 LShell4 LShell5 LShell6 Ex Ex2 Ex3 Ex6 Ex7 Ex9 Ex10 Ex11 Ex12 Ex13 Ex14.
Import ListNotations.
Open Scope list_scope.
Open Scope Z_scope.
Open Scope m_scope.

(** ** The machine at the prompt *)
Definition typed (s : string) : list event := map (fun c => Key NoMod (Char c)) (b s) ++ [Key NoMod Enter].
Definition keys (l : list string) : list event := flat_map typed l.
Definition with_keys (k : list event) (v : @vm env_d) : @vm env_d := @set_v_os env_d (mkFs [] [] 1 [] k) v.
Definition shell_d : @vm env_d := Eval vm_compute in
  from_ok (@vm_init env_d 65536 65536 CDefault fs0) (@shell_new env_d FUEL 65536 65536 fs0).
Definition num (s : string) : Z := match find 400 (b s) shell_d with Ok (Some i, _) => i | _ => -1 end.
Definition ix1 (p : prim) : Z :=
  match List.find (fun i => prim_eqb (w_action (wl_get (v_wl shell_d) i)) p) (map Z.of_nat (List.seq 0 400)) with Some i => i | None => -1 end.
Definition nm : names := Eval vm_compute in
  mkNames ix1 (num "evaluate-input") (num "quit") (num "(abort)") (num "space") (num "load-line#") (num "nod") (num "halt") (num "cold") [].
(** machine steps until the instruction pointer is [a] *)
Fixpoint steps_to (k fuel : nat) (a : Z) (v : @vm env_d) : option (@vm env_d) :=
  match k with
  | O => None
  | S k => if st_ip (st v) =? a then Some v else
    match running v with
    | Ok (true, _) => match run_step fuel v with Ok (_, v') => steps_to k fuel a v' | _ => None end
    | _ => None
    end
  end.
Definition some_vm (o : option (@vm env_d)) : @vm env_d := match o with Some v => v | None => shell_d end.
(** the cold start, up to the first line *)
Definition pv : @vm env_d := Eval vm_compute in
  some_vm (match execute_word 1000 (n_cold nm) shell_d with Ok (_, v) => steps_to 1000 1000 (prompt_addr nm shell_d) v | _ => None end).
Definition KK : Z -> Prop := allocated pv.

(** ** It is at the prompt *)
Lemma pv_dict : dict_ok pv. Proof. apply dict_okb_ok. vm_cast_no_check (@eq_refl bool true). Qed.
Lemma pv_words : words pv < Z.of_nat 400.
Proof. assert (H : words pv = 329) by (vm_cast_no_check (@eq_refl Z 329)). rewrite H. reflexivity. Qed.
Lemma pv_addr : 0 < start (v_ds pv) /\ limit (v_ds pv) < 2 ^ 63.
Proof.
  assert (H : (0 <? start (v_ds pv)) && (limit (v_ds pv) <? 2 ^ 63) = true) by (vm_cast_no_check (@eq_refl bool true)).
  rewrite andb_true_iff in H. lia.
Qed.
Lemma pv_shell : shell KK nm pv.
Proof.
  assert (HP : forallb (fun p => word_isb pv (ix nm p) p) shell_prims = true) by (vm_cast_no_check (@eq_refl bool true)).
  rewrite forallb_forall in HP. split; [intros p Hp; apply word_isb_ok, HP, Hp|].
  repeat (split; [apply (colon_all_ok pv pv_words pv_addr (ix nm)); vm_cast_no_check (@eq_refl bool true)|]).
  split; [apply word_isb_ok; vm_cast_no_check (@eq_refl bool true)|reflexivity].
Qed.
Section B.
Context {E : Env}.
Implicit Types (v : vm).
Lemma has_any {T} (s : stack T) : 0 <= len s <= 255 -> exists d, stack_has s d /\ zlen d = len s.
Proof.
  intro H. assert (G : forall k : nat, (k <= Z.to_nat (len s))%nat -> exists d : list T, zlen d = Z.of_nat k /\
    forall i x, nth_error d i = Some x -> sget s (Z.of_nat k - 1 - Z.of_nat i) = x).
  { induction k as [|k IH]; intro Hk; [exists []; split; [reflexivity|intros [|] ? Q; discriminate Q]|].
    destruct (IH ltac:(lia)) as (d & L & F). exists (sget s (Z.of_nat k) :: d). split; [rewrite zlen_cons; lia|].
    intros [|i] x Q; cbn in Q.
    - injection Q as <-. f_equal. lia.
    - rewrite <- (F i x Q). f_equal. lia. }
  destruct (G (Z.to_nat (len s)) ltac:(lia)) as (d & L & F). rewrite Z2Nat.id in L by lia. exists d. split; [|exact L].
  split; [lia|]. split; [lia|]. intros i x Q. rewrite <- (F i x Q). f_equal. lia.
Qed.
Definition soundb v : bool :=
  negb (s_overflow v || s_underflow v || r_overflow v || r_underflow v || c_overflow v || c_underflow v || f_overflow v || f_underflow v).
Definition steadyb v : bool :=
  soundb v && (0 <=? len (t_s (cur v))) && (len (t_s (cur v)) <=? 62) && match t_inbuf (cur v) with Some _ => true | None => false end && (st_sid (st v) =? 0).
Lemma soundb_ok v : soundb v = true -> quiet 0 P_check_stacks v v.
Proof. unfold soundb. rewrite negb_true_iff, !orb_false_iff. intro H. apply check_iff. unfold sound. tauto. Qed.
Lemma steadyb_ok v : steadyb v = true -> steady v.
Proof.
  unfold steadyb. rewrite !andb_true_iff. intros ((((A & B) & C) & D) & F). split; [apply soundb_ok; exact A|].
  split; [destruct (has_any (t_s (cur v)) ltac:(lia)) as (d & H & L); exists d; split; [exact H|lia]|].
  split; [destruct (t_inbuf (cur v)); [discriminate|discriminate D]|lia].
Qed.
Lemma has_none {T} (s : stack T) : len s = 0 -> stack_has s [].
Proof. intro H. split; [rewrite H; reflexivity|]. split; [cbn; lia|]. intros [|] ? Q; discriminate Q. Qed.
Definition isok {A} (r : res A) : bool := match r with Ok _ => true | _ => false end.
Definition vof (d : vm) (r : res (unit * vm)) : vm := match r with Ok (_, v) => v | _ => d end.
Lemma vof_ok d r : isok r = true -> r = Ok (tt, vof d r).
Proof. destruct r as [[[] v]| | |]; try discriminate. reflexivity. Qed.
Definition rd v : vm := vof v (parse_word v).
Lemma rd_ok v t : isok (parse_word v) = true -> v_tkn (rd v) = Some t -> reads v t (rd v).
Proof. intros H HT. split; [|exact HT]. intro ew. cbn [exec_prim]. apply vof_ok. exact H. Qed.
(** machine steps until the instruction pointer is [a] *)
Fixpoint reach (k fuel : nat) (a : Z) v : res (unit * vm) :=
  match k with
  | O => OutOfFuel
  | S k => if st_ip (st v) =? a then Ok (tt, v) else
    match running v with
    | Ok (true, _) => match run_step fuel v with Ok (_, v') => reach k fuel a v' | r => r end
    | _ => UB
    end
  end.
Lemma running_same v c w : running v = Ok (c, w) -> w = v.
Proof.
  unfold running, get_ip. rewrite !bind_gets. destruct (start (v_ds v) <=? ip v); [|intro H; injection H as <- <-; reflexivity].
  unfold chk_u64, ret, bind, panic. destruct (in_u64 (ip v + 8)); [|destruct chk]; intro H; try discriminate H; injection H as <- <-; reflexivity.
Qed.
(** a step does not depend on the word pointer *)
Lemma step_free v v1 w : machine_step v v1 -> continues v (st_ip (st v)) w -> machine_step w v1.
Proof.
  intros [R [f HS]] HC. pose proof (continues_ds _ _ _ HC) as HD. pose proof (proj1 HC) as HI. split.
  - revert R. unfold running, get_ip, ip. rewrite !bind_gets, HI, HD. destruct (start (v_ds v) <=? st_ip (st v)); [|discriminate].
    unfold chk_u64, ret, bind, panic. destruct (in_u64 (st_ip (st v) + 8)); [|destruct chk]; intro H; try discriminate H; injection H as H; rewrite H; reflexivity.
  - exists f. revert HS. unfold run_step, get_ip, ip. rewrite !bind_gets, HI. destruct (get_isize (v_ds v) (st_ip (st v))) as [x| | |] eqn:G;
      [rewrite (bind_Ok _ _ v x v) by (apply ds_get_eq; exact G); rewrite (bind_Ok _ _ w x w) by (apply ds_get_eq; rewrite HD; exact G)|unfold bind at 1, ds_get; rewrite G; discriminate..].
    unfold skip_cell, get_ip, put_ip, ip. rewrite !bind_bind, !bind_gets, HI, !bind_bind.
    unfold chk_u64. assert (EE : forall y, execute_word f (to_u64 x) (set_ip y v) = execute_word f (to_u64 x) (set_ip y w)).
    { intro y. rewrite <- (ew_wp f (to_u64 x) 0 (set_ip y v)), <- (ew_wp f (to_u64 x) 0 (set_ip y w)). f_equal. rewrite !set_wp_ip. symmetry. apply (continues_eq _ _ _ HC). }
    destruct (in_u64 (st_ip (st v) + 8)); [|destruct chk]; rewrite ?bind_ret, ?bind_modify; try (rewrite EE; exact (fun H => H)); discriminate.
Qed.
Lemma steps_goes v w : machine_steps v w -> goes v (st_ip (st v)) w (st_ip (st w)).
Proof.
  intros H w0 C. destruct H as [v|v v1 v2 S1 S2]; [exists w0; split; [constructor|exact C]|].
  exists v2. split; [econstructor; [exact (step_free _ _ _ S1 C)|exact S2]|apply continues_self].
Qed.
Lemma reach_ok k fuel a : forall v w, reach k fuel a v = Ok (tt, w) -> machine_steps v w /\ st_ip (st w) = a.
Proof.
  induction k as [|k IH]; intros v w; cbn [reach]; [discriminate|]. destruct (st_ip (st v) =? a) eqn:EA; [intro H; injection H as <-; split; [constructor|lia]|].
  destruct (running v) as [[[|] w0]| | |] eqn:ER; try discriminate. destruct (run_step fuel v) as [[[] v']| | |] eqn:ES; try discriminate.
  intro H. destruct (IH _ _ H) as [S1 S2]. split; [|exact S2]. econstructor; [split; [pose proof (running_same _ _ _ ER); subst w0; exact ER|exists fuel; exact ES]|exact S1].
Qed.
(** the state after a token and the code that it starts *)
Definition acted1 n fuel v : vm := vof v (action fuel (dispatched n (noted v))).
Definition did n fuel v : vm := vof v (reach 1000 fuel (token_addr n (noted v) + 8) (acted1 n fuel v)).
Definition r_keptb (s s' : stack Z) : bool :=
  (len s' =? len s) && forallb (fun k => sget s' (Z.of_nat k) =? sget s (Z.of_nat k)) (List.seq 0 (Z.to_nat (len s))).
Lemma r_keptb_ok s s' : r_keptb s s' = true -> forall rs, stack_has s rs -> stack_has s' rs.
Proof.
  unfold r_keptb. rewrite andb_true_iff, forallb_forall. intros [HL HF] rs (A & B & C). split; [lia|]. split; [exact B|]. intros k x Hk. rewrite <- (C k x Hk).
  assert (k < List.length rs)%nat by (apply nth_error_Some; congruence). unfold zlen in A.
  replace (len s' - 1 - Z.of_nat k) with (Z.of_nat (Z.to_nat (len s - 1 - Z.of_nat k))) by lia.
  replace (len s - 1 - Z.of_nat k) with (Z.of_nat (Z.to_nat (len s - 1 - Z.of_nat k))) at 2 by lia. apply Z.eqb_eq, HF. apply in_seq. lia.
Qed.
Definition didb n fuel v : bool :=
  at_tokenb fuel v && isok (action fuel (dispatched n (noted v))) && isok (reach 1000 fuel (token_addr n (noted v) + 8) (acted1 n fuel v)) &&
  r_keptb (t_r (cur (noted v))) (t_r (cur (did n fuel v))).
Lemma acted fuel t w d : at_token fuel w t -> isok (action fuel w) = true -> performs fuel t w (vof d (action fuel w)).
Proof. intros HA H. apply (performs_iff fuel w t _ HA). exact (vof_ok d (action fuel w) H). Qed.
Lemma did_goes n fuel v : isok (reach 1000 fuel (token_addr n (noted v) + 8) (acted1 n fuel v)) = true ->
  goes (acted1 n fuel v) (st_ip (st (acted1 n fuel v))) (did n fuel v) (token_addr n (noted v) + 8).
Proof.
  unfold did. generalize (acted1 n fuel v) (token_addr n (noted v) + 8) 1000%nat. intros w a k H. apply vof_ok with (d := v) in H.
  destruct (reach_ok _ _ _ _ _ H) as [S1 S2]. rewrite <- S2 at 2. exact (steps_goes _ _ S1).
Qed.
Lemma at_token_dispatched n fuel t v : at_token fuel v t -> at_token fuel (dispatched n (noted v)) t.
Proof. intro H. exact H. Qed.
Lemma at_token_noted fuel t v : at_token fuel v t -> at_token fuel (noted v) t.
Proof. intro H. exact H. Qed.
Lemma intactb K n v v' : v_ds v' = v_ds v -> v_wl v' = v_wl v -> intact K n v v'.
Proof. exact (intact_eq K n v v'). Qed.
Lemma did_acts K n fuel t d v : v_tkn v = Some t -> didb n fuel v = true ->
  v_ds (noted v) = d -> v_ds (did n fuel v) = d -> v_wl (did n fuel v) = v_wl (noted v) ->
  at_token fuel v t /\ acts K n fuel t (noted v) (did n fuel v).
Proof.
  intros HT HD E1 E1' E2. unfold didb in HD. rewrite !andb_true_iff in HD. destruct HD as (((D1 & D2) & D3) & D4).
  pose proof (at_tokenb_ok fuel v t D1 HT) as HA. split; [exact HA|].
  split; [apply intactb; [congruence|exact E2]|]. split; [exact (r_keptb_ok _ _ D4)|].
  exists (acted1 n fuel v). split; [|exact (did_goes n fuel v D3)].
  unfold acted1. revert D2. generalize (at_token_dispatched n fuel t v HA). generalize (dispatched n (noted v)). clear. intros w HA D2. exact (acted fuel t w v HA D2).
Qed.
Lemma did_acts2 K n fuel t d v v2 : did n fuel v = v2 -> v_tkn v = Some t -> didb n fuel v = true ->
  v_ds (noted v) = d -> v_ds v2 = d -> v_wl v2 = v_wl (noted v) ->
  at_token fuel v t /\ acts K n fuel t (noted v) v2.
Proof. intros <-. apply did_acts. Qed.
Lemma did_ok n fuel t v0 v w v2 ts v' : let K := allocated v0 in
  steadyb v = true -> isok (parse_word v) = true -> rd v = w -> did n fuel w = v2 -> v_tkn w = Some t -> t <> [] -> didb n fuel w = true ->
  v_ds (noted w) = v_ds v0 -> v_ds v2 = v_ds v0 -> v_wl v2 = v_wl (noted w) ->
  obeyed K n v2 ts v' -> obeyed K n v (t :: ts) v'.
Proof.
  intros K HS HP Ew E2 HT Ht HD K1 K2 WL HO. assert (R : reads v t w) by (subst w; apply rd_ok; assumption).
  rewrite <- E2 in HO, K2, WL. pose proof (did_acts K n fuel t (v_ds v0) w HT HD K1 K2 WL) as [HA HB].
  exact (Oy_word 0 K n v t w fuel (did n fuel w) ts v' (steadyb_ok v HS) R Ht HA HB HO).
Qed.
End B.
Lemma pv_prompt : at_prompt KK nm pv.
Proof. split; [exact pv_shell|]. split; [apply steadyb_ok; vm_cast_no_check (@eq_refl bool true)|]. apply has_none. vm_cast_no_check (@eq_refl Z 0). Qed.

(** ** The line 7 . *)
Notation line1 := (b "7 .").
Definition pv1 : @vm env_d := with_keys (typed "7 .") pv.
Definition os1 : @os env_d := fst (os_receive (v_os pv1)).
Notation va1 := (add_r (after_line nm pv1) (entered nm os1 (Line line1) pv1)).
Definition vb1 := did nm 400 (rd va1).
Definition vc1 := did nm 400 (rd vb1).
Definition vd1 := shown 0 (rd vc1).
Lemma pv1_prompt : at_prompt KK nm pv1.
Proof. destruct pv_prompt as (A & B & C). split; [exact (shell_stays KK nm pv pv1 (intact_eq KK nm pv pv1 eq_refl eq_refl) A)|]. split; [apply (steady_same pv); [exact B|reflexivity]|exact C]. Qed.
Lemma pv1_receives : os_receive (v_os pv1) = (os1, Line line1).
Proof. vm_cast_no_check (@eq_refl _ (os_receive (v_os pv1))). Qed.
Lemma vb1_wl : v_wl vb1 = v_wl (noted (rd va1)). Proof. vm_cast_no_check (@eq_refl wordlist (v_wl pv)). Qed.
Lemma vc1_wl : v_wl vc1 = v_wl (noted (rd vb1)). Proof. vm_cast_no_check (@eq_refl wordlist (v_wl pv)). Qed.
Lemma va1_steady : steadyb va1 = true. Proof. vm_cast_no_check (@eq_refl bool true). Qed.
Lemma va1_parses : isok (parse_word va1) = true. Proof. vm_cast_no_check (@eq_refl bool true). Qed.
Lemma vb1_def : did nm 400 (rd va1) = vb1. Proof. unfold vb1; reflexivity. Qed.
Lemma va1_token : v_tkn (rd va1) = Some (b "7"). Proof. vm_cast_no_check (@eq_refl _ (Some (b "7"))). Qed.
Lemma va1_does : didb nm 400 (rd va1) = true. Proof. vm_cast_no_check (@eq_refl bool true). Qed.
Lemma va1_kept : v_ds (noted (rd va1)) = v_ds pv. Proof. vm_cast_no_check (@eq_refl dspace (v_ds pv)). Qed.
Lemma vb1_kept2 : v_ds vb1 = v_ds pv. Proof. vm_cast_no_check (@eq_refl dspace (v_ds pv)). Qed.
Lemma vb1_steady : steadyb vb1 = true. Proof. vm_cast_no_check (@eq_refl bool true). Qed.
Lemma vb1_parses : isok (parse_word vb1) = true. Proof. vm_cast_no_check (@eq_refl bool true). Qed.
Lemma vc1_def : did nm 400 (rd vb1) = vc1. Proof. unfold vc1; reflexivity. Qed.
Lemma vb1_token : v_tkn (rd vb1) = Some (b "."). Proof. vm_cast_no_check (@eq_refl _ (Some (b "."))). Qed.
Lemma vb1_does : didb nm 400 (rd vb1) = true. Proof. vm_cast_no_check (@eq_refl bool true). Qed.
Lemma vb1_kept : v_ds (noted (rd vb1)) = v_ds pv. Proof. vm_cast_no_check (@eq_refl dspace (v_ds pv)). Qed.
Lemma vc1_kept2 : v_ds vc1 = v_ds pv. Proof. vm_cast_no_check (@eq_refl dspace (v_ds pv)). Qed.
Lemma vc1_steady : steadyb vc1 = true. Proof. vm_cast_no_check (@eq_refl bool true). Qed.
Lemma line1_obeyed : obeyed KK nm va1 [b "7"; b "."] vc1.
Proof.
  refine (did_ok nm 400 (b "7") pv va1 (rd va1) vb1 _ vc1 va1_steady va1_parses eq_refl vb1_def va1_token _ va1_does va1_kept vb1_kept2 vb1_wl _); [discriminate|].
  refine (did_ok nm 400 (b ".") pv vb1 (rd vb1) vc1 _ vc1 vb1_steady vb1_parses eq_refl vc1_def vb1_token _ vb1_does vb1_kept vc1_kept2 vc1_wl _); [discriminate|].
  exact (Oy_none 0 KK nm vc1 (steadyb_ok vc1 vc1_steady)).
Qed.
Lemma line1_obeys : obeys KK nm va1 [b "7"; b "."] vd1.
Proof.
  exists vc1, (rd vc1). split; [exact line1_obeyed|]. split; [|reflexivity]. apply rd_ok; [vm_cast_no_check (@eq_refl bool true)|vm_cast_no_check (@eq_refl _ (Some (@nil Z)))].
Qed.
Notation vn1 := (closed nm (drop_r 1 vd1)).
Lemma line1_output : v_stdout vn1 = v_stdout pv1 ++ b " 7  ok" ++ [13; 10].
Proof. vm_cast_no_check (@eq_refl _ (v_stdout vn1)). Qed.
Lemma line1_session : session KK nm pv1 [line1] (closed nm (drop_r 1 vd1)).
Proof.
  refine (Se_line KK nm pv1 os1 line1 [b "7"; b "."] vd1 [] _ pv1_receives _ (Se_none KK nm _)). exact line1_obeys.
Qed.
Lemma vd1_out1 : v_out vd1 = Some (b " 7 "). Proof. vm_cast_no_check (@eq_refl (option bytes) (Some (b " 7 "))). Qed.
Lemma vd1_state : st_compiling (st vd1) = false. Proof. vm_cast_no_check (@eq_refl bool false). Qed.
Lemma vd1_out : v_out vd1 = Some (b " 7 ") /\ st_compiling (st vd1) = false. Proof. exact (conj vd1_out1 vd1_state). Qed.
Definition unfound fuel s (v : @vm env_d) : bool := match find fuel s v with Ok (None, _) => true | _ => false end.
Lemma unfound_ok fuel s (v : @vm env_d) : dict_ok v -> words v < Z.of_nat fuel -> unfound fuel s v = true -> newest v s None.
Proof. intros HD HW H. destruct (find_newest fuel s v HD HW) as (r & E1 & N). unfold unfound in H. rewrite E1 in H. destruct r; [discriminate|exact N]. Qed.
Definition foundb fuel s (v : @vm env_d) (i : Z) : bool := match find fuel s v with Ok (Some j, _) => i =? j | _ => false end.
Lemma foundb_ok fuel s (v : @vm env_d) i : dict_ok v -> words v < Z.of_nat fuel -> foundb fuel s v i = true -> newest v s (Some i).
Proof. intros HD HW H. destruct (find_newest fuel s v HD HW) as (r & E1 & N). unfold foundb in H. rewrite E1 in H. destruct r as [j|]; [|discriminate]. apply Z.eqb_eq in H. subst j. exact N. Qed.
Lemma one_has (s : stack Z) (x : Z) : len s = 1 -> sget s 0 = x -> stack_has s [x].
Proof. intros A B. split; [exact A|]. split; [discriminate|]. intros [|[|k]] y Q; try discriminate Q. injection Q as <-. rewrite A. exact B. Qed.
Lemma vb1_unfound : unfound 400 (b "7") (noted (rd va1)) = true. Proof. vm_cast_no_check (@eq_refl bool true). Qed.
Lemma vb1_len : len (t_s (cur vb1)) = 1. Proof. vm_cast_no_check (@eq_refl Z 1). Qed.
Lemma vb1_top : sget (t_s (cur vb1)) 0 = 7. Proof. vm_cast_no_check (@eq_refl Z 7). Qed.
Lemma line1_tokens : exists va vb, reads (add_r (after_line nm pv1) (entered nm os1 (Line (b "7 .")) pv1)) (b "7") va /\ acts KK nm 400 (b "7") (noted va) vb /\ newest (noted va) (b "7") None /\ stack_has (t_s (cur vb)) [7].
Proof.
  pose proof (did_acts2 KK nm 400 (b "7") (v_ds pv) (rd va1) vb1 vb1_def va1_token va1_does va1_kept vb1_kept2 vb1_wl) as [HA HB].
  exists (rd va1), vb1. split; [exact (rd_ok va1 (b "7") va1_parses va1_token)|]. split; [exact HB|].
  split; [|exact (one_has _ 7 vb1_len vb1_top)].
  pose proof (at_token_noted 400 (b "7") _ HA) as (_ & A & B & _). exact (unfound_ok 400 (b "7") (noted (rd va1)) A B vb1_unfound).
Qed.
Lemma line1_ex : at_prompt KK nm pv1 /\ os_receive (v_os pv1) = (os1, Line (b "7 .")) /\
  obeys KK nm (add_r (after_line nm pv1) (entered nm os1 (Line (b "7 .")) pv1)) [b "7"; b "."] vd1 /\
  v_stdout (closed nm (drop_r 1 vd1)) = v_stdout pv1 ++ b " 7  ok" ++ [13; 10].
Proof.
  split; [exact pv1_prompt|]. split; [exact pv1_receives|]. split; [exact line1_obeys|]. exact line1_output.
Qed.
