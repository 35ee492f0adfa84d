(** Further machines for the properties C88 and C89: a line that fails, the end of the input, a terminal that fails. *)
From Coq Require Import ZArith List Bool Lia ZifyBool ZifyNat String.
From Verif Require Import Base Stack Mem Parser Flt State CoreM IoM FloatM FileM Exec Boot Term Std Shell Spec Spec2 Spec4 Spec5 Spec7 Spec9 Spec10 Spec11 Spec14 Spec15 Spec16 Spec19 Spec24 Spec25 Spec27
  LBase LStack LState LMem LMon LTask LDict LComp LCode LDec LText LNum LWords LRun LEval LLib LLibWords LSource LShell LShell2 LShell4 LShell5 LShell6 Ex Ex2 Ex3 Ex6 Ex7 Ex9 Ex10 Ex11 Ex12 Ex13 Ex14 Ex20.
Import ListNotations.
Open Scope list_scope.
Open Scope Z_scope.
Open Scope m_scope.

(** ** The line 7 foo *)
Lemma no_int (v : @vm env_d) s c : base_is v 10 -> In c s -> c <> 37 -> c <> 35 -> c <> 36 -> c <> 43 -> c <> 45 -> (forall d, digit c d -> 10 <= d) ->
  (match s with c0 :: _ => c0 <> 36 /\ c0 <> 39 | [] => True end) -> no_integer v s.
Proof.
  intros HB A1 A2 A3 A4 A5 A6 A7 A8. destruct (no_int_e s c A1 A2 A3 A4 A5 A6 A7 A8) as (b0 & B1 & B2). pose proof (bt_base s) as B0. unfold base_is in B0, B1.
  rewrite B0 in B1. injection B1 as <-. exists 10. split; [exact HB|exact B2].
Qed.
Lemma foo_float s i f es (z : list Z) : ~ float_text s i f es z (b "foo").
Proof.
  intro H. assert (K : In 69 (b "foo") \/ In 101 (b "foo")).
  { inversion H as [g ti tf m eg tx A1 A2 A3 A4 A5 A6 A7 Etok]. assert (IN : In m (g ++ ti ++ tf ++ [m] ++ eg ++ tx)) by (apply in_or_app; right; apply in_or_app; right; apply in_or_app; right; left; reflexivity).
    cbn [app] in IN. rewrite Etok in IN. destruct A5 as [-> | ->]; [left|right]; exact IN. }
  cbn in K. lia.
Qed.
Lemma digit_o d : digit 111 d -> 10 <= d. Proof. intro H. apply digit_of_ok in H. discriminate H. Qed.
Notation line2 := (b "7 foo").
Definition pv2 : @vm env_d := with_keys (typed "7 foo") pv.
Definition os2 : @os env_d := fst (os_receive (v_os pv2)).
Notation va2 := (add_r (after_line nm pv2) (entered nm os2 (Line line2) pv2)).
Definition vb2 := did nm 400 (rd va2).
Notation vf2 := (rd vb2).
Lemma with_keys_prompt k : at_prompt KK nm (with_keys k pv).
Proof. destruct pv_prompt as (A & B & C). split; [exact (shell_stays KK nm pv (with_keys k pv) (intact_eq KK nm pv (with_keys k pv) eq_refl eq_refl) A)|]. split; [apply (steady_same pv); [exact B|reflexivity]|exact C]. Qed.
Lemma pv2_receives : os_receive (v_os pv2) = (os2, Line line2).
Proof. vm_cast_no_check (@eq_refl _ (os_receive (v_os pv2))). Qed.
Lemma vb2_wl : v_wl vb2 = v_wl (noted (rd va2)). Proof. vm_cast_no_check (@eq_refl wordlist (v_wl pv)). Qed.
Lemma va2_steady : steadyb va2 = true. Proof. vm_cast_no_check (@eq_refl bool true). Qed.
Lemma va2_parses : isok (parse_word va2) = true. Proof. vm_cast_no_check (@eq_refl bool true). Qed.
Lemma vb2_def : did nm 400 (rd va2) = vb2. Proof. unfold vb2; reflexivity. Qed.
Lemma va2_token : v_tkn (rd va2) = Some (b "7"). Proof. vm_cast_no_check (@eq_refl _ (Some (b "7"))). Qed.
Lemma va2_does : didb nm 400 (rd va2) = true. Proof. vm_cast_no_check (@eq_refl bool true). Qed.
Lemma va2_kept : v_ds (noted (rd va2)) = v_ds pv. Proof. vm_cast_no_check (@eq_refl dspace (v_ds pv)). Qed.
Lemma vb2_kept2 : v_ds vb2 = v_ds pv. Proof. vm_cast_no_check (@eq_refl dspace (v_ds pv)). Qed.
Lemma vb2_steady : steadyb vb2 = true. Proof. vm_cast_no_check (@eq_refl bool true). Qed.
Lemma line2_obeyed : obeyed KK nm va2 [b "7"] vb2.
Proof.
  refine (did_ok nm 400 (b "7") pv va2 (rd va2) vb2 _ vb2 va2_steady va2_parses eq_refl vb2_def va2_token _ va2_does va2_kept vb2_kept2 vb2_wl _); [discriminate|].
  exact (Oy_none 0 KK nm vb2 (steadyb_ok vb2 vb2_steady)).
Qed.
Lemma vb2_parses : isok (parse_word vb2) = true. Proof. vm_cast_no_check (@eq_refl bool true). Qed.
Lemma vf2_tkn : v_tkn vf2 = Some (b "foo"). Proof. vm_cast_no_check (@eq_refl _ (Some (b "foo"))). Qed.
Lemma vf2_read : reads vb2 (b "foo") vf2. Proof. exact (rd_ok vb2 (b "foo") vb2_parses vf2_tkn). Qed.
Lemma vf2_tokenb : at_tokenb 400 vf2 = true. Proof. vm_cast_no_check (@eq_refl bool true). Qed.
Lemma vf2_token : at_token 400 vf2 (b "foo"). Proof. exact (at_tokenb_ok 400 vf2 (b "foo") vf2_tokenb vf2_tkn). Qed.
Lemma vf2_handler : v_handler vf2 = n_abort nm. Proof. vm_cast_no_check (@eq_refl Z (n_abort nm)). Qed.
Lemma vf2_out : v_out vf2 = Some (b " "). Proof. vm_cast_no_check (@eq_refl _ (Some (b " "))). Qed.
Lemma vf2_unfound : unfound 400 (b "foo") vf2 = true. Proof. vm_cast_no_check (@eq_refl bool true). Qed.
Lemma vf2_newest : newest vf2 (b "foo") None.
Proof. destruct vf2_token as (_ & A & B & _). exact (unfound_ok 400 (b "foo") vf2 A B vf2_unfound). Qed.
Lemma vf2_base : base_is vf2 10. Proof. unfold base_is. vm_cast_no_check (@eq_refl (res Z) (Ok 10)). Qed.
Lemma vf2_noint : no_integer vf2 (b "foo").
Proof. apply (no_int vf2 (b "foo") 111 vf2_base); [cbn; tauto|lia..|exact digit_o|cbn; lia]. Qed.

(** ** The end of the input, and bye *)
Definition pv4 : @vm env_d := with_keys [Key Control (Char 100)] pv.
Lemma pv4_receives : os_receive (v_os pv4) = (fst (os_receive (v_os pv4)), Eof).
Proof. vm_cast_no_check (@eq_refl _ (os_receive (v_os pv4))). Qed.
Notation line5 := (b "bye").
Definition pv5 : @vm env_d := with_keys (typed "bye") pv.
Definition os5 : @os env_d := fst (os_receive (v_os pv5)).
Notation va5 := (add_r (after_line nm pv5) (entered nm os5 (Line line5) pv5)).
Notation vf5 := (rd va5).
Definition vu5 := acted1 nm 400 vf5.
Lemma pv5_receives : os_receive (v_os pv5) = (os5, Line line5). Proof. vm_cast_no_check (@eq_refl _ (os_receive (v_os pv5))). Qed.
Lemma va5_steady : steadyb va5 = true. Proof. vm_cast_no_check (@eq_refl bool true). Qed.
Lemma va5_parses : isok (parse_word va5) = true. Proof. vm_cast_no_check (@eq_refl bool true). Qed.
Lemma vf5_tkn : v_tkn vf5 = Some (b "bye"). Proof. vm_cast_no_check (@eq_refl _ (Some (b "bye"))). Qed.
Lemma vf5_read : reads va5 (b "bye") vf5. Proof. exact (rd_ok va5 (b "bye") va5_parses vf5_tkn). Qed.
Lemma vf5_tokenb : at_tokenb 400 vf5 = true. Proof. vm_cast_no_check (@eq_refl bool true). Qed.
Lemma vf5_token : at_token 400 vf5 (b "bye"). Proof. exact (at_tokenb_ok 400 vf5 (b "bye") vf5_tokenb vf5_tkn). Qed.
Lemma vf5_acts : isok (action 400 (dispatched nm (noted vf5))) = true. Proof. vm_cast_no_check (@eq_refl bool true). Qed.
Lemma vu5_performs : performs 400 (b "bye") (dispatched nm (noted vf5)) vu5.
Proof. unfold vu5, acted1. exact (acted 400 (b "bye") (dispatched nm (noted vf5)) vf5 (at_token_dispatched nm 400 (b "bye") vf5 vf5_token) vf5_acts). Qed.
Definition haltedb (v : @vm env_d) : bool := match running v with Ok (false, _) => true | _ => false end.
Lemma haltedb_ok (v : @vm env_d) : haltedb v = true -> running v = Ok (false, v).
Proof. unfold haltedb. destruct (running v) as [[[|] w]| | |] eqn:ER; try discriminate. intros _. rewrite (running_same _ _ _ ER). reflexivity. Qed.
Lemma vu5_haltedb : haltedb vu5 = true. Proof. vm_cast_no_check (@eq_refl bool true). Qed.
Lemma vu5_halted : running vu5 = Ok (false, vu5). Proof. exact (haltedb_ok vu5 vu5_haltedb). Qed.

(** ** A terminal that fails *)
Definition broken (o : @os env_d) : Prop := fs_keys o = [].
Lemma broken_fails o : broken o -> exists o', os_receive o = (o', Failed) /\ broken o'.
Proof. unfold broken. destruct o as [f1 f2 f3 h k]. cbn. intros ->. eexists. split; reflexivity. Qed.
Definition pv6 : @vm env_d := with_keys [] pv.
Lemma pv6_idle : idle KK broken nm pv6.
Proof.
  split; [exact (with_keys_prompt [])|]. split; [exists []; split; [vm_cast_no_check (@eq_refl (option bytes) (Some []))|]|].
  - change (zlen (@nil Z)) with 0. assert (H : (0 <=? st_idx (st pv6)) = true) by (vm_cast_no_check (@eq_refl bool true)). lia.
  - split; [assert (H : v_tkn pv6 = Some []) by (vm_cast_no_check (@eq_refl (option bytes) (Some []))); rewrite H; discriminate|].
    split; [vm_cast_no_check (@eq_refl (option bytes) (Some []))|reflexivity].
Qed.

(** ** Sixty-three cells *)
(** machine steps until [stop] *)
Fixpoint until (k fuel : nat) (stop : @vm env_d -> bool) (v : @vm env_d) : res (unit * @vm env_d) :=
  match k with
  | O => OutOfFuel
  | S k => if stop v then Ok (tt, v) else
    match running v with
    | Ok (true, _) => match run_step fuel v with Ok (_, v') => until k fuel stop v' | r => r end
    | _ => UB
    end
  end.
Lemma until_ok k fuel stop : forall v w, until k fuel stop v = Ok (tt, w) -> machine_steps v w.
Proof.
  induction k as [|k IH]; intros v w; cbn [until]; [discriminate|]. destruct (stop v); [intro H; injection H as <-; constructor|].
  destruct (running v) as [[[|] w0]| | |] eqn:ER; try discriminate. destruct (run_step fuel v) as [[[] v']| | |] eqn:ES; try discriminate.
  intro H. econstructor; [split; [pose proof (running_same _ _ _ ER); subst w0; exact ER|exists fuel; exact ES]|exact (IH _ _ H)].
Qed.
Fixpoint ones (k : nat) : string := match k with O => EmptyString | S k => String.append "1 " (ones k) end.
Definition at_line (v : @vm env_d) : bool := st_ip (st v) =? prompt_addr nm pv.
Definition raised3 (v : @vm env_d) : bool := match v_err v with Some e => e =? -3 | None => false end.
(** 63 numbers are typed in, then drop: the state at the prompt, after the first line, at the next prompt, and when the
    second line has raised an exception *)
Definition pv7 : @vm env_d := set_ip (prompt_addr nm pv) (with_keys (keys [ones 63; "drop"%string]) pv).
Definition after_one (v : @vm env_d) : bool := st_ip (st v) =? after_line nm pv.
Definition va7 : @vm env_d := vof pv7 (until 100000 400 after_one pv7).
Definition vb7 : @vm env_d := vof pv7 (until 100000 400 at_line va7).
Definition vx7 : @vm env_d := vof pv7 (until 100000 400 raised3 vb7).
Lemma va7_ok : isok (until 100000 400 after_one pv7) = true. Proof. vm_cast_no_check (@eq_refl bool true). Qed.
Lemma vb7_ok : isok (until 100000 400 at_line va7) = true. Proof. vm_cast_no_check (@eq_refl bool true). Qed.
Lemma vx7_ok : isok (until 100000 400 raised3 vb7) = true. Proof. vm_cast_no_check (@eq_refl bool true). Qed.
Lemma va7_steps : machine_steps pv7 va7. Proof. exact (until_ok 100000 400 after_one pv7 va7 (vof_ok pv7 _ va7_ok)). Qed.
Lemma vb7_steps : machine_steps va7 vb7. Proof. exact (until_ok 100000 400 at_line va7 vb7 (vof_ok pv7 _ vb7_ok)). Qed.
Lemma vx7_steps : machine_steps vb7 vx7. Proof. exact (until_ok 100000 400 raised3 vb7 vx7 (vof_ok pv7 _ vx7_ok)). Qed.
Lemma pv7_prompt : at_prompt KK nm pv7.
Proof. destruct (with_keys_prompt (keys [ones 63; "drop"%string])) as (A & B & C). split; [exact (shell_stays KK nm _ pv7 (intact_eq KK nm _ pv7 eq_refl eq_refl) A)|]. split; [apply (steady_same (with_keys (keys [ones 63; "drop"%string]) pv)); [exact B|reflexivity]|exact C]. Qed.
Lemma pv7_ip : st_ip (st pv7) = prompt_addr nm pv7. Proof. vm_cast_no_check (@eq_refl Z (prompt_addr nm pv)). Qed.
Definition accepted_at (a : Z) (v : @vm env_d) : bool :=
  soundb v && (st_ip (st v) =? a) && (len (t_s (cur v)) =? 63) && match v_err v with None => true | _ => false end.
Lemma accepted_ok a v : accepted_at a v = true -> st_ip (st v) = a /\ quiet 0 P_check_stacks v v /\ v_err v = None /\ exists d, stack_has (t_s (cur v)) d /\ zlen d = 63.
Proof.
  unfold accepted_at. rewrite !andb_true_iff, !Z.eqb_eq. intros (((A1 & A2) & A3) & A4). split; [exact A2|]. split; [exact (soundb_ok v A1)|]. split; [destruct (v_err v); [discriminate A4|reflexivity]|].
  destruct (has_any (t_s (cur v))) as (d & D1 & D2); [rewrite A3; lia|]. exists d. split; [exact D1|rewrite D2; exact A3].
Qed.
Lemma va7_facts : accepted_at (after_line nm pv7) va7 = true. Proof. vm_cast_no_check (@eq_refl bool true). Qed.
Lemma vb7_ip : st_ip (st vb7) = prompt_addr nm pv7. Proof. vm_cast_no_check (@eq_refl Z (prompt_addr nm pv)). Qed.
Lemma vb7_receives : snd (os_receive (v_os vb7)) = Line (b "drop"). Proof. vm_cast_no_check (@eq_refl received (Line (b "drop"))). Qed.
Lemma vx7_err : v_err vx7 = Some (-3). Proof. vm_cast_no_check (@eq_refl (option Z) (Some (-3))). Qed.
(** ** An exception in a background task *)
Definition pv8 : @vm env_d := with_keys (keys [": bg 2 activate 1 0 / ; : p pause ;"; "bg p 7 ."; "1 ."; "bye"]%string) shell_d.
Definition panicsb {A} (r : res A) : bool := match r with Panic _ => true | _ => false end.
Lemma pv8_panics : panicsb (shell_main 20000 [] pv8) = true. Proof. vm_cast_no_check (@eq_refl bool true). Qed.

(** ** The line if *)
Definition pv3 : @vm env_d := with_keys (typed "if") pv.
Definition os3 : @os env_d := fst (os_receive (v_os pv3)).
Notation va3 := (add_r (after_line nm pv3) (entered nm os3 (Line (b "if")) pv3)).
Notation vf3 := (rd va3).
Lemma pv3_receives : os_receive (v_os pv3) = (os3, Line (b "if")). Proof. vm_cast_no_check (@eq_refl _ (os_receive (v_os pv3))). Qed.
Lemma va3_steady : steadyb va3 = true. Proof. vm_cast_no_check (@eq_refl bool true). Qed.
Lemma va3_parses : isok (parse_word va3) = true. Proof. vm_cast_no_check (@eq_refl bool true). Qed.
Lemma vf3_tkn : v_tkn vf3 = Some (b "if"). Proof. vm_cast_no_check (@eq_refl _ (Some (b "if"))). Qed.
Lemma vf3_tokenb : at_tokenb 400 vf3 = true. Proof. vm_cast_no_check (@eq_refl bool true). Qed.
Lemma vf3_token : at_token 400 vf3 (b "if"). Proof. exact (at_tokenb_ok 400 vf3 (b "if") vf3_tokenb vf3_tkn). Qed.
Lemma vf3_handler : v_handler vf3 = n_abort nm. Proof. vm_cast_no_check (@eq_refl Z (n_abort nm)). Qed.
Lemma vf3_out : v_out vf3 = Some (b " "). Proof. vm_cast_no_check (@eq_refl _ (Some (b " "))). Qed.
Definition i_if : Z := Eval vm_compute in num "if".
Lemma vf3_found : foundb 400 (b "if") vf3 i_if = true. Proof. vm_cast_no_check (@eq_refl bool true). Qed.
Lemma vf3_interp : st_compiling (st vf3) = false. Proof. vm_cast_no_check (@eq_refl bool false). Qed.
Lemma vf3_co : w_co (word_of vf3 i_if) = true. Proof. vm_cast_no_check (@eq_refl bool true). Qed.
Lemma vf3_newest : newest vf3 (b "if") (Some i_if).
Proof. destruct vf3_token as (_ & A & B & _). exact (foundb_ok 400 (b "if") vf3 i_if A B vf3_found). Qed.
Lemma line3_if : exists v1 i, at_prompt KK nm pv3 /\ os_receive (v_os pv3) = (os3, Line (b "if")) /\
  obeyed KK nm (add_r (after_line nm pv3) (entered nm os3 (Line (b "if")) pv3)) [] va3 /\ reads va3 (b "if") v1 /\ at_token 400 v1 (b "if") /\
  v_handler v1 = n_abort nm /\ v_out v1 = Some (b " ") /\ newest v1 (b "if") (Some i) /\ st_compiling (st v1) = false /\ w_co (word_of v1 i) = true.
Proof.
  exists vf3, i_if. split; [exact (with_keys_prompt (typed "if"))|]. split; [exact pv3_receives|]. split; [exact ((Oy_none 0 KK nm va3 (steadyb_ok va3 va3_steady)))|].
  split; [exact (rd_ok va3 (b "if") va3_parses vf3_tkn)|]. split; [exact vf3_token|]. split; [exact vf3_handler|]. split; [exact vf3_out|]. split; [exact vf3_newest|]. split; [exact vf3_interp|exact vf3_co].
Qed.

(** ** Witnesses *)
Lemma line2_unknown : exists v0 v1,
  at_prompt KK nm pv2 /\ os_receive (v_os pv2) = (os2, Line line2) /\
  obeyed KK nm (add_r (after_line nm pv2) (entered nm os2 (Line line2) pv2)) [b "7"] v0 /\ reads v0 (b "foo") v1 /\ at_token 400 v1 (b "foo") /\
  v_handler v1 = n_abort nm /\ v_out v1 = Some (b " ") /\ newest v1 (b "foo") None /\ no_integer v1 (b "foo") /\
  (forall s i f es z, ~ float_text s i f es z (b "foo")).
Proof.
  exists vb2, vf2. split; [exact (with_keys_prompt (typed "7 foo"))|]. split; [exact pv2_receives|]. split; [exact (line2_obeyed)|].
  split; [exact vf2_read|]. split; [exact vf2_token|]. split; [exact vf2_handler|]. split; [exact vf2_out|]. split; [exact vf2_newest|]. split; [exact vf2_noint|exact foo_float].
Qed.
Definition seen (l : list string) : bytes := match shell_main 20000 [] (with_keys (keys l) shell_d) with Ok (_, v) => v_stdout v | _ => [] end.
Lemma foo_seen : seen ["7 foo"; "1 ."; "bye"]%string =
  b " foo Undefined word, backtrace: quit evaluate-input interpret-token (abort) " ++ [13; 10] ++ b " 1  ok" ++ [13; 10] ++ b " " ++ [10].
Proof. vm_cast_no_check (@eq_refl bytes (seen ["7 foo"; "1 ."; "bye"]%string)). Qed.
(** 1 0 / *)
Definition pvs : @vm env_d := set_s (push (push (t_s (cur pv)) 1) 0) pv.
Definition i_slash : Z := Eval vm_compute in num "/".
Lemma pvs_dict : dict_ok pvs. Proof. exact pv_dict. Qed.
Lemma pvs_words : words pvs < Z.of_nat 400. Proof. exact pv_words. Qed.
Lemma pvs_found : foundb 400 (b "/") pvs i_slash = true. Proof. vm_cast_no_check (@eq_refl bool true). Qed.
Lemma pvs_slash : word_isb pvs i_slash P_slash = true. Proof. vm_cast_no_check (@eq_refl bool true). Qed.
Lemma pvs_exec : (negb (st_compiling (st pvs)) && negb (w_co (word_of pvs i_slash))) = true. Proof. vm_cast_no_check (@eq_refl bool true). Qed.
Lemma pv_empty : stack_has (t_s (cur pv)) []. Proof. apply has_none. vm_cast_no_check (@eq_refl Z 0). Qed.
Lemma pvs_has : stack_has (t_s (cur pvs)) [0; 1].
Proof. unfold pvs. rewrite cur_set_s. cbn [t_s set_t_s]. apply push_has; [|reflexivity]. apply push_has; [exact pv_empty|reflexivity]. Qed.
Lemma slash_aborts (v : @vm env_d) (i a : Z) l : stack_has (t_s (cur v)) (0 :: l) -> forall ew, exec_prim 1 ew P_slash (set_ip a (set_wp i v)) = ew (v_handler v) (aborted (-10) (set_ip a (set_wp i v))).
Proof.
  intros H ew. rewrite set_ip_wp_at. assert (HS : stack_has (t_s (cur (at_ i a v))) (0 :: l)) by (rewrite s_at; exact H).
  change (v_handler v) with (v_handler (at_ i a v)). rewrite <- abort_with_eq. revert HS. generalize (at_ i a v). clear. intros v HS.
  apply (div_word_zero (bin_ w_div) P_slash 1 ew v l); [reflexivity|exact HS].
Qed.
Lemma slash_fails : exists (v : @vm env_d) i x, newest v (b "/") (Some i) /\ executes v i /\ word_is v i P_slash /\ stack_has (t_s (cur v)) [0; 1] /\
  (forall ew, exec_prim 1 ew P_slash (set_ip (token_addr nm v + 8) (set_wp i v)) = ew (v_handler x) x) /\ v_err x = Some (-10).
Proof.
  exists pvs, i_slash, (aborted (-10) (set_ip (token_addr nm pvs + 8) (set_wp i_slash pvs))).
  split; [exact (foundb_ok 400 (b "/") pvs i_slash pvs_dict pvs_words pvs_found)|]. pose proof pvs_exec as X. rewrite andb_true_iff, !negb_true_iff in X. destruct X as [X1 X2].
  split; [unfold executes; rewrite X1; exact X2|]. split; [apply word_isb_ok; exact pvs_slash|]. split; [exact pvs_has|]. split; [|reflexivity].
  exact (slash_aborts pvs i_slash (token_addr nm pvs + 8) [1] pvs_has).
Qed.
Lemma pv4_ends : at_prompt KK nm pv4 /\ snd (os_receive (v_os pv4)) = Eof.
Proof. split; [exact (with_keys_prompt [Key Control (Char 100)])|]. rewrite pv4_receives. reflexivity. Qed.
Lemma line5_bye : exists v1 u, at_prompt KK nm pv5 /\ os_receive (v_os pv5) = (os5, Line (b "bye")) /\
  obeyed KK nm (add_r (after_line nm pv5) (entered nm os5 (Line (b "bye")) pv5)) [] va5 /\ reads va5 (b "bye") v1 /\ at_token 400 v1 (b "bye") /\
  performs 400 (b "bye") (dispatched nm (noted v1)) u /\ running u = Ok (false, u).
Proof.
  exists vf5, vu5. split; [exact (with_keys_prompt (typed "bye"))|]. split; [exact pv5_receives|]. split; [exact ((Oy_none 0 KK nm va5 (steadyb_ok va5 va5_steady)))|].
  split; [exact vf5_read|]. split; [exact vf5_token|]. split; [exact vu5_performs|exact vu5_halted].
Qed.
Lemma endless : exists (K : Z -> Prop) n (v : @vm env_d), at_prompt K n v /\ snd (os_receive (v_os v)) = Failed /\
  forall f, run f (set_ip (prompt_addr n v) v) = OutOfFuel.
Proof.
  exists KK, nm, pv6. split; [exact (proj1 pv6_idle)|]. split; [reflexivity|]. intro f. apply (never_ends KK broken broken_fails nm f pv6); [exact pv6_idle|].
  clear. generalize pv6 (prompt_addr nm pv6). intros v a. split; [gnorm; reflexivity|rewrite set_wp_ip, set_ip_at, set_ip_wp_at; reflexivity].
Qed.
Lemma prompt_overflow : exists (K : Z -> Prop) n (v v1 v2 v3 : @vm env_d) d,
  at_prompt K n v /\ st_ip (st v) = prompt_addr n v /\
  (machine_steps v v1 /\ st_ip (st v1) = after_line n v /\ quiet 0 P_check_stacks v1 v1 /\ v_err v1 = None /\ stack_has (t_s (cur v1)) d /\ zlen d = 63) /\
  (machine_steps v1 v2 /\ st_ip (st v2) = prompt_addr n v /\ snd (os_receive (v_os v2)) = Line (b "drop")) /\
  machine_steps v2 v3 /\ v_err v3 = Some (-3).
Proof.
  destruct (accepted_ok _ _ va7_facts) as (A1 & A2 & A3 & d & D1 & D2).
  exists KK, nm, pv7, va7, vb7, vx7, d. split; [exact pv7_prompt|]. split; [exact pv7_ip|].
  split; [exact (conj va7_steps (conj A1 (conj A2 (conj A3 (conj D1 D2)))))|]. split; [exact (conj vb7_steps (conj vb7_ip vb7_receives))|]. exact (conj vx7_steps vx7_err).
Qed.
Lemma background_panics : exists (lines : list string) fuel p,
  shell_main fuel [] (with_keys (keys lines) shell_d) = Panic p.
Proof.
  exists [": bg 2 activate 1 0 / ; : p pause ;"; "bg p 7 ."; "1 ."; "bye"]%string, 20000%nat. pose proof pv8_panics as H. unfold pv8 in H.
  revert H. generalize (@shell_main env_d 20000 [] (with_keys (keys [": bg 2 activate 1 0 / ; : p pause ;"; "bg p 7 ."; "1 ."; "bye"]%string) shell_d)).
  intros [[u w]|p| |] H; try discriminate H. exists p. reflexivity.
Qed.
