(** A machine about to load a file of numbers, used by the examples of C90. *)
From Coq Require Import ZArith List Bool Lia ZifyBool ZifyNat String.
From Verif Require Import Base Stack Mem Parser Flt State CoreM IoM FloatM FileM Exec Boot Term Std Shell Spec Spec2 Spec4 Spec5 Spec7 Spec9 Spec10 Spec11 Spec12 Spec15 Spec16 Spec17 Spec25 Spec27 Spec28 Spec29
  LBase LStack LState LMem LMon LMemWords LDict LComp LCode LDec LText LRun LLib LLibWords LSource LPrint LShell LShell2 LInc LInc2 LInc3 LInc4 Ex Ex2 Ex3 Ex6 Ex7 Ex8 Ex9 Ex10 Ex11 Ex12 Ex13 Ex20.
Import ListNotations.
Open Scope list_scope.
Open Scope Z_scope.
Open Scope m_scope.

Definition lm : loader_names := Eval vm_compute in
  mkLoader (num "save-source") (num "restore-source") (num "src-stack") (num "2@") (num "2*") (num "2!") (num "source-idx") (num "+!") (num "r/o") (num "load-source-file") (num "included") (num "0=").
Definition nl : names := Eval vm_compute in
  mkNames ix1 (n_eval nm) (n_quit nm) (n_abort nm) (n_space nm) (n_line nm) (n_nod nm) (n_halt nm) (n_cold nm) (loader_numbers lm ++ map ix1 lib_prims).
(** the name of the file is that of the word INCLUDED, as it is in the dictionary *)
Definition la : Z := Eval vm_compute in w_nfa (word_of pv (l_included lm)) + 8.
Definition ltext : bytes := b "7 8" ++ [10] ++ b "-9" ++ [13; 10].
Definition los : fs := mkFs [(b "included", ltext)] [] 1 [] [].
Definition los1 : fs := Eval vm_compute in fst (fs_openf los (b "included") (mkOpts true false false false)).
(** the machine at the prompt, with the file and its name on the stack *)
Definition lv : @vm env_d := Eval vm_compute in
  set_s (push (push (t_s (cur pv)) la) 8) (@set_v_os env_d los pv).
Definition ls0 : Z := Eval vm_compute in src_at lm pv.
Definition ll0 : Z := Eval vm_compute in line_at nl pv.
Definition KL (k : Z) : Prop := start (v_ds lv) <= k < here (v_ds lv) /\ (k < ls0 \/ ls0 + 272 <= k) /\ (k < ll0 \/ ll0 + 8 <= k).

Lemma lv_dict : dict_ok lv. Proof. apply dict_okb_ok. vm_cast_no_check (@eq_refl bool true). Qed.
Lemma lv_words : words lv < Z.of_nat 400.
Proof. assert (H : words lv = 329) by (vm_cast_no_check (@eq_refl Z 329)). rewrite H. reflexivity. Qed.
Lemma lv_addr : 0 < start (v_ds lv) /\ limit (v_ds lv) < 2 ^ 63.
Proof.
  assert (H : (0 <? start (v_ds lv)) && (limit (v_ds lv) <? 2 ^ 63) = true) by (vm_cast_no_check (@eq_refl bool true)).
  rewrite andb_true_iff in H. lia.
Qed.
Section I.
Context {E : Env}.
Variable v : vm.
Hypothesis HW : words v < Z.of_nat 400.
Hypothesis HA : 0 < start (v_ds v) /\ limit (v_ds v) < 2 ^ 63.
Variable ix : prim -> Z.
Variables a c : Z.
Definition clear_of (k : Z) : Prop := start (v_ds v) <= k < here (v_ds v) /\ (k < a \/ a + 272 <= k) /\ (k < c \/ c + 8 <= k).
Definition awayb (lo hi : Z) : bool := ((hi <=? a) || (a + 272 <=? lo)) && ((hi <=? c) || (c + 8 <=? lo)).
Definition colon_clear (i : Z) (p : prog) : bool :=
  let e := fin (Seq p (Op (ix P_exit))) (body v i) in
  colonb v ix i p && (start (v_ds v) <=? body v i) && (e <=? here (v_ds v)) && awayb (body v i) e.
Lemma colon_clear_ok i p : colon_clear i p = true -> colon_word clear_of v i p (ix P_exit).
Proof.
  unfold colon_clear, awayb. cbv zeta. rewrite !andb_true_iff, !orb_true_iff. intros (((H2 & H3) & H4) & H5).
  apply (colonb_more v HW HA); [exact H2|]. unfold own_code, clear_of. cbv zeta. unfold body in *. intros k Hk. lia.
Qed.
(** the names and the data of the markers are away from the two areas *)
Definition apartb : bool :=
  forallb (fun i => let w := wl_get (v_wl v) i in let x := w_nfa w in
     awayb x (x + 8 + cell_bytes_val (v_ds v) x) && (negb (prim_eqb (w_action w) P_unmark) || awayb (w_dfa w) (w_dfa w + 520))) (upto (words v)).
Lemma apartb_ok : dict_ok v -> apartb = true -> forall k, protected v k -> (k < a \/ a + 272 <= k) /\ (k < c \/ c + 8 <= k).
Proof.
  clear HW HA ix. intros HD H k (i & Hi & HP). unfold apartb in H. rewrite forallb_forall in H. specialize (H i (in_upto _ _ Hi)). cbv zeta in H.
  unfold awayb in H. rewrite !andb_true_iff, !orb_true_iff, !andb_true_iff, !orb_true_iff in H. unfold word_of in HP. destruct H as [H1 H2].
  destruct HP as [(n & HN & Hk)|(HA1 & Hk)].
  - unfold named, word_of in HN. destruct HN as (N1 & N2 & N3 & _). rewrite (cell_val _ _ _ N3) in H1. pose proof (zlen_nonneg n).
    pose proof (proj1 HD) as (D1 & D2 & D3). unfold two64 in H1. rewrite (Z.mod_small (zlen n)) in H1 by lia. lia.
  - rewrite HA1 in H2. destruct H2 as [H2|H2]; [discriminate H2|]. lia.
Qed.
End I.
Lemma lv_src : src_at lm lv = ls0. Proof. vm_cast_no_check (@eq_refl Z ls0). Qed.
Lemma lv_line : line_at nl lv = ll0. Proof. vm_cast_no_check (@eq_refl Z ll0). Qed.
Lemma lv_shell : shell KL nl lv.
Proof.
  assert (HP : forallb (fun p => word_isb lv (ix nl p) p) shell_prims = true) by (vm_cast_no_check (@eq_refl bool true)).
  rewrite forallb_forall in HP. split; [intros p Hp; apply word_isb_ok, HP, Hp|].
  repeat (split; [apply (colon_clear_ok lv lv_words lv_addr (ix nl) ls0 ll0); vm_cast_no_check (@eq_refl bool true)|]).
  split; [apply word_isb_ok; vm_cast_no_check (@eq_refl bool true)|reflexivity].
Qed.
Definition roomb : bool :=
  (body lv (l_ro lm) + 8 <=? here (v_ds lv)) && (start (v_ds lv) <? body lv (l_ro lm)) && awayb ls0 ll0 (body lv (l_ro lm)) (body lv (l_ro lm) + 8) &&
  (start (v_ds lv) <? ls0) && (ls0 + 272 <=? limit (v_ds lv)) && (start (v_ds lv) <? ll0) && (ll0 + 8 <=? limit (v_ds lv)) && ((ll0 + 8 <=? ls0) || (ls0 + 272 <=? ll0)) &&
  (here (v_ds lv) <=? limit (v_ds lv)) && word_isb lv (l_ro lm) P_p_const && cellb (v_ds lv) (body lv (l_ro lm)) 0.
Lemma lv_prims : forallb (fun p => word_isb lv (ix nl p) p) lib_prims = true. Proof. vm_cast_no_check (@eq_refl bool true). Qed.
Lemma lv_room : roomb = true. Proof. vm_cast_no_check (@eq_refl bool true). Qed.
Lemma lv_others i : In i (loader_numbers lm ++ map (ix nl) lib_prims) -> In i (n_others nl). Proof. exact (fun H => H). Qed.
Lemma lv_loader : loader KL nl lm lv.
Proof.
  pose proof lv_prims as HP. pose proof lv_room as HR.
  unfold roomb, awayb in HR. rewrite !andb_true_iff, !orb_true_iff in HR. destruct HR as ((((((((((R1 & R2) & R3) & R4) & R5) & R6) & R7) & R8) & R9) & R10) & R11).
  rewrite forallb_forall in HP. split; [intros p Hp; apply word_isb_ok, HP, Hp|].
  split; [apply word_isb_ok; vm_cast_no_check (@eq_refl bool true)|]. split; [apply word_isb_ok; vm_cast_no_check (@eq_refl bool true)|].
  do 8 (split; [apply (colon_clear_ok lv lv_words lv_addr (ix nl) ls0 ll0); vm_cast_no_check (@eq_refl bool true)|]).
  split; [split; [apply word_isb_ok; exact R10|]; split; [clear - R2; lia|]; split; [clear - R1 R9; lia|apply cellb_ok; exact R11]|].
  rewrite lv_src, lv_line. unfold free_of, KL. clear R10 R11 HP.
  split; [intros k Hk; clear - R1 R2 R3 Hk; lia|]. split; [split; [clear - R4; lia|]; split; [clear - R5; lia|]; intros k Hk; clear - Hk; tauto|].
  split; [split; [clear - R6; lia|]; split; [clear - R7; lia|]; intros k Hk; clear - Hk; tauto|].
  split; [clear - R8; lia|]. exact lv_others.
Qed.
Lemma lv_home : at_home lm [] lv.
Proof.
  split; [exact (proj1 lv_dict)|]. split.
  - rewrite lv_src. split; [apply cellb_ok; vm_cast_no_check (@eq_refl bool true)|]. split; [apply cellb_ok; vm_cast_no_check (@eq_refl bool true)|]. split; [unfold zlen; cbn; lia|exact Logic.I].
  - split; [reflexivity|]. assert (H : (st_sid (st lv) =? 0) && (0 <=? st_idx (st lv)) && (st_idx (st lv) <? 2 ^ 64) = true) by (vm_cast_no_check (@eq_refl bool true)).
    rewrite !andb_true_iff in H. destruct H as [[H1 H2] H3]. apply Z.eqb_eq in H1. rewrite H1. split; [red; lia|]. split; [lia|]. split; [left; reflexivity|].
    assert (HL : t_lines (cur lv) = []) by (vm_cast_no_check (@eq_refl (list (option bytes)) [])).
    assert (HS : t_sources (cur lv) = []) by (vm_cast_no_check (@eq_refl (list (option (@source env_d))) [])).
    rewrite HL, HS. split; [reflexivity|]. split; [reflexivity|]. intros [|k]; discriminate.
Qed.
Definition spareb : bool :=
  (ls0 + 272 <=? here (v_ds lv)) && (ll0 + 8 <=? here (v_ds lv)) && (here (v_ds lv) + 8 <=? limit (v_ds lv)) &&
  match w_cs (word_of lv (ix nl P_left_bracket)) with CS_compile_leave => false | _ => true end.
Lemma lv_spareb : spareb = true. Proof. vm_cast_no_check (@eq_refl bool true). Qed.
Lemma lv_spare : spare KL nl lm lv.
Proof.
  pose proof lv_spareb as H. unfold spareb in H. rewrite !andb_true_iff in H. destruct H as (((H1 & H2) & H3) & H4). split; [intros k Hk; apply Hk|].
  rewrite lv_src, lv_line. split; [clear - H1; lia|]. split; [clear - H2; lia|]. split; [clear - H3; lia|].
  split; [intro Q; rewrite Q in H4; discriminate H4|split; [pose proof lv_words as W; clear - W; lia|apply word_isb_ok; vm_cast_no_check (@eq_refl bool true)]].
Qed.
Lemma lv_base : base_addr (v_ds lv) + 8 <= limit (v_ds lv) /\ base_addr (v_ds lv) + 8 <= here (v_ds lv) /\ cell_at (v_ds lv) (base_addr (v_ds lv)) 10 /\
  awayb ls0 ll0 (base_addr (v_ds lv)) (base_addr (v_ds lv) + 8) = true.
Proof.
  assert (H : (base_addr (v_ds lv) + 8 <=? limit (v_ds lv)) && (base_addr (v_ds lv) + 8 <=? here (v_ds lv)) = true) by (vm_cast_no_check (@eq_refl bool true)).
  rewrite andb_true_iff in H. destruct H as [H1 H2]. split; [clear - H1; lia|]. split; [clear - H2; lia|].
  split; [apply cellb_ok; vm_cast_no_check (@eq_refl bool true)|vm_cast_no_check (@eq_refl bool true)].
Qed.
Lemma lv_sound : soundb lv = true. Proof. vm_cast_no_check (@eq_refl bool true). Qed.
Lemma lv_apart : apartb lv ls0 ll0 = true. Proof. vm_cast_no_check (@eq_refl bool true). Qed.
Definition misc : bool := negb (st_compiling (st lv)) && negb (idx_flit (v_refs lv) =? 0) && match v_tkn lv with Some _ => true | None => false end && match t_inbuf (cur lv) with Some _ => true | None => false end.
Lemma lv_misc : misc = true. Proof. vm_cast_no_check (@eq_refl bool true). Qed.
Lemma lv_order : in_order nl lm lv.
Proof.
  pose proof lv_misc as M. unfold misc in M. rewrite !andb_true_iff in M. destruct M as [[[M0 M1] M2] M3]. apply negb_true_iff in M0. pose proof lv_base as (B1 & B2 & B3 & B4).
  split; [exact lv_dict|]. split; [exists 10; split; [cbn; tauto|]; split; [exact B3|exact B1]|]. split; [clear - M1; lia|].
  split; [clear - M2; destruct (v_tkn lv); [discriminate|discriminate M2]|]. split; [clear - M3; destruct (t_inbuf (cur lv)); [discriminate|discriminate M3]|].
  split; [exact (soundb_ok lv lv_sound)|]. split; [exact M0|]. split; [exact B2|]. rewrite lv_src, lv_line. intros k [Hk|Hk]; [exact (apartb_ok lv ls0 ll0 lv_dict lv_apart k Hk)|].
  unfold awayb in B4. rewrite andb_true_iff, !orb_true_iff in B4. clear - B4 Hk. lia.
Qed.
Lemma lv_has : stacks_are lv [8; la] [] [].
Proof.
  assert (H : ((len (t_s (cur lv)) =? 2) && (sget (t_s (cur lv)) 1 =? 8) && (sget (t_s (cur lv)) 0 =? la) && (len (t_r (cur lv)) =? 0) && (len (t_f (cur lv)) =? 0)) = true) by (vm_cast_no_check (@eq_refl bool true)).
  rewrite !andb_true_iff in H. destruct H as ((((A & B) & C) & D) & F). apply Z.eqb_eq in A, B, C, D, F. split; [|split; apply has_none; assumption].
  split; [rewrite A; reflexivity|]. split; [unfold zlen; cbn; lia|]. rewrite A. intros [|[|[|k]]] x Q; cbn in Q; try discriminate Q; injection Q as <-; assumption.
Qed.
Definition RL : @line_reader env_d := toy_lines true.
Lemma lv_open : can_open RL (b "included") los1 1 ltext la lv.
Proof.
  split; [apply mem_hasb_ok; vm_cast_no_check (@eq_refl bool true)|]. split; [unfold zlen; cbn; lia|].
  assert (H : v_os lv = los) by (vm_cast_no_check (@eq_refl fs los)). rewrite H. split; reflexivity.
Qed.
Lemma lv_is_base : base_is lv 10.
Proof. pose proof lv_base as (B1 & B2 & B3 & _). apply base_ok; [exact (proj1 lv_dict)|]. split; [cbn; tauto|]. split; [exact B3|exact B1]. Qed.
Lemma lv_no_word s : unfound 400 s lv = true -> newest lv s None.
Proof. exact (unfound_ok 400 s lv lv_dict lv_words). Qed.
Lemma lv_7 : number_of lv (b "7") 7.
Proof.
  split; [apply lv_no_word; vm_cast_no_check (@eq_refl bool true)|]. exists 10. split; [exact lv_is_base|]. left. exists (1 * positional 10 [7]).
  split; [|split; [red; cbn; lia|exists 0; reflexivity]]. apply (Numeral 10 [] 10 [] 1 [55] [7]); [constructor|constructor|discriminate| |repeat constructor].
  constructor; [|constructor]. apply (Dg_09 7). lia.
Qed.
Lemma lv_8 : number_of lv (b "8") 8.
Proof.
  split; [apply lv_no_word; vm_cast_no_check (@eq_refl bool true)|]. exists 10. split; [exact lv_is_base|]. left. exists (1 * positional 10 [8]).
  split; [|split; [red; cbn; lia|exists 0; reflexivity]]. apply (Numeral 10 [] 10 [] 1 [56] [8]); [constructor|constructor|discriminate| |repeat constructor].
  constructor; [|constructor]. apply (Dg_09 8). lia.
Qed.
Lemma lv_9 : number_of lv (b "-9") (-9).
Proof.
  split; [apply lv_no_word; vm_cast_no_check (@eq_refl bool true)|]. exists 10. split; [exact lv_is_base|]. left. exists (-1 * positional 10 [9]).
  split; [|split; [red; cbn; lia|exists 0; reflexivity]]. apply (Numeral 10 [] 10 [45] (-1) [57] [9]); [constructor|constructor|discriminate| |repeat constructor].
  constructor; [|constructor]. apply (Dg_09 9). lia.
Qed.
Lemma ascii_text s : Forall (fun c => 0 <= c < 128) s -> utf8_text s s.
Proof. induction 1 as [|c s H _ IH]; [constructor|]. apply (T_cons [c] c s s); [constructor; exact H|exact IH]. Qed.
Lemma lv_numbers : numbers_in lv ltext [7; 8; -9].
Proof.
  change [7; 8; -9] with ([7; 8] ++ [-9]). eapply (Ni_line lv ltext [55; 32; 56; 10] [45; 57; 13; 10] [55; 32; 56] [55; 32; 56] [[55]; [56]]); [discriminate| | | |reflexivity| | |].
  - apply (Line_end [55; 32; 56] [45; 57; 13; 10]). cbn. lia.
  - apply (Strip_lf [55; 32; 56]). intros s Q. destruct s as [|? [|? [|? [|? s]]]]; discriminate Q.
  - apply ascii_text. repeat (constructor; [lia|]). constructor.
  - apply (Tok_some [] [55] [32; 56] [[56]]); [constructor|discriminate|repeat (constructor; [unfold blank; cbn; lia|]); constructor|right; exists 32, [56]; split; [reflexivity|unfold blank; cbn; lia]|].
    apply (Tok_some [32] [56] [] []); [repeat (constructor; [unfold blank; cbn; lia|]); constructor|discriminate|repeat (constructor; [unfold blank; cbn; lia|]); constructor|left; reflexivity|constructor; constructor].
  - constructor; [exact lv_7|]. constructor; [exact lv_8|constructor].
  - change [-9] with ([-9] ++ []). eapply (Ni_line lv [45; 57; 13; 10] [45; 57; 13; 10] [] [45; 57] [45; 57] [[45; 57]]); [discriminate| | | |reflexivity| | |constructor].
    + apply (Line_end [45; 57; 13] []). cbn. lia.
    + apply (Strip_crlf [45; 57]).
    + apply ascii_text. repeat (constructor; [lia|]). constructor.
    + apply (Tok_some [] [45; 57] [] []); [constructor|discriminate|repeat (constructor; [unfold blank; cbn; lia|]); constructor|left; reflexivity|constructor; constructor].
    + constructor; [exact lv_9|constructor].
Qed.
Lemma lv_away : la + zlen (b "included") <= src_at lm lv \/ src_at lm lv + 272 <= la.
Proof. rewrite lv_src. vm_compute. intuition congruence. Qed.
(** what the file does to the stack *)
Lemma lv_result : does KL lv (l_included lm) (fun v' => stacks_are v' [-9; 8; 7] [] [] /\ here (v_ds v') = here (v_ds lv) + 8).
Proof.
  eapply (does_conseq KL); [|eapply (included_numbers KL RL nl lm (b "included") los1 1 ltext [7; 8; -9] [] lv la 8 la [] [] []);
    [exact lv_shell|exact lv_loader|exact lv_home|exact lv_spare|exact lv_order|exact lv_open|exact lv_numbers|exact lv_has|apply addr_of_id; vm_compute; intuition congruence|apply addr_of_id; vm_compute; intuition congruence|vm_compute; congruence|vm_compute; congruence|exact lv_away]].
  cbv beta. intros v' (A & _ & _ & _ & B & _). split; [exact A|exact B].
Qed.
(** the same, with an empty file, in the middle of a definition *)
Definition eos : fs := mkFs [(b "included", [])] [] 1 [] [].
Definition eos1 : fs := Eval vm_compute in fst (fs_openf eos (b "included") (mkOpts true false false false)).
Definition ev : @vm env_d := set_compiling true (@set_v_os env_d eos lv).
Lemma ev_cur : cur ev = set_t_state (set_st_compiling true (t_state (cur lv))) (cur lv).
Proof. unfold ev. clear. generalize lv. intro v. unfold set_compiling, set_st, st. rewrite cur_upd. reflexivity. Qed.
Lemma ev_wl : v_wl ev = v_wl lv. Proof. reflexivity. Qed.
Lemma ev_ds : v_ds ev = v_ds lv. Proof. reflexivity. Qed.
Lemma ev_intact : intact KL nl lv ev. Proof. apply intact_eq; [exact ev_ds|exact ev_wl]. Qed.
Lemma ev_shell : shell KL nl ev. Proof. exact (shell_stays KL _ _ _ ev_intact lv_shell). Qed.
Lemma ev_loader : loader KL nl lm ev. Proof. exact (proj1 (loader_stays KL _ _ _ _ ev_intact lv_shell lv_loader)). Qed.
Lemma ev_home : at_home lm [] ev.
Proof.
  pose proof lv_home as H. unfold at_home, selectable, src_at, body, word_of, st in *. rewrite ev_cur, ev_ds, ev_wl. exact H.
Qed.
Lemma ev_spare : spare KL nl lm ev.
Proof. pose proof lv_spare as H. unfold spare, src_at, line_at, body, word_is, words, word_of in *. rewrite ev_ds, ev_wl. exact H. Qed.
Lemma ev_has : stacks_are ev [8; la] [] [].
Proof. pose proof lv_has as H. unfold stacks_are in *. rewrite ev_cur. exact H. Qed.
Lemma ev_open : can_open RL (b "included") eos1 1 [] la ev.
Proof.
  pose proof lv_open as (A & B & _). split; [rewrite ev_ds; exact A|]. split; [exact B|]. change (v_os ev) with eos. split; reflexivity.
Qed.
Lemma ev_away : la + zlen (b "included") <= src_at lm ev \/ src_at lm ev + 272 <= la. Proof. exact lv_away. Qed.
Lemma ev_compiling : st_compiling (st ev) = true.
Proof. unfold st. rewrite ev_cur. reflexivity. Qed.
Lemma ev_result : does KL ev (l_included lm) (fun v' => stacks_are v' [] [] [] /\ st_compiling (st v') = true /\ here (v_ds v') = here (v_ds ev) + 8 /\ cell_at (v_ds v') (here (v_ds ev)) (ix nl P_left_bracket)).
Proof.
  eapply (does_conseq KL); [|eapply (included_empty KL RL nl lm (b "included") eos1 1 [] ev la 8 la [] [] []);
    [exact ev_shell|exact ev_loader|exact ev_home|exact ev_spare|exact ev_open|exact ev_has|apply addr_of_id; vm_compute; intuition congruence|apply addr_of_id; vm_compute; intuition congruence|vm_compute; congruence|vm_compute; congruence|exact ev_away]].
  cbv beta. rewrite ev_compiling. intros v' (A & _ & _ & _ & B & C & D). split; [exact A|]. split; [exact B|]. split; [exact C|exact D].
Qed.
(** the number of the word INCLUDED *)
Lemma lv_found : newest lv (b "included") (Some (l_included lm)).
Proof.
  assert (H : foundb 400 (b "included") lv (l_included lm) = true) by (vm_cast_no_check (@eq_refl bool true)). exact (foundb_ok 400 _ lv _ lv_dict lv_words H).
Qed.
Lemma ev_found : newest ev (b "included") (Some (l_included lm)).
Proof. pose proof lv_found as H. unfold newest, visible, named, words, word_of in *. rewrite ev_ds, ev_wl. exact H. Qed.
Lemma included_leaves : exists (K : Z -> Prop) (v : @vm env_d) i a, newest v (b "included") (Some i) /\ stacks_are v [8; a] [] [] /\ dict_ok v /\ st_compiling (st v) = true /\
  can_open RL (b "included") eos1 1 [] a v /\ does K v i (fun v' => st_compiling (st v') = true /\ here (v_ds v') = here (v_ds v) + 8).
Proof.
  exists KL, ev, (l_included lm), la. split; [exact ev_found|]. split; [exact ev_has|].
  split; [pose proof lv_dict as H; unfold dict_ok, named, words, word_of in *; rewrite ev_ds, ev_wl; exact H|]. split; [exact ev_compiling|]. split; [exact ev_open|].
  eapply (does_conseq KL); [|exact ev_result]. cbv beta. intros v' (_ & A & B & _). split; [exact A|exact B].
Qed.
Lemma lv_opened : forall id v1, @opened env_d nl lm los1 1 (b "included") [] [] [] [] lv id v1 ->
  follows RL KL nl lm id (source_of lv) [] (fun u => exists ra rb, stacks_are u [-9; 8; 7] [rb; ra] []) ltext v1.
Proof.
  intros id v1 HO. pose proof lv_loader as (_ & _ & _ & _ & _ & _ & _ & _ & _ & _ & _ & _ & _ & (FS1 & FS2 & _) & (FL1 & FL2 & _) & DJ & _).
  assert (Hz : zlen (t_sources (cur lv)) < 2 ^ 63 - 1) by apply lv_home. pose proof (proj2 (proj2 (proj2 lv_open))) as HR.
  destruct (opened_loading KL RL nl lm (b "included") los1 1 ltext [] [] [] [] lv id v1 lv_home HR lv_order lv_loader Hz ltac:(vm_compute; congruence) ltac:(vm_compute; congruence) HO) as (I1 & L1 & N1 & ra & rb & S1).
  apply (numbers_follow KL nl id RL lm (source_of lv) [] lv ltext [7; 8; -9] lv_numbers lv_order ltac:(clear - FS1; lia) ltac:(clear - FL1; lia) DJ _ v1 [] [rb; ra] [] L1 S1 N1 ltac:(vm_compute; congruence) ltac:(vm_compute; congruence) I1).
  intros u Su Nu. exists ra, rb. exact Su.
Qed.
