(** A machine with a file that contains a word that is not known, used by the examples of C91. *)
From Coq Require Import ZArith List Bool Lia ZifyBool ZifyNat String.
From Verif Require Import Base Stack Mem Parser Flt State CoreM IoM FloatM FileM Exec Boot Term Std Shell Spec Spec2 Spec4 Spec5 Spec7 Spec9 Spec10 Spec11 Spec12 Spec15 Spec16 Spec17 Spec25 Spec27 Spec28 Spec29 Spec30
  LBase LStack LState LMem LMon LMemWords LDict LComp LCode LDec LText LRun LLib LLibWords LSource LPrint LShell LShell2 LTrim LTrim2 LInc LInc2 LInc3 LInc4 LCrash3 LInc6 LInc7 Ex Ex2 Ex3 Ex6 Ex7 Ex8 Ex9 Ex10 Ex11 Ex12 Ex13 Ex20 Ex21 Ex22 Ex23.
Import ListNotations.
Open Scope list_scope.
Open Scope Z_scope.

(** a line with a number, and a line that begins with foo *)
Definition ttext : bytes := b "7" ++ [10] ++ b "foo 8" ++ [10].
Definition tos : fs := mkFs [(b "included", ttext)] [] 1 [] [].
Definition tos1 : fs := Eval vm_compute in fst (fs_openf tos (b "included") (mkOpts true false false false)).
Definition tv : @vm env_d := @set_v_os env_d tos lv.
Lemma tv_intact : intact KL nl lv tv. Proof. apply intact_eq; reflexivity. Qed.
Lemma tv_shell : shell KL nl tv. Proof. exact (shell_stays KL _ _ _ tv_intact lv_shell). Qed.
Lemma tv_loader : loader KL nl lm tv. Proof. exact (proj1 (loader_stays KL _ _ _ _ tv_intact lv_shell lv_loader)). Qed.
Lemma tv_home : at_home lm [] tv. Proof. exact lv_home. Qed.
Lemma tv_spare : spare KL nl lm tv. Proof. exact lv_spare. Qed.
Lemma tv_has : stacks_are tv [8; la] [] []. Proof. exact lv_has. Qed.
Lemma tv_open : can_open RL (b "included") tos1 1 ttext la tv.
Proof.
  pose proof lv_open as (A & B & _). split; [exact A|]. split; [exact B|]. change (v_os tv) with tos. split; reflexivity.
Qed.
Lemma tv_away : la + zlen (b "included") <= src_at lm tv \/ src_at lm tv + 272 <= la. Proof. exact lv_away. Qed.
Lemma os_sound (o : fs) (v : @vm env_d) : quiet 0 P_check_stacks v v -> quiet 0 P_check_stacks (@set_v_os env_d o v) (@set_v_os env_d o v).
Proof. rewrite !check_iff. exact (fun H => H). Qed.
Lemma tv_order : in_order nl lm tv.
Proof.
  pose proof lv_order as (A1 & A2 & A3 & A4 & A5 & A6 & A7 & A8 & A9).
  split; [exact A1|]. split; [exact A2|]. split; [exact A3|]. split; [exact A4|]. split; [exact A5|]. split; [exact (os_sound tos lv A6)|]. split; [exact A7|]. split; [exact A8|exact A9].
Qed.
Lemma tv_foo : unknown_token tv (b "foo").
Proof.
  split; [apply (newest_kept lv tv eq_refl eq_refl); apply lv_no_word; vm_cast_no_check (@eq_refl bool true)|].
  split; [|exact foo_float].
  apply (no_int tv (b "foo") 111 lv_is_base); [cbn; tauto|lia..|exact digit_o|cbn; lia].
Qed.
Lemma tv_7 : number_of tv (b "7") 7. Proof. pose proof lv_7 as [A B]. split; [apply (newest_kept lv tv eq_refl eq_refl); exact A|exact B]. Qed.
Lemma tv_typo : typo_in tv ttext [7].
Proof.
  change [7] with ([7] ++ []). eapply (Ti_later tv ttext [55; 10] [102; 111; 111; 32; 56; 10] [55] [55] [[55]]); [discriminate| | | |reflexivity| | |].
  - apply (Line_end [55] [102; 111; 111; 32; 56; 10]). cbn. lia.
  - apply (Strip_lf [55]). intros s Q. destruct s as [|? [|? s]]; discriminate Q.
  - apply ascii_text. repeat (constructor; [lia|]). constructor.
  - apply (Tok_some [] [55] [] []); [constructor|discriminate|repeat (constructor; [unfold blank; cbn; lia|]); constructor|left; reflexivity|constructor; constructor].
  - constructor; [exact tv_7|constructor].
  - eapply (Ti_now tv [102; 111; 111; 32; 56; 10] [102; 111; 111; 32; 56; 10] [] [102; 111; 111; 32; 56] [102; 111; 111; 32; 56] [102; 111; 111] [[56]]); [discriminate| | | |reflexivity| |exact tv_foo].
    + apply (Line_end [102; 111; 111; 32; 56] []). cbn. lia.
    + apply (Strip_lf [102; 111; 111; 32; 56]). intros s Q. do 6 (destruct s as [|? s]; [discriminate Q|]). discriminate Q.
    + apply ascii_text. repeat (constructor; [lia|]). constructor.
    + apply (Tok_some [] [102; 111; 111] [32; 56] [[56]]); [constructor|discriminate|repeat (constructor; [unfold blank; cbn; lia|]); constructor|right; exists 32, [56]; split; [reflexivity|unfold blank; cbn; lia]|].
      apply (Tok_some [32] [56] [] []); [repeat (constructor; [unfold blank; cbn; lia|]); constructor|discriminate|repeat (constructor; [unfold blank; cbn; lia|]); constructor|left; reflexivity|constructor; constructor].
Qed.
Lemma tv_result : fails_at tv (l_included lm) (fun y => v_err y = Some (-13) /\ v_wl y = v_wl tv /\ saved (v_ds y) (src_at lm tv) [source_of tv] /\
  exists id, st_sid (st y) = id /\ is_source y id /\ ~ is_source tv id).
Proof.
  eapply (@included_typo env_d KL RL nl lm (b "included") tos1 1 ttext [7] [] tv la 8 la [] [] []);
    [exact tv_shell|exact tv_loader|exact tv_home|exact tv_spare|exact tv_order|exact tv_open|exact tv_typo|exact tv_has|apply addr_of_id; vm_compute; intuition congruence|apply addr_of_id; vm_compute; intuition congruence|vm_compute; congruence|vm_compute; congruence|exact tv_away].
Qed.
Lemma tv_collapses : forall id v1, @opened env_d nl lm tos1 1 (b "included") [] [] [] [] tv id v1 ->
  collapses RL KL nl lm id (source_of tv) [] (fun y => v_err y = Some (-13)) ttext v1.
Proof.
  intros id v1 HO. pose proof tv_loader as (_ & _ & _ & _ & _ & _ & _ & _ & _ & _ & _ & _ & _ & (FS1 & FS2 & _) & (FL1 & FL2 & _) & DJ & _).
  assert (Hz : zlen (t_sources (cur tv)) < 2 ^ 63 - 1) by apply tv_home. pose proof (proj2 (proj2 (proj2 tv_open))) as HR.
  destruct (opened_loading KL RL nl lm (b "included") tos1 1 ttext [] [] [] [] tv id v1 tv_home HR tv_order tv_loader Hz ltac:(vm_compute; congruence) ltac:(vm_compute; congruence) HO) as (I1 & L1 & N1 & ra & rb & S1).
  apply (typo_collapses KL nl id RL lm (source_of tv) [] tv ttext [7] tv_typo tv_order ltac:(clear - FS1; lia) ltac:(clear - FL1; lia) DJ _ v1 [] [rb; ra] [] L1 S1 N1 ltac:(vm_compute; congruence) ltac:(vm_compute; congruence) I1).
  intros x H. exact (proj1 H).
Qed.
