(** A machine without the file, and one with sixteen saved sources, used by the examples of C91. *)
From Coq Require Import ZArith List Bool Lia ZifyBool ZifyNat String.
From Verif Require Import Base Stack Mem Parser Flt State CoreM IoM FloatM FileM Exec Boot Term Std Shell Spec Spec2 Spec4 Spec5 Spec7 Spec9 Spec10 Spec11 Spec12 Spec15 Spec16 Spec17 Spec25 Spec27 Spec28 Spec29 Spec30
  LBase LStack LState LMem LMon LMemWords LDict LComp LCode LDec LText LRun LLib LLibWords LSource LPrint LShell LShell2 LTrim LTrim2 LInc LInc2 LInc3 LInc4 LInc5 Ex Ex2 Ex3 Ex6 Ex7 Ex8 Ex9 Ex10 Ex11 Ex12 Ex13 Ex20 Ex22.
Import ListNotations.
Open Scope list_scope.
Open Scope Z_scope.

(** there is another file *)
Definition nos : fs := mkFs [(b "other", ltext)] [] 1 [] [].
Definition nv : @vm env_d := @set_v_os env_d nos lv.
Lemma nv_intact : intact KL nl lv nv. Proof. apply intact_eq; reflexivity. Qed.
Lemma nv_shell : shell KL nl nv. Proof. exact (shell_stays KL _ _ _ nv_intact lv_shell). Qed.
Lemma nv_loader : loader KL nl lm nv. Proof. exact (proj1 (loader_stays KL _ _ _ _ nv_intact lv_shell lv_loader)). Qed.
Lemma nv_zero : word_is nv (l_zero lm) P_zero_equals. Proof. exact (proj2 (proj2 (proj2 (proj2 (proj2 (proj2 lv_spare)))))). Qed.
Lemma nv_ok : ds_ok (v_ds nv). Proof. exact (proj1 lv_dict). Qed.
Lemma nv_has : stacks_are nv [8; la] [] []. Proof. exact lv_has. Qed.
Lemma nv_open : @cannot_open env_d (b "included") nos la nv.
Proof. split; [exact (proj1 lv_open)|]. right. split; [unfold zlen; cbn; lia|reflexivity]. Qed.
Lemma nv_result : throws KL nv (l_included lm) (-1) (fun w => v_ds w = v_ds nv /\ source_of w = source_of nv /\ t_files (cur w) = t_files (cur nv)).
Proof.
  eapply (throws_conseq KL); [|eapply (@included_missing env_d KL nl lm (b "included") nos nv la 8 la [] [] []);
    [exact nv_shell|exact nv_loader|exact nv_ok|exact nv_zero|exact nv_open|exact nv_has|apply addr_of_id; vm_compute; intuition congruence|apply addr_of_id; vm_compute; intuition congruence|vm_compute; congruence|vm_compute; congruence]].
  cbv beta. generalize nv. intros v w (ra & _ & A & _ & B). split; [exact A|]. split.
  - unfold source_of. match type of B with calm ?z _ => replace (st_sid (st w)) with (st_sid (st z)) by (symmetry; apply B); replace (st_idx (st w)) with (st_idx (st z)) by (symmetry; apply B) end. rewrite st_world. reflexivity.
  - match type of B with calm ?z _ => replace (t_files (cur w)) with (t_files (cur z)) by (symmetry; apply B) end. rewrite cur_world. reflexivity.
Qed.

(** the terminal is saved sixteen times *)
Definition full : list (Z * Z) := repeat (0, 0) 16.
Definition fd : dspace := match put_cell (v_ds lv) 16 (ls0 + 8) with Ok d => d | _ => v_ds lv end.
Definition fv : @vm env_d := set_v_ds fd lv.
Lemma fd_is : cell_at fd (ls0 + 8) 16 /\ same_memory_but (v_ds lv) fd (ls0 + 8) 8 /\ here fd = here (v_ds lv).
Proof.
  pose proof lv_loader as (_ & _ & _ & _ & _ & _ & _ & _ & _ & _ & _ & _ & _ & (FS1 & FS2 & _) & _). rewrite lv_src in FS1, FS2.
  destruct (put_cell_ok (v_ds lv) 16 (ls0 + 8)) as (d' & E1 & C1 & S1 & H1 & _); [apply in_ds_true; clear - FS1 FS2; lia|].
  unfold fd. rewrite E1. auto.
Qed.
Lemma fv_intact : intact KL nl lv fv.
Proof.
  split; [|intros i _ H; split; [exact (proj2 H)|reflexivity]]. destruct fd_is as (_ & S1 & _).
  apply (kept_same KL lv fv (ls0 + 8) 8); [exact S1|reflexivity|]. intros k Hk. unfold KL in Hk. clear - Hk. lia.
Qed.
Lemma fv_shell : shell KL nl fv. Proof. exact (shell_stays KL _ _ _ fv_intact lv_shell). Qed.
Lemma fv_loader : loader KL nl lm fv. Proof. exact (proj1 (loader_stays KL _ _ _ _ fv_intact lv_shell lv_loader)). Qed.
Lemma fv_zero : word_is fv (l_zero lm) P_zero_equals. Proof. exact nv_zero. Qed.
Lemma fv_ok : ds_ok (v_ds fv).
Proof. destruct fd_is as (_ & S1 & H1). exact (same_ok (v_ds lv) fd _ _ (proj1 lv_dict) S1 H1). Qed.
Lemma fv_has : stacks_are fv [8; la] [] []. Proof. exact lv_has. Qed.
Definition emptyb : bool := cellb (v_ds lv) ls0 16 && forallb (fun k => cellb (v_ds lv) (ls0 + 16 * k) 0 && cellb (v_ds lv) (ls0 + 16 * k + 8) 0) [1; 2; 3; 4; 5; 6; 7; 8; 9; 10; 11; 12; 13; 14; 15; 16].
Lemma lv_empty : emptyb = true. Proof. vm_cast_no_check (@eq_refl bool true). Qed.
Lemma fv_saved : saved (v_ds fv) (src_at lm fv) full.
Proof.
  change (src_at lm fv) with (src_at lm lv). rewrite lv_src. destruct fd_is as (C1 & S1 & H1). change (v_ds fv) with fd. pose proof lv_empty as H. unfold emptyb in H. rewrite andb_true_iff, forallb_forall in H. destruct H as [H0 H].
  pose proof lv_loader as (_ & _ & _ & _ & _ & _ & _ & _ & _ & _ & _ & _ & _ & (FS1 & FS2 & _) & _). rewrite lv_src in FS1, FS2.
  split; [eapply cell_keep; [exact S1|clear - FS1; lia|clear; lia|apply cellb_ok; exact H0]|]. split; [exact C1|]. split; [unfold zlen; cbn; lia|].
  assert (HE : forall k, In k [1; 2; 3; 4; 5; 6; 7; 8; 9; 10; 11; 12; 13; 14; 15; 16] -> 1 <= k /\ cell_at fd (ls0 + 16 * k) 0 /\ cell_at fd (ls0 + 16 * k + 8) 0).
  { intros k Hk. specialize (H k Hk). rewrite andb_true_iff in H. destruct H as [A B]. assert (1 <= k) by (clear - Hk; cbn in Hk; lia). split; [assumption|].
    split; (eapply cell_keep; [exact S1|clear - FS1 H; lia|clear - H; lia|apply cellb_ok; assumption]). }
  assert (HI : forall j, (j <= 16)%nat -> entries fd ls0 (repeat (0, 0) j)).
  { induction j as [|j IH]; intro Hj; [exact Logic.I|]. cbn [repeat entries]. change ((0, 0) :: repeat (0, 0) j) with (repeat (0, 0) (S j)).
    unfold zlen. rewrite repeat_length. destruct (HE (Z.of_nat (S j))) as (_ & A & B); [|change (to_i64 0) with 0; repeat split; try assumption; try lia; apply IH; lia].
    clear - Hj. do 16 (destruct j as [|j]; [cbn; tauto|]). lia. }
  apply HI. reflexivity.
Qed.
Lemma fv_open : can_open RL (b "included") los1 1 ltext la fv.
Proof.
  destruct lv_open as ((A1 & A2 & A3) & B). split; [|exact B]. destruct fd_is as (_ & S1 & _). pose proof lv_away as W. rewrite lv_src in W. change (v_ds fv) with fd.
  split; [exact A1|]. destruct S1 as (P1 & P2 & P3). split; [unfold in_space in *; rewrite P1, P2; exact A2|]. intros k x Hk. rewrite P3; [apply A3; exact Hk|clear - A2; unfold in_space in A2; lia|].
  assert (k < List.length (b "included"))%nat by (apply nth_error_Some; congruence). unfold zlen in W. clear - H W. lia.
Qed.
Lemma fv_result : throws KL fv (l_included lm) (-1) (fun w => v_ds w = v_ds fv /\ exists k, nth_error (t_files (cur w)) k = Some (Some 1)).
Proof.
  eapply (throws_conseq KL); [|eapply (included_full KL RL nl lm (b "included") los1 1 ltext full fv la 8 la [] [] []);
    [exact fv_shell|exact fv_loader|exact fv_ok|exact fv_zero|exact fv_open|exact fv_saved|reflexivity|exact fv_has|apply addr_of_id; vm_compute; intuition congruence|apply addr_of_id; vm_compute; intuition congruence|vm_compute; congruence|vm_compute; congruence]].
  cbv beta. generalize fv. intros v w (A & _ & fl & (k & B & _) & C). split; [exact A|]. exists k.
  match type of C with calm ?z _ => replace (t_files (cur w)) with (t_files (cur z)) by (symmetry; apply C) end. rewrite cur_world. exact B.
Qed.
Lemma fv_found : newest fv (b "included") (Some (l_included lm)).
Proof.
  assert (HD : dict_ok fv) by (apply dict_okb_ok; vm_cast_no_check (@eq_refl bool true)).
  assert (H : foundb 400 (b "included") fv (l_included lm) = true) by (vm_cast_no_check (@eq_refl bool true)).
  apply (foundb_ok 400 _ fv _ HD); [exact lv_words|exact H].
Qed.
Lemma included_leaks : exists (K : Z -> Prop) (v : @vm env_d) i a,
  newest v (b "included") (Some i) /\ stacks_are v [8; a] [] [] /\ t_files (cur v) = [] /\ can_open RL (b "included") los1 1 ltext a v /\
  throws K v i (-1) (fun w => exists k, nth_error (t_files (cur w)) k = Some (Some 1)).
Proof.
  exists KL, fv, (l_included lm), la. split; [exact fv_found|]. split; [exact fv_has|].
  split; [vm_cast_no_check (@eq_refl (list (option Z)) [])|]. split; [exact fv_open|].
  eapply (throws_conseq KL); [|exact fv_result]. cbv beta. intros w (_ & A). exact A.
Qed.
