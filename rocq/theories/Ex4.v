(** Machine used by the example of the label property: on the booted machine,
    1 goto  2 goto  1 label  2 call  1 goto  2 label *)
From Coq Require Import ZArith List Bool Lia String.
From Verif Require Import Base Stack Mem Parser State CoreM Exec Boot Std Spec Spec4 Spec5 Spec6 Spec7 Spec8 LBase LStack LState LMem
  LCode LComp LRun LCtl LDec LLabel Ex Ex2 Ex3.
Import ListNotations.
Open Scope Z_scope.
Open Scope m_scope.

Definition lb0 : @vm env_d := set_s (push_all (s_stk booted_d) [1; 2; 1; 2; 1; 2]) booted_d.
Definition after (p : prim) (v : @vm env_d) : @vm env_d := state_of booted_d (act p v).
Definition lb1 := after P_imm_goto lb0.
Definition lb2 := after P_imm_goto lb1.
Definition lb3 := after P_imm_label lb2.
Definition lb4 := after P_imm_call lb3.
Definition lb5 := after P_imm_goto lb4.
Definition lb6 := after P_imm_label lb5.
Definition is_nil (l : list Z) : bool := match l with [] => true | _ => false end.
Lemma is_nil_ok l : is_nil l = true -> l = []. Proof. destruct l; [reflexivity|discriminate]. Qed.
Definition lb_oks : bool :=
  is_ok (act P_imm_goto lb0) && is_ok (act P_imm_goto lb1) && is_ok (act P_imm_label lb2) &&
  is_ok (act P_imm_call lb3) && is_ok (act P_imm_goto lb4) && is_ok (act P_imm_label lb5) &&
  stack_hasb (t_s (cur lb0)) [1; 2; 1; 2; 1; 2] && stack_hasb (t_s (cur lb1)) [2; 1; 2; 1; 2] &&
  stack_hasb (t_s (cur lb2)) [1; 2; 1; 2] && stack_hasb (t_s (cur lb3)) [2; 1; 2] &&
  stack_hasb (t_s (cur lb4)) [1; 2] && stack_hasb (t_s (cur lb5)) [2] &&
  forallb (fun vh => (here (v_ds (fst vh)) =? h0 + snd vh) && (limit (v_ds (fst vh)) =? h0 + (limit (v_ds booted_d) - h0)))
    [(lb0, 0); (lb1, 16); (lb2, 32); (lb3, 32); (lb4, 72); (lb5, 88)] && (h0 + 200 <=? limit (v_ds booted_d)) &&
  is_nil (v_fwd lb6) && (0 <=? len (t_r (cur lb4))) && (len (t_r (cur lb4)) <=? 254).
Lemma lb_facts : lb_oks = true. Proof. vm_cast_no_check (@eq_refl bool true). Qed.

Lemma lb_ds : ds_ok (v_ds lb0). Proof. exact booted_ds. Qed.
Lemma lb_ready : @compiler_ready env_d lb0. Proof. apply readyb_ok; vm_cast_no_check (@eq_refl bool true). Qed.
Lemma lb_empty : v_fwd lb0 = [] /\ v_res lb0 = []. Proof. split; reflexivity. Qed.
Lemma ok_after p v w : is_ok (act p v) = true -> after p v = w -> act p v = Ok (tt, w).
Proof. intros H <-. apply (@ok_state env_d booted_d). exact H. Qed.
Definition a1 : after P_imm_goto lb0 = lb1 := eq_refl.
Definition a2 : after P_imm_goto lb1 = lb2 := eq_refl.
Definition a3 : after P_imm_label lb2 = lb3 := eq_refl.
Definition a4 : after P_imm_call lb3 = lb4 := eq_refl.
Definition a5 : after P_imm_goto lb4 = lb5 := eq_refl.
Definition a6 : after P_imm_label lb5 = lb6 := eq_refl.
Local Opaque lb0 lb1 lb2 lb3 lb4 lb5 lb6 h0 booted_d exec_prim.
Definition lb_gotos : list (Z * Z) := [(h0 + 72, 1); (h0 + 32 + 24, 2); (h0 + 16, 2); (h0, 1)].
Definition lb_labels : list (Z * Z) := [(2, h0 + 88); (1, h0 + 32)].
Lemma lb_all : @labelled env_d 65 ew_nop lb_gotos lb_labels lb6 /\ v_fwd lb6 = [] /\
  @labelled env_d 65 ew_nop [(h0, 1)] [] lb1 /\
  (@labelled env_d 65 ew_nop [(h0 + 16, 2); (h0, 1)] [] lb2 /\ stack_has (t_s (cur lb2)) [1; 2; 1; 2]) /\
  (@labelled env_d 65 ew_nop [(h0 + 16, 2); (h0, 1)] [(1, h0 + 32)] lb3 /\ stack_has (t_s (cur lb3)) [2; 1; 2] /\
   here (v_ds lb3) = h0 + 32 /\ here (v_ds lb3) + 40 <= limit (v_ds lb3) /\ act P_imm_call lb3 = Ok (tt, lb4)) /\
  (@labelled env_d 65 ew_nop [(h0 + 32 + 24, 2); (h0 + 16, 2); (h0, 1)] [(1, h0 + 32)] lb4 /\ stack_has (t_s (cur lb4)) [1; 2] /\
   0 <= len (t_r (cur lb4)) < 255).
Proof.
  pose proof lb_facts as HF. unfold lb_oks in HF. cbn [forallb fst snd] in HF.
  rewrite !andb_true_iff in HF. decompose [and] HF. clear HF.
  rewrite !Z.eqb_eq, !Z.leb_le in *.
  assert (S0 : labelled 65 ew_nop [] [] lb0) by (apply L_start; [exact lb_ds|exact lb_ready|apply lb_empty|apply lb_empty]).
  repeat match goal with
  | H : stack_hasb _ _ = true |- _ => apply stack_hasb_ok in H
  end.
  Ltac st a := match type of a with after ?p ?v = ?w => match goal with H : is_ok (act p v) = true |- _ => exact (ok_after p v w H a) end end.
  Ltac sk v := match goal with H : stack_has (t_s (cur v)) _ |- _ => exact H end.
  assert (S1 : labelled 65 ew_nop [(h0, 1)] [] lb1).
  { replace h0 with (here (v_ds lb0)) by lia. eapply L_goto; [exact S0|sk lb0|lia|lia|st a1]. }
  assert (S2 : labelled 65 ew_nop [(h0 + 16, 2); (h0, 1)] [] lb2).
  { replace (h0 + 16) with (here (v_ds lb1)) by lia. eapply L_goto; [exact S1|sk lb1|lia|lia|st a2]. }
  assert (S3 : labelled 65 ew_nop [(h0 + 16, 2); (h0, 1)] [(1, h0 + 32)] lb3).
  { replace (h0 + 32) with (here (v_ds lb2)) by lia. eapply L_label; [exact S2|sk lb2|lia|intros ? []|st a3]. }
  assert (S4 : labelled 65 ew_nop [(h0 + 32 + 24, 2); (h0 + 16, 2); (h0, 1)] [(1, h0 + 32)] lb4).
  { replace (h0 + 32 + 24) with (here (v_ds lb3) + 24) by lia. eapply L_call; [exact S3|sk lb3|lia|lia|st a4]. }
  assert (S5 : labelled 65 ew_nop lb_gotos [(1, h0 + 32)] lb5).
  { unfold lb_gotos. replace (h0 + 72) with (here (v_ds lb4)) by lia. eapply L_goto; [exact S4|sk lb4|lia|lia|st a5]. }
  split; [|split; [apply is_nil_ok; match goal with H : is_nil _ = true |- _ => exact H end|split; [exact S1|
    split; [split; [exact S2|sk lb2]|split; [split; [exact S3|split; [sk lb3|split; [lia|split; [lia|st a4]]]]|
    split; [exact S4|split; [sk lb4|lia]]]]]]].
  unfold lb_labels. replace (h0 + 88) with (here (v_ds lb5)) by lia.
  eapply L_label; [exact S5|sk lb5|lia|intros a [Q|[]]; apply (f_equal fst) in Q; cbn [fst] in Q; lia|st a6].
Qed.
Lemma lb_labelled : @labelled env_d 65 ew_nop lb_gotos lb_labels lb6 /\ v_fwd lb6 = [].
Proof. destruct lb_all as (H1 & H2 & _). split; assumption. Qed.
