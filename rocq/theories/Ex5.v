(** Machine used by the examples of the nesting property: on the booted machine,
    BEGIN, WHILE and then REPEAT or IF *)
From Coq Require Import ZArith List Bool Lia String.
From Verif Require Import Base Stack Mem Parser State CoreM Exec Boot Std Spec Spec4 Spec5 Spec6 Spec7 Spec9 LBase LStack LState LMem
  LMon LTask LCode LComp LRun LCtl LDec LNest Ex Ex2 Ex3.
Import ListNotations.
Open Scope Z_scope.
Open Scope m_scope.

Section Q.
Context {E : Env}.
Definition ew_ub : Z -> M unit := fun _ _ => UB.
Definition after_q (d : vm) (p : prim) (v : vm) : vm := state_of d (exec_prim 256 ew_ub p v).
Definition checkb (v : vm) : bool :=
  negb (s_overflow v || s_underflow v || r_overflow v || r_underflow v || c_overflow v || c_underflow v || f_overflow v || f_underflow v).
Lemma checkb_ok f v : checkb v = true -> quiet f P_check_stacks v v.
Proof.
  intros H ew. unfold checkb in H. rewrite negb_true_iff, !orb_false_iff in H. decompose [and] H.
  cbn [exec_prim]. unfold check_stacks. unfold bind at 1. cbn [get].
  repeat match goal with X : _ v = false |- _ => rewrite X; clear X end. reflexivity.
Qed.
Lemma so_far_next d ws v w : so_far 256 ws v -> In w structure_words -> here (v_ds v) + 40 <= limit (v_ds v) ->
  is_ok (exec_prim 256 ew_ub w v) = true -> checkb (after_q d w v) = true -> so_far 256 (ws ++ [w]) (after_q d w v).
Proof.
  intros H Hw HR HO HK. apply (F_word 256 ws w v); try assumption; [|apply checkb_ok; exact HK].
  destruct (word_raises_or_goes_on 256 ws v w (Nat.le_refl _) H Hw HR) as [(v' & HQ)|(u & v1 & k & _ & _ & HQ)].
  - unfold after_q. rewrite (HQ ew_ub). exact HQ.
  - exfalso. rewrite (HQ ew_ub) in HO. discriminate HO.
Qed.
End Q.

Definition ne0 : @vm env_d := booted_d.
Definition ne1 := after_q booted_d P_imm_begin ne0.
Definition ne2 := after_q booted_d P_imm_while ne1.
Definition ne3 := after_q booted_d P_imm_repeat ne2.
Definition ne3' := after_q booted_d P_imm_if ne2.
Definition roomb (v : @vm env_d) : bool := here (v_ds v) + 40 <=? limit (v_ds v).
Definition ne_oks : bool :=
  forallb (fun vp => is_ok (exec_prim 256 ew_ub (snd vp) (fst vp)) && roomb (fst vp) && checkb (after_q booted_d (snd vp) (fst vp)))
    [(ne0, P_imm_begin); (ne1, P_imm_while); (ne2, P_imm_repeat); (ne2, P_imm_if)] &&
  (len (t_c (cur ne0)) =? 0) && (control_eqb (canary (t_c (cur ne0))) CCanary) && (control_eqb (sget (t_c (cur ne0)) 255) CCanary).
Lemma ne_facts : ne_oks = true. Proof. vm_cast_no_check (@eq_refl bool true). Qed.
Lemma canary_eqb c : control_eqb c CCanary = true -> c = CCanary.
Proof. destruct c; (reflexivity || discriminate). Qed.
Lemma ne_ready : @compiler_ready env_d ne0. Proof. apply readyb_ok; vm_cast_no_check (@eq_refl bool true). Qed.
Lemma ne_ds : ds_ok (v_ds ne0). Proof. exact booted_ds. Qed.
Definition n1 : after_q booted_d P_imm_begin ne0 = ne1 := eq_refl.
Definition n2 : after_q booted_d P_imm_while ne1 = ne2 := eq_refl.
Definition n3 : after_q booted_d P_imm_repeat ne2 = ne3 := eq_refl.
Definition n3' : after_q booted_d P_imm_if ne2 = ne3' := eq_refl.
Local Opaque ne0 ne1 ne2 ne3 ne3' booted_d exec_prim.
Lemma ne_so_far :
  so_far 256 [P_imm_begin; P_imm_while] ne2 /\ so_far 256 [P_imm_begin; P_imm_while; P_imm_repeat] ne3 /\
  so_far 256 [P_imm_begin; P_imm_while; P_imm_if] ne3' /\ here (v_ds ne2) + 40 <= limit (v_ds ne2).
Proof.
  pose proof ne_facts as HF. unfold ne_oks in HF. cbn [forallb fst snd] in HF.
  rewrite !andb_true_iff in HF. decompose [and] HF. clear HF.
  assert (S0 : so_far 256 [] ne0).
  { apply F_start; [exact ne_ds|exact ne_ready|apply Z.eqb_eq|apply canary_eqb|apply canary_eqb];
      match goal with H : ?x = true |- ?x = true => exact H end. }
  Ltac nx a := rewrite <- a; apply so_far_next;
    [|unfold structure_words; cbn [In]; tauto|apply Z.leb_le; match goal with H : roomb ?x = true |- (here (v_ds ?x) + 40 <=? _) = true => exact H end
     |match goal with H : ?x = true |- ?x = true => exact H end|match goal with H : ?x = true |- ?x = true => exact H end].
  assert (S1 : so_far 256 ([] ++ [P_imm_begin]) ne1) by (nx n1; exact S0).
  assert (S2 : so_far 256 (([] ++ [P_imm_begin]) ++ [P_imm_while]) ne2) by (nx n2; exact S1).
  split; [exact S2|]. split; [|split].
  - change [P_imm_begin; P_imm_while; P_imm_repeat] with ((([] ++ [P_imm_begin]) ++ [P_imm_while]) ++ [P_imm_repeat]). nx n3; exact S2.
  - change [P_imm_begin; P_imm_while; P_imm_if] with ((([] ++ [P_imm_begin]) ++ [P_imm_while]) ++ [P_imm_if]). nx n3'; exact S2.
  - apply Z.leb_le. match goal with H : roomb ne2 = true |- _ => exact H end.
Qed.
Lemma ne_not_nested : ~ nested [P_imm_begin; P_imm_while; P_imm_if].
Proof. intro H. pose proof (nested_prun _ H []) as E1. discriminate E1. Qed.
Lemma ne_loop : raises 256 (-22) P_imm_loop ne2.
Proof.
  destruct ne_so_far as (H1 & _ & _ & H2).
  destruct (word_raises_or_goes_on 256 _ ne2 P_imm_loop (Nat.le_refl _) H1 ltac:(unfold structure_words; cbn [In]; tauto) H2) as [(v' & H)|H]; [|exact H].
  exfalso. assert (Q : is_ok (exec_prim 256 ew_ub P_imm_loop ne2) = false) by (vm_cast_no_check (@eq_refl bool false)).
  rewrite (H ew_ub) in Q. discriminate Q.
Qed.
