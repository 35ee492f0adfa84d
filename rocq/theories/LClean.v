(** The control state of the compiler after a definition (C65). *)
From Coq Require Import ZArith List Bool Lia ZifyBool ZifyNat.
From Verif Require Import Base Stack Mem Parser Flt State CoreM IoM FloatM FileM Exec.
From Verif Require Import LBase LStack Spec Spec4 Spec9 LState LMem LMon LStep LTask LCode.
Import ListNotations.
Open Scope list_scope.
Open Scope Z_scope.
Open Scope m_scope.

Section C.
Context {E : Env}.
Implicit Types (v : vm).

Definition never (i : Z) : M unit := panic PExpect.
Definition keeps_ctl v v' : Prop := c_stk v' = c_stk v /\ v_fwd v' = v_fwd v /\ v_res v' = v_res v /\ v_labels v' = v_labels v.
Lemma mismatch_never v : mismatch never v = Panic PExpect.
Proof. unfold mismatch. rewrite abort_with_eq. reflexivity. Qed.
Lemma compile_word_ctl i v v' : compile_word i v = Ok (tt, v') -> keeps_ctl v v'.
Proof. unfold compile_word, ds_upd. destruct (compile_cell _ _); cbn; intro H; inversion H; subst; repeat split. Qed.
Lemma run_cs_ctl c i v v' : run_cs never c i v = Ok (tt, v') -> keeps_ctl v v'.
Proof.
  destruct c; cbn [run_cs]; try apply compile_word_ctl. unfold compile_leave. intro H. apply bind_inv in H as (p & v1 & H1 & H).
  assert (v1 = v) as -> by (unfold leave_part, gets, get, ret in H1; congruence || (inversion H1; reflexivity)).
  destruct p; [eapply compile_word_ctl; exact H|]. rewrite abort_with_eq in H. discriminate H.
Qed.
Lemma semicolon_clean fuel v v' : quiet fuel P_semicolon v v' ->
  len (t_c (cur v)) = 0 /\ v_fwd v = [] /\ t_c (cur v') = t_c (cur v) /\ v_fwd v' = [] /\ st_compiling (st v') = false.
Proof.
  intro Q. specialize (Q never). cbn [exec_prim] in Q. unfold semicolon in Q. rewrite !bind_gets in Q. fold (c_stk v) (c_stk v').
  apply bind_inv in Q as ([] & v1 & Q1 & Q2).
  destruct (Z.eqb_spec (len (c_stk v)) 0) as [HL|HL]; cbn [negb] in Q1; [|rewrite mismatch_never in Q1; discriminate Q1].
  destruct (v_fwd v) as [|x r] eqn:EF; [|rewrite mismatch_never in Q1; discriminate Q1].
  apply bind_inv in Q1 as (idx & v2 & Q1 & Q3). assert (v2 = v) as -> by (unfold refs_get, gets in Q1; congruence).
  apply bind_inv in Q3 as (w & v2 & Q3 & Q4). assert (v2 = v) as -> by (unfold word_at in Q3; destruct (_ && _) in Q3; [congruence|discriminate Q3]).
  apply bind_inv in Q4 as ([] & v2 & Q4 & Q5). apply run_cs_ctl in Q4 as (K1 & K2 & _). rewrite bind_gets in Q5.
  assert (K3 : c_stk v1 = c_stk v2 /\ v_fwd v1 = v_fwd v2) by (unfold upd_word in Q5; destruct (_ && _) in Q5; [|discriminate Q5]; inversion Q5; split; reflexivity).
  unfold left_bracket, modify in Q2. assert (v' = set_compiling false v1) as -> by congruence.
  split; [exact HL|]. split; [reflexivity|]. split; [|split].
  - unfold c_stk, st in *. gnorm. destruct K3. congruence.
  - cbn. destruct K3. congruence.
  - gnorm. reflexivity.
Qed.
Lemma raises_clean fuel e w v : raises fuel e w v ->
  exists v1 (k : (Z -> M unit) -> M unit), v_err v1 = Some e /\ stack_has (t_c (cur v1)) [] /\
    forall ew, exec_prim fuel ew w v = (ew (v_handler v) ;;; k ew) v1.
Proof.
  intros (u & v1 & k & R & _ & HX). exists v1, k. destruct R as (_ & _ & (C1 & _) & R4 & _). split; [exact R4|]. split; [|exact HX].
  split; [exact C1|]. split; [cbn; lia|]. intros [|n] x H; discriminate H.
Qed.
End C.
