(** Proofs about exception codes (C67). *)
From Coq Require Import ZArith List Bool Lia.
From Verif Require Import Base Stack Mem State CoreM Exec Boot.
From Verif Require Import Spec Spec3 Spec9 Spec13 Spec14 LMon LStep LPres LExec.
Import ListNotations.
Open Scope Z_scope.
Open Scope m_scope.

Section L.
Context {E : Env}.

Definition Rerr (v v' : vm) : Prop := known (v_err v) -> known (v_err v').
Lemma Rerr_step v v' : lstep v v' -> Rerr v v'.
Proof.
  intros H K. destruct H; try exact K.
  - rewrite H5. exact K.
  - exact H.
Qed.
Lemma Rerr_closed : closed Rerr.
Proof. split; unfold Rerr; auto. intros; eapply Rerr_step; eassumption. Qed.
Lemma Rerr_gstep v v' : gstep v v' -> Rerr v v'.
Proof. intros H K. destruct H; try exact K. eapply Rerr_step; eassumption. Qed.

Lemma new_no_err fuel addr cap cc o v : vm_new fuel addr cap cc o = Ok v -> v_err v = None.
Proof.
  unfold vm_new. destruct ((add_words;;; load_core_fth fuel) (vm_init addr cap cc o)) as [[x v']| | |] eqn:Ev; try discriminate.
  intros [= <-]. apply bind_inv in Ev. destruct Ev as (y & v1 & _ & H).
  unfold load_core_fth in H. apply bind_inv in H. destruct H as (z & v2 & _ & H).
  rewrite bind_gets in H. destruct (v_err v2) eqn:D; [discriminate|]. injection H as _ <-. exact D.
Qed.

Lemma own_known v : own_history v -> known (v_err v).
Proof.
  induction 1.
  - rewrite (new_no_err _ _ _ _ _ _ H2). exact I.
  - eapply (p_execute_word Rerr Rerr_closed Rerr_gstep); eassumption.
  - eapply (p_run Rerr Rerr_closed Rerr_gstep); eassumption.
  - eapply (p_forth Rerr Rerr_closed Rerr_gstep); eassumption.
  - eapply (p_evaluate_input Rerr Rerr_closed Rerr_gstep); eassumption.
  - eapply (p_load_str Rerr Rerr_closed Rerr_gstep); eassumption.
  - eapply (p_eval_round Rerr Rerr_closed Rerr_gstep); eassumption.
  - eapply (p_set_source Rerr Rerr_closed); eassumption.
  - eapply (p_push_source Rerr Rerr_closed); eassumption.
  - exact IHown_history.
  - exact IHown_history.
  - exact IHown_history.
  - exact IHown_history.
  - exact IHown_history.
  - exact I.
Qed.
Lemma own_raised v e : own_history v -> v_err v = Some e -> In e raised_codes.
Proof. intros H D. apply own_known in H. rewrite D in H. exact H. Qed.

Lemma described e : In e raised_codes -> description e <> [].
Proof. intro H. unfold raised_codes in H. repeat (destruct H as [<-|H]; [vm_compute; discriminate|]). destruct H. Qed.
Lemma all_described e : -58 <= e <= -1 -> description e <> [].
Proof.
  intro H. assert (D : In e (map Z.opp (map Z.of_nat (seq 1 58)))).
  { apply in_map_iff. exists (- e). split; [lia|]. apply in_map_iff. exists (Z.to_nat (- e)). split; [lia|]. apply in_seq. lia. }
  clear H. revert D. vm_compute. intro D. repeat (destruct D as [<-|D]; [discriminate|]). destruct D.
Qed.
Lemma undescribed e : e < -58 \/ -1 < e -> description e = [].
Proof.
  intros [H|H]; unfold description.
  - apply nth_overflow. change (length _) with 59%nat. lia.
  - replace (Z.to_nat (- e)) with 0%nat by lia. reflexivity.
Qed.
Lemma described_iff e : description e <> [] <-> -58 <= e <= -1.
Proof.
  split; [|apply all_described]. intro H. destruct (Z_lt_dec e (-58)); [contradiction H; apply undescribed; lia|].
  destruct (Z_lt_dec (-1) e); [contradiction H; apply undescribed; lia|]. lia.
Qed.
Lemma distinct_codes e e' : In e raised_codes -> In e' raised_codes -> description e = description e' -> e = e'.
Proof.
  intros H H' D.
  assert (C : forallb (fun x => forallb (fun y => (x =? y) || negb (bytes_eqb (description x) (description y))) raised_codes) raised_codes = true)
    by (vm_compute; reflexivity).
  rewrite forallb_forall in C. specialize (C e H). rewrite forallb_forall in C. specialize (C e' H').
  apply orb_prop in C. destruct C as [C|C]; [apply Z.eqb_eq; exact C|].
  rewrite D in C. assert (K : bytes_eqb (description e') (description e') = true) by (clear; induction (description e'); cbn; [reflexivity|rewrite Z.eqb_refl; assumption]).
  rewrite K in C. discriminate.
Qed.
Lemma dot_error_prints fuel v e : v_err v = Some e -> exists v', quiet fuel P_dot_error v v' /\ printed v (description e) v'.
Proof.
  intro H. eexists. split; [|reflexivity]. intro ew. cbn [exec_prim]. unfold dot_error. rewrite bind_gets, H. reflexivity.
Qed.
Lemma dot_error_none fuel v : v_err v = None -> quiet fuel P_dot_error v v.
Proof. intros H ew. cbn [exec_prim]. unfold dot_error. rewrite bind_gets, H. reflexivity. Qed.
Lemma dot_error_any fuel v : exists v', quiet fuel P_dot_error v v' /\
  printed v (match v_err v with Some e => description e | None => [] end) v'.
Proof.
  destruct (v_err v) as [e|] eqn:EE; [apply dot_error_prints; exact EE|]. exists v. split; [apply dot_error_none; exact EE|].
  unfold printed. destruct v; cbn. match goal with |- context [match ?o with Some _ => _ | None => _ end] => destruct o end; cbn; rewrite ?app_nil_r; reflexivity.
Qed.
End L.
