(** Property C23: unbalanced control structures are rejected. *)
From Coq Require Import ZArith List Bool Lia String.
From Verif Require Import Base Stack Mem Parser State CoreM Exec Boot Std Spec Spec4 Spec5 Spec6 Spec9
  LNest LDec Ex Ex2 Ex3 Ex5.
Import ListNotations.
Open Scope Z_scope.
Open Scope m_scope.

(** C23.  Whatever control structure words a definition has executed: if they are
    not properly nested then [;] raises -22, and returns to interpretation state
    if the exception handler returns. *)
Theorem C23_unbalanced_rejected {E : Env} : forall fuel ws v f,
  (256 <= fuel)%nat -> so_far fuel ws v -> ~ nested ws ->
  exists v1, raised (-22) v v1 /\ forall ew,
    exec_prim f ew P_semicolon v = (ew (v_handler v) ;;; exec_prim f ew P_left_bracket) v1.
Proof. exact semicolon_rejects. Qed.
Print Assumptions C23_unbalanced_rejected.

Example C23_unbalanced_rejected_ex : (* begin while if ; *)
  exists v1, raised (-22) ne3' v1 /\ forall ew,
    exec_prim 3 ew P_semicolon ne3' = (ew (v_handler ne3') ;;; exec_prim 3 ew P_left_bracket) v1.
Proof.
  eapply C23_unbalanced_rejected; [exact (Nat.le_refl 256)|apply ne_so_far|exact ne_not_nested].
Qed.

(** Properly nested words leave no structure open, and only they do. *)
Theorem C23_balanced_accepted {E : Env} : forall fuel ws v,
  (256 <= fuel)%nat -> so_far fuel ws v -> (nested ws <-> len (t_c (cur v)) = 0).
Proof. exact nested_closed. Qed.
Print Assumptions C23_balanced_accepted.

Example C23_balanced_accepted_ex : (* begin while repeat *) len (t_c (cur ne3)) = 0.
Proof.
  eapply C23_balanced_accepted; [exact (Nat.le_refl 256)|apply ne_so_far|].
  exact (N_repeat [] [] N_nil N_nil).
Qed.

(** A control structure word does its work without an exception or raises -22,
    whatever was executed before; it never panics and raises nothing else. *)
Theorem C23_word_fits_or_raises {E : Env} : forall fuel ws v w,
  (256 <= fuel)%nat -> so_far fuel ws v -> In w structure_words ->
  here (v_ds v) + 40 <= limit (v_ds v) ->
  (exists v', quiet fuel w v v') \/ raises fuel (-22) w v.
Proof. exact word_raises_or_goes_on. Qed.
Print Assumptions C23_word_fits_or_raises.

Example C23_word_fits_or_raises_ex : (* begin while loop *)
  (exists v', quiet 256 P_imm_loop ne2 v') \/ raises 256 (-22) P_imm_loop ne2.
Proof.
  destruct ne_so_far as (H1 & _ & _ & H2).
  eapply C23_word_fits_or_raises; [exact (Nat.le_refl 256)|exact H1|unfold structure_words; cbn [In]; tauto|exact H2].
Qed.

(** It raises -22 only where no continuation could make the words properly nested. *)
Theorem C23_raises_only_misfits {E : Env} : forall fuel ws v w,
  (256 <= fuel)%nat -> so_far fuel ws v -> In w structure_words ->
  here (v_ds v) + 40 <= limit (v_ds v) -> raises fuel (-22) w v ->
  forall tl, ~ nested (ws ++ w :: tl).
Proof. exact misfit_never_nested. Qed.
Print Assumptions C23_raises_only_misfits.

Example C23_raises_only_misfits_ex : (* begin while loop *)
  raises 256 (-22) P_imm_loop ne2 /\ forall tl, ~ nested ([P_imm_begin; P_imm_while] ++ P_imm_loop :: tl).
Proof.
  destruct ne_so_far as (H1 & _ & _ & H2). assert (H3 := ne_loop). split; [exact H3|].
  eapply C23_raises_only_misfits; [exact (Nat.le_refl 256)|exact H1|unfold structure_words; cbn [In]; tauto|exact H2|exact H3].
Qed.

(** [;] ends in interpretation state whenever it ends. *)
Theorem C23_semicolon_interprets {E : Env} : forall f ew v v',
  exec_prim f ew P_semicolon v = Ok (tt, v') -> st_compiling (st v') = false.
Proof. exact semicolon_interprets. Qed.
Print Assumptions C23_semicolon_interprets.

Example C23_semicolon_interprets_ex :
  exists v', exec_prim 300 ew_nop P_semicolon ne3' = Ok (tt, v') /\ st_compiling (st v') = false.
Proof.
  exists (state_of booted_d (exec_prim 300 ew_nop P_semicolon ne3')).
  assert (H : exec_prim 300 ew_nop P_semicolon ne3' = Ok (tt, state_of booted_d (exec_prim 300 ew_nop P_semicolon ne3')))
    by (apply (@ok_state env_d booted_d); vm_cast_no_check (@eq_refl bool true)).
  split; [exact H|]. exact (C23_semicolon_interprets _ _ _ _ H).
Qed.
