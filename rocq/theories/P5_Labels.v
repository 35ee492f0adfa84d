(** Property C30: GOTO, CALL and LABEL. *)
From Coq Require Import ZArith List Bool Lia String.
From Verif Require Import Base Stack Mem Parser State CoreM Exec Boot Std Spec Spec4 Spec5 Spec6 Spec7 Spec8
  LLabel LDec Ex Ex2 Ex3 Ex4.
Import ListNotations.
Open Scope Z_scope.
Open Scope m_scope.

(** C30.  After any sequence of gotos, calls, labels and other compilation, every
    branch whose label has been placed, before or after it, goes there. *)
Theorem C30_goto_reaches_label {E : Env} : forall fuel ew g l v a n t,
  labelled fuel ew g l v -> In (a, n) g -> In (n, t) l -> goes v a v t.
Proof. exact goto_reaches. Qed.
Print Assumptions C30_goto_reaches_label.

Example C30_goto_reaches_label_ex :
  (* forward, forward, call, backward *)
  goes lb6 h0 lb6 (h0 + 32) /\ goes lb6 (h0 + 16) lb6 (h0 + 88) /\
  goes lb6 (h0 + 32 + 24) lb6 (h0 + 88) /\ goes lb6 (h0 + 72) lb6 (h0 + 32).
Proof.
  repeat split; eapply C30_goto_reaches_label; try (exact (proj1 lb_labelled)); unfold lb_gotos, lb_labels; cbn [In]; eauto 6.
Qed.

(** A label has one place. *)
Theorem C30_label_has_one_place {E : Env} : forall fuel ew g l v n t t',
  labelled fuel ew g l v -> In (n, t) l -> In (n, t') l -> t = t'.
Proof. exact one_place. Qed.
Print Assumptions C30_label_has_one_place.

Example C30_label_has_one_place_ex : forall t, In (2, t) lb_labels -> t = h0 + 88.
Proof.
  intros t H. eapply C30_label_has_one_place; [exact (proj1 lb_labelled)|exact H|left; reflexivity].
Qed.

(** When no forward reference is pending, which [;] demands, every branch goes to
    its label. *)
Theorem C30_accepted_definition {E : Env} : forall fuel ew g l v a n,
  labelled fuel ew g l v -> v_fwd v = [] -> In (a, n) g -> exists t, In (n, t) l /\ goes v a v t.
Proof. exact accepted. Qed.
Print Assumptions C30_accepted_definition.

Example C30_accepted_definition_ex : exists t, In (2, t) lb_labels /\ goes lb6 (h0 + 16) lb6 t.
Proof.
  destruct lb_labelled as [H1 H2]. eapply C30_accepted_definition; [exact H1|exact H2|].
  unfold lb_gotos. cbn [In]. auto.
Qed.

(** A branch whose label has not been placed makes [;] raise -22 and return to
    interpretation state. *)
Theorem C30_pending_label_rejected {E : Env} : forall fuel ew f ew' g l v a n,
  labelled fuel ew g l v -> In (a, n) g -> (forall t, ~ In (n, t) l) ->
  exists v1, raised (-22) v v1 /\
    exec_prim f ew' P_semicolon v = (ew' (v_handler v) ;;; exec_prim f ew' P_left_bracket) v1.
Proof. exact pending_rejected. Qed.
Print Assumptions C30_pending_label_rejected.

Example C30_pending_label_rejected_ex : exists v1, raised (-22) lb1 v1 /\
  exec_prim 3 ew_nop P_semicolon lb1 = (ew_nop (v_handler lb1) ;;; exec_prim 3 ew_nop P_left_bracket) v1.
Proof.
  destruct lb_all as (_ & _ & H & _). eapply C30_pending_label_rejected; [exact H|left; reflexivity|intros t []].
Qed.

(** Placing a label again raises -24. *)
Theorem C30_label_twice_rejected {E : Env} : forall fuel ew f ew' g l v n t rest,
  labelled fuel ew g l v -> stack_has (t_s (cur v)) (n :: rest) -> In (n, t) l ->
  exists v1, raised (-24) (drop_s 1 v) v1 /\ exec_prim f ew' P_imm_label v = ew' (v_handler v) v1.
Proof. exact label_twice. Qed.
Print Assumptions C30_label_twice_rejected.

Example C30_label_twice_rejected_ex : exists v1, raised (-24) (drop_s 1 lb4) v1 /\
  exec_prim 3 ew_nop P_imm_label lb4 = ew_nop (v_handler lb4) v1.
Proof.
  destruct lb_all as (_ & _ & _ & _ & _ & H & HS & _). eapply C30_label_twice_rejected; [exact H|exact HS|left; reflexivity].
Qed.

(** So does a label number outside 1 .. 999. *)
Theorem C30_label_range {E : Env} : forall p f ew v n rest,
  In p [P_imm_label; P_imm_goto] -> stack_has (t_s (cur v)) (n :: rest) -> is_cell n -> ~ 0 < n < 1000 ->
  exists v1, raised (-24) (drop_s 1 v) v1 /\ exec_prim f ew p v = ew (v_handler v) v1.
Proof. exact range_rejected. Qed.
Print Assumptions C30_label_range.

Example C30_label_range_ex : exists v1, raised (-24) (drop_s 1 (ex_d [1000])) v1 /\
  exec_prim 1 ew_nop P_imm_goto (ex_d [1000]) = ew_nop (v_handler (ex_d [1000])) v1.
Proof.
  eapply C30_label_range with (rest := []) (n := 1000); [cbn; auto|apply push_all_has; [|vm_compute; congruence]|unfold is_cell; lia|lia].
  split; [reflexivity|]. split; [vm_compute; congruence|]. intros [|k] x Hx; discriminate Hx.
Qed.

(** Otherwise the words succeed: GOTO and CALL append 16 and 40 bytes, LABEL none. *)
Theorem C30_goto_succeeds {E : Env} : forall p k fuel ew f ew' g l v n rest,
  In (p, k) [(P_imm_goto, 16); (P_imm_call, 40)] ->
  labelled fuel ew g l v -> stack_has (t_s (cur v)) (n :: rest) -> 0 < n < 1000 ->
  here (v_ds v) + k <= limit (v_ds v) ->
  exists v', exec_prim f ew' p v = Ok (tt, v') /\ here (v_ds v') = here (v_ds v) + k /\
    stack_has (t_s (cur v')) rest /\ v_err v' = v_err v.
Proof. exact goto_works. Qed.
Print Assumptions C30_goto_succeeds.

Example C30_goto_succeeds_ex : exists v', exec_prim 3 ew_nop P_imm_call lb3 = Ok (tt, v') /\
  here (v_ds v') = here (v_ds lb3) + 40 /\ stack_has (t_s (cur v')) [1; 2] /\ v_err v' = v_err lb3.
Proof.
  destruct lb_all as (_ & _ & _ & _ & (H & HS & _ & HR & _) & _).
  eapply C30_goto_succeeds; [right; left; reflexivity|exact H|exact HS|lia|exact HR].
Qed.

Theorem C30_label_succeeds {E : Env} : forall fuel ew f ew' g l v n rest,
  labelled fuel ew g l v -> stack_has (t_s (cur v)) (n :: rest) -> 0 < n < 1000 ->
  (forall t, ~ In (n, t) l) -> (List.length (branches_to n g) <= f)%nat ->
  exists v', exec_prim f ew' P_imm_label v = Ok (tt, v') /\ here (v_ds v') = here (v_ds v) /\
    stack_has (t_s (cur v')) rest /\ v_err v' = v_err v.
Proof. exact label_works. Qed.
Print Assumptions C30_label_succeeds.

Example C30_label_succeeds_ex : exists v', exec_prim 1 ew_nop P_imm_label lb2 = Ok (tt, v') /\
  here (v_ds v') = here (v_ds lb2) /\ stack_has (t_s (cur v')) [2; 1; 2] /\ v_err v' = v_err lb2.
Proof.
  destruct lb_all as (_ & _ & _ & (H & HS) & _).
  eapply C30_label_succeeds; [exact H|exact HS|lia|intros t []|cbn; lia].
Qed.

(** The code before the branch of CALL pushes the address behind the branch on
    the return stack, for the [exit] of the called code. *)
Theorem C30_call_pushes_return_address {E : Env} : forall fuel ew f ew' g l v n rest v' u,
  labelled fuel ew g l v -> stack_has (t_s (cur v)) (n :: rest) -> 0 < n < 1000 ->
  here (v_ds v) + 40 <= limit (v_ds v) -> exec_prim f ew' P_imm_call v = Ok (tt, v') ->
  let h := here (v_ds v) in
  kept (fun i => h <= i < h + 24) v' u -> 0 <= len (t_s (cur u)) < 255 -> 0 <= len (t_r (cur u)) < 255 ->
  goes u h (add_r (h + 40) (drop_s 1 (add_s (h + 40) u))) (h + 24).
Proof. exact call_runs. Qed.
Print Assumptions C30_call_pushes_return_address.

Example C30_call_pushes_return_address_ex :
  goes lb4 (h0 + 32) (add_r (h0 + 32 + 40) (drop_s 1 (add_s (h0 + 32 + 40) lb4))) (h0 + 32 + 24).
Proof.
  destruct lb_all as (_ & _ & _ & _ & (H & HS & HH & HR & HE) & (_ & HS4 & HR4)). rewrite <- HH.
  eapply C30_call_pushes_return_address; [exact H|exact HS|lia|exact HR|exact HE|apply LCode.kept_refl| |exact HR4].
  rewrite (LStack.stack_has_len _ _ HS4). cbn. lia.
Qed.
