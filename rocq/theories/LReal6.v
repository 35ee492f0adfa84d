(** Address units, and the witnesses of the float properties. *)
From Coq Require Import ZArith List Reals Lia Lra Bool Psatz.
From Flocq Require Import Core.Core.
From Verif Require Import Base Stack Mem Parser Flt State CoreM FloatM Exec LBase LStack Spec Spec2 LState LMem LMon
  LMemWords LFloat Spec21 Spec22 LReal LReal2 LReal3 LReal4 LPi LReal5.
Import ListNotations.
Open Scope Z_scope.

Section W.
Context {E : Env}.
Ltac weff := intros fuel ew v dr rr fr H; pose proof (stacks_are_bound _ _ _ _ H) as HB; cbn [app] in *;
  intros Hd Hr Hf; cbn [exec_prim].

Lemma is_cell_b z : is_cell z -> in_i64 z = true.
Proof. unfold is_cell, in_i64, imin, imax, two63. intros H. apply andb_true_intro; split; lia. Qed.
Lemma is_cell_nb z : ~ is_cell z -> in_i64 z = false.
Proof.
  intros C. destruct (in_i64 z) eqn:N; [| reflexivity]. exfalso. apply C. unfold in_i64, imin, imax, two63 in N.
  apply andb_prop in N as [N1 N2]. unfold is_cell. lia.
Qed.

Lemma unit_eff p g x : (forall fuel ew, exec_prim fuel ew p = bind s_pop (fun x => bind (chk_i64 (g x)) s_push)) ->
  is_cell (g x) -> word_effect p [x] [] [] [g x] [] [].
Proof.
  intros P C. weff. rewrite P. opb. eapply op_read; [unfold chk_i64; rewrite (is_cell_b _ C); reflexivity |]. op1.
Qed.
Lemma unit_over p g x fuel ew v rest :
  (forall fuel ew, exec_prim fuel ew p = bind s_pop (fun x => bind (chk_i64 (g x)) s_push)) ->
  ~ is_cell (g x) -> stack_has (t_s (cur v)) (x :: rest) ->
  if chk then exec_prim fuel ew p v = Panic POverflow
  else exists v' y, exec_prim fuel ew p v = Ok (tt, v') /\ wraps_to (g x) y /\ stack_has (t_s (cur v')) (y :: rest).
Proof.
  intros P C H. rewrite P.
  destruct (pop1_has _ _ _ H) as (s1 & E1 & HA & HB & _).
  rewrite (bind_Ok _ _ _ _ _ (s_pop_eq _ _ _ E1)).
  unfold chk_i64. rewrite (is_cell_nb _ C). destruct chk.
  - reflexivity.
  - rewrite (bind_Ok (ret (to_i64 (g x))) s_push _ (to_i64 (g x)) (set_s s1 v) eq_refl).
    destruct (push1_has _ (to_i64 (g x)) _ HA ltac:(destruct H as (_ & H & _); rewrite zlen_cons in H; lia)) as (HC & _).
    eexists _, (to_i64 (g x)). split; [reflexivity |]. split.
    + split; [| apply to_i64_mod]. pose proof (to_i64_range (g x)) as R. unfold imin, imax, two63 in R. unfold is_cell. lia.
    + unfold s_stk. rewrite !cur_set_s. exact HC.
Qed.

Lemma units_in x :
  (is_cell (x + 1) -> word_effect P_char_plus [x] [] [] [x + 1] [] []) /\
  (is_cell (x + 8) -> word_effect P_cell_plus [x] [] [] [x + 8] [] []) /\
  (is_cell (x + 8) -> word_effect P_float_plus [x] [] [] [x + 8] [] []) /\
  (is_cell (x * 8) -> word_effect P_cells [x] [] [] [x * 8] [] []) /\
  (is_cell (x * 8) -> word_effect P_floats [x] [] [] [x * 8] [] []).
Proof.
  split; [intros C; apply (unit_eff P_char_plus (fun x => x + 1)); [intros ? ?; reflexivity | exact C] |].
  split; [intros C; apply (unit_eff P_cell_plus (fun x => x + 8)); [intros ? ?; reflexivity | exact C] |].
  split; [intros C; apply (unit_eff P_float_plus (fun x => x + 8)); [intros ? ?; reflexivity | exact C] |].
  split; [intros C; apply (unit_eff P_cells (fun x => x * 8)); [intros ? ?; reflexivity | exact C] |].
  intros C; apply (unit_eff P_floats (fun x => x * 8)); [intros ? ?; reflexivity | exact C].
Qed.
Lemma units_out p g x fuel ew v rest :
  In (p, g) [(P_char_plus, x + 1); (P_cell_plus, x + 8); (P_float_plus, x + 8); (P_cells, x * 8); (P_floats, x * 8)] ->
  ~ is_cell g -> stack_has (t_s (cur v)) (x :: rest) ->
  if chk then exec_prim fuel ew p v = Panic POverflow
  else exists v' y, exec_prim fuel ew p v = Ok (tt, v') /\ wraps_to g y /\ stack_has (t_s (cur v')) (y :: rest).
Proof.
  intros I C H. cbn [In] in I.
  destruct I as [I | [I | [I | [I | [I | []]]]]]; injection I as <- <-.
  - apply (unit_over P_char_plus (fun x => x + 1) x); [intros ? ?; reflexivity | exact C | exact H].
  - apply (unit_over P_cell_plus (fun x => x + 8) x); [intros ? ?; reflexivity | exact C | exact H].
  - apply (unit_over P_float_plus (fun x => x + 8) x); [intros ? ?; reflexivity | exact C | exact H].
  - apply (unit_over P_cells (fun x => x * 8) x); [intros ? ?; reflexivity | exact C | exact H].
  - apply (unit_over P_floats (fun x => x * 8) x); [intros ? ?; reflexivity | exact C | exact H].
Qed.

(** ** Approximate equality misses a case *)
Definition X1 : Z := 4607182418800017408.   (* 1 *)
Definition X2 : Z := 13596332090659438592.  (* -(2^-52 - 2^-60) *)
Definition X3 : Z := 4607182418800017409.   (* 1 + 2^-52 *)
Lemma fin_b x : (0 <=? x) && (x <? 2 ^ 64) && negb (exponent x =? 2047) = true -> finite x.
Proof.
  intros H. apply andb_prop in H as [H1 H2]. apply andb_prop in H1 as [H0 H1].
  split; [split; lia |]. apply negb_true_iff, Z.eqb_neq in H2. exact H2.
Qed.
Lemma fprox_missed : exists x1 x2 x3, finite x1 /\ finite x2 /\ finite x3 /\ (0 < value x3)%R /\
  (Rabs (value x1 - value x2) < value x3)%R /\ word_effect P_fproximate [] [] [x3; x2; x1] [0] [] [].
Proof.
  exists X1, X2, X3.
  assert (F1 : finite X1) by (apply fin_b; reflexivity).
  assert (F2 : finite X2) by (apply fin_b; reflexivity).
  assert (F3 : finite X3) by (apply fin_b; reflexivity).
  assert (V : forall x s m e, finite x -> sf_of_bits x = SpecFloat.S754_finite s m (- e) -> 0 <= e ->
     value x = (if s then - (IZR (Zpos m) * / IZR (2 ^ e)) else IZR (Zpos m) * / IZR (2 ^ e))%R).
  { intros x s m e F S H. rewrite (value_parts x s m _ F S), bpow_neg by exact H. reflexivity. }
  pose proof (V X1 false 4503599627370496%positive 52 F1 eq_refl ltac:(lia)) as V1.
  pose proof (V X2 true 8972014882652160%positive 105 F2 eq_refl ltac:(lia)) as V2.
  pose proof (V X3 false 4503599627370497%positive 52 F3 eq_refl ltac:(lia)) as V3.
  change (2 ^ 52) with 4503599627370496 in *. change (2 ^ 105) with 40564819207303340847894502572032 in *.
  cbv iota in V1, V2, V3.
  split; [exact F1 |]. split; [exact F2 |]. split; [exact F3 |]. split; [rewrite V3; lra |].
  split; [rewrite V1, V2, V3; apply Rabs_def1; lra |].
  exact (fprox_eff X1 X2 X3).
Qed.

(** ** Witnesses *)
Lemma out_float p fuel ew v d f d' f' :
  word_effect p d [] f d' [] f' -> stacks_are v d [] f -> zlen d' <= 255 -> zlen f' <= 255 ->
  exists v', exec_prim fuel ew p v = Ok (tt, v') /\ stacks_are v' d' [] f'.
Proof.
  intros W S H1 H2. destruct (W fuel ew v [] [] []) as (v' & X & Y & _); rewrite ?app_nil_r; auto; [discriminate |].
  rewrite !app_nil_r in Y. eauto.
Qed.
End W.
