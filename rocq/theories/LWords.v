(** Stack, arithmetic, logic and comparison words. *)
From Coq Require Import ZArith List Bool Lia ZifyBool ZifyNat.
From Verif Require Import Base Stack Mem Parser State CoreM Exec LBase LStack Spec LState.
Import ListNotations.
Open Scope Z_scope.

Section W.
Context {E : Env}.

(** Reduce an [effect_is] goal for [on_s f] to slots *)
Ltac pure_word f :=
  apply (on_s_effect _ f); [reflexivity|];
  let s := fresh "s" in let rest := fresh "rest" in let H := fresh "H" in let Hl := fresh "Hl" in
  intros s rest H; cbn [app] in H;
  eexists; split; [reflexivity|]; cbn [app]; rewrite ?zlen_cons; intro Hl;
  slots_hyp H; pose proof (zlen_nonneg rest);
  unfold f, bin_, un_, bin2_, push, pop, push2, pop2, pop3; cbv zeta; cbn [fst snd]; sg; w8; sg; w8;
  split; [slots_goal; sg; try slot_close|high_goal].

Lemma dup_effect a : effect_is P_dup [a] [a; a].
Proof. pure_word dup_. Qed.
Lemma drop_effect a : effect_is P_p_drop [a] [].
Proof. pure_word drop_. Qed.
Lemma swap_effect a c : effect_is P_swap [c; a] [a; c].
Proof. pure_word swap_. Qed.
Lemma over_effect a c : effect_is P_over [c; a] [a; c; a].
Proof. pure_word over_. Qed.
Lemma nip_effect a c : effect_is P_nip [c; a] [c].
Proof. pure_word nip_. Qed.
Lemma rot_effect a c d : effect_is P_rot [d; c; a] [a; d; c].
Proof. pure_word rot_. Qed.
Lemma minus_rot_effect a c d : effect_is P_minus_rot [d; c; a] [c; a; d].
Proof. pure_word minus_rot_. Qed.
Lemma two_drop_effect a c : effect_is P_two_drop [c; a] [].
Proof. pure_word two_drop_. Qed.
Lemma two_dup_effect a c : effect_is P_two_dup [c; a] [c; a; c; a].
Proof. pure_word two_dup_. Qed.
Lemma two_swap_effect a c d e : effect_is P_two_swap [e; d; c; a] [c; a; e; d].
Proof. pure_word two_swap_. Qed.
Lemma two_over_effect a c d e : effect_is P_two_over [e; d; c; a] [c; a; e; d; c; a].
Proof. pure_word two_over_. Qed.

Lemma effect_weaken p ins outs (Q : list Z -> Prop) : effect_is p ins outs -> Q outs -> effect p ins Q.
Proof.
  intros H HQ fuel ew v rest Hs. destruct (H fuel ew v rest Hs) as (o & <- & Ho).
  exists outs. split; [exact HQ|exact Ho].
Qed.

Lemma depth_effect fuel ew v l :
  stack_has (t_s (cur v)) l -> zlen l < 255 ->
  exists v', exec_prim fuel ew P_depth v = Ok (tt, v') /\
             stack_has (t_s (cur v')) (zlen l :: l) /\ only_data_stack v v'.
Proof.
  intros H Hl. pose proof (stack_has_len _ _ H) as HL. pose proof (stack_has_bound _ _ H).
  eexists. split; [reflexivity|]. rewrite cur_set_s. split.
  - unfold depth_. change (s_stk v) with (t_s (cur v)). rewrite HL. apply push_has; assumption.
  - apply only_data_set_s. apply push_high. change (s_stk v) with (t_s (cur v)). lia.
Qed.

Lemma pick_effect n x l : nth_error l n = Some x -> effect_is P_pick (Z.of_nat n :: l) (x :: l).
Proof.
  intro Hn. apply (on_s_effect _ pick_); [reflexivity|]. intros s rest H. cbn [app] in H.
  eexists; split; [reflexivity|]. cbn [app]. rewrite zlen_cons. intro Hl.
  assert (Hk : (n < List.length l)%nat) by (apply nth_error_Some; congruence).
  assert (Hn' : nth_error (Z.of_nat n :: l ++ rest) (S n) = Some x).
  { cbn [nth_error]. rewrite nth_error_app1 by exact Hk. exact Hn. }
  pose proof (stack_has_nth _ _ _ _ H Hn') as Hx.
  slots_hyp H. pose proof (zlen_nonneg rest). pose proof (zlen_app l rest).
  assert (Z.of_nat n < zlen l) by (unfold zlen; lia).
  unfold pick_. cbv zeta. rewrite (w8sub_ok (len s) 1) by lia. rewrite Hx0.
  unfold to_u8. rewrite (Z.mod_small (Z.of_nat n) 256) by lia.
  rewrite (w8add_ok (Z.of_nat n) 2) by lia. rewrite w8sub_ok by lia.
  split; [|high_goal].
  slots_goal; sg; try slot_close.
Qed.

(** ** Generic unary and binary words *)

Lemma un_effect p f a : (forall fuel ew, exec_prim fuel ew p = on_s (un_ f)) -> effect_is p [a] [f a].
Proof.
  intro Hp. apply (on_s_effect _ (un_ f)); [exact Hp|]. intros s rest H. cbn [app] in H.
  eexists; split; [reflexivity|]. cbn [app]. rewrite zlen_cons. intro Hl.
  slots_hyp H. pose proof (zlen_nonneg rest).
  unfold un_, push, pop; cbv zeta; cbn [fst snd]. sg. w8. sg. w8. rewrite Hx.
  split; [slots_goal; sg; try slot_close; reflexivity|high_goal].
Qed.

Lemma bin2_effect p f n t : (forall fuel ew, exec_prim fuel ew p = on_s (bin2_ f)) -> effect_is p [t; n] [f n t].
Proof.
  intro Hp. apply (on_s_effect _ (bin2_ f)); [exact Hp|]. intros s rest H. cbn [app] in H.
  eexists; split; [reflexivity|]. cbn [app]. rewrite zlen_cons. intro Hl.
  slots_hyp H. pose proof (zlen_nonneg rest).
  unfold bin2_, push, pop2; cbv zeta; cbn [fst snd]. sg. w8. sg. w8.
  replace (sget s (len s - 2)) with n by (symmetry; slot_close). rewrite Hx.
  split; [slots_goal; sg; try slot_close; reflexivity|high_goal].
Qed.

Lemma bin__has f n t rest s : stack_has s (t :: n :: rest) ->
  stack_has (bin_ f s) (f n t :: rest) /\ high_slots_kept s (bin_ f s).
Proof.
  intro H. slots_hyp H. pose proof (zlen_nonneg rest).
  unfold bin_; cbv zeta. w8. sg. w8.
  replace (sget s (len s - 2)) with n by (symmetry; slot_close). rewrite Hx.
  split; [slots_goal; sg; try slot_close; reflexivity|high_goal].
Qed.

Lemma bin_effect p f n t : (forall fuel ew, exec_prim fuel ew p = on_s (bin_ f)) -> effect_is p [t; n] [f n t].
Proof.
  intro Hp. apply (on_s_effect _ (bin_ f)); [exact Hp|]. intros s rest H. cbn [app] in H.
  eexists; split; [reflexivity|]. cbn [app]. intros _. apply bin__has. exact H.
Qed.

Lemma within_effect x1 x2 x3 : effect_is P_within [x3; x2; x1] [flag ((x2 <=? x1) && (x1 <? x3))].
Proof.
  apply (on_s_effect _ within_); [reflexivity|]. intros s rest H. cbn [app] in H.
  eexists; split; [reflexivity|]. cbn [app]. rewrite zlen_cons. intro Hl.
  slots_hyp H. pose proof (zlen_nonneg rest).
  unfold within_, push, pop3; cbv zeta; cbn [fst snd]. sg. w8. sg. w8.
  replace (sget s (len s - 2)) with x2 by (symmetry; slot_close).
  replace (sget s (len s - 3)) with x1 by (symmetry; slot_close). rewrite Hx.
  split; [slots_goal; sg; try slot_close; reflexivity|high_goal].
Qed.

Lemma one_plus_effect a : effect_is P_one_plus [a] [to_i64 (a + 1)].
Proof.
  apply (on_s_effect _ one_plus_); [reflexivity|]. intros s rest H. cbn [app] in H.
  eexists; split; [reflexivity|]. cbn [app]. rewrite zlen_cons. intro Hl.
  slots_hyp H. pose proof (zlen_nonneg rest).
  unfold one_plus_; cbv zeta. w8. rewrite Hx.
  split; [slots_goal; sg; try slot_close; reflexivity|high_goal].
Qed.
Lemma one_minus_effect a : effect_is P_one_minus [a] [to_i64 (a - 1)].
Proof.
  apply (on_s_effect _ one_minus_); [reflexivity|]. intros s rest H. cbn [app] in H.
  eexists; split; [reflexivity|]. cbn [app]. rewrite zlen_cons. intro Hl.
  slots_hyp H. pose proof (zlen_nonneg rest).
  unfold one_minus_; cbv zeta. w8. rewrite Hx.
  split; [slots_goal; sg; try slot_close; reflexivity|high_goal].
Qed.

Lemma wraps_to_i64 z : wraps_to z (to_i64 z).
Proof.
  split; [|apply to_i64_mod]. unfold is_cell. pose proof (to_i64_range z). unfold imin, imax in *. lia.
Qed.

(** ** Arithmetic words against the integers *)

Lemma plus_spec n t : effect P_plus [t; n] (result1 (wraps_to (n + t))).
Proof. eapply effect_weaken; [apply (bin_effect _ (fun n t => to_i64 (n + t))); reflexivity|].
  eexists; split; [reflexivity|apply wraps_to_i64]. Qed.
Lemma minus_spec n t : effect P_minus [t; n] (result1 (wraps_to (n - t))).
Proof. eapply effect_weaken; [apply (bin_effect _ (fun n t => to_i64 (n - t))); reflexivity|].
  eexists; split; [reflexivity|apply wraps_to_i64]. Qed.
Lemma star_spec n t : effect P_star [t; n] (result1 (wraps_to (n * t))).
Proof. eapply effect_weaken; [apply (bin_effect _ (fun n t => to_i64 (n * t))); reflexivity|].
  eexists; split; [reflexivity|apply wraps_to_i64]. Qed.
Lemma one_plus_spec n : effect P_one_plus [n] (result1 (wraps_to (n + 1))).
Proof. eapply effect_weaken; [apply one_plus_effect|]. eexists; split; [reflexivity|apply wraps_to_i64]. Qed.
Lemma one_minus_spec n : effect P_one_minus [n] (result1 (wraps_to (n - 1))).
Proof. eapply effect_weaken; [apply one_minus_effect|]. eexists; split; [reflexivity|apply wraps_to_i64]. Qed.
Lemma negate_spec n : effect P_negate [n] (result1 (wraps_to (- n))).
Proof. eapply effect_weaken; [apply (un_effect _ (fun t => to_i64 (- t))); reflexivity|].
  eexists; split; [reflexivity|apply wraps_to_i64]. Qed.
Lemma abs_spec n : effect P_abs [n] (result1 (wraps_to (Z.abs n))).
Proof. eapply effect_weaken; [apply (un_effect _ (fun t => to_i64 (Z.abs t))); reflexivity|].
  eexists; split; [reflexivity|apply wraps_to_i64]. Qed.

(** ** Comparisons *)
Lemma truth_flag (c : bool) (P : Prop) : (c = true <-> P) -> truth (flag c) P.
Proof. intro H. unfold truth. destruct c; cbn; [left|right]; (split; [reflexivity|]); tauto || (intro X; apply H in X; discriminate). Qed.

Ltac cmp1 f := eapply effect_weaken; [apply (un_effect _ f); reflexivity|];
  eexists; split; [reflexivity|].
Ltac cmp2 f := eapply effect_weaken; [apply (bin2_effect _ f); reflexivity|];
  eexists; split; [reflexivity|].

Lemma zero_less_spec n : effect P_zero_less [n] (result1 (fun f => truth f (n < 0))).
Proof. cmp1 (fun t => flag (t <? 0)). apply truth_flag. lia. Qed.
Lemma zero_equals_spec n : effect P_zero_equals [n] (result1 (fun f => truth f (n = 0))).
Proof. cmp1 (fun t => flag (t =? 0)). apply truth_flag. lia. Qed.
Lemma zero_greater_spec n : effect P_zero_greater [n] (result1 (fun f => truth f (n > 0))).
Proof. cmp1 (fun t => flag (0 <? t)). apply truth_flag. lia. Qed.
Lemma zero_not_equals_spec n : effect P_zero_not_equals [n] (result1 (fun f => truth f (n <> 0))).
Proof. cmp1 (fun t => if t =? 0 then FALSE else TRUE).
  destruct (Z.eqb_spec n 0); unfold truth, TRUE, FALSE; [right|left]; tauto. Qed.
Lemma equals_spec n t : effect P_equals [t; n] (result1 (fun f => truth f (n = t))).
Proof. cmp2 (fun n t => flag (t =? n)). apply truth_flag. lia. Qed.
Lemma less_than_spec n t : effect P_less_than [t; n] (result1 (fun f => truth f (n < t))).
Proof. cmp2 (fun n t => flag (n <? t)). apply truth_flag. lia. Qed.
Lemma greater_than_spec n t : effect P_greater_than [t; n] (result1 (fun f => truth f (n > t))).
Proof. cmp2 (fun n t => flag (t <? n)). apply truth_flag. lia. Qed.
Lemma not_equals_spec n t : effect P_not_equals [t; n] (result1 (fun f => truth f (n <> t))).
Proof. cmp2 (fun n t => if n =? t then FALSE else TRUE).
  destruct (Z.eqb_spec n t); unfold truth, TRUE, FALSE; [right|left]; tauto. Qed.
Lemma within_spec x1 x2 x3 : effect P_within [x3; x2; x1] (result1 (fun f => truth f (x2 <= x1 < x3))).
Proof. eapply effect_weaken; [apply within_effect|]. eexists; split; [reflexivity|].
  apply truth_flag. lia. Qed.

(** ** Bitwise words *)
Lemma cell_shiftr a : is_cell a <-> Z.shiftr a 63 = 0 \/ Z.shiftr a 63 = -1.
Proof.
  rewrite Z.shiftr_div_pow2 by lia. unfold is_cell.
  change (2 ^ 63) with 9223372036854775808. lia.
Qed.
Lemma land_cell a c : is_cell a -> is_cell c -> is_cell (Z.land a c).
Proof.
  rewrite !cell_shiftr, Z.shiftr_land. intros [->| ->] [->| ->]; cbn; auto.
Qed.
Lemma lor_cell a c : is_cell a -> is_cell c -> is_cell (Z.lor a c).
Proof.
  rewrite !cell_shiftr, Z.shiftr_lor. intros [->| ->] [->| ->]; cbn; auto.
Qed.
Lemma lxor_cell a c : is_cell a -> is_cell c -> is_cell (Z.lxor a c).
Proof.
  rewrite !cell_shiftr, Z.shiftr_lxor. intros [->| ->] [->| ->]; cbn; auto.
Qed.
Lemma lnot_cell a : is_cell a -> is_cell (Z.lnot a).
Proof. unfold is_cell, Z.lnot. lia. Qed.


Lemma and_spec n t : is_cell n -> is_cell t ->
  effect P_and [t; n] (result1 (bits_are (fun i => Z.testbit n i && Z.testbit t i))).
Proof. intros. cmp2 (fun n t => Z.land t n). split; [apply land_cell; assumption|].
  intros i _. rewrite Z.land_spec. apply andb_comm. Qed.
Lemma or_spec n t : is_cell n -> is_cell t ->
  effect P_or [t; n] (result1 (bits_are (fun i => Z.testbit n i || Z.testbit t i))).
Proof. intros. cmp2 (fun n t => Z.lor t n). split; [apply lor_cell; assumption|].
  intros i _. rewrite Z.lor_spec. apply orb_comm. Qed.
Lemma xor_spec n t : is_cell n -> is_cell t ->
  effect P_xor [t; n] (result1 (bits_are (fun i => xorb (Z.testbit n i) (Z.testbit t i)))).
Proof. intros. cmp2 (fun n t => Z.lxor t n). split; [apply lxor_cell; assumption|].
  intros i _. rewrite Z.lxor_spec. apply xorb_comm. Qed.
Lemma invert_spec n : is_cell n ->
  effect P_invert [n] (result1 (bits_are (fun i => negb (Z.testbit n i)))).
Proof. intros. cmp1 Z.lnot. split; [apply lnot_cell; assumption|].
  intros i Hi. apply Z.lnot_spec. lia. Qed.

Lemma shift_count t : to_u32 t mod 64 = t mod 64.
Proof. unfold to_u32. change 4294967296 with (67108864 * 64). rewrite Z.mul_comm.
  rewrite Z.rem_mul_r by lia. rewrite Z.mul_comm, Z.mod_add by lia. apply Z.mod_mod. lia. Qed.

Lemma lshift_spec n t :
  effect P_lshift [t; n] (result1 (wraps_to (n * 2 ^ (t mod 64)))).
Proof. cmp2 (fun n t => to_i64 (Z.shiftl n (to_u32 t mod 64))).
  rewrite shift_count, Z.shiftl_mul_pow2 by lia. apply wraps_to_i64. Qed.
Lemma rshift_spec n t :
  effect P_rshift [t; n] (result1 (wraps_to ((n mod 2 ^ 64) / 2 ^ (t mod 64)))).
Proof. cmp2 (fun n t => to_i64 (Z.shiftr (to_u64 n) (to_u32 t mod 64))).
  rewrite shift_count, Z.shiftr_div_pow2 by lia. apply wraps_to_i64. Qed.

(** ** Division *)

Lemma w_div_rem n d : is_cell n -> is_cell d -> d <> 0 -> quot_rem n d (w_div n d) (w_rem n d).
Proof.
  intros Hn Hd H0. unfold quot_rem, w_div, w_rem.
  pose proof (Z.quot_rem' n d) as HE.
  pose proof (Z.rem_bound_abs n d H0) as HR.
  assert (Hrem : to_i64 (Z.rem n d) = Z.rem n d).
  { apply to_i64_id. unfold is_cell in *. change (2 ^ 63) with 9223372036854775808 in *. unfold imin, imax. lia. }
  rewrite Hrem.
  split; [apply wraps_to_i64|]. split; [rewrite <- Hrem; apply wraps_to_i64|].
  split; [|split; [exact HR|]].
  - destruct (Z.eq_dec n (- 2 ^ 63)) as [->|Hmin];
      [destruct (Z.eq_dec d (-1)) as [->|Hd1]; [right; repeat split; reflexivity|]|];
      left; rewrite (to_i64_id (Z.quot _ d)); try lia.
    + pose proof (Z.quot_abs (- 2 ^ 63) d H0) as QA. unfold is_cell in *.
      change (2 ^ 63) with 9223372036854775808 in *. unfold imin, imax.
      rewrite Z.quot_div_nonneg in QA by lia.
      assert (Z.abs d = 1 \/ 2 <= Z.abs d) as [A|A] by lia.
      * assert (d = 1) as -> by lia. rewrite Z.quot_1_r. lia.
      * assert (Z.abs (-9223372036854775808) / Z.abs d <= Z.abs (-9223372036854775808) / 2)
          by (apply Z.div_le_compat_l; lia).
        change (Z.abs (-9223372036854775808) / 2) with 4611686018427387904 in *. lia.
    + pose proof (Z.quot_abs n d H0) as QA. unfold is_cell in *.
      change (2 ^ 63) with 9223372036854775808 in *. unfold imin, imax.
      rewrite Z.quot_div_nonneg in QA by lia.
      assert (Z.abs n / Z.abs d <= Z.abs n / 1) by (apply Z.div_le_compat_l; lia).
      rewrite Z.div_1_r in *. lia.
  - destruct (Z.eq_dec (Z.rem n d) 0) as [|HN]; [left; assumption|right].
    destruct (Z.lt_trichotomy n 0) as [Hlt|[->|Hgt]].
    + pose proof (Z.rem_bound_neg_pos n d) as X1. pose proof (Z.rem_sign_nz n d H0 HN) as X. lia.
    + rewrite Z.rem_0_l in HN by exact H0. congruence.
    + pose proof (Z.rem_sign_nz n d H0 HN) as X. lia.
Qed.

Lemma div_word_ok (f : stack Z -> stack Z) p t n outs :
  (forall fuel ew, exec_prim fuel ew p = div_word ew f) -> t <> 0 ->
  (forall s rest, stack_has s (t :: n :: rest) -> stack_has (f s) (outs ++ rest) /\ high_slots_kept s (f s)) ->
  effect_is p [t; n] outs.
Proof.
  intros Hp Ht Hf fuel ew v rest Hs. exists outs. split; [reflexivity|]. intros _.
  cbn [app] in Hs. rewrite Hp. unfold div_word, bind, gets.
  assert (Hx : sget (s_stk v) (w8sub (len (s_stk v)) 1) = t).
  { unfold s_stk. pose proof Hs as Hs'. slots_hyp Hs'. pose proof (zlen_nonneg rest). w8. exact Hx. }
  rewrite Hx. destruct (Z.eqb_spec t 0); [contradiction|].
  destruct (Hf _ _ Hs) as [H1 H2]. exists (set_s (f (t_s (cur v))) v).
  split; [reflexivity|]. split; [rewrite cur_set_s; exact H1|]. apply only_data_set_s. exact H2.
Qed.

Lemma div_word_zero (f : stack Z -> stack Z) p fuel ew v rest :
  (forall fuel ew, exec_prim fuel ew p = div_word ew f) ->
  stack_has (t_s (cur v)) (0 :: rest) ->
  exec_prim fuel ew p v = abort_with ew DIVISION_BY_ZERO v.
Proof.
  intros Hp Hs. rewrite Hp. unfold div_word. unfold bind at 1, gets.
  assert (Hx : sget (s_stk v) (w8sub (len (s_stk v)) 1) = 0).
  { unfold s_stk. slots_hyp Hs. pose proof (zlen_nonneg rest). w8. exact Hx. }
  rewrite Hx. reflexivity.
Qed.

Lemma slash_mod_has t n rest s : stack_has s (t :: n :: rest) ->
  stack_has (slash_mod_ s) (w_div n t :: w_rem n t :: rest) /\ high_slots_kept s (slash_mod_ s).
Proof.
  intro H. slots_hyp H. pose proof (zlen_nonneg rest).
  unfold slash_mod_; cbv zeta. w8. sg. w8.
  replace (sget s (len s - 2)) with n by (symmetry; slot_close). rewrite Hx.
  split; [slots_goal; sg; try slot_close; reflexivity|high_goal].
Qed.

Lemma slash_mod_spec n d : is_cell n -> is_cell d -> d <> 0 ->
  effect P_slash_mod [d; n] (fun o => exists q r, o = [q; r] /\ quot_rem n d q r).
Proof.
  intros. eapply effect_weaken.
  - apply (div_word_ok slash_mod_ _ d n [w_div n d; w_rem n d]); [reflexivity|assumption|].
    intros s rest H2. apply slash_mod_has. exact H2.
  - do 2 eexists; split; [reflexivity|]. apply w_div_rem; assumption.
Qed.
Lemma slash_spec n d : is_cell n -> is_cell d -> d <> 0 ->
  effect P_slash [d; n] (result1 (fun q => exists r, quot_rem n d q r)).
Proof.
  intros. eapply effect_weaken.
  - apply (div_word_ok (bin_ w_div) _ d n [w_div n d]); [reflexivity|assumption|].
    intros s rest H2. apply bin__has. exact H2.
  - eexists; split; [reflexivity|]. eexists. apply w_div_rem; assumption.
Qed.
Lemma mod_spec n d : is_cell n -> is_cell d -> d <> 0 ->
  effect P_p_mod [d; n] (result1 (fun r => exists q, quot_rem n d q r)).
Proof.
  intros. eapply effect_weaken.
  - apply (div_word_ok (bin_ w_rem) _ d n [w_rem n d]); [reflexivity|assumption|].
    intros s rest H2. apply bin__has. exact H2.
  - eexists; split; [reflexivity|]. eexists. apply w_div_rem; assumption.
Qed.

Lemma div_zero p fuel ew v rest :
  In p [P_slash; P_p_mod; P_slash_mod] -> stack_has (t_s (cur v)) (0 :: rest) ->
  exec_prim fuel ew p v = abort_with ew DIVISION_BY_ZERO v.
Proof.
  intros [<-|[<-|[<-|[]]]] H; eapply div_word_zero; try exact H; reflexivity.
Qed.

End W.
