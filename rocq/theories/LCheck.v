(** The stack checks on a VM. *)
From Coq Require Import ZArith List Bool Lia ZifyBool ZifyNat.
From Verif Require Import Base Stack Mem Parser State CoreM Exec LBase LStack Spec LState LWords LHist.
Import ListNotations.
Open Scope Z_scope.

Section C.
Context {E : Env}.

Lemma check_quiet fuel ew v :
  clean 64 (t_s (cur v)) -> clean 64 (t_r (cur v)) -> clean 64 (t_c (cur v)) -> clean 64 (t_f (cur v)) ->
  exec_prim fuel ew P_check_stacks v = Ok (tt, v).
Proof.
  intros Hs Hr Hc Hf. cbn [exec_prim]. unfold check_stacks, bind, get.
  unfold s_overflow, s_underflow, r_overflow, r_underflow, c_overflow, c_underflow, f_overflow, f_underflow,
    s_stk, r_stk, c_stk, f_stk.
  destruct (clean_no_alarm Z.eqb _ Z.eqb_refl Hs) as [-> ->].
  destruct (clean_no_alarm Z.eqb _ Z.eqb_refl Hr) as [-> ->].
  destruct (clean_no_alarm control_eqb _ control_eqb_refl Hc) as [-> ->].
  destruct (clean_no_alarm Z.eqb _ Z.eqb_refl Hf) as [-> ->].
  reflexivity.
Qed.

Lemma bounded_clean {T} (s : stack T) : bounded_since_reset s -> clean 64 s.
Proof.
  intros (c & ops & l & outs & Hi & ->). eapply clean_ops; [lia|apply new_has|apply clean_new; lia|exact Hi].
Qed.

Lemma history_len {T} (s : stack T) ops d : s = fst (do_ops (stack_new (canary s)) ops) -> d = net_depth ops -> len s = d mod 256.
Proof. intros -> ->. rewrite (do_ops_len ops _ 0); [f_equal; lia|reflexivity]. Qed.

Lemma check_eq fuel ew v : exec_prim fuel ew P_check_stacks v =
  (if overflow Z.eqb (t_s (cur v)) then abort_with ew STACK_OVERFLOW v
   else if underflow Z.eqb (t_s (cur v)) then abort_with ew STACK_UNDERFLOW v
   else if overflow Z.eqb (t_r (cur v)) then abort_with ew RETURN_STACK_OVERFLOW v
   else if underflow Z.eqb (t_r (cur v)) then abort_with ew RETURN_STACK_UNDERFLOW v
   else if overflow control_eqb (t_c (cur v)) then abort_with ew CONTROL_STRUCTURE_MISMATCH v
   else if underflow control_eqb (t_c (cur v)) then abort_with ew CONTROL_STRUCTURE_MISMATCH v
   else if overflow Z.eqb (t_f (cur v)) then abort_with ew FLOATING_POINT_STACK_OVERFLOW v
   else if underflow Z.eqb (t_f (cur v)) then abort_with ew FLOATING_POINT_STACK_UNDERFLOW v
   else Ok (tt, v)).
Proof.
  cbn [exec_prim]. unfold check_stacks. unfold bind at 1. cbn [get].
  unfold s_overflow, s_underflow, r_overflow, r_underflow, c_overflow, c_underflow, f_overflow, f_underflow,
    s_stk, r_stk, c_stk, f_stk.
  repeat match goal with |- (if ?c then _ else _) _ = _ => destruct c; [reflexivity|] end. reflexivity.
Qed.
Ltac chk_open := rewrite !check_eq.

Lemma check_overflow_s fuel ew v c ops :
  t_s (cur v) = fst (do_ops (stack_new c) ops) -> 65 <= net_depth ops <= 128 ->
  exec_prim fuel ew P_check_stacks v = abort_with ew STACK_OVERFLOW v.
Proof.
  intros H Hd. chk_open.
  rewrite (overflow_by_len _ _ (net_depth ops)); [reflexivity| |exact Hd].
  rewrite H. rewrite (do_ops_len ops _ 0); [f_equal; lia|reflexivity].
Qed.

Lemma overflow_false {T} eqb (s : stack T) d : (forall x, eqb x x = true) ->
  len s = d mod 256 -> -127 <= d <= -1 -> sget s 64 = canary s -> overflow eqb s = false.
Proof.
  intros He H Hd Hc. unfold overflow. rewrite Hc, He. cbn [negb orb].
  replace (d mod 256) with (d + 256) in H by (rewrite <- (Z.mod_add d 1 256) by lia; rewrite Z.mod_small; lia).
  lia.
Qed.

Lemma check_underflow_s fuel ew v c ops :
  t_s (cur v) = fst (do_ops (stack_new c) ops) -> -127 <= net_depth ops <= -1 ->
  sget (t_s (cur v)) 64 = canary (t_s (cur v)) ->
  exec_prim fuel ew P_check_stacks v = abort_with ew STACK_UNDERFLOW v.
Proof.
  intros H Hd Hc. assert (HL : len (t_s (cur v)) = net_depth ops mod 256).
  { rewrite H. rewrite (do_ops_len ops _ 0); [f_equal; lia|reflexivity]. }
  chk_open.
  rewrite (overflow_false Z.eqb _ (net_depth ops) Z.eqb_refl HL Hd Hc).
  rewrite (underflow_by_len _ _ _ HL Hd). reflexivity.
Qed.


Lemma do_op_slot64 {T} (s : stack T) o d :
  len s = d mod 256 -> -128 <= d <= 64 -> -128 <= d + op_delta o <= 64 ->
  sget (fst (do_op s o)) 64 = sget s 64 /\ canary (fst (do_op s o)) = canary s.
Proof.
  intros HL H1 H2.
  destruct o; cbn [do_op fst op_delta] in *; unfold push, push2, push3, pop, pop2, pop3; cbv zeta; cbn [fst];
    split; try reflexivity; rewrite ?len_sset, ?len_set_len; unfold w8add, w8sub; rewrite ?HL;
    unfold sget, sset, set_len; cbn [canary inner len];
    repeat rewrite tget_tset_other by lia; reflexivity.
Qed.

Lemma do_ops_slot64 {T} ops : forall (s : stack T) d,
  len s = d mod 256 -> -128 <= d <= 64 -> depths_within (-128) 64 d ops ->
  sget (fst (do_ops s ops)) 64 = sget s 64 /\ canary (fst (do_ops s ops)) = canary s.
Proof.
  induction ops as [|o r IH]; intros s d HL Hd HW; [split; reflexivity|].
  cbn [depths_within do_ops] in *. destruct HW as [H1 H2].
  destruct (do_op_slot64 s o d HL Hd H1) as [E1 E2].
  pose proof (do_op_len s o) as H3. destruct (do_op s o) as [s1 x1]. cbn [fst] in *.
  rewrite HL, Zplus_mod_idemp_l in H3. destruct (IH s1 _ H3 H1 H2) as [E3 E4].
  destruct (do_ops s1 r) as [s2 x2]. cbn [fst] in *. split; congruence.
Qed.

Lemma history_len' {T} (s : stack T) ops : history s ops -> len s = net_depth ops mod 256.
Proof. intros [c ->]. rewrite (do_ops_len ops _ 0); [f_equal; lia|reflexivity]. Qed.

Lemma history_slot64 {T} (s : stack T) ops : history s ops -> depths_within (-128) 64 0 ops -> sget s 64 = canary s.
Proof.
  intros [c ->] H. destruct (do_ops_slot64 ops (stack_new c) 0) as [-> ->]; try lia; try reflexivity; auto.
Qed.

Section Four.
Variables (fuel : nat) (ew : Z -> M unit) (v : vm).
Let reports e := exec_prim fuel ew P_check_stacks v = abort_with ew e v.

Lemma over_under {T} eqb (s : stack T) ops : (forall x, eqb x x = true) -> history s ops ->
  (65 <= net_depth ops <= 128 -> overflow eqb s = true) /\
  (-127 <= net_depth ops <= -1 -> underflow eqb s = true) /\
  (-127 <= net_depth ops <= -1 -> depths_within (-128) 64 0 ops -> overflow eqb s = false).
Proof.
  intros He H. pose proof (history_len' _ _ H) as HL. repeat split; intros.
  - apply (overflow_by_len _ _ _ HL); lia.
  - apply (underflow_by_len _ _ _ HL); lia.
  - apply (overflow_false _ _ (net_depth ops)); auto. apply (history_slot64 _ ops); auto.
Qed.

Lemma check_s ops : history (t_s (cur v)) ops ->
  (65 <= net_depth ops <= 128 -> reports STACK_OVERFLOW) /\
  (-127 <= net_depth ops <= -1 -> depths_within (-128) 64 0 ops -> reports STACK_UNDERFLOW) /\
  (-127 <= net_depth ops <= -1 -> reports STACK_OVERFLOW \/ reports STACK_UNDERFLOW).
Proof.
  intros H. destruct (over_under Z.eqb _ _ Z.eqb_refl H) as (Ho & Hu & Hn).
  unfold reports; chk_open.
  split; [intro Hd; rewrite (Ho Hd); reflexivity|split];
  [intros Hd Hw; rewrite (Hn Hd Hw), (Hu Hd); reflexivity
  |intros Hd; destruct (overflow _ (t_s (cur v))); [left; reflexivity|rewrite (Hu Hd); right; reflexivity]].
Qed.

Lemma check_r ops : bounded_since_reset (t_s (cur v)) -> history (t_r (cur v)) ops ->
  (65 <= net_depth ops <= 128 -> reports RETURN_STACK_OVERFLOW) /\
  (-127 <= net_depth ops <= -1 -> depths_within (-128) 64 0 ops -> reports RETURN_STACK_UNDERFLOW) /\
  (-127 <= net_depth ops <= -1 -> reports RETURN_STACK_OVERFLOW \/ reports RETURN_STACK_UNDERFLOW).
Proof.
  intros Hs%bounded_clean H.
  destruct (over_under Z.eqb _ _ Z.eqb_refl H) as (Ho & Hu & Hn).
  unfold reports; chk_open. destruct (clean_no_alarm Z.eqb _ Z.eqb_refl Hs) as [-> ->].
  split; [intro Hd; rewrite (Ho Hd); reflexivity|split];
  [intros Hd Hw; rewrite (Hn Hd Hw), (Hu Hd); reflexivity
  |intros Hd; destruct (overflow _ (t_r (cur v))); [left; reflexivity|rewrite (Hu Hd); right; reflexivity]].
Qed.

Lemma check_c ops : bounded_since_reset (t_s (cur v)) -> bounded_since_reset (t_r (cur v)) ->
  history (t_c (cur v)) ops ->
  (65 <= net_depth ops <= 128 -> reports CONTROL_STRUCTURE_MISMATCH) /\
  (-127 <= net_depth ops <= -1 -> reports CONTROL_STRUCTURE_MISMATCH).
Proof.
  intros Hs%bounded_clean Hr%bounded_clean H.
  destruct (over_under control_eqb _ _ control_eqb_refl H) as (Ho & Hu & Hn).
  unfold reports; chk_open. destruct (clean_no_alarm Z.eqb _ Z.eqb_refl Hs) as [-> ->].
  destruct (clean_no_alarm Z.eqb _ Z.eqb_refl Hr) as [-> ->].
  split; [intro Hd; rewrite (Ho Hd); reflexivity
  |intros Hd; destruct (overflow _ (t_c (cur v))); [reflexivity|rewrite (Hu Hd); reflexivity]].
Qed.

Lemma check_f ops : bounded_since_reset (t_s (cur v)) -> bounded_since_reset (t_r (cur v)) ->
  bounded_since_reset (t_c (cur v)) -> history (t_f (cur v)) ops ->
  (65 <= net_depth ops <= 128 -> reports FLOATING_POINT_STACK_OVERFLOW) /\
  (-127 <= net_depth ops <= -1 -> depths_within (-128) 64 0 ops -> reports FLOATING_POINT_STACK_UNDERFLOW) /\
  (-127 <= net_depth ops <= -1 -> reports FLOATING_POINT_STACK_OVERFLOW \/ reports FLOATING_POINT_STACK_UNDERFLOW).
Proof.
  intros Hs%bounded_clean Hr%bounded_clean Hc%bounded_clean H.
  destruct (over_under Z.eqb _ _ Z.eqb_refl H) as (Ho & Hu & Hn).
  unfold reports; chk_open. destruct (clean_no_alarm Z.eqb _ Z.eqb_refl Hs) as [-> ->].
  destruct (clean_no_alarm Z.eqb _ Z.eqb_refl Hr) as [-> ->].
  destruct (clean_no_alarm control_eqb _ control_eqb_refl Hc) as [-> ->].
  split; [intro Hd; rewrite (Ho Hd); reflexivity|split];
  [intros Hd Hw; rewrite (Hn Hd Hw), (Hu Hd); reflexivity
  |intros Hd; destruct (overflow _ (t_f (cur v))); [left; reflexivity|rewrite (Hu Hd); right; reflexivity]].
Qed.
End Four.

(** Words that shrink the stack below zero *)
Lemma on_s_check fuel ew f v :
  overflow Z.eqb (f (s_stk v)) = false -> underflow Z.eqb (f (s_stk v)) = true ->
  exists v', on_s f v = Ok (tt, v') /\
    exec_prim fuel ew P_check_stacks v' = abort_with ew STACK_UNDERFLOW v'.
Proof.
  intros Ho Hu. eexists; split; [reflexivity|]. chk_open. rewrite cur_set_s. cbn [t_s set_t_s].
  rewrite Ho, Hu. reflexivity.
Qed.

Lemma shrink_alarm (f : stack Z -> stack Z) d delta (s : stack Z) :
  sget (f s) 64 = canary (f s) -> len (f s) = (d + delta) mod 256 -> -127 <= d + delta <= -1 ->
  overflow Z.eqb (f s) = false /\ underflow Z.eqb (f s) = true.
Proof.
  intros H1 H2 H3. split.
  - apply (overflow_false _ _ (d + delta)); auto using Z.eqb_refl.
  - apply (underflow_by_len _ _ (d + delta)); auto.
Qed.

Lemma shrinking fuel ew v p delta :
  In (p, delta) shrinking_words -> bounded_since_reset (t_s (cur v)) -> len (t_s (cur v)) + delta < 0 ->
  exists v', exec_prim fuel ew p v = Ok (tt, v') /\
    exec_prim fuel ew P_check_stacks v' = abort_with ew STACK_UNDERFLOW v'.
Proof.
  intros Hin [Hl Hc]%bounded_clean Hd.
  assert (H64 : sget (t_s (cur v)) 64 = canary (t_s (cur v))) by (apply Hc; lia).
  assert (Hfin : forall f, -2 <= delta -> (forall w, exec_prim fuel ew p w = on_s f w) ->
     (forall s, 0 <= len s <= 64 -> len s + delta < 0 -> sget s 64 = canary s -> sget (f s) 64 = canary (f s)) ->
     (forall s, len (f s) = (len s + delta) mod 256) ->
     exists v', exec_prim fuel ew p v = Ok (tt, v') /\
       exec_prim fuel ew P_check_stacks v' = abort_with ew STACK_UNDERFLOW v').
  { intros f H2 Hp Hs HL. rewrite Hp. apply on_s_check;
    apply (shrink_alarm f (len (t_s (cur v))) delta); unfold s_stk; auto; lia. }
  cbn [shrinking_words In] in Hin.
  Ltac go Hfin f := apply (Hfin f); [lia|reflexivity
    |intros s Hl' Hd' H'; unfold f, drop_, nip_, two_drop_, bin_, bin2_, within_, push, pop2, pop3, un_; cbv zeta; cbn [fst snd];
      rewrite ?len_sset, ?len_set_len; unfold w8add, w8sub;
      unfold sget, sset, set_len in *; cbn [canary inner len] in *;
      repeat rewrite tget_tset_other by lia; exact H'
    |intro s; unfold f, drop_, nip_, two_drop_, bin_, bin2_, within_, push, pop2, pop3; cbv zeta; cbn [fst snd];
      rewrite ?len_sset, ?len_set_len; unfold w8add, w8sub; rewrite ?len_sset, ?len_set_len;
      rewrite ?Zplus_mod_idemp_l; f_equal; lia].
  repeat (destruct Hin as [[= <- <-]|Hin]); try contradiction.
  - go Hfin drop_.
  - go Hfin nip_.
  - go Hfin two_drop_.
  - go Hfin plus_.
  - go Hfin minus_.
  - go Hfin star_.
  - go Hfin and_.
  - go Hfin or_.
  - go Hfin xor_.
  - go Hfin lshift_.
  - go Hfin rshift_.
  - go Hfin equals_.
  - go Hfin less_than_.
  - go Hfin greater_than_.
  - go Hfin not_equals_.
  - go Hfin within_.
Qed.

End C.
