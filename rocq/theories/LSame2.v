(** Interpreting a line and compiling it (C59): running the compiled line. *)
From Coq Require Import ZArith List Bool Lia ZifyBool ZifyNat.
From Verif Require Import Base Stack Mem Parser Flt State CoreM IoM FloatM FileM Exec.
From Verif Require Import LBase LStack Spec Spec2 Spec4 Spec5 Spec6 Spec7 Spec9 Spec10 Spec11 Spec15 Spec16 Spec19 Spec20
  LState LMem LMon LStep LTask LHist LCheck LFuel LCode LComp LRun LCtl LDict LDict2 LDict3 LDict4 LDict5 LParse LNum LNum2 LText LLib LDefine LEval LSame.
Import ListNotations.
Open Scope Z_scope.
Open Scope m_scope.

Section A.
Context {E : Env}.
Implicit Types (v u w : vm).


Section U.
Variable U : Z -> Prop.

Lemma does_kept K v i (Q : vm -> Prop) : does K v i Q -> does K v i (fun u => kept K v u /\ Q u).
Proof. intros D r Hr. destruct (D r Hr) as (f & u & v' & A & B & C & q). exists f, u, v'. auto. Qed.
Lemma calls_does u i (Q : vm -> Prop) : calls U u i Q -> does (outside U u) u i Q.
Proof. intros D r Hr. destruct (D r Hr) as (f & u1 & u' & A & _ & B & C & q). exists f, u1, u'. auto. Qed.
Lemma nest_calls u i (Q : vm -> Prop) : word_is u i P_nest -> does (outside U u) u i Q -> calls U u i Q.
Proof.
  intros W D r Hr. destruct (D r Hr) as (f & u1 & u' & A & B & C & q). exists f, u1, u'. split; [exact A|]. split; [|auto].
  destruct f as [|f]; [discriminate A|]. rewrite (execute_word_eq f i (set_ip r u) P_nest W) in A. cbn [exec_prim] in A. unfold nest in A.
  apply bind_inv in A as ([] & u2 & A1 & A). unfold modify in A1. cbv zeta in A1. assert (E2 : v_err u2 = v_err u) by (assert (K := f_equal (fun x => match x with Ok (_, y) => v_err y | _ => None end) A1); cbn in K; symmetry; exact K).
  rewrite bind_gets in A. apply bind_inv in A as (wd & u3 & A3 & A). unfold word_at in A3.
  destruct (_ && _); [|discriminate A3]. assert (u3 = u2) as -> by congruence.
  unfold put_ip, modify in A. assert (K := f_equal (fun x => match x with Ok (_, y) => v_err y | _ => None end) A). cbn in K. congruence.
Qed.
Lemma calls_prim u i p (Q : vm -> Prop) : word_is u i p ->
  (forall c fuel ew, exists w, exec_prim fuel ew p (at_ i c u) = Ok (tt, w) /\ st_ip (st w) = c /\ v_err w = v_err u /\ kept (outside U u) u w /\ Q w) -> calls U u i Q.
Proof.
  intros W H r Hr. destruct (H r 0%nat (execute_word 0)) as (w & E1 & I1 & X1 & K1 & q). exists 1%nat, w, w.
  split; [rewrite (execute_word_eq O i (set_ip r u) p W), set_wp_ip; exact E1|]. split; [exact X1|]. split; [rewrite I1; apply goes_refl|]. auto.
Qed.

Lemma later_kept v u u' : later U v u -> calm u u' -> kept (outside U u) u u' -> here (v_ds u') = here (v_ds u) -> ds_ok (v_ds v) -> later U v u'.
Proof.
  intros (L1 & L2 & L3 & L4 & L5 & L6 & L7 & L8) C (K1 & K2 & K3 & _) H (D1 & D2 & D3).
  assert (EW : v_wl u' = v_wl u) by apply C. assert (ER : v_refs u' = v_refs u) by apply C.
  unfold later, words, word_of in *. rewrite EW, ER, K1, K2, H. repeat (split; [assumption|]).
  split; [unfold ds_ok in *; rewrite K1, K2, H; exact L7|]. intros a Ha HU. rewrite K3; [apply L8; assumption|]. split; [|exact HU]. rewrite L4, L5. lia.
Qed.
Lemma calm_set_r u s : canary s = canary (t_r (cur u)) -> sget s 255 = sget (t_r (cur u)) 255 -> calm u (set_r s u).
Proof. intros H1 H2. unfold calm, st. rewrite cur_set_r. cbn. repeat split; try assumption. apply same_other_upd. Qed.
Lemma calm_add_r u x : 0 <= len (t_r (cur u)) < 255 -> calm u (add_r x u).
Proof. intro H. apply calm_set_r; [reflexivity|]. unfold add_item. rewrite sget_set_len, sget_sset_other by lia. reflexivity. Qed.
Lemma calm_drop_r u x : calm u (drop_r x u).
Proof. apply calm_set_r; reflexivity. Qed.
Lemma calm_set_s u s : canary s = canary (t_s (cur u)) -> sget s 255 = sget (t_s (cur u)) 255 -> calm u (set_s s u).
Proof. intros H1 H2. unfold calm, st. rewrite cur_set_s. cbn. repeat split; try assumption. apply same_other_upd. Qed.
Lemma calm_add_s u x : 0 <= len (t_s (cur u)) < 255 -> calm u (add_s x u).
Proof. intro H. apply calm_set_s; [reflexivity|]. unfold add_item. rewrite sget_set_len, sget_sset_other by lia. reflexivity. Qed.
Lemma calm_add_f u x : calm u (add_f x u).
Proof. unfold add_f, calm, st. rewrite cur_set_f. cbn. repeat split. apply same_other_upd. Qed.
Lemma intact_add {T} (s : stack T) x : intact s -> len s < 64 -> intact (add_item s x).
Proof. intros H HL. rewrite <- add_item_push by (destruct H; lia). apply intact_push; assumption. Qed.
Lemma has_add {T} (s : stack T) x l : stack_has s l -> zlen l < 64 -> stack_has (add_item s x) (x :: l).
Proof. intros H HL. pose proof (stack_has_len _ _ H) as HN. pose proof (zlen_nonneg l). rewrite <- add_item_push by lia. apply push_has; [exact H|lia]. Qed.

(** what running a line keeps *)
Definition ran v (rs : list Z) u c' u' : Prop :=
  shows U c' u' /\ stack_has (t_r (cur u')) rs /\ here (v_ds u') = here (v_ds u) /\ stacks_intact u' /\ calm u u'.

Lemma chain_wp v n : ds_ok (v_ds v) -> forall items c c', chain U v n items c c' -> forall K u rs,
  (forall a, K a <-> outside U u a) -> later U v u -> shows U c u -> stack_has (t_r (cur u)) rs -> zlen rs <= n -> stacks_intact u ->
  wp K (seqs items) (ran v rs u c') u.
Proof.
  intro DV. induction 1 as [c|x l d f m o c' HL HC IH|x l d f m o c' HL HC IH|i l c c1 c' HT HC IH]; intros K u rs HK LA HS HR HZ HI; cbn [seqs fold_right]; repeat match goal with |- context [fold_right (fun it p => Seq (item_code it) p) Skip ?l] => change (fold_right (fun it p => Seq (item_code it) p) Skip l) with (seqs l) end.
  - apply wp_skip. split; [exact HS|]. split; [exact HR|]. split; [reflexivity|]. split; [exact HI|]. apply calm_refl.
  - apply wp_seq. cbn [item_code]. intros a HH. exists (add_s x u). pose proof HS as (S1 & S2 & S3 & S4). cbn [c_data c_float c_mem c_out] in *.
    pose proof (stack_has_len _ _ S1) as HN. pose proof (zlen_nonneg d) as HP.
    split; [apply num_run; [exact HH|lia]|]. pose proof (calm_add_s u x ltac:(lia)) as CA. assert (CU := cur_set_s (add_item (t_s (cur u)) x) u). fold (add_s x u) in CU.
    eapply wp_conseq; [|apply (IH K (add_s x u) rs)].
    + intros u' (A & B & C & D & F). repeat (split; [assumption|]). exact (calm_trans _ _ _ CA F).
    + exact HK.
    + exact LA.
    + unfold shows. rewrite CU. cbn. split; [apply has_add; assumption|]. auto.
    + rewrite CU. exact HR.
    + exact HZ.
    + unfold stacks_intact in *. rewrite CU. cbn. destruct HI as (I1 & I2). split; [apply intact_add; [exact I1|lia]|exact I2].
  - apply wp_seq. cbn [item_code]. intros a HH. exists (add_f x u). pose proof HS as (S1 & S2 & S3 & S4). cbn [c_data c_float c_mem c_out] in *.
    pose proof (stack_has_len _ _ S2) as HN. pose proof (zlen_nonneg f) as HP.
    split; [apply flo_run; [exact HH|lia]|]. pose proof (calm_add_f u x) as CA. assert (CU := cur_set_f (add_item (t_f (cur u)) x) u). fold (add_f x u) in CU.
    eapply wp_conseq; [|apply (IH K (add_f x u) rs)].
    + intros u' (A & B & C & D & F). repeat (split; [assumption|]). exact (calm_trans _ _ _ CA F).
    + exact HK.
    + exact LA.
    + unfold shows. rewrite CU. cbn. split; [exact S1|]. split; [apply has_add; assumption|]. auto.
    + rewrite CU. exact HR.
    + exact HZ.
    + unfold stacks_intact in *. rewrite CU. cbn. destruct HI as (I1 & I2 & I3 & I4). repeat (split; [assumption|]). apply intact_add; [exact I4|lia].
  - apply wp_seq. cbn [item_code]. pose proof (calls_does _ _ _ (HT u rs LA HS HR HZ HI)) as D.
    assert (D2 : does K u i (ran v rs u c1)).
    { intros r Hr. destruct (D r Hr) as (g & u1 & u' & A1 & A2 & A3 & A4). exists g, u1, u'. split; [exact A1|]. split; [exact A2|]. split; [|exact A4].
      eapply kept_mono; [exact A3|]. intros a Ha. apply HK. exact Ha. }
    apply wp_call. eapply does_conseq; [|exact (does_kept _ _ _ _ D2)]. intros u' (KP & Q1 & Q2 & Q3 & Q4 & Q5). cbn beta.
    assert (EO : forall a, outside U u' a <-> outside U u a) by (intro a; unfold outside; destruct KP as (-> & -> & _); tauto).
    eapply wp_conseq; [|apply (IH K u' rs)]; try assumption.
    + intros w (A & B & C & DD & F). split; [exact A|]. split; [exact B|]. split; [congruence|]. split; [exact DD|]. exact (calm_trans _ _ _ Q5 F).
    + intro a. rewrite HK. symmetry. apply EO.
    + apply (later_kept v u); try assumption. eapply kept_mono; [exact KP|]. intros a Ha. apply HK. exact Ha.
Qed.

(** a colon definition whose body is such a line *)
Lemma line_calls v n items c c' u rs i x : ds_ok (v_ds v) -> chain U v n items c c' -> colon_word (outside U u) u i (seqs items) x ->
  later U v u -> shows U c u -> stack_has (t_r (cur u)) rs -> zlen rs < n -> zlen rs < 64 -> stacks_intact u ->
  calls U u i (ran v rs u c').
Proof.
  intros DV HC HW LA HS HR HZ HZ' HI. apply nest_calls; [apply HW|]. eapply colon_does; [exact HW|exact HR|lia|]. intros r Hr.
  pose proof (stack_has_len _ _ HR) as HN. pose proof (zlen_nonneg rs) as HP. assert (CU := cur_set_r (add_item (t_r (cur u)) r) u). fold (add_r r u) in CU.
  eapply wp_conseq; [|apply (chain_wp v n DV items c c' HC (outside U u) (add_r r u) (r :: rs))].
  - intros u' (A & B & C & D & F). pose proof (calm_add_r u r ltac:(lia)) as CA. pose proof (calm_trans _ _ _ CA F) as CF. split; [apply CF|]. exists rs. split; [exact B|].
    assert (CD := cur_set_r (drop_items 1 (t_r (cur u'))) u'). fold (drop_r 1 u') in CD. unfold ran, shows, stacks_intact. rewrite CD. cbn.
    split; [exact A|]. split; [apply (drop_has _ [r]); exact B|]. split; [exact C|]. split.
    + destruct D as (D1 & (D2 & D3 & D4) & D5). split; [exact D1|]. split; [|exact D5]. unfold intact, drop_items. cbn [len set_len canary]. rewrite !sget_set_len.
      pose proof (stack_has_len _ _ B) as HB. rewrite zlen_cons in HB. split; [lia|auto].
    + exact (calm_trans _ _ _ CF (calm_drop_r u' 1)).
  - intro a. reflexivity.
  - exact LA.
  - unfold shows in *. rewrite CU. exact HS.
  - rewrite CU. cbn. apply has_add; assumption.
  - rewrite zlen_cons. lia.
  - unfold stacks_intact in *. rewrite CU. cbn. destruct HI as (I1 & I2 & I3). split; [exact I1|]. split; [|exact I3]. apply intact_add; [exact I2|lia].
Qed.
End U.
End A.
