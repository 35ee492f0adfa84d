(** Histories of stack operations, and the stack checks. *)
From Coq Require Import ZArith List Bool Lia ZifyBool ZifyNat.
From Verif Require Import Base Stack Mem Parser State CoreM Exec LBase LStack Spec LState LWords.
Import ListNotations.
Open Scope Z_scope.

Section S.
Context {T : Type}.
Implicit Types (s : stack T) (l : list T).

Lemma do_op_ideal cap s l o l' x :
  cap <= 255 -> stack_has s l -> ideal_op cap l o = Some (l', x) ->
  exists s', do_op s o = (s', x) /\ stack_has s' l' /\ high_slots_kept s s' /\
             len s' = zlen l'.
Proof.
  intros Hc H Hi. pose proof (zlen_nonneg l) as Hn.
  assert (HF : forall l1, (if zlen l1 <=? cap then Some (l1, []) else None) = Some (l', x) ->
               l' = l1 /\ x = [] /\ zlen l1 <= cap).
  { intros l1 X. destruct (Z.leb_spec (zlen l1) cap); [|discriminate]. injection X as <- <-. auto. }
  destruct o as [a|a c|a c d| | |]; cbn [ideal_op do_op] in *.
  - apply HF in Hi. destruct Hi as (-> & -> & Hi). rewrite zlen_cons in Hi.
    slots_hyp H. unfold push. sg. w8. eexists; split; [reflexivity|].
    rewrite !zlen_cons, !len_sset, !len_set_len.
    split; [slots_goal; sg; try slot_close; reflexivity|]. split; [high_goal|]. lia.
  - apply HF in Hi. destruct Hi as (-> & -> & Hi). rewrite !zlen_cons in Hi.
    slots_hyp H. unfold push2. cbv zeta. sg. w8. eexists; split; [reflexivity|].
    rewrite !zlen_cons, !len_sset, !len_set_len.
    split; [slots_goal; sg; try slot_close; reflexivity|]. split; [high_goal|]. lia.
  - apply HF in Hi. destruct Hi as (-> & -> & Hi). rewrite !zlen_cons in Hi.
    slots_hyp H. unfold push3. cbv zeta. sg. w8. eexists; split; [reflexivity|].
    rewrite !zlen_cons, !len_sset, !len_set_len.
    split; [slots_goal; sg; try slot_close; reflexivity|]. split; [high_goal|]. lia.
  - destruct l as [|y r]; [discriminate|]. injection Hi as <- <-. rewrite zlen_cons in Hn.
    slots_hyp H. pose proof (zlen_nonneg r). unfold pop. w8. rewrite Hx. eexists; split; [reflexivity|].
    rewrite !len_set_len.
    split; [slots_goal; sg; try slot_close; reflexivity|]. split; [high_goal|]. lia.
  - destruct l as [|y [|z r]]; try discriminate. injection Hi as <- <-.
    slots_hyp H. pose proof (zlen_nonneg r). unfold pop2. w8.
    replace (sget s (len s - 2)) with z by (symmetry; slot_close). rewrite Hx. eexists; split; [reflexivity|].
    rewrite !len_set_len.
    split; [slots_goal; sg; try slot_close; reflexivity|]. split; [high_goal|]. lia.
  - destruct l as [|y [|z [|w r]]]; try discriminate. injection Hi as <- <-.
    slots_hyp H. pose proof (zlen_nonneg r). unfold pop3. w8.
    replace (sget s (len s - 2)) with z by (symmetry; slot_close).
    replace (sget s (len s - 3)) with w by (symmetry; slot_close). rewrite Hx. eexists; split; [reflexivity|].
    rewrite !len_set_len.
    split; [slots_goal; sg; try slot_close; reflexivity|]. split; [high_goal|]. lia.
Qed.

Lemma do_ops_ideal cap ops : forall s l l' x,
  cap <= 255 -> stack_has s l -> ideal_ops cap l ops = Some (l', x) ->
  exists s', do_ops s ops = (s', x) /\ stack_has s' l'.
Proof.
  induction ops as [|o r IH]; intros s l l' x Hc H Hi; cbn [ideal_ops do_ops] in *.
  - injection Hi as <- <-. exists s. auto.
  - destruct (ideal_op cap l o) as [[l1 x1]|] eqn:H1; [|discriminate].
    destruct (ideal_ops cap l1 r) as [[l2 x2]|] eqn:H2; [|discriminate].
    injection Hi as <- <-.
    destruct (do_op_ideal _ _ _ _ _ _ Hc H H1) as (s1 & E1 & Hs1 & _).
    destruct (IH _ _ _ _ Hc Hs1 H2) as (s2 & E2 & Hs2).
    rewrite E1, E2. exists s2. auto.
Qed.

Lemma new_has (c : T) : stack_has (stack_new c) [].
Proof. split; [reflexivity|]. split; [cbn; lia|]. intros [|k] x; discriminate. Qed.

(** No slot from the capacity up has ever been written *)
Definition clean (cap : Z) s : Prop :=
  0 <= len s <= cap /\ forall i, cap <= i <= 255 -> sget s i = canary s.

Lemma clean_new (c : T) cap : 0 <= cap -> clean cap (stack_new c).
Proof. intro. split; [cbn; lia|]. intros i _. apply tget_tempty. Qed.
Lemma clean_reset s cap : 0 <= cap -> clean cap (stack_reset s).
Proof. intro. split; [cbn; lia|]. intros i _. apply tget_tempty. Qed.

Lemma clean_kept cap s s' : clean cap s -> high_slots_kept s s' -> 0 <= len s' <= cap -> clean cap s'.
Proof.
  intros [H1 H2] [Hc H3] H4. split; [exact H4|]. intros i Hi. rewrite H3 by lia. rewrite H2 by lia. congruence.
Qed.

Lemma ideal_op_cap cap l o l' x : ideal_op cap l o = Some (l', x) -> zlen l <= cap -> zlen l' <= cap.
Proof.
  intros Hi H.
  assert (HF : forall l1, (if zlen l1 <=? cap then Some (l1, @nil T) else None) = Some (l', x) -> zlen l' <= cap).
  { intros l1 X. destruct (Z.leb_spec (zlen l1) cap); [|discriminate]. injection X as <- <-. auto. }
  destruct o as [a|a c|a c d| | |]; cbn [ideal_op] in Hi; try (apply HF in Hi; exact Hi);
    destruct l as [|y [|z [|w r]]]; try discriminate; injection Hi as <- <-; rewrite ?zlen_cons in *; cbn in *; try lia.
Qed.

Lemma clean_ops cap ops : forall s l l' x,
  cap <= 255 -> stack_has s l -> clean cap s -> ideal_ops cap l ops = Some (l', x) ->
  clean cap (fst (do_ops s ops)).
Proof.
  induction ops as [|o r IH]; intros s l l' x Hc H HC Hi; cbn [ideal_ops do_ops] in *.
  - exact HC.
  - destruct (ideal_op cap l o) as [[l1 x1]|] eqn:H1; [|discriminate].
    destruct (ideal_ops cap l1 r) as [[l2 x2]|] eqn:H2; [|discriminate].
    destruct (do_op_ideal _ _ _ _ _ _ Hc H H1) as (s1 & E1 & Hs1 & HK & HL).
    rewrite E1. pose proof (stack_has_len _ _ H) as HL0. destruct HC as [HC1 HC2].
    assert (HC' : clean cap s1).
    { apply (clean_kept _ s); [split; assumption|exact HK|]. rewrite HL. pose proof (zlen_nonneg l1).
      pose proof (ideal_op_cap _ _ _ _ _ H1). lia. }
    specialize (IH _ _ _ _ Hc Hs1 HC' H2). destruct (do_ops s1 r) as [s2 x2']. exact IH.
Qed.

Lemma clean_no_alarm (eqb : T -> T -> bool) s :
  (forall x, eqb x x = true) -> clean 64 s -> overflow eqb s = false /\ underflow eqb s = false.
Proof.
  intros He [H1 H2]. unfold overflow, underflow. rewrite !H2 by lia. rewrite He. cbn [negb orb]. lia.
Qed.

(** The 8-bit depth counter is the true depth modulo 256 *)
Lemma do_op_len s o : len (fst (do_op s o)) = (len s + op_delta o) mod 256.
Proof. destruct o; cbn; unfold push, push2, push3, pop, pop2, pop3, w8add, w8sub; cbn; reflexivity. Qed.

Lemma do_ops_len ops : forall s d, len s = d mod 256 ->
  len (fst (do_ops s ops)) = (d + net_depth ops) mod 256.
Proof.
  induction ops as [|o r IH]; intros s d Hd; cbn [do_ops net_depth fold_right].
  - cbn. rewrite Z.add_0_r. exact Hd.
  - pose proof (do_op_len s o) as H1. destruct (do_op s o) as [s1 x1]. cbn [fst] in H1.
    rewrite Hd, Zplus_mod_idemp_l in H1. specialize (IH s1 _ H1).
    destruct (do_ops s1 r) as [s2 x2]. cbn [fst] in *. rewrite IH. f_equal. unfold net_depth. lia.
Qed.

Lemma overflow_by_len eqb s d : len s = d mod 256 -> 65 <= d <= 128 -> overflow eqb s = true.
Proof. intros H Hd. unfold overflow. rewrite Z.mod_small in H by lia. lia. Qed.

Lemma underflow_by_len eqb s d : len s = d mod 256 -> -127 <= d <= -1 -> underflow eqb s = true.
Proof.
  intros H Hd. unfold underflow. replace (d mod 256) with (d + 256) in H.
  - lia.
  - rewrite <- (Z.mod_add d 1 256) by lia. rewrite Z.mod_small; lia.
Qed.

End S.

Lemma control_eqb_refl c : control_eqb c c = true.
Proof. destruct c; cbn; rewrite ?Z.eqb_refl; reflexivity. Qed.
