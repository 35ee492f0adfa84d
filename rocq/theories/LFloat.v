(** Words on the float and return stacks. *)
From Coq Require Import ZArith List Bool Lia ZifyBool ZifyNat.
From Verif Require Import Base Stack Mem Parser Flt State CoreM FloatM Exec LBase LStack Spec Spec2 LState LMem LMon LMemWords.
Import ListNotations.
Open Scope Z_scope.

Section F.
Context {E : Env}.

Lemma high_refl {T} (s : stack T) : high_slots_kept s s.
Proof. split; [reflexivity|]. reflexivity. Qed.
Lemma only_stacks_refl v : only_stacks v v.
Proof. split; [apply same_globals_refl|]. split; [reflexivity|]. split; [apply same_other_refl|]. split; [apply same_rest_refl|].
  split; [apply high_refl|]. split; apply high_refl. Qed.

Lemma same_globals_trans v v1 v2 : same_globals v v1 -> same_globals v1 v2 -> same_globals v v2.
Proof. unfold same_globals. intros. intuition congruence. Qed.
Lemma same_other_trans v v1 v2 : v_cur v1 = v_cur v -> same_other_tasks v v1 -> same_other_tasks v1 v2 -> same_other_tasks v v2.
Proof. intros Hc H1 H2 i Hi Hv Hn. rewrite H2 by (rewrite ?Hc; assumption). apply H1; assumption. Qed.
Lemma same_rest_trans t t1 t2 : same_task_rest t t1 -> same_task_rest t1 t2 -> same_task_rest t t2.
Proof. unfold same_task_rest. intros. intuition congruence. Qed.

(** the lengths never exceed the larger of the two ends *)
Definition between (v v1 v2 : vm) : Prop :=
  len (t_s (cur v1)) <= Z.max (len (t_s (cur v))) (len (t_s (cur v2))) /\
  len (t_r (cur v1)) <= Z.max (len (t_r (cur v))) (len (t_r (cur v2))) /\
  len (t_f (cur v1)) <= Z.max (len (t_f (cur v))) (len (t_f (cur v2))).
Lemma only_stacks_trans v v1 v2 : between v v1 v2 -> only_stacks v v1 -> only_stacks v1 v2 -> only_stacks v v2.
Proof.
  intros (B1 & B2 & B3) (G & D & O & R & HS & HR & HF) (G' & D' & O' & R' & HS' & HR' & HF').
  split; [eapply same_globals_trans; eassumption|]. split; [congruence|].
  split; [apply (same_other_trans v v1 v2); [apply G|assumption|assumption]|].
  split; [eapply same_rest_trans; eassumption|].
  split; [apply (high_trans _ (t_s (cur v1))); assumption|].
  split; [apply (high_trans _ (t_r (cur v1))); assumption|].
  apply (high_trans _ (t_f (cur v1))); assumption.
Qed.

Lemma drf_upd v s r f :
  high_slots_kept (t_s (cur v)) s -> high_slots_kept (t_r (cur v)) r -> high_slots_kept (t_f (cur v)) f ->
  only_stacks v (set_s s (set_r r (set_f f v))).
Proof.
  intros. vnorm. unfold only_stacks. rewrite cur_upd. cbn [t_s t_r t_f set_t_s set_t_r set_t_f].
  split; [apply same_globals_upd|]. split; [reflexivity|]. split; [apply same_other_upd|].
  split; [repeat split; reflexivity|]. auto.
Qed.
Lemma set_t_s_id t : set_t_s (t_s t) t = t. Proof. destruct t; reflexivity. Qed.
Lemma set_t_r_id t : set_t_r (t_r t) t = t. Proof. destruct t; reflexivity. Qed.
Lemma set_t_f_id t : set_t_f (t_f t) t = t. Proof. destruct t; reflexivity. Qed.

Lemma drf_s v s : high_slots_kept (t_s (cur v)) s -> only_stacks v (set_s s v).
Proof.
  intro. unfold only_stacks. rewrite cur_set_s. cbn [t_s t_r t_f set_t_s].
  split; [apply same_globals_upd|]. split; [reflexivity|]. split; [apply same_other_upd|].
  split; [repeat split; reflexivity|]. split; [assumption|]. split; apply high_refl.
Qed.
Lemma drf_r v s : high_slots_kept (t_r (cur v)) s -> only_stacks v (set_r s v).
Proof.
  intro. unfold only_stacks. rewrite cur_set_r. cbn [t_s t_r t_f set_t_r].
  split; [apply same_globals_upd|]. split; [reflexivity|]. split; [apply same_other_upd|].
  split; [repeat split; reflexivity|]. split; [apply high_refl|]. split; [assumption|apply high_refl].
Qed.
Lemma drf_f v s : high_slots_kept (t_f (cur v)) s -> only_stacks v (set_f s v).
Proof.
  intro. unfold only_stacks. rewrite cur_set_f. cbn [t_s t_r t_f set_t_f].
  split; [apply same_globals_upd|]. split; [reflexivity|]. split; [apply same_other_upd|].
  split; [repeat split; reflexivity|]. split; [apply high_refl|]. split; [apply high_refl|assumption].
Qed.

(** One operation: the new state, its contents and its frame *)
Definition opstep {A} (m : M A) (a : A) (v : vm) (d r f : list Z) : Prop :=
  exists v1, m v = Ok (a, v1) /\ stacks_are v1 d r f /\ only_stacks v v1.

Ltac op_s L H := destruct L as (s1 & E1 & HA & HB & HC); eexists; split;
  [first [apply s_pop_eq | apply s_pop2_eq | apply s_pop3_eq]; exact E1|].

Lemma op_spop v x d r f : stacks_are v (x :: d) r f -> opstep s_pop x v d r f.
Proof.
  intros (Hs & Hr & Hf). destruct (pop1_has _ _ _ Hs) as (s1 & E1 & HA & HB & _).
  exists (set_s s1 v). split; [apply s_pop_eq; exact E1|]. split; [|apply drf_s; assumption].
  unfold stacks_are. rewrite cur_set_s. auto.
Qed.
Lemma op_spop2 v x y d r f : stacks_are v (y :: x :: d) r f -> opstep s_pop2 (x, y) v d r f.
Proof.
  intros (Hs & Hr & Hf). destruct (pop2_has _ _ _ _ Hs) as (s1 & E1 & HA & HB & _).
  exists (set_s s1 v). split; [apply s_pop2_eq; exact E1|]. split; [|apply drf_s; assumption].
  unfold stacks_are. rewrite cur_set_s. auto.
Qed.
Lemma op_spop3 v x y z d r f : stacks_are v (z :: y :: x :: d) r f -> opstep s_pop3 (x, y, z) v d r f.
Proof.
  intros (Hs & Hr & Hf). destruct (pop3_has _ _ _ _ _ Hs) as (s1 & E1 & HA & HB & _).
  exists (set_s s1 v). split; [apply s_pop3_eq; exact E1|]. split; [|apply drf_s; assumption].
  unfold stacks_are. rewrite cur_set_s. auto.
Qed.
Lemma op_rpop v x d r f : stacks_are v d (x :: r) f -> opstep r_pop x v d r f.
Proof.
  intros (Hs & Hr & Hf). destruct (pop1_has _ _ _ Hr) as (s1 & E1 & HA & HB & _).
  exists (set_r s1 v). split; [unfold r_pop, r_stk; rewrite E1; reflexivity|]. split; [|apply drf_r; assumption].
  unfold stacks_are. rewrite cur_set_r. auto.
Qed.
Lemma op_rpop2 v x y d r f : stacks_are v d (y :: x :: r) f -> opstep r_pop2 (x, y) v d r f.
Proof.
  intros (Hs & Hr & Hf). destruct (pop2_has _ _ _ _ Hr) as (s1 & E1 & HA & HB & _).
  exists (set_r s1 v). split; [unfold r_pop2, r_stk; rewrite E1; reflexivity|]. split; [|apply drf_r; assumption].
  unfold stacks_are. rewrite cur_set_r. auto.
Qed.
Lemma op_rpop3 v x y z d r f : stacks_are v d (z :: y :: x :: r) f -> opstep r_pop3 (x, y, z) v d r f.
Proof.
  intros (Hs & Hr & Hf). destruct (pop3_has _ _ _ _ _ Hr) as (s1 & E1 & HA & HB & _).
  exists (set_r s1 v). split; [unfold r_pop3, r_stk; rewrite E1; reflexivity|]. split; [|apply drf_r; assumption].
  unfold stacks_are. rewrite cur_set_r. auto.
Qed.
Lemma op_fpop v x d r f : stacks_are v d r (x :: f) -> opstep f_pop x v d r f.
Proof.
  intros (Hs & Hr & Hf). destruct (pop1_has _ _ _ Hf) as (s1 & E1 & HA & HB & _).
  exists (set_f s1 v). split; [unfold f_pop, f_stk; rewrite E1; reflexivity|]. split; [|apply drf_f; assumption].
  unfold stacks_are. rewrite cur_set_f. auto.
Qed.
Lemma op_fpop2 v x y d r f : stacks_are v d r (y :: x :: f) -> opstep f_pop2 (x, y) v d r f.
Proof.
  intros (Hs & Hr & Hf). destruct (pop2_has _ _ _ _ Hf) as (s1 & E1 & HA & HB & _).
  exists (set_f s1 v). split; [unfold f_pop2, f_stk; rewrite E1; reflexivity|]. split; [|apply drf_f; assumption].
  unfold stacks_are. rewrite cur_set_f. auto.
Qed.
Lemma op_fpop3 v x y z d r f : stacks_are v d r (z :: y :: x :: f) -> opstep f_pop3 (x, y, z) v d r f.
Proof.
  intros (Hs & Hr & Hf). destruct (pop3_has _ _ _ _ _ Hf) as (s1 & E1 & HA & HB & _).
  exists (set_f s1 v). split; [unfold f_pop3, f_stk; rewrite E1; reflexivity|]. split; [|apply drf_f; assumption].
  unfold stacks_are. rewrite cur_set_f. auto.
Qed.
Lemma op_spush v x d r f : stacks_are v d r f -> zlen d < 255 -> opstep (s_push x) tt v (x :: d) r f.
Proof.
  intros (Hs & Hr & Hf) HL. destruct (push1_has _ x _ Hs HL) as (HA & HB & _).
  eexists. split; [reflexivity|]. split; [|apply drf_s; assumption].
  unfold stacks_are. rewrite cur_set_s. auto.
Qed.
Lemma op_spush2 v x y d r f : stacks_are v d r f -> zlen d < 254 -> opstep (s_push2 x y) tt v (y :: x :: d) r f.
Proof.
  intros (Hs & Hr & Hf) HL. destruct (push2_has _ x y _ Hs HL) as (HA & HB & _).
  eexists. split; [reflexivity|]. split; [|apply drf_s; assumption].
  unfold stacks_are. rewrite cur_set_s. auto.
Qed.
Lemma op_rpush v x d r f : stacks_are v d r f -> zlen r < 255 -> opstep (r_push x) tt v d (x :: r) f.
Proof.
  intros (Hs & Hr & Hf) HL. destruct (push1_has _ x _ Hr HL) as (HA & HB & _).
  eexists. split; [reflexivity|]. split; [|apply drf_r; assumption].
  unfold stacks_are. rewrite cur_set_r. auto.
Qed.
Lemma op_rpush2 v x y d r f : stacks_are v d r f -> zlen r < 254 -> opstep (r_push2 x y) tt v d (y :: x :: r) f.
Proof.
  intros (Hs & Hr & Hf) HL. destruct (push2_has _ x y _ Hr HL) as (HA & HB & _).
  eexists. split; [reflexivity|]. split; [|apply drf_r; assumption].
  unfold stacks_are. rewrite cur_set_r. auto.
Qed.
Lemma op_fpush v x d r f : stacks_are v d r f -> zlen f < 255 -> opstep (f_push x) tt v d r (x :: f).
Proof.
  intros (Hs & Hr & Hf) HL. destruct (push1_has _ x _ Hf HL) as (HA & HB & _).
  eexists. split; [reflexivity|]. split; [|apply drf_f; assumption].
  unfold stacks_are. rewrite cur_set_f. auto.
Qed.
Lemma op_fpush2 v x y d r f : stacks_are v d r f -> zlen f < 254 -> opstep (f_push2 x y) tt v d r (y :: x :: f).
Proof.
  intros (Hs & Hr & Hf) HL. destruct (push2_has _ x y _ Hf HL) as (HA & HB & _).
  eexists. split; [reflexivity|]. split; [|apply drf_f; assumption].
  unfold stacks_are. rewrite cur_set_f. auto.
Qed.
Lemma op_fpush3 v x y z d r f : stacks_are v d r f -> zlen f < 253 -> opstep (f_push3 x y z) tt v d r (z :: y :: x :: f).
Proof.
  intros (Hs & Hr & Hf) HL. destruct (push3_has _ x y z _ Hf HL) as (HA & HB & _).
  eexists. split; [reflexivity|]. split; [|apply drf_f; assumption].
  unfold stacks_are. rewrite cur_set_f. auto.
Qed.
Lemma op_ret {A} (a : A) v d r f : stacks_are v d r f -> opstep (ret a) a v d r f.
Proof. intro H. exists v. split; [reflexivity|]. split; [assumption|apply only_stacks_refl]. Qed.

Lemma op_bind {A B} (m : M A) (k : A -> M B) v a b d1 r1 f1 d2 r2 f2 d r f :
  stacks_are v d r f ->
  zlen d1 <= Z.max (zlen d) (zlen d2) -> zlen r1 <= Z.max (zlen r) (zlen r2) -> zlen f1 <= Z.max (zlen f) (zlen f2) ->
  opstep m a v d1 r1 f1 ->
  (forall v1, stacks_are v1 d1 r1 f1 -> v_ds v1 = v_ds v -> opstep (k a) b v1 d2 r2 f2) ->
  opstep (bind m k) b v d2 r2 f2.
Proof.
  intros H0 L1 L2 L3 (v1 & Em & H1 & F1) K. destruct (K v1 H1 ltac:(apply F1)) as (v2 & Ek & H2 & F2).
  exists v2. split; [rewrite (bind_Ok _ _ _ _ _ Em); exact Ek|]. split; [exact H2|].
  apply (only_stacks_trans v v1 v2); [|assumption|assumption].
  destruct H0 as (A1 & A2 & A3), H1 as (B1 & B2 & B3), H2 as (C1 & C2 & C3).
  unfold between. rewrite (stack_has_len _ _ A1), (stack_has_len _ _ A2), (stack_has_len _ _ A3),
    (stack_has_len _ _ B1), (stack_has_len _ _ B2), (stack_has_len _ _ B3),
    (stack_has_len _ _ C1), (stack_has_len _ _ C2), (stack_has_len _ _ C3). auto.
Qed.
(** a read-only step *)
Lemma op_read {A B} (m : M A) (k : A -> M B) v a b d r f :
  m v = Ok (a, v) -> opstep (k a) b v d r f -> opstep (bind m k) b v d r f.
Proof. intros Em (v2 & Ek & H). exists v2. split; [rewrite (bind_Ok _ _ _ _ _ Em); exact Ek|exact H]. Qed.
End F.

Ltac lens := rewrite ?zlen_cons, ?zlen_nil in *;
  repeat match goal with l : list Z |- _ => lazymatch goal with H : 0 <= zlen l |- _ => fail | _ => pose proof (zlen_nonneg l) end end;
  try lia.
Ltac op1 := lazymatch goal with
  | |- opstep s_pop _ _ _ _ _ => eapply op_spop
  | |- opstep s_pop2 _ _ _ _ _ => eapply op_spop2
  | |- opstep s_pop3 _ _ _ _ _ => eapply op_spop3
  | |- opstep r_pop _ _ _ _ _ => eapply op_rpop
  | |- opstep r_pop2 _ _ _ _ _ => eapply op_rpop2
  | |- opstep r_pop3 _ _ _ _ _ => eapply op_rpop3
  | |- opstep f_pop _ _ _ _ _ => eapply op_fpop
  | |- opstep f_pop2 _ _ _ _ _ => eapply op_fpop2
  | |- opstep f_pop3 _ _ _ _ _ => eapply op_fpop3
  | |- opstep (ret _) _ _ _ _ _ => eapply op_ret
  | |- opstep (s_push _) _ _ _ _ _ => eapply op_spush
  | |- opstep (s_push2 _ _) _ _ _ _ _ => eapply op_spush2
  | |- opstep (r_push _) _ _ _ _ _ => eapply op_rpush
  | |- opstep (r_push2 _ _) _ _ _ _ _ => eapply op_rpush2
  | |- opstep (f_push _) _ _ _ _ _ => eapply op_fpush
  | |- opstep (f_push2 _ _) _ _ _ _ _ => eapply op_fpush2
  | |- opstep (f_push3 _ _ _) _ _ _ _ _ => eapply op_fpush3
  end; [eassumption|..]; try solve [lens].
Ltac opb := eapply op_bind; [eassumption| | | |op1|]; [solve [lens]..|]; intros ? ? ?; cbv beta iota.

Section G.
Context {E : Env}.

Lemma stacks_are_bound v d r f : stacks_are v d r f -> zlen d <= 255 /\ zlen r <= 255 /\ zlen f <= 255.
Proof. intros (A & B & C). destruct A as (_ & A & _), B as (_ & B & _), C as (_ & C & _). auto. Qed.

Ltac weff := intros fuel ew v dr rr fr H; pose proof (stacks_are_bound _ _ _ _ H) as HB; cbn [app] in *; intros Hd Hr Hf; cbn [exec_prim].

Lemma fdup_eff a : word_effect P_fdup [] [] [a] [] [] [a; a].
Proof. weff. unfold fdup. opb. op1. Qed.
Lemma fdrop_eff a : word_effect P_fdrop [] [] [a] [] [] [].
Proof. weff. unfold fdrop. opb. op1. Qed.
Lemma fswap_eff a c : word_effect P_fswap [] [] [c; a] [] [] [a; c].
Proof. weff. unfold fswap. opb. opb. op1. Qed.
Lemma fnip_eff a c : word_effect P_fnip [] [] [c; a] [] [] [c].
Proof. weff. unfold fnip. opb. opb. op1. Qed.
Lemma fover_eff a c : word_effect P_fover [] [] [c; a] [] [] [a; c; a].
Proof. weff. unfold fover. opb. opb. op1. Qed.
Lemma frot_eff a c d : word_effect P_frot [] [] [d; c; a] [] [] [a; d; c].
Proof. weff. unfold frot. opb. opb. opb. op1. Qed.
Lemma fpick_eff n x l : nth_error l n = Some x -> word_effect P_fpick [Z.of_nat n] [] l [] [] (x :: l).
Proof.
  intro Hn. weff. unfold fpick. opb. pose proof (nth_error_Some l n) as HN. rewrite Hn in HN.
  assert (Hlt : (n < List.length l)%nat) by (apply HN; discriminate).
  assert (HL : zlen l + zlen fr <= 255). { rewrite zlen_app in HB. lia. }
  assert (Hz : zlen l = Z.of_nat (List.length l)) by reflexivity. pose proof (zlen_nonneg fr).
  eapply op_read.
  - unfold gets. reflexivity.
  - replace (sget _ _) with x; [op1|].
    destruct H0 as (_ & _ & HF). pose proof (stack_has_len _ _ HF) as HLf. rewrite zlen_app in HLf.
    unfold to_u8, f_stk. rewrite (Z.mod_small (Z.of_nat n)) by lia.
    unfold w8add, w8sub. rewrite (Z.mod_small (Z.of_nat n + 1)) by lia. rewrite Z.mod_small by lia.
    destruct HF as (_ & _ & HG). symmetry.
    specialize (HG n x). rewrite nth_error_app1 in HG by lia. specialize (HG Hn). rewrite <- HG. f_equal. lia.
Qed.


Lemma drf_s_r v s r : high_slots_kept (t_s (cur v)) s -> high_slots_kept (t_r (cur v)) r ->
  only_stacks v (set_s s (set_r r v)) /\ only_stacks v (set_r r (set_s s v)).
Proof.
  intros. vnorm. unfold only_stacks. rewrite !cur_upd. cbn [t_s t_r t_f set_t_s set_t_r set_t_f].
  split; (split; [apply same_globals_upd|]; split; [reflexivity|]; split; [apply same_other_upd|];
  split; [repeat split; reflexivity|]; split; [assumption|]; split; [assumption|apply high_refl]).
Qed.

Lemma to_r_eff a : word_effect P_p_to_r [a] [] [] [] [a] [].
Proof.
  weff. unfold p_to_r, modify. destruct H as (A & B & C). cbv zeta.
  destruct (pop1_has _ _ _ A) as (s1 & E1 & H1 & H2 & _).
  destruct (push1_has _ a _ B ltac:(lens)) as (H3 & H4 & _).
  unfold pop in E1. inversion E1. unfold s_stk, r_stk. rewrite H0.
  eexists; split; [reflexivity|]. rewrite H5.
  split; [unfold stacks_are; rewrite cur_set_s, cur_set_r; auto|].
  apply drf_s_r; assumption.
Qed.
Lemma r_from_eff a : word_effect P_r_from [] [a] [] [a] [] [].
Proof.
  weff. unfold r_from, modify. destruct H as (A & B & C). cbv zeta.
  destruct (pop1_has _ _ _ B) as (s1 & E1 & H1 & H2 & _).
  destruct (push1_has _ a _ A ltac:(lens)) as (H3 & H4 & _).
  unfold pop in E1. inversion E1. unfold s_stk, r_stk. rewrite H0.
  eexists; split; [reflexivity|]. rewrite H5.
  split; [unfold stacks_are; rewrite cur_set_r, cur_set_s; auto|].
  apply drf_s_r; assumption.
Qed.
Lemma r_fetch_eff a : word_effect P_r_fetch [] [a] [] [a] [a] [].
Proof.
  weff. unfold r_fetch, modify. destruct H as (A & B & C). cbv zeta.
  destruct (pop1_has _ _ _ B) as (s1 & E1 & H1 & H2 & _).
  destruct (push1_has _ a _ A ltac:(lens)) as (H3 & H4 & _).
  unfold pop in E1. inversion E1. unfold s_stk, r_stk. rewrite H0.
  eexists; split; [reflexivity|].
  split; [unfold stacks_are; rewrite cur_set_s; auto|].
  apply drf_s; assumption.
Qed.
Lemma two_to_r_eff a c : word_effect P_two_to_r [c; a] [] [] [] [c; a] [].
Proof.
  weff. unfold two_to_r, modify. destruct H as (A & B & C). cbv zeta.
  destruct (pop2_has _ _ _ _ A) as (s1 & E1 & H1 & H2 & _).
  destruct (push2_has _ a c _ B ltac:(lens)) as (H3 & H4 & _).
  unfold pop2 in E1. inversion E1. unfold s_stk, r_stk. rewrite H0, H5.
  eexists; split; [reflexivity|]. rewrite H6.
  split; [unfold stacks_are; rewrite cur_set_s, cur_set_r; auto|].
  apply drf_s_r; assumption.
Qed.
Lemma two_r_from_eff a c : word_effect P_two_r_from [] [c; a] [] [c; a] [] [].
Proof.
  weff. unfold two_r_from, modify. destruct H as (A & B & C). cbv zeta.
  destruct (pop2_has _ _ _ _ B) as (s1 & E1 & H1 & H2 & _).
  destruct (push2_has _ a c _ A ltac:(lens)) as (H3 & H4 & _).
  unfold pop2 in E1. inversion E1. unfold s_stk, r_stk. rewrite H0, H5.
  eexists; split; [reflexivity|]. rewrite H6.
  split; [unfold stacks_are; rewrite cur_set_r, cur_set_s; auto|].
  apply drf_s_r; assumption.
Qed.
Lemma two_r_fetch_eff a c : word_effect P_two_r_fetch [] [c; a] [] [c; a] [c; a] [].
Proof.
  weff. unfold two_r_fetch, modify. destruct H as (A & B & C). cbv zeta.
  destruct (pop2_has _ _ _ _ B) as (s1 & E1 & H1 & H2 & _).
  destruct (push2_has _ a c _ A ltac:(lens)) as (H3 & H4 & _).
  unfold pop2 in E1. inversion E1. unfold s_stk, r_stk. rewrite H0, H5.
  eexists; split; [reflexivity|].
  split; [unfold stacks_are; rewrite cur_set_s; auto|].
  apply drf_s; assumption.
Qed.


(** ** Float memory *)
Lemma least8 a t : least_multiple 8 a t -> t = align8 a.
Proof.
  intros (H1 & (m & H2) & H3). pose proof (align8_range a). destruct (align8_mult a) as [k Hk].
  pose proof (H3 k). lia.
Qed.
Lemma osm_of v v1 d : only_stacks v v1 -> ds_inner d = ds_inner (v_ds v) -> ds_cap d = ds_cap (v_ds v) ->
  only_stacks_memory v (set_v_ds d v1).
Proof.
  intros (G & D & O & R & HS & HR & HF) H1 H2.
  split; [exact G|]. split; [exact O|]. split; [exact R|]. auto.
Qed.

Lemma fstore_ok fuel ew v xa a t x d r f :
  ds_ok (v_ds v) -> stacks_are v (xa :: d) r (x :: f) -> addr_of xa a -> a + 7 < 2 ^ 64 -> least_multiple 8 a t ->
  start (v_ds v) <= t -> t + 8 <= limit (v_ds v) ->
  exists v', exec_prim fuel ew P_fstore v = Ok (tt, v') /\ stacks_are v' d r f /\
    cell_at (v_ds v') t x /\ same_memory_but (v_ds v) (v_ds v') t 8 /\ here (v_ds v') = here (v_ds v) /\
    only_stacks_memory v v'.
Proof.
  intros Hds Hs Ha Hw Ht H1 H2. apply least8 in Ht. subst t. cbn [exec_prim]. unfold fstore.
  destruct (op_spop _ _ _ _ _ Hs) as (v1 & E1 & Hs1 & F1). rewrite (bind_Ok _ _ _ _ _ E1).
  rewrite (addr_of_to_u64 _ _ Ha). destruct Ha as [Ha _].
  rewrite (bind_Ok _ _ _ _ _ (lift_eq _ _ v1 (aligned8_ok chk a ltac:(lia) Hw))).
  destruct (op_fpop _ _ _ _ _ Hs1) as (v2 & E2 & Hs2 & F2). rewrite (bind_Ok _ _ _ _ _ E2).
  assert (HD : v_ds v2 = v_ds v) by (destruct F1 as (_ & D1 & _), F2 as (_ & D2 & _); congruence).
  unfold f_addr_ok. rewrite bind_bind, bind_gets, bind_ret, HD.
  replace ((start (v_ds v) <=? align8 a) && (align8 a <? limit (v_ds v))) with true by lia.
  destruct (put_cell_ok (v_ds v) x (align8 a)) as (d' & Hp & Hc & Hm & Hhe & Hi & Hcap & Hlen).
  { apply in_ds_true. lia. }
  rewrite <- HD in Hp. rewrite (ds_upd_eq _ d' v2 Hp).
  eexists; split; [reflexivity|]. split; [exact Hs2|].
  split; [exact Hc|]. split; [exact Hm|]. split; [exact Hhe|].
  apply osm_of; [|assumption|assumption]. apply (only_stacks_trans v v1 v2); [|assumption|assumption].
  destruct Hs as (A1 & A2 & A3), Hs1 as (B1 & B2 & B3), Hs2 as (C1 & C2 & C3).
  unfold between. rewrite (stack_has_len _ _ A1), (stack_has_len _ _ A2), (stack_has_len _ _ A3),
    (stack_has_len _ _ B1), (stack_has_len _ _ B2), (stack_has_len _ _ B3). rewrite !zlen_cons. lia.
Qed.

Lemma ffetch_ok fuel ew v xa a t x d r f :
  stacks_are v (xa :: d) r f -> addr_of xa a -> a + 7 < 2 ^ 64 -> least_multiple 8 a t ->
  start (v_ds v) <= t -> t + 8 <= limit (v_ds v) -> cell_at (v_ds v) t x -> 0 <= x < 2 ^ 64 -> zlen f < 255 ->
  exists v', exec_prim fuel ew P_ffetch v = Ok (tt, v') /\ stacks_are v' d r (x :: f) /\ only_stacks v v'.
Proof.
  intros Hs Ha Hw Ht H1 H2 Hc Hx Hf. apply least8 in Ht. subst t. cbn [exec_prim]. unfold ffetch.
  assert (HH : opstep (ffetch ew) tt v d r (x :: f)); [|exact HH].
  unfold ffetch. opb. rewrite (addr_of_to_u64 _ _ Ha). destruct Ha as [Ha _].
  eapply op_read; [apply lift_eq, aligned8_ok; [lia|exact Hw]|].
  eapply op_read; [reflexivity|]. rewrite H0.
  replace ((start (v_ds v) <=? align8 a) && (align8 a <? limit (v_ds v))) with true by lia.
  eapply op_read; [apply ds_get_eq; rewrite H0; apply get_usize_ok; [apply in_ds_true; lia|exact Hc|exact Hx]|].
  op1.
Qed.

Lemma f_bad p fuel ew v xa a t x d r f :
  In p [P_fstore; P_ffetch] -> stacks_are v (xa :: d) r (x :: f) -> addr_of xa a -> a + 7 < 2 ^ 64 -> least_multiple 8 a t ->
  (t < start (v_ds v) \/ limit (v_ds v) <= t) ->
  exists v1, exec_prim fuel ew p v = abort_with ew INVALID_MEMORY_ADDRESS v1 /\ v_ds v1 = v_ds v.
Proof.
  intros Hp Hs Ha Hw Ht H1. apply least8 in Ht. subst t.
  destruct (op_spop _ _ _ _ _ Hs) as (v1 & E1 & Hs1 & F1).
  destruct (op_fpop _ _ _ _ _ Hs1) as (v2 & E2 & Hs2 & F2).
  assert (HD1 : v_ds v1 = v_ds v) by (destruct F1 as (_ & D1 & _); congruence).
  assert (HD : v_ds v2 = v_ds v) by (destruct F1 as (_ & D1 & _), F2 as (_ & D2 & _); congruence).
  assert (HA : addr_of xa a) by exact Ha. destruct Ha as [Ha _].
  assert (Hb : (start (v_ds v) <=? align8 a) && (align8 a <? limit (v_ds v)) = false) by lia.
  destruct Hp as [<-|[<-|[]]]; cbn [exec_prim].
  - unfold fstore. rewrite (bind_Ok _ _ _ _ _ E1), (addr_of_to_u64 _ _ HA).
    rewrite (bind_Ok _ _ _ _ _ (lift_eq _ _ v1 (aligned8_ok chk a ltac:(lia) Hw))), (bind_Ok _ _ _ _ _ E2).
    unfold f_addr_ok. rewrite bind_bind, bind_gets, bind_ret, HD, Hb. eauto.
  - unfold ffetch. rewrite (bind_Ok _ _ _ _ _ E1), (addr_of_to_u64 _ _ HA).
    rewrite (bind_Ok _ _ _ _ _ (lift_eq _ _ v1 (aligned8_ok chk a ltac:(lia) Hw))).
    unfold f_addr_ok. rewrite bind_bind, bind_gets, bind_ret, HD1, Hb. eauto.
Qed.
End G.
