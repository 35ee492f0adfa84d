(** The words of core.fth that are harmless (C40). *)
From Coq Require Import ZArith List Bool Lia String ZifyBool ZifyNat.
From Verif Require Import Base Stack Mem Parser Flt State CoreM IoM FloatM FileM Exec.
From Verif Require Import LBase LStack Spec Spec2 Spec4 Spec5 Spec7 Spec10 Spec11 Spec15 Spec23 LState LMem LMon LStep LTask LCode LCtl LDict LLib LTame LCrash.
Import ListNotations.
Open Scope list_scope.
Open Scope Z_scope.
Open Scope m_scope.

Section T.
Context {E : Env}.
Implicit Types (v u : vm).

Lemma laid_any (K : Z -> Prop) v p : forall a, laid K v p a -> laid (fun _ => True) v p a.
Proof.
  assert (C : forall a x, code_cell K v a x -> code_cell (fun _ => True) v a x) by (intros a x (A & B & D & _); repeat split; assumption).
  assert (W : forall a x, code_word K v a x -> code_word (fun _ => True) v a x) by (intros a x (i & A & B); exists i; split; [apply C; exact A|exact B]).
  assert (T : forall a x, code_text K v a x -> code_text (fun _ => True) v a x).
  { intros a x (A & B & D). split; [exact A|]. split; [exact B|]. intros k y Hk. split; [apply D; exact Hk|exact I]. }
  induction p; intros a L; cbn [laid] in *; cbv zeta in *; intuition auto.
Qed.

Section L.
Variables (ix : prim -> Z) (v : vm).
Hypothesis HI : installed ix v.
Notation H := (safe_word v).

Lemma plain_op p : In p lib_prims -> In p plain_words -> H (ix p).
Proof. intros A B. left. exists p. split; [exact B|]. apply (proj1 HI). exact A. Qed.

Lemma nest_ok K i p : colon_word K v i p (ix P_exit) -> made_of H v p ->
  word_is v i P_nest /\ exists p x, word_is v x P_exit /\ made_of H v p /\ laid (fun _ => True) v (Seq p (Op x)) (w_dfa (word_of v i)).
Proof.
  intros (W & X & _ & _ & L) M. split; [exact W|]. exists p, (ix P_exit). split; [exact X|]. split; [exact M|]. exact (laid_any K v _ _ L).
Qed.
Lemma core_nest name d i : In (name, d) core_words -> newest v (b name) (Some i) -> made_of H v (d ix) ->
  word_is v i P_nest /\ exists p x, word_is v x P_exit /\ made_of H v p /\ laid (fun _ => True) v (Seq p (Op x)) (w_dfa (word_of v i)).
Proof.
  intros A B M. destruct (proj1 (proj2 HI) name d A) as (j & N & C & _).
  assert (i = j) by (assert (K := newest_unique v _ _ _ B N); congruence). subst j. exact (nest_ok _ i _ C M).
Qed.
Ltac op := left; apply plain_op; [unfold lib_prims; cbn [In]; tauto|unfold plain_words; cbn [In]; tauto].
Lemma library_harmless : harmless v (safe_word v).
Proof.
  intros i [A|(n & A & B)]; [left; exact A|]. right. right. right.
  assert (SP : forall j, newest v (b "space") (Some j) -> H j) by (intros j Hj; right; exists "space"%string; split; [unfold safe_library; cbn [In]; tauto|exact Hj]).
  unfold safe_library in A. cbn [In] in A. repeat (destruct A as [A|A]; [subst n|]); [..|destruct A].
  all: try (eapply core_nest; [unfold core_words; cbn [In]|exact B|]; [
    first [left; reflexivity|right; left; reflexivity|do 2 right; left; reflexivity|do 3 right; left; reflexivity|do 4 right; left; reflexivity|do 5 right; left; reflexivity
      |do 9 right; left; reflexivity|do 10 right; left; reflexivity|do 11 right; left; reflexivity|do 13 right; left; reflexivity|do 15 right; left; reflexivity|do 18 right; left; reflexivity|do 19 right; left; reflexivity]
    |cbn [made_of block d_two_star d_two_slash d_le d_ge d_qdup d_tuck d_max d_min d_chars d_count d_bounds d_space d_cr]; unfold wd; cbn [made_of]; repeat match goal with |- _ /\ _ => split | |- True => exact I end; op]; fail).
  destruct HI as (_ & _ & (k & sp & N & NS & C) & _). assert (i = k) by (assert (K := newest_unique v _ _ _ B N); congruence). subst k.
  destruct (C (fun _ => True) ltac:(intros; exact I) ltac:(intros; exact I)) as (C1 & _).
  apply (nest_ok _ i _ C1). unfold d_spaces. cbn [made_of block]; unfold wd; cbn [made_of].
  assert (HS : H sp) by (apply SP; exact NS).
  repeat match goal with |- _ /\ _ => split | |- True => exact I end; try op. left. exact HS.
Qed.
End L.
End T.
