(** More fuel never changes an answer. *)
From Coq Require Import ZArith List Bool Lia ZifyBool ZifyNat.
From Verif Require Import Base Stack Mem Parser Flt State CoreM IoM FloatM FileM Exec Boot.
From Verif Require Import LBase LMon.
Import ListNotations.
Open Scope Z_scope.
Open Scope m_scope.

Section F.
Context {E : Env}.
Implicit Types (v : vm).

(** [m'] gives every answer [m] gives *)
Definition mle {A} (m m' : M A) : Prop := forall v, m v <> OutOfFuel -> m' v = m v.
Lemma mle_refl {A} (m : M A) : mle m m. Proof. intros v _. reflexivity. Qed.
Lemma mle_bind {A B} (m m' : M A) (k k' : A -> M B) :
  mle m m' -> (forall a, mle (k a) (k' a)) -> mle (bind m k) (bind m' k').
Proof.
  intros H K v Hn. unfold bind in *. destruct (m v) as [[a v1]|p| |] eqn:Em.
  - rewrite (H v) by congruence. rewrite Em. apply K. exact Hn.
  - rewrite (H v) by congruence. rewrite Em. reflexivity.
  - rewrite (H v) by congruence. rewrite Em. reflexivity.
  - congruence.
Qed.
Lemma mle_oof {A} (m : M A) : mle out_of_fuel m. Proof. intros v H. exfalso. apply H. reflexivity. Qed.
Lemma mle_trans {A} (m1 m2 m3 : M A) : mle m1 m2 -> mle m2 m3 -> mle m1 m3.
Proof. intros H1 H2 v H. rewrite <- (H1 v H). apply H2. rewrite (H1 v H). exact H. Qed.

Lemma find_mono : forall f f' h n i, (f <= f')%nat -> mle (find_loop f h n i) (find_loop f' h n i).
Proof.
  induction f as [|f IH]; intros f' h n i Hf; [apply mle_oof|]. destruct f' as [|f']; [lia|]. cbn [find_loop].
  destruct (i =? 0); [apply mle_refl|]. apply mle_bind; [apply mle_refl|intro w].
  destruct (negb (w_hidden w) && (w_hash w =? h)).
  - apply mle_bind; [apply mle_refl|intro a]. destruct (a : bool); [apply mle_refl|apply IH; lia].
  - apply mle_bind; [apply mle_refl|intro a]. destruct (a : bool); [apply mle_refl|apply IH; lia].
Qed.
Lemma find_mle f f' n : (f <= f')%nat -> mle (find f n) (find f' n).
Proof. intro H. unfold find. cbv zeta. apply mle_bind; [apply mle_refl|intro]. apply find_mono. exact H. Qed.
Lemma pause_mle : forall f f' i, (f <= f')%nat -> mle (pause_loop f i) (pause_loop f' i).
Proof.
  induction f as [|f IH]; intros f' i Hf; [apply mle_oof|]. destruct f' as [|f']; [lia|]. cbn [pause_loop].
  apply mle_bind; [apply mle_refl|intros []]; [apply mle_refl|apply IH; lia].
Qed.
Lemma resolve_mle : forall f f' h p, (f <= f')%nat -> mle (resolve_loop f h p) (resolve_loop f' h p).
Proof.
  induction f as [|f IH]; intros f' h p Hf; [apply mle_oof|]. destruct f' as [|f']; [lia|]. cbn [resolve_loop].
  apply mle_bind; [apply mle_refl|intro l]. apply mle_bind; [apply mle_refl|intros _].
  destruct (l =? 0); [apply mle_refl|apply IH; lia].
Qed.

Section P.
Variables (f f' : nat) (ew ew' : Z -> M unit).
Hypothesis Hf : (f <= f')%nat.
Hypothesis He : forall i, mle (ew i) (ew' i).

Lemma abort_mle e : mle (abort_with ew e) (abort_with ew' e).
Proof. unfold abort_with. do 4 (apply mle_bind; [apply mle_refl|intro]). apply He. Qed.
Lemma endcase_mle : forall n n', (n <= n')%nat -> mle (endcase_loop ew n) (endcase_loop ew' n').
Proof.
  induction n as [|n IH]; intros n' Hn; [apply mle_oof|]. destruct n' as [|n']; [lia|]. cbn [endcase_loop].
  apply mle_bind; [apply mle_refl|intros []]; try apply abort_mle.
  - apply mle_bind; [apply mle_refl|intros []]; [apply abort_mle|apply mle_refl].
  - apply mle_bind; [apply mle_refl|intros u]. apply mle_bind; [|intro; apply IH; lia].
    destruct (u : bool); [apply abort_mle|apply mle_refl].
Qed.

Ltac mm :=
  cbv beta zeta;
  lazymatch goal with
  | |- mle ?m ?m => apply mle_refl
  | |- mle (bind _ _) (bind _ _) => apply mle_bind; [mm | intro; mm]
  | |- mle (abort_with _ _) _ => apply abort_mle
  | |- mle (find _ _) _ => apply find_mle; exact Hf
  | |- mle (endcase_loop _ _) _ => apply endcase_mle; exact Hf
  | |- mle (resolve_loop _ _ _) _ => apply resolve_mle; exact Hf
  | |- mle (pause_loop _ _) _ => apply pause_mle; exact Hf
  | |- mle (ew _) _ => apply He
  | |- mle (match ?c with _ => _ end) _ => destruct c; mm
  | |- mle (fun _ => _) _ => idtac
  | |- mle ?m _ => let h := head_of m in unfold h; mm
  end
with head_of m := lazymatch m with ?f _ => head_of f | _ => m end.

Lemma prim_mle p : mle (exec_prim f ew p) (exec_prim f' ew' p).
Proof. destruct p; cbn [exec_prim]; mm. Qed.
End P.

Lemma execute_word_mle : forall f f' i, (f <= f')%nat -> mle (execute_word f i) (execute_word f' i).
Proof.
  induction f as [|f IH]; intros f' i Hf; [apply mle_oof|]. destruct f' as [|f']; [lia|]. cbn [execute_word].
  apply mle_bind; [apply mle_refl|intros _]. apply mle_bind; [apply mle_refl|intro n].
  destruct (i <? n).
  - apply mle_bind; [apply mle_refl|intro w]. apply prim_mle; [lia|]. intro. apply IH. lia.
  - apply abort_mle. intro. apply IH. lia.
Qed.
Lemma run_step_mle f f' : (f <= f')%nat -> mle (run_step f) (run_step f').
Proof.
  intro H. unfold run_step. do 3 (apply mle_bind; [apply mle_refl|intro]). apply execute_word_mle. exact H.
Qed.
Lemma run_mle : forall f f', (f <= f')%nat -> mle (run f) (run f').
Proof.
  induction f as [|f IH]; intros f' Hf; [apply mle_oof|]. destruct f' as [|f']; [lia|]. cbn [run].
  apply mle_bind; [apply mle_refl|intros []]; [|apply mle_refl].
  apply mle_bind; [apply run_step_mle; lia|intros _]. apply IH. lia.
Qed.
Lemma eval_round_mle f f' : (f <= f')%nat -> mle (eval_round f) (eval_round f').
Proof.
  intro H. unfold eval_round. apply mle_bind; [apply mle_refl|intros _]. apply mle_bind; [apply mle_refl|intro t].
  assert (He : forall i, mle (execute_word f i) (execute_word f' i)) by (intro; apply execute_word_mle; exact H).
  assert (G : mle
    (k <- is_compiling;; (if k then compile_token f (execute_word f) else interpret_token f (execute_word f));;;
     e <- gets v_err;; match e with Some _ => ret false | None => run f;;; check_stacks (execute_word f);;;
       e <- gets v_err;; ret (match e with Some _ => false | None => true end) end)
    (k <- is_compiling;; (if k then compile_token f' (execute_word f') else interpret_token f' (execute_word f'));;;
     e <- gets v_err;; match e with Some _ => ret false | None => run f';;; check_stacks (execute_word f');;;
       e <- gets v_err;; ret (match e with Some _ => false | None => true end) end)).
  { apply mle_bind; [apply mle_refl|intro k]. apply mle_bind.
    - destruct (k : bool).
      + apply (prim_mle f f' _ _ H He P_compile_token).
      + apply (prim_mle f f' _ _ H He P_interpret_token).
    - intros _. apply mle_bind; [apply mle_refl|intros [e|]]; [apply mle_refl|].
      apply mle_bind; [apply run_mle; exact H|intros _]. apply mle_bind; [|intros _; apply mle_refl].
      apply (prim_mle f f' _ _ H He P_check_stacks). }
  destruct t as [[|c t]|]; [apply mle_refl|exact G|exact G].
Qed.
Lemma evaluate_input_mle : forall f f', (f <= f')%nat -> mle (evaluate_input f) (evaluate_input f').
Proof.
  induction f as [|f IH]; intros f' Hf; [apply mle_oof|]. destruct f' as [|f']; [lia|]. cbn [evaluate_input].
  apply mle_bind; [apply eval_round_mle; lia|intros []]; [apply IH; lia|apply mle_refl].
Qed.
End F.
