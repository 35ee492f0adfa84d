(** Code made of harmless words runs without a crash (C40). *)
From Coq Require Import ZArith List Bool Lia ZifyBool ZifyNat.
From Verif Require Import Base Stack Mem Parser Flt State CoreM IoM FloatM FileM Exec.
From Verif Require Import LBase LStack Spec Spec4 Spec5 Spec10 Spec11 Spec23 LState LMem LMon LStep LTask LCode LCtl LTame.
Import ListNotations.
Open Scope Z_scope.
Open Scope m_scope.

Section T.
Context {E : Env}.
Implicit Types (v u : vm).

(** ** Instructions *)
Notation K := (fun _ : Z => True).
Section Ins.
Variables (v : vm) (H : Z -> Prop).

(** the instruction at [q] is fine, and what follows it is in [S] *)
Inductive ins (S : Z -> Prop) (q : Z) : Prop :=
| I_op i : code_cell K v q i -> 0 <= i < 2 ^ 63 -> H i -> S (q + 8) -> ins S q
| I_exit i : code_cell K v q i -> 0 <= i < 2 ^ 63 -> word_is v i P_exit -> ins S q
| I_num n : code_word K v q P_lit -> code_cell K v (q + 8) n -> is_cell n -> S (q + 16) -> ins S q
| I_flo x : code_word K v q P_flit -> code_cell K v (round8 (q + 8)) x -> 0 <= x < 2 ^ 64 -> S (round8 (q + 8) + 8) -> ins S q
| I_str s : code_word K v q P_p_s_quote -> code_cell K v (q + 8) (zlen s) -> code_text K v (q + 16) s -> S (round8 (q + 16 + zlen s)) -> ins S q
| I_zbranch t : code_word K v q P_zero_branch -> code_cell K v (q + 8) t -> S t -> S (q + 16) -> ins S q
| I_branch t : code_word K v q P_branch -> code_cell K v (q + 8) t -> S t -> ins S q.

(** the places where instructions of [p] begin *)
Fixpoint pos (p : prog) (a q : Z) : Prop :=
  match p with
  | Skip => False
  | Seq p1 p2 => pos p1 a q \/ pos p2 (fin p1 a) q
  | Op _ | Num _ | Flo _ | Str _ => q = a
  | IfThen p => q = a \/ pos p (a + 16) q
  | IfElse p1 p2 => let m := fin p1 (a + 16) in q = a \/ pos p1 (a + 16) q \/ q = m \/ pos p2 (m + 16) q
  | Until p => pos p a q \/ q = fin p a
  | While p1 p2 => let m := fin p1 a in pos p1 a q \/ q = m \/ pos p2 (m + 16) q \/ q = fin p2 (m + 16)
  | Again p => pos p a q \/ q = fin p a
  | Do _ _ _ => False
  end.

Lemma pos_entry p : made_of H v p -> forall a (S : Z -> Prop), (forall q, pos p a q -> S q) -> S (fin p a) -> S a.
Proof.
  induction p as [|p IHp q IHq|i|n|x|s|p IHp|p IHp q IHq|p IHp|p IHp q IHq|p IHp|k k' p IHp]; cbn [made_of pos fin]; intros M a S HS HF; try exact HF; try (apply HS; auto; fail).
  - destruct M as (M1 & M2). apply IHp; [exact M1|intros; apply HS; auto|]. apply IHq; [exact M2|intros; apply HS; auto|exact HF].
  - apply IHp; [exact M|intros; apply HS; auto|apply HS; auto].
  - destruct M as (M1 & M2). apply IHp; [exact M1|intros; apply HS; auto|apply HS; auto].
  - apply IHp; [exact M|intros; apply HS; auto|apply HS; auto].
Qed.
Lemma pos_ins p : made_of H v p -> forall a (S : Z -> Prop), laid K v p a -> (forall q, pos p a q -> S q) -> S (fin p a) -> forall q, pos p a q -> ins S q.
Proof.
  induction p as [|p IHp q IHq|i|n|x|s|p IHp|p IHp q IHq|p IHp|p IHp q IHq|p IHp|k k' p IHp]; cbn [made_of pos fin laid]; cbv zeta; intros M a S L HS HF z HZ.
  - destruct HZ.
  - destruct M as (M1 & M2), L as (L1 & L2).
    assert (HM : S (fin p a)) by (apply (pos_entry q M2); [intros; apply HS; auto|exact HF]).
    destruct HZ as [HZ|HZ]; [apply (IHp M1 a S L1); auto|apply (IHq M2 (fin p a) S L2); auto].
  - subst z. destruct L as (L1 & L2), M as [M|M]; [eapply I_op; eassumption|eapply I_exit; eassumption].
  - subst z. destruct L as (L1 & L2 & L3). eapply I_num; eassumption.
  - subst z. destruct L as (L1 & L2 & L3). eapply I_flo; eassumption.
  - subst z. destruct L as (L1 & L2 & L3 & L4). eapply I_str; eassumption.
  - destruct L as (L1 & L2 & L3). destruct HZ as [ ->|HZ]; [|apply (IHp M (a + 16) S L3); auto].
    eapply I_zbranch; [exact L1|exact L2|exact HF|]. apply (pos_entry p M); auto.
  - destruct M as (M1 & M2), L as (L1 & L2 & L3 & L4 & L5 & L6).
    assert (HQ : S (fin p (a + 16) + 16)) by (apply (pos_entry q M2); [intros; apply HS; auto|exact HF]).
    destruct HZ as [ ->|[HZ|[ ->|HZ]]].
    + eapply I_zbranch; [exact L1|exact L2|exact HQ|]. apply (pos_entry p M1); [intros; apply HS; auto|apply HS; auto].
    + apply (IHp M1 (a + 16) S L3); auto.
    + eapply I_branch; [exact L4|exact L5|exact HF].
    + apply (IHq M2 _ S L6); auto.
  - destruct L as (L1 & L2 & L3). destruct HZ as [HZ| ->]; [apply (IHp M a S L1); auto|].
    eapply I_zbranch; [exact L2|exact L3| |exact HF]. apply (pos_entry p M); auto.
  - destruct M as (M1 & M2), L as (L1 & L2 & L3 & L4 & L5 & L6).
    assert (HQ : S (fin p a + 16)) by (apply (pos_entry q M2); [intros; apply HS; auto|apply HS; auto]).
    assert (HA : S a) by (apply (pos_entry p M1); [intros; apply HS; auto|apply HS; auto]).
    destruct HZ as [HZ|[ ->|[HZ| ->]]].
    + apply (IHp M1 a S L1); auto.
    + eapply I_zbranch; [exact L2|exact L3|exact HF|exact HQ].
    + apply (IHq M2 _ S L4); auto.
    + eapply I_branch; [exact L5|exact L6|exact HA].
  - destruct L as (L1 & L2 & L3). destruct HZ as [HZ| ->]; [apply (IHp M a S L1); auto|].
    eapply I_branch; [exact L2|exact L3|]. apply (pos_entry p M); auto.
  - destruct M.
Qed.

(** all the code of the words of [H] *)
Definition code (q : Z) : Prop := exists i p x, H i /\ word_is v i P_nest /\ word_is v x P_exit /\ made_of H v p /\
  laid K v (Seq p (Op x)) (w_dfa (word_of v i)) /\ pos (Seq p (Op x)) (w_dfa (word_of v i)) q.
Lemma code_ins q : code q -> ins code q.
Proof.
  intros (i & p & x & HI & W & X & M & L & HQ). cbn [pos] in HQ. cbn [laid] in L. destruct L as (L1 & L2).
  destruct HQ as [HQ| ->]; [|eapply I_exit; [apply L2|apply L2|exact X]].
  eapply pos_ins; [exact M|exact L1| | |exact HQ].
  - intros z Hz. exists i, p, x. cbn [pos laid]. auto 10.
  - exists i, p, x. cbn [pos laid]. auto 10.
Qed.
Lemma code_entry i : H i -> word_is v i P_nest -> (exists p x, word_is v x P_exit /\ made_of H v p /\ laid K v (Seq p (Op x)) (w_dfa (word_of v i))) ->
  code (w_dfa (word_of v i)).
Proof.
  intros HI W (p & x & X & M & L). apply (pos_entry p M).
  - intros z Hz. exists i, p, x. cbn [pos]. auto 10.
  - exists i, p, x. cbn [pos]. auto 10.
Qed.
Lemma code_range q : addressable v -> code q -> 0 < q /\ q + 8 < 2 ^ 63.
Proof.
  intros HA HC. destruct (code_ins q HC) as [i C|i C|n (i & C & _)|n (i & C & _)|n (i & C & _)|n (i & C & _)|n (i & C & _)]; eapply LCode.code_range; eassumption.
Qed.
End Ins.
End T.
