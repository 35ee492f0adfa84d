(** Case for C40: a line of harmless words on the freshly loaded system. *)
From Coq Require Import ZArith List Bool Lia String ZifyBool ZifyNat.
From Verif Require Import Base Stack Mem Parser Flt State CoreM IoM FloatM FileM Exec Boot Std.
From Verif Require Import Spec Spec4 Spec5 Spec10 Spec11 Spec15 Spec23 LBase LDec LDict LDict2 LCrash4 Ex6 Ex7 Ex10 Ex15.
Import ListNotations.
Open Scope list_scope.
Open Scope Z_scope.
Local Existing Instance env_d.

Lemma booted_rest : @at_rest env_d booted_d.
Proof.
  split; [exact booted_dict|]. split; [exists 10; exact (bt_base [])|]. split; [exact (bt_interp [])|].
  split; [vm_cast_no_check (@eq_refl Z 0)|].
  split.
  { assert (H : match v_tkn booted_d with Some _ => true | None => false end = true) by (vm_cast_no_check (@eq_refl bool true)).
    destruct (v_tkn booted_d); [discriminate|discriminate H]. }
  split; [apply word_isb_ok; vm_cast_no_check (@eq_refl bool true)|].
  assert (H : (st_sid (st booted_d) <=? 0) && match t_inbuf (cur booted_d) with Some _ => true | None => false end = true) by (vm_cast_no_check (@eq_refl bool true)).
  apply andb_true_iff in H as (H1 & H2). destruct (t_inbuf (cur booted_d)) as [buf|] eqn:EB; [|discriminate H2]. exists buf. left. split; [lia|exact EB].
Qed.
Lemma booted_harmless : @harmless env_d booted_d (safe_word booted_d).
Proof. exact (library_harmless ix0 booted_d booted_installed). Qed.

(** division by zero, an unknown word, an empty stack, a compile-only word, a float *)
Definition line40 : list bytes := [b "3"; b "DUP"; b "max"; b "1.5e2"; b "f+"; b "spaces"; b "?dup"; b "cr"; b "0"; b "/"; b "if"; b "nosuch"].
Definition text40 : bytes := spaced line40.
Definition safeb (i : Z) : bool :=
  existsb (prim_eqb (w_action (word_of booted_d i))) plain_words ||
  existsb (fun n => match find 400 (b n) booted_d with Ok (Some j, _) => i =? j | _ => false end) safe_library ||
  w_co (word_of booted_d i).
Definition tokenb (t : bytes) : bool := match find 400 t booted_d with Ok (Some i, _) => safeb i | Ok (None, _) => true | _ => false end.
Lemma safeb_ok i : 0 < i < words booted_d -> safeb i = true -> safe_word booted_d i \/ w_co (word_of booted_d i) = true.
Proof.
  intros HR. unfold safeb. rewrite !orb_true_iff. intros [[H|H]|H]; [left; left|left; right|right; exact H].
  - apply existsb_exists in H as (p & H1 & H2). exists p. split; [exact H1|]. split; [unfold words in HR; lia|]. apply prim_eqb_eq in H2. exact H2.
  - apply existsb_exists in H as (n & H1 & H2). exists n. split; [exact H1|]. apply (bt_found (b n) i). unfold found_as. exact H2.
Qed.
Lemma tokenb_ok ts : forallb tokenb ts = true -> uses_only (safe_word booted_d) booted_d ts.
Proof.
  intros H t i HIN HN. rewrite forallb_forall in H. specialize (H t HIN). unfold tokenb in H.
  rewrite (proj2 (find_iff 400 t booted_d (Some i) booted_dict (bt_words t)) HN) in H. apply safeb_ok; [apply HN|exact H].
Qed.
Lemma line40_uses : uses_only (safe_word booted_d) booted_d line40.
Proof. apply tokenb_ok. vm_cast_no_check (@eq_refl bool true). Qed.
Lemma text40_tokens : tokens text40 line40. Proof. apply spaced_tokens. reflexivity. Qed.
Lemma text40_utf8 : exists cs, utf8_text text40 cs. Proof. exists text40. apply ascii_utf8. reflexivity. Qed.
