(** Vocabulary for properties about floating-point words: what a word leaves
    on the data and float stacks. *)
From Coq Require Import ZArith List Reals.
From Verif Require Import Base Stack Mem State CoreM Exec Spec Spec2 Spec21.
Import ListNotations.
Open Scope Z_scope.

Section S.
Context {E : Env}.

(** Executing [p] replaces the items [d] of the data stack and [f] of the
    float stack (top first) by items that satisfy [Q], whatever lies below,
    and changes nothing else *)
Definition gives (p : prim) (d f : list Z) (Q : list Z -> list Z -> Prop) : Prop :=
  exists d' f', Q d' f' /\ word_effect p d [] f d' [] f'.

(** One float, or one cell, is left *)
Definition a_float (Q : Z -> Prop) (d f : list Z) : Prop := d = [] /\ exists z, f = [z] /\ double z /\ Q z.
Definition a_cell (Q : Z -> Prop) (d f : list Z) : Prop := f = [] /\ exists n, d = [n] /\ Q n.
End S.
