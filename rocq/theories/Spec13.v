(** Vocabulary of the remaining interpreter properties (C67). *)
From Coq Require Import ZArith List Bool.
From Verif Require Import Base Stack Mem State Spec.
Import ListNotations.
Open Scope Z_scope.

Section V.
Context {E : Env}.

(** The exceptions that the system itself raises *)
Definition raised_codes : list Z := [-1; -3; -4; -5; -6; -9; -10; -11; -13; -14; -21; -22; -24; -37; -39; -44; -45].
Definition known (e : option Z) : Prop := match e with Some x => In x raised_codes | None => True end.
End V.
