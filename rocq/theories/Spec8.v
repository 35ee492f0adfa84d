(** Specification vocabulary: labels, GOTO and CALL. *)
From Coq Require Import ZArith List Bool.
From Verif Require Import Base Stack Mem State CoreM Exec Spec Spec4 Spec5 Spec6.
Import ListNotations.
Open Scope Z_scope.

Section S.
Context {E : Env}.

(** The bytes of the branches compiled so far *)
Definition branches (g : list (Z * Z)) (i : Z) : Prop :=
  exists a n, In (a, n) g /\ a <= i < a + 16.

(** [labelled fuel ew g l v]: [v] is reached from a state without labels by any
    sequence of GOTO, CALL, LABEL and steps that compile or execute anything else
    that leaves the labels and the branches compiled so far alone.  [g] lists the
    branches with their labels: (address, label number), the latest first; [l]
    lists the labels with their positions: (label number, address). *)
Inductive labelled (fuel : nat) (ew : Z -> M unit) : list (Z * Z) -> list (Z * Z) -> vm -> Prop :=
| L_start v :
    ds_ok (v_ds v) -> compiler_ready v -> v_fwd v = [] -> v_res v = [] -> labelled fuel ew [] [] v
| L_goto g l v n rest v' :
    labelled fuel ew g l v ->
    stack_has (t_s (cur v)) (n :: rest) -> 0 < n < 1000 -> here (v_ds v) + 16 <= limit (v_ds v) ->
    exec_prim fuel ew P_imm_goto v = Ok (tt, v') ->
    labelled fuel ew ((here (v_ds v), n) :: g) l v'
| L_call g l v n rest v' :
    labelled fuel ew g l v ->
    stack_has (t_s (cur v)) (n :: rest) -> 0 < n < 1000 -> here (v_ds v) + 40 <= limit (v_ds v) ->
    exec_prim fuel ew P_imm_call v = Ok (tt, v') ->
    labelled fuel ew ((here (v_ds v) + 24, n) :: g) l v'
| L_label g l v n rest v' :
    labelled fuel ew g l v ->
    stack_has (t_s (cur v)) (n :: rest) -> 0 < n < 1000 -> (forall a, ~ In (n, a) l) ->
    exec_prim fuel ew P_imm_label v = Ok (tt, v') ->
    labelled fuel ew g ((n, here (v_ds v)) :: l) v'
| L_other g l v v' :
    labelled fuel ew g l v ->
    kept (branches g) v v' -> ds_ok (v_ds v') -> here (v_ds v) <= here (v_ds v') ->
    compiler_ready v' ->
    v_fwd v' = v_fwd v -> v_res v' = v_res v -> v_labels v' = v_labels v ->
    labelled fuel ew g l v'.

(** The branches to label [n] *)
Definition branches_to (n : Z) (g : list (Z * Z)) : list (Z * Z) :=
  filter (fun b => snd b =? n) g.

End S.
