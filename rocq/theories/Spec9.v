(** Specification vocabulary: proper nesting of control structures. *)
From Coq Require Import ZArith List Bool.
From Verif Require Import Base Stack Mem State CoreM Exec Spec Spec4 Spec5 Spec6.
Import ListNotations.
Open Scope Z_scope.
Open Scope m_scope.

(** The words that open, continue and close control structures *)
Definition structure_words : list prim :=
  [P_imm_if; P_imm_else; P_imm_then; P_imm_begin; P_imm_while; P_imm_repeat; P_imm_until; P_imm_again;
   P_imm_case; P_imm_of; P_imm_endof; P_imm_endcase; P_imm_do; P_imm_qdo; P_imm_loop; P_imm_plus_loop].

(** Properly nested sequences of these words *)
Inductive nested : list prim -> Prop :=
| N_nil : nested []
| N_app a b : nested a -> nested b -> nested (a ++ b)
| N_then a : nested a -> nested ([P_imm_if] ++ a ++ [P_imm_then])
| N_else a b : nested a -> nested b -> nested ([P_imm_if] ++ a ++ [P_imm_else] ++ b ++ [P_imm_then])
| N_until a : nested a -> nested ([P_imm_begin] ++ a ++ [P_imm_until])
| N_again a : nested a -> nested ([P_imm_begin] ++ a ++ [P_imm_again])
| N_repeat a b : nested a -> nested b ->
    nested ([P_imm_begin] ++ a ++ [P_imm_while] ++ b ++ [P_imm_repeat])
| N_loop x y a : In x [P_imm_do; P_imm_qdo] -> In y [P_imm_loop; P_imm_plus_loop] -> nested a ->
    nested ([x] ++ a ++ [y])
| N_case cs d : clauses cs -> nested d -> nested ([P_imm_case] ++ cs ++ d ++ [P_imm_endcase])
with clauses : list prim -> Prop :=
| Cl_nil : clauses []
| Cl_of x p cs : nested x -> nested p -> clauses cs ->
    clauses (x ++ [P_imm_of] ++ p ++ [P_imm_endof] ++ cs).

Section S.
Context {E : Env}.

(** Executing [w] in [v] ends in [v'] without raising an exception, whatever the
    exception handler does *)
Definition quiet (fuel : nat) (w : prim) (v v' : vm) : Prop :=
  forall ew, exec_prim fuel ew w v = Ok (tt, v').

(** Executing [w] in [v] raises the exception [e]: in some state [u] the handler
    is given control as [raised] describes; [k] is what happens if it returns *)
Definition raises (fuel : nat) (e : Z) (w : prim) (v : vm) : Prop :=
  exists u v1 (k : (Z -> M unit) -> M unit),
    raised e u v1 /\ v_handler u = v_handler v /\
    forall ew, exec_prim fuel ew w v = (ew (v_handler v) ;;; k ew) v1.

(** [so_far fuel ws v]: in a definition, the control structure words [ws] have
    been executed, interleaved with anything that leaves the control stack alone,
    without an exception, and [v] has been reached.  As the text interpreter does,
    the stacks are checked after every word. *)
Inductive so_far (fuel : nat) : list prim -> vm -> Prop :=
| F_start v :
    ds_ok (v_ds v) -> compiler_ready v ->
    len (t_c (cur v)) = 0 -> canary (t_c (cur v)) = CCanary -> sget (t_c (cur v)) 255 = CCanary ->
    so_far fuel [] v
| F_word ws w v v' :
    so_far fuel ws v -> In w structure_words ->
    here (v_ds v) + 40 <= limit (v_ds v) -> quiet fuel w v v' -> quiet fuel P_check_stacks v' v' ->
    so_far fuel (ws ++ [w]) v'
| F_other ws v v' :
    so_far fuel ws v -> t_c (cur v') = t_c (cur v) ->
    ds_ok (v_ds v') -> start (v_ds v') = start (v_ds v) -> limit (v_ds v') = limit (v_ds v) ->
    here (v_ds v) <= here (v_ds v') -> compiler_ready v' ->
    so_far fuel ws v'.

End S.
