(** Vocabulary of the interpreter properties C40, C62, C65 - C67. *)
From Coq Require Import ZArith List Bool.
From Verif Require Import Base Stack Mem State CoreM Exec Boot Spec Spec5 Spec6.
Import ListNotations.
Open Scope Z_scope.

Section V.
Context {E : Env}.

(** ** Histories (C67) *)
(** The states that the system reaches by itself: as [reachable] of Spec3, except that the host does
    not raise exceptions; it may clear them. *)
Inductive own_history : vm -> Prop :=
| own_new fuel addr cap cc o v :
    0 < addr -> 16 <= cap -> addr + cap < 2 ^ 63 ->
    vm_new fuel addr cap cc o = Ok v -> own_history v
| own_word fuel i v v' : own_history v -> execute_word fuel i v = Ok (tt, v') -> own_history v'
| own_run fuel v v' : own_history v -> run fuel v = Ok (tt, v') -> own_history v'
| own_forth fuel c v v' : own_history v -> forth fuel v = Ok (c, v') -> own_history v'
| own_input fuel v v' : own_history v -> evaluate_input fuel v = Ok (tt, v') -> own_history v'
| own_load fuel s v v' : own_history v -> load_str fuel s v = Ok (tt, v') -> own_history v'
| own_round fuel c v v' : own_history v -> eval_round fuel v = Ok (c, v') -> own_history v'
| own_source s v v' : own_history v -> set_source s v = Ok (tt, v') -> own_history v'
| own_more s v v' : own_history v -> push_source s v = Ok (tt, v') -> own_history v'
| own_push x v : own_history v -> own_history (set_s (push (s_stk v) x) v)
| own_fpush x v : own_history v -> own_history (set_f (push (f_stk v) x) v)
| own_pop v : own_history v -> own_history (set_s (snd (pop (s_stk v))) v)
| own_fpop v : own_history v -> own_history (set_f (snd (pop (f_stk v))) v)
| own_outside out now files stdout stderr v :
    own_history v ->
    own_history (set_v_out out (set_v_now now (set_v_os files (set_v_stdout stdout (set_v_stderr stderr v)))))
| own_clear v : own_history v -> own_history (set_v_err None v).

(** ** Output (C66) *)
(** From [v] to [v'] the text [s] is appended to the output *)
Definition printed (v : vm) (s : bytes) (v' : vm) : Prop :=
  v' = match v_out v with Some o => set_v_out (Some (o ++ s)) v | None => v end.

(** ** Input (C62) *)
(** The current task has no input: neither a line of its own nor, when it is
    reading a file, a line of that file *)
Definition no_input (v : vm) : Prop :=
  (st_sid (st v) <= 0 /\ t_inbuf (cur v) = None) \/
  (0 < st_sid (st v) /\ nth_error (t_lines (cur v)) (Z.to_nat (st_sid (st v) - 1)) = Some None).
End V.
