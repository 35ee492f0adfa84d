(** Vocabulary of the text interpreter (C38): what a line of text means. *)
From Coq Require Import ZArith List Bool.
From Verif Require Import Base Stack Mem Parser State CoreM Exec Spec Spec4 Spec9 Spec10 Spec11.
Import ListNotations.
Open Scope Z_scope.
Open Scope m_scope.

Section S.
Context {E : Env}.

(** ** What a token means *)

(** [performs fuel t v v']: the meaning of the token [t] takes [v] to [v'].

    While interpreting, the word called [t] is executed, unless it may only be compiled; a number is pushed.  While
    compiling, an immediate word is executed, any other word and a number are compiled.  Words come before numbers and
    integers before floats; anything else raises exception -13. *)
Inductive performs (fuel : nat) (t : bytes) (v v' : vm) : Prop :=
| A_executed i : newest v t (Some i) ->
    (if st_compiling (st v) then w_imm (word_of v i) = true else w_co (word_of v i) = false) ->
    execute_word fuel i v = Ok (tt, v') -> performs fuel t v v'
| A_compiled i : newest v t (Some i) -> st_compiling (st v) = true -> w_imm (word_of v i) = false ->
    run_cs (execute_word fuel) (w_cs (word_of v i)) i v = Ok (tt, v') -> performs fuel t v v'
| A_compile_only i : newest v t (Some i) -> st_compiling (st v) = false -> w_co (word_of v i) = true ->
    abort_with (execute_word fuel) (-14) v = Ok (tt, v') -> performs fuel t v v'
| A_integer x : newest v t None -> integer_token v t x -> st_compiling (st v) = false ->
    v' = set_s (push (t_s (cur v)) x) (set_v_err None v) -> performs fuel t v v'
| A_integer_compiled x : newest v t None -> integer_token v t x -> st_compiling (st v) = true ->
    compile_integer x (set_v_err None v) = Ok (tt, v') -> performs fuel t v v'
| A_float s i f es x : newest v t None -> no_integer v t -> float_text s i f es x t -> st_compiling (st v) = false ->
    v' = set_f (push (t_f (cur v)) (float_value s i f es x)) (set_v_err None v) -> performs fuel t v v'
| A_float_compiled s i f es x : newest v t None -> no_integer v t -> float_text s i f es x t -> st_compiling (st v) = true ->
    compile_float (float_value s i f es x) (set_v_err None v) = Ok (tt, v') -> performs fuel t v v'
| A_unknown : newest v t None -> no_integer v t -> (forall s i f es x, ~ float_text s i f es x t) ->
    abort_with (execute_word fuel) (-13) v = Ok (tt, v') -> performs fuel t v v'.

(** A state in which the dictionary can be searched and numbers can be read; [t] is the word just read *)
Definition at_token (fuel : nat) (v : vm) (t : bytes) : Prop :=
  v_tkn v = Some t /\ dict_ok v /\ words v < Z.of_nat fuel /\ (exists base, base_is v base) /\ idx_flit (v_refs v) <> 0.

(** ** What a line means *)

(** The word [t] is read from the input; at the end of the input [t] is empty *)
Definition reads (v : vm) (t : bytes) (v1 : vm) : Prop := quiet 0 P_parse_word v v1 /\ v_tkn v1 = Some t.

(** The whole effect of a token: its meaning, then the code that it may have started is run to its end, then the stacks
    are checked.  An exception ends it. *)
Inductive token_run (fuel : nat) (t : bytes) (v v' : vm) : Prop :=
| TR_raised : performs fuel t v v' -> v_err v' <> None -> token_run fuel t v v'
| TR_done v1 v2 : performs fuel t v v1 -> v_err v1 = None -> run fuel v1 = Ok (tt, v2) ->
    exec_prim fuel (execute_word fuel) P_check_stacks v2 = Ok (tt, v') -> token_run fuel t v v'.

(** [line fuel v l v']: the rest of the line takes [v] to [v'].  [l] records the tokens in the order in which they took
    effect, each with the states before and after it.  Nothing happens after a token that leaves an exception. *)
Inductive line (fuel : nat) : vm -> list (bytes * vm * vm) -> vm -> Prop :=
| L_end v v' : v_err v = None -> reads v [] v' -> line fuel v [] v'
| L_raised v v1 t v' : v_err v = None -> reads v t v1 -> t <> [] -> at_token fuel v1 t ->
    token_run fuel t v1 v' -> v_err v' <> None -> line fuel v [(t, v1, v')] v'
| L_next v v1 t v2 l v' : v_err v = None -> reads v t v1 -> t <> [] -> at_token fuel v1 t ->
    token_run fuel t v1 v2 -> v_err v2 = None -> line fuel v2 l v' -> line fuel v ((t, v1, v2) :: l) v'.

(** [u] is reached from [v] after some tokens without an exception *)
Inductive after_tokens (fuel : nat) (v : vm) : vm -> Prop :=
| AT_none : after_tokens fuel v v
| AT_more u t u1 u2 : after_tokens fuel v u -> reads u t u1 -> t <> [] -> token_run fuel t u1 u2 -> v_err u2 = None -> after_tokens fuel v u2.

(** The token has not touched the input *)
Definition input_kept (x : bytes * vm * vm) : Prop :=
  let '(_, u, u') := x in
  st_idx (st u') = st_idx (st u) /\ (forall buf, input_text u buf -> input_text u' buf) /\ v_tkn u' <> None.
Definition token_of (x : bytes * vm * vm) : bytes := fst (fst x).
Definition left_error (x : bytes * vm * vm) : Prop := v_err (snd x) <> None.

End S.
