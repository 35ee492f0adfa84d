(** The terminal program (rtf/src/main.rs and the words of rtf/rtf.fth): C87 - C89. *)
From Coq Require Import ZArith List Bool Lia String.
From Verif Require Import Base Stack Mem Parser State CoreM IoM FileM Exec Boot Term Std Shell Spec Spec2 Spec4 Spec5 Spec7 Spec9 Spec10 Spec11 Spec15 Spec16 Spec19 Spec24 Spec27
  LShell2 LShell4 LShell5 LShell6 LShell7 Ex20 Ex21.
Import ListNotations.
Open Scope list_scope.
Open Scope Z_scope.

(** * C87: a line typed at the prompt is obeyed *)

(** The terminal program waits at the prompt; a line arrives (or the terminal reports a failure, and the rest of the input
    counts as the line); the tokens of the line do what they mean (C38), one after the other.  Then the machine comes back
    to the prompt, and all that has happened is: the line was taken, the tokens acted, and the turn was closed.  The code
    and the words of the terminal program are as before. *)
Theorem C87_line {E : Env} : forall K n o r v ts v1,
  at_prompt K n v -> os_receive (v_os v) = (o, r) -> r <> Eof ->
  obeys K n (add_r (after_line n v) (entered n o r v)) ts v1 ->
  let v' := closed n (drop_r 1 v1) in
  part K v (prompt_addr n v) v' (prompt_addr n v) /\ at_prompt K n v' /\ intact K n v v'.
Proof. exact turn_part. Qed.
Print Assumptions C87_line.
(** The line 7 . typed into the terminal program as it comes up *)
Example C87_line_ex : at_prompt KK nm pv1 /\ os_receive (v_os pv1) = (os1, Line (b "7 .")) /\
  obeys KK nm (add_r (after_line nm pv1) (entered nm os1 (Line (b "7 .")) pv1)) [b "7"; b "."] vd1 /\
  v_stdout (closed nm (drop_r 1 vd1)) = v_stdout pv1 ++ b " 7  ok" ++ [13; 10].
Proof. exact line1_ex. Qed.

(** What the turn prints when it is closed: the output of the line, ok unless a definition is open, and the end of the line *)
Theorem C87_output {E : Env} : forall n v o, v_out v = Some o ->
  v_out (closed n v) = Some [] /\ v_stdout (closed n v) = v_stdout v ++ o ++ (if st_compiling (st v) then [] else b " ok") ++ [13; 10].
Proof. exact closed_out. Qed.
Print Assumptions C87_output.
Example C87_output_ex : v_out vd1 = Some (b " 7 ") /\ st_compiling (st vd1) = false.
Proof. exact vd1_out. Qed.

(** The same for any number of lines *)
Theorem C87_session {E : Env} : forall K n v ss v',
  session K n v ss v' -> at_prompt K n v ->
  part K v (prompt_addr n v) v' (prompt_addr n v) /\ at_prompt K n v' /\ intact K n v v'.
Proof. exact session_part. Qed.
Print Assumptions C87_session.
Example C87_session_ex : session KK nm pv1 [b "7 ."] (closed nm (drop_r 1 vd1)).
Proof. exact line1_session. Qed.

(** Which tokens act: integers push their value *)
Theorem C87_integer {E : Env} : forall K n fuel t v x d,
  newest v t None -> integer_token v t x -> st_compiling (st v) = false -> stack_has (t_s (cur v)) d -> zlen d < 255 ->
  acts K n fuel t v (add_s x (set_v_err None v)).
Proof. exact acts_integer. Qed.
Print Assumptions C87_integer.
(** ... built-in words that leave the return stack and the control flow alone do what their function does ... *)
Theorem C87_builtin {E : Env} : forall K n fuel t v i p v2,
  newest v t (Some i) -> executes v i -> word_is v i p -> intact K n v v2 ->
  (forall rs, stack_has (t_r (cur v)) rs -> stack_has (t_r (cur v2)) rs) ->
  let a := token_addr n v + 8 in
  exec_prim fuel (execute_word fuel) p (set_ip a (set_wp i v)) = Ok (tt, set_ip a (set_wp i v2)) -> acts K n (S fuel) t v v2.
Proof. exact acts_prim. Qed.
Print Assumptions C87_builtin.
(** ... and words of the library do what has been proved about them (C74 - C84) *)
Theorem C87_library {E : Env} : forall K n t v i Q,
  newest v t (Some i) -> executes v i -> does K v i Q -> 0 <= token_addr n v + 8 < 2 ^ 63 ->
  exists f v2, Q v2 /\ forall fuel, (f <= fuel)%nat -> intact K n v v2 ->
    (forall rs, stack_has (t_r (cur v)) rs -> stack_has (t_r (cur v2)) rs) -> acts K n fuel t v v2.
Proof. exact acts_does. Qed.
Print Assumptions C87_library.
(** Both tokens of the example line act in this sense; 7 is an integer, and . a word of the library *)
Example C87_tokens_ex : exists va vb, reads (add_r (after_line nm pv1) (entered nm os1 (Line (b "7 .")) pv1)) (b "7") va /\
  acts KK nm 400 (b "7") (noted va) vb /\ newest (noted va) (b "7") None /\ stack_has (t_s (cur vb)) [7].
Proof. exact line1_tokens. Qed.

(** The stack holds 64 cells, but the prompt needs two of them for its own messages.  With 63 cells accepted on one line,
    the prompt spoils the stack while it prints ok, and the next line fails with a stack overflow although it does nothing
    but drop a cell. *)
Theorem C87_refuted : exists (K : Z -> Prop) n (v v1 v2 v3 : @vm env_d) d,
  at_prompt K n v /\ st_ip (st v) = prompt_addr n v /\
  (machine_steps v v1 /\ st_ip (st v1) = after_line n v /\ quiet 0 P_check_stacks v1 v1 /\ v_err v1 = None /\ stack_has (t_s (cur v1)) d /\ zlen d = 63) /\
  (machine_steps v1 v2 /\ st_ip (st v2) = prompt_addr n v /\ snd (os_receive (v_os v2)) = Line (b "drop")) /\
  machine_steps v2 v3 /\ v_err v3 = Some (-3).
Proof. exact prompt_overflow. Qed.
Print Assumptions C87_refuted.

(** * C88: an exception at the prompt leads back to the prompt *)

(** A token of the line ends in an exception, in the state [x] (by itself, in the code that it starts, or because the check
    of the stacks finds an error).  Then the handler of the terminal program prints the output so far and the report, and
    the machine is back at the prompt: stacks empty, interpreting, input empty, everything else as in [x]. *)
Theorem C88_recovers {E : Env} : forall K n o r v ts v0 t v1 fuel e rs o1 x,
  at_prompt K n v -> os_receive (v_os v) = (o, r) -> r <> Eof ->
  obeyed K n (add_r (after_line n v) (entered n o r v)) ts v0 -> reads v0 t v1 -> t <> [] -> at_token fuel v1 t ->
  fails K n fuel t (noted v1) x -> recoverable K n e rs o1 x ->
  exists v' text, goes v (prompt_addr n v) v' (prompt_addr n v') /\ at_prompt K n v' /\ intact K n x v' /\
    report n x (st_ip (st x) :: rs) e text /\ recovered x (shown_line (o1 ++ text)) v'.
Proof. exact turn_fails. Qed.
Print Assumptions C88_recovers.

(** A word that is unknown: exception -13 *)
Theorem C88_unknown {E : Env} : forall K n o s v ts v0 t v1 fuel o1,
  at_prompt K n v -> os_receive (v_os v) = (o, Line s) ->
  obeyed K n (add_r (after_line n v) (entered n o (Line s) v)) ts v0 -> reads v0 t v1 -> t <> [] -> at_token fuel v1 t ->
  v_handler v1 = n_abort n -> v_out v1 = Some o1 ->
  newest v1 t None -> no_integer v1 t -> (forall s i f es z, ~ float_text s i f es z t) ->
  exists x v' text, raised (-13) (dispatched n (noted v1)) x /\
    goes v (prompt_addr n v) v' (prompt_addr n v') /\ at_prompt K n v' /\ intact K n x v' /\
    report n x [token_addr n (noted v1) + 8; after_line n v] (-13) text /\ recovered x (shown_line (o1 ++ text)) v'.
Proof. exact unknown_line. Qed.
Print Assumptions C88_unknown.
(** The line 7 foo *)
Example C88_unknown_ex : exists v0 v1,
  at_prompt KK nm pv2 /\ os_receive (v_os pv2) = (os2, Line (b "7 foo")) /\
  obeyed KK nm (add_r (after_line nm pv2) (entered nm os2 (Line (b "7 foo")) pv2)) [b "7"] v0 /\ reads v0 (b "foo") v1 /\ at_token 400 v1 (b "foo") /\
  v_handler v1 = n_abort nm /\ v_out v1 = Some (b " ") /\ newest v1 (b "foo") None /\ no_integer v1 (b "foo") /\
  (forall s i f es z, ~ float_text s i f es z (b "foo")).
Proof. exact line2_unknown. Qed.
(** What the user sees when the lines 7 foo, 1 . and bye are typed in *)
Example C88_session_ex : seen ["7 foo"; "1 ."; "bye"]%string =
  b " foo Undefined word, backtrace: quit evaluate-input interpret-token (abort) " ++ [13; 10] ++ b " 1  ok" ++ [13; 10] ++ b " " ++ [10].
Proof. exact foo_seen. Qed.

(** A compile-only word outside a definition: exception -14 *)
Theorem C88_compile_only {E : Env} : forall K n o s v ts v0 t v1 fuel o1 i,
  at_prompt K n v -> os_receive (v_os v) = (o, Line s) ->
  obeyed K n (add_r (after_line n v) (entered n o (Line s) v)) ts v0 -> reads v0 t v1 -> t <> [] -> at_token fuel v1 t ->
  v_handler v1 = n_abort n -> v_out v1 = Some o1 ->
  newest v1 t (Some i) -> st_compiling (st v1) = false -> w_co (word_of v1 i) = true ->
  exists x v' text, raised (-14) (dispatched n (noted v1)) x /\
    goes v (prompt_addr n v) v' (prompt_addr n v') /\ at_prompt K n v' /\ intact K n x v' /\
    report n x [token_addr n (noted v1) + 8; after_line n v] (-14) text /\ recovered x (shown_line (o1 ++ text)) v'.
Proof. exact compile_only_line. Qed.
Print Assumptions C88_compile_only.
Example C88_compile_only_ex : exists v1 i,
  at_prompt KK nm pv3 /\ os_receive (v_os pv3) = (os3, Line (b "if")) /\
  obeyed KK nm (add_r (after_line nm pv3) (entered nm os3 (Line (b "if")) pv3)) [] va3 /\ reads va3 (b "if") v1 /\ at_token 400 v1 (b "if") /\
  v_handler v1 = n_abort nm /\ v_out v1 = Some (b " ") /\ newest v1 (b "if") (Some i) /\ st_compiling (st v1) = false /\ w_co (word_of v1 i) = true.
Proof. exact line3_if. Qed.

(** A built-in word that gives control to the handler (an exception of its own, such as a division by zero) *)
Theorem C88_builtin {E : Env} : forall K n f t v i p x,
  newest v t (Some i) -> executes v i -> word_is v i p ->
  (forall ew, exec_prim (S f) ew p (set_ip (token_addr n v + 8) (set_wp i v)) = ew (v_handler x) x) -> fails K n (S (S f)) t v x.
Proof. exact fails_prim. Qed.
Print Assumptions C88_builtin.
Example C88_builtin_ex : exists (v : @vm env_d) i x, newest v (b "/") (Some i) /\ executes v i /\ word_is v i P_slash /\ stack_has (t_s (cur v)) [0; 1] /\
  (forall ew, exec_prim 1 ew P_slash (set_ip (token_addr nm v + 8) (set_wp i v)) = ew (v_handler x) x) /\ v_err x = Some (-10).
Proof. exact slash_fails. Qed.

(** Not so in a background task: its exception is handled by the terminal program as well, but the task has no input buffer,
    and the next line brings the whole program down. *)
Theorem C88_refuted : exists (lines : list string) fuel p,
  shell_main fuel [] (with_keys (keys lines) shell_d) = Panic p.
Proof. exact background_panics. Qed.
Print Assumptions C88_refuted.

(** * C89: the program ends when it is told to *)

(** The end of the input ends the run; nothing else happens *)
Theorem C89_end_of_input {E : Env} : forall K n v o w,
  at_prompt K n v -> os_receive (v_os v) = (o, Eof) -> continues v (prompt_addr n v) w ->
  exists w' f, run f w = Ok (tt, w') /\ continues (set_v_os o v) 0 w'.
Proof. exact eof_stops. Qed.
Print Assumptions C89_end_of_input.
Example C89_end_of_input_ex : at_prompt KK nm pv4 /\ snd (os_receive (v_os pv4)) = Eof.
Proof. exact pv4_ends. Qed.

(** A token that stops the machine ends the run in the state which the token leaves, and the rest of the line is not read *)
Theorem C89_stop {E : Env} : forall K n v o s ts v0 t v1 fuel u w,
  at_prompt K n v -> os_receive (v_os v) = (o, Line s) ->
  obeyed K n (add_r (after_line n v) (entered n o (Line s) v)) ts v0 -> reads v0 t v1 -> t <> [] -> at_token fuel v1 t ->
  performs fuel t (dispatched n (noted v1)) u -> running u = Ok (false, u) -> continues v (prompt_addr n v) w ->
  exists f, run f w = Ok (tt, u).
Proof. exact stop_run. Qed.
Print Assumptions C89_stop.
Example C89_stop_ex : exists v1 u, at_prompt KK nm pv5 /\ os_receive (v_os pv5) = (os5, Line (b "bye")) /\
  obeyed KK nm (add_r (after_line nm pv5) (entered nm os5 (Line (b "bye")) pv5)) [] va5 /\ reads va5 (b "bye") v1 /\ at_token 400 v1 (b "bye") /\
  performs 400 (b "bye") (dispatched nm (noted v1)) u /\ running u = Ok (false, u).
Proof. exact line5_bye. Qed.

(** A terminal that goes on failing ([P] holds of it and stays true): the run never ends, whatever the fuel *)
Theorem C89_failing {E : Env} : forall K (P : os -> Prop), (forall o, P o -> exists o', os_receive o = (o', Failed) /\ P o') ->
  forall n f v w, at_prompt K n v -> used_up v -> v_tkn v <> None -> v_out v = Some [] -> P (v_os v) ->
  continues v (prompt_addr n v) w -> run f w = OutOfFuel.
Proof. exact failing_terminal. Qed.
Print Assumptions C89_failing.
(** So not every way of losing the terminal ends the program *)
Theorem C89_refuted : exists (K : Z -> Prop) n (v : @vm env_d), at_prompt K n v /\ snd (os_receive (v_os v)) = Failed /\
  forall f, run f (set_ip (prompt_addr n v) v) = OutOfFuel.
Proof. exact endless. Qed.
Print Assumptions C89_refuted.
