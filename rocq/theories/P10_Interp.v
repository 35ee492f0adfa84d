(** Output, input, exception codes and crashes: C40, C62, C65 - C67. *)
From Coq Require Import ZArith List Bool Lia String.
From Verif Require Import Base Stack Mem Parser Flt State CoreM IoM FileM Exec Boot Std.
From Verif Require Import Spec Spec4 Spec5 Spec6 Spec7 Spec9 Spec10 Spec11 Spec12 Spec13 Spec14 Spec15 Spec23.
From Verif Require Import LCodes LSay LNoInput LClean LCrash3 LCrash4 Ex Ex2 Ex3 Ex6 Ex7 Ex8 Ex9 Ex10 Ex15 Ex17.
Import ListNotations.
Open Scope list_scope.
Open Scope Z_scope.
Open Scope m_scope.

(** * C40: no input line crashes the interpreter *)

(** False: on the freshly loaded system these lines panic, or do something undefined, in the debug build, in
    the release build, or in both. *)
Theorem C40_refuted : forall line d r, In (line, d, r) crash_lines ->
  outcome (load_str 3000 (b line) booted_d) = d /\ outcome (load_str 3000 (b line) booted_r) = r.
Proof. exact crashes. Qed.
Print Assumptions C40_refuted.

Example C40_example : (* s-quote at the end of a line *)
  In (": x s""", Crash_slice, Crash_slice)%string crash_lines.
Proof. left. reflexivity. Qed.

(** What is true (the full statement drops [harmless] and [uses_only] and is false): on a system at rest a line whose
    words are harmless - words on the data and float stacks, output, constants, variables, and colon definitions made of
    such words with conditionals, BEGIN loops and any recursion - is evaluated without a crash, whatever the other
    tokens are and whatever the stacks hold; if it raised no exception, the same holds for the next line. *)
Theorem C40_partial {E : Env} : forall fuel v H s cs ts,
  at_rest v -> harmless v H -> utf8_text s cs -> zlen s < 2 ^ 63 -> tokens s ts -> uses_only H v ts ->
  crash_free (load_str fuel s v) /\
  forall v', load_str fuel s v = Ok (tt, v') -> v_err v' = None -> at_rest v' /\ harmless v' H.
Proof. exact no_crash. Qed.
Print Assumptions C40_partial.

(** In a system with the library of core.fth the plain built-in words and those library words that are made of them
    are harmless *)
Theorem C40_library {E : Env} : forall ix v, installed ix v -> harmless v (safe_word v).
Proof. exact library_harmless. Qed.
Print Assumptions C40_library.

Example C40_example_harmless : (* unknown words, division by zero, underflow, a compile-only word *)
  text40 = b "3 DUP max 1.5e2 f+ spaces ?dup cr 0 / if nosuch " /\
  at_rest booted_d /\ harmless booted_d (safe_word booted_d) /\ (exists cs, utf8_text text40 cs) /\ zlen text40 < 2 ^ 63 /\
  tokens text40 line40 /\ uses_only (safe_word booted_d) booted_d line40.
Proof. exact (conj eq_refl (conj booted_rest (conj booted_harmless (conj text40_utf8 (conj eq_refl (conj text40_tokens line40_uses)))))). Qed.

(** * C62: parsing words without input *)

(** The words that need a name raise exception -39 *)
Theorem C62_names {E : Env} : forall fuel p v,
  In p [P_char; P_bracket_char; P_tick; P_bracket_tick; P_postpone; P_create; P_colon; P_constant; P_fconstant; P_marker] ->
  no_input v -> v_tkn v <> None -> dict_ok v -> words v < Z.of_nat fuel -> raises fuel (-39) p v.
Proof. exact naming_raises. Qed.
Print Assumptions C62_names.

(** PARSE-WORD reads the empty word *)
Theorem C62_word {E : Env} : forall fuel v,
  no_input v -> v_tkn v <> None -> quiet fuel P_parse_word v (set_v_tkn (Some []) v).
Proof. exact word_no_input. Qed.
Print Assumptions C62_word.

(** False of the words that scan the text of the input: they panic *)
Theorem C62_refuted {E : Env} : forall fuel ew p v,
  In p [P_parse; P__skip; P_imm_paren; P_imm_backslash; P_s_quote; P_dot_quote; P_dot_paren] ->
  no_input v -> exec_prim fuel ew p v = Panic PExpect.
Proof. exact scanning_panics. Qed.
Print Assumptions C62_refuted.

Example C62_example : (* a background task of the booted system; and a program in which one runs PARSE *)
  @no_input env_d task1 /\ v_tkn task1 <> None /\ dict_ok task1 /\ words task1 < Z.of_nat 400 /\
  load_str 3000 (b ": t 2 activate 41 parse begin pause again ; : p pause ; t p") booted_d = Panic PExpect.
Proof. exact (conj task1_no_input (conj task1_token (conj task1_dict (conj task1_words background_panics)))). Qed.

(** * C65: control state between definitions *)

(** SEMICOLON succeeds only when no structure is open and no label is awaited; afterwards this is still
    so, and the system interprets. *)
Theorem C65_semicolon {E : Env} : forall fuel v v', quiet fuel P_semicolon v v' ->
  len (t_c (cur v)) = 0 /\ v_fwd v = [] /\ t_c (cur v') = t_c (cur v) /\ v_fwd v' = [] /\ st_compiling (st v') = false.
Proof. exact semicolon_clean. Qed.
Print Assumptions C65_semicolon.

(** When a word raises an exception, the handler starts with an empty control stack *)
Theorem C65_exception {E : Env} : forall fuel e w v, raises fuel e w v ->
  exists v1 (k : (Z -> M unit) -> M unit), v_err v1 = Some e /\ stack_has (t_c (cur v1)) [] /\
    forall ew, exec_prim fuel ew w v = (ew (v_handler v) ;;; k ew) v1.
Proof. exact raises_clean. Qed.
Print Assumptions C65_exception.

Example C65_example :
  @quiet env_d 0 P_semicolon open_def closed_def /\ st_compiling (st open_def) = true /\
  raises 400 (-39) P_colon task1.
Proof.
  split; [exact closed_quiet|]. split; [exact open_compiling|].
  apply C62_names; [|exact task1_no_input|exact task1_token|exact task1_dict|exact task1_words]. cbn. tauto.
Qed.

(** False of labels: a label awaited when an exception is raised is still awaited after RESET, and then every
    definition is rejected, ... *)
Theorem C65_awaited_refuted : exists v1 v2 v3 w : @vm env_d,
  load_str 3000 (b ": x [ 1 ] goto nosuch") booted_d = Ok (tt, v1) /\ v_err v1 = Some (-13) /\
  quiet 0 P_reset v1 v2 /\ v_err v2 = None /\ len (t_c (cur v2)) = 0 /\
  load_str 3000 (b ": y ;") v2 = Ok (tt, v3) /\ v_err v3 = Some (-22) /\
  load_str 3000 (b ": y ;") booted_d = Ok (tt, w) /\ v_err w = None.
Proof. exact labels_leak. Qed.
Print Assumptions C65_awaited_refuted.

(** ... and a label of one definition cannot be used in the next. *)
Theorem C65_defined_refuted : exists v1 v2 w : @vm env_d,
  load_str 3000 (b ": a [ 1 ] label ;") booted_d = Ok (tt, v1) /\ v_err v1 = None /\
  load_str 3000 (b ": b [ 1 ] label ;") v1 = Ok (tt, v2) /\ v_err v2 = Some (-24) /\
  load_str 3000 (b ": b [ 1 ] label ;") booted_d = Ok (tt, w) /\ v_err w = None.
Proof. exact resolved_leak. Qed.
Print Assumptions C65_defined_refuted.

(** * C66: output *)

(** EMIT appends the UTF-8 encoding of the low byte of its argument; for ASCII, the byte itself *)
Theorem C66_emit {E : Env} : forall fuel v c l, stack_has (t_s (cur v)) (c :: l) ->
  exists bs v1 v', utf8_char bs (c mod 256) /\ quiet fuel P_emit v v' /\ only_data_stack v v1 /\
    stack_has (t_s (cur v1)) l /\ printed v1 bs v'.
Proof. exact emit_prints. Qed.
Print Assumptions C66_emit.

Theorem C66_emit_ascii {E : Env} : forall fuel v c l, stack_has (t_s (cur v)) (c :: l) -> 0 <= c < 128 ->
  exists v1 v', quiet fuel P_emit v v' /\ only_data_stack v v1 /\ stack_has (t_s (cur v1)) l /\ printed v1 [c] v'.
Proof. exact emit_ascii. Qed.
Print Assumptions C66_emit_ascii.

Example C66_emit_example : stack_has (t_s (cur (ex_d [65; 7]))) [65; 7].
Proof. apply ex_d_has. discriminate. Qed.

(** so it is false that it appends exactly the given byte: from 128 on it appends two bytes *)
Theorem C66_emit_refuted {E : Env} : forall fuel v c l, stack_has (t_s (cur v)) (c :: l) -> 128 <= c < 256 ->
  exists v1 v', quiet fuel P_emit v v' /\ only_data_stack v v1 /\ stack_has (t_s (cur v1)) l /\
    printed v1 [192 + c / 64; 128 + c mod 64] v'.
Proof. exact emit_two. Qed.
Print Assumptions C66_emit_refuted.

Example C66_emit_refuted_example : stack_has (t_s (cur (ex_d [255; 7]))) [255; 7].
Proof. apply ex_d_has. discriminate. Qed.

(** TYPE appends the bytes of a text in the data space *)
Theorem C66_type {E : Env} : forall fuel v xa a n l s,
  stack_has (t_s (cur v)) (n :: xa :: l) -> addr_of xa a -> n = zlen s -> zlen s < 2 ^ 63 ->
  bytes_at (v_ds v) a s -> zlen l <= 128 -> sget (t_s (cur v)) 255 = canary (t_s (cur v)) ->
  exists v1 v', quiet fuel P_p_type v v' /\ only_data_stack v v1 /\ stack_has (t_s (cur v1)) l /\ printed v1 s v'.
Proof. exact type_prints. Qed.
Print Assumptions C66_type.

Example C66_type_example :
  stack_has (t_s (cur typed)) [5; 65600; 7] /\ bytes_at (v_ds typed) 65600 (b "hello") /\
  sget (t_s (cur typed)) 255 = canary (t_s (cur typed)).
Proof. exact (conj typed_has (conj typed_text typed_canary)). Qed.

(** It does not check that the text is in the data space *)
Theorem C66_type_refuted : exists v : @vm env_d, stack_has (t_s (cur v)) [5; 0] /\ exec_prim 0 ew_nop P_p_type v = UB.
Proof. exact type_unchecked. Qed.
Print Assumptions C66_type_refuted.

(** S-quote compiles code that pushes exactly the text up to the quote, ... *)
Theorem C66_s_quote {E : Env} : forall fuel v c s cs t r l n,
  rest_of_input v (c :: s) -> utf8_text s cs -> text_upto 34 s t r ->
  can_compile l n v -> 0 <= n -> w_cs (word_of v (idx_s_quote (v_refs v))) <> CS_compile_leave ->
  fin (Str t) (here (v_ds v)) <= limit (v_ds v) ->
  exists v', quiet fuel P_s_quote v v' /\ compiled (Str t) v v' /\
    st_idx (st v') = st_idx (st v) + zlen t + 2 /\ v_tkn v' = v_tkn v.
Proof. exact s_quote_compiles. Qed.
Print Assumptions C66_s_quote.

(** ... dot-quote code that pushes it and types it; ... *)
Theorem C66_dot_quote {E : Env} : forall fuel v c s cs t r l n,
  rest_of_input v (c :: s) -> utf8_text s cs -> text_upto 34 s t r ->
  can_compile l n v -> 0 <= n -> w_cs (word_of v (idx_s_quote (v_refs v))) <> CS_compile_leave ->
  0 <= idx_type (v_refs v) < words v ->
  let p := Seq (Str t) (Op (idx_type (v_refs v))) in
  fin p (here (v_ds v)) <= limit (v_ds v) ->
  exists v', quiet fuel P_dot_quote v v' /\ compiled p v v' /\
    st_idx (st v') = st_idx (st v) + zlen t + 2 /\ v_tkn v' = v_tkn v.
Proof. exact dot_quote_compiles. Qed.
Print Assumptions C66_dot_quote.

(** ... and when this code runs it appends exactly the text to the output, and changes nothing else. *)
Theorem C66_dot_quote_runs {E : Env} : forall (K : Z -> Prop) v a t i l,
  holds K v (Seq (Str t) (Op i)) a -> word_is v i P_p_type ->
  stack_has (t_s (cur v)) l -> zlen l <= 128 -> sget (t_s (cur v)) 255 = canary (t_s (cur v)) ->
  exists v1 v', goes v a v' (fin (Seq (Str t) (Op i)) a) /\ stack_has (t_s (cur v1)) l /\ printed v1 t v' /\
    v1 = set_s (t_s (cur v1)) v.
Proof. exact dot_quote_runs. Qed.
Print Assumptions C66_dot_quote_runs.

Example C66_quote_example : (* the booted system with a line to read *)
  @rest_of_input env_d say_d (b " Hello, world"" cr") /\ text_upto 34 (b "Hello, world"" cr") (b "Hello, world") (b " cr") /\
  can_compile false 64 say_d /\
  exists v' v1 v2, quiet 0 P_dot_quote say_d v' /\
    holds (fun i => here (v_ds say_d) <= i < fin hello (here (v_ds say_d))) v' hello (here (v_ds say_d)) /\
    goes v' (here (v_ds say_d)) v2 (fin hello (here (v_ds say_d))) /\ stack_has (t_s (cur v1)) [] /\ printed v1 (b "Hello, world") v2.
Proof. exact (conj say_rest (conj say_upto (conj say_can hello_runs))). Qed.

(** Dot-paren appends the text up to the parenthesis *)
Theorem C66_dot_paren {E : Env} : forall fuel v s cs l,
  rest_of_input v s -> utf8_text s cs -> v_tkn v <> None -> stack_has (t_s (cur v)) l -> zlen l < 255 ->
  exists t r v1 v2 v', text_upto 41 s t r /\ quiet fuel P_dot_paren v v' /\ only_data_stack1 v v1 /\ stack_has (t_s (cur v1)) l /\
    token_read v1 t (st_idx (st v) + (zlen s - zlen r)) v2 /\ printed v2 t v' /\ rest_of_input v' r.
Proof. exact dot_paren_prints. Qed.
Print Assumptions C66_dot_paren.

Example C66_dot_paren_example : @rest_of_input env_d (tx line1) line1 /\ utf8_text line1 line1_cs /\ v_tkn (tx line1) <> None.
Proof. exact (conj tx1_rest (conj line1_utf8 (tx_tkn line1))). Qed.

(** * C67: exception codes *)

(** Whatever the history of the system, the exception recorded is one of seventeen, ... *)
Theorem C67_raised {E : Env} : forall v e, own_history v -> v_err v = Some e ->
  In e [-1; -3; -4; -5; -6; -9; -10; -11; -13; -14; -21; -22; -24; -37; -39; -44; -45].
Proof. exact own_raised. Qed.
Print Assumptions C67_raised.

Example C67_raised_example : @own_history env_d undefined_line /\ v_err undefined_line = Some (-13).
Proof. exact undefined_own. Qed.

(** ... each of which has a description, ... *)
Theorem C67_described : forall e, In e raised_codes -> description e <> [].
Proof. exact described. Qed.
Print Assumptions C67_described.

(** ... different from the others. *)
Theorem C67_distinct : forall e e', In e raised_codes -> In e' raised_codes -> description e = description e' -> e = e'.
Proof. exact distinct_codes. Qed.
Print Assumptions C67_distinct.

Example C67_example : description (-13) = b "Undefined word" /\ In (-13) raised_codes.
Proof. split; [reflexivity|]. cbn. tauto. Qed.

(** Of all codes, exactly -58 to -1 have a description *)
Theorem C67_all : forall e, description e <> [] <-> -58 <= e <= -1.
Proof. exact described_iff. Qed.
Print Assumptions C67_all.

(** DOT-ERROR appends the description of the exception recorded, or nothing *)
Theorem C67_dot_error {E : Env} : forall fuel v, exists v', quiet fuel P_dot_error v v' /\
  printed v (match v_err v with Some e => description e | None => [] end) v'.
Proof. exact dot_error_any. Qed.
Print Assumptions C67_dot_error.
