(** Vocabulary of the terminal program (C87 - C90): the words of rtf.fth, the prompt, and what a line does. *)
From Coq Require Import ZArith List Bool String.
From Verif Require Import Base Stack Mem Parser State CoreM Exec Spec Spec2 Spec4 Spec5 Spec7 Spec9 Spec10 Spec11 Spec14 Spec15 Spec16 Spec19 Spec24 Spec25.
Import ListNotations.
Open Scope list_scope.
Open Scope Z_scope.

(** ** The definitions of rtf.fth *)

(** The built-in words used in them *)
Definition shell_prims : list prim :=
  [P_exit; P_reset; P_receive; P_p_type; P_p_compiling; P_zero_equals; P_emit; P_flush_output; P_parse_word; P_token_empty;
   P_compile_token; P_interpret_token; P_check_stacks; P_clear_stacks; P_error; P_within; P_dot_token; P_dot_error;
   P_p_source_id; P_dup; P_p_drop; P_fetch; P_dot_r; P_dot_source_path; P_dot_source_line; P_dot_backtrace; P_clear_error;
   P_activate; P_pause; P_handler_store].
(** The numbers of these words and of those defined in Forth: EVALUATE-INPUT, QUIT, (ABORT), SPACE, the variable
    LOAD-LINE#, NOD, HALT and COLD; and of any other words that are to stay as they are *)
Record names := mkNames { ix : prim -> Z; n_eval : Z; n_quit : Z; n_abort : Z; n_space : Z; n_line : Z; n_nod : Z; n_halt : Z; n_cold : Z;
  n_others : list Z }.
Definition numbers (n : names) : list Z :=
  [n_eval n; n_quit n; n_abort n; n_space n; n_line n; n_nod n; n_halt n; n_cold n] ++ map (ix n) shell_prims ++ n_others n.

Section Text.
Variable n : names.
Definition op (p : prim) : prog := Op (ix n p).
(* ." S" *)
Definition says (s : bytes) : prog := block [Str s; op P_p_type].
(* : evaluate-input begin parse-word token-empty? not while
     compiling? if compile-token ?stacks else interpret-token ?stacks then repeat ; *)
Definition d_evaluate : prog :=
  While (block [op P_parse_word; op P_token_empty; op P_zero_equals])
    (block [op P_p_compiling;
            IfElse (block [op P_compile_token; op P_check_stacks]) (block [op P_interpret_token; op P_check_stacks])]).
(* begin receive ."  " evaluate-input compiling? not if ."  ok" then 13 emit flush-output again *)
Definition turn : prog :=
  block [op P_receive; says (b " "); Op (n_eval n); op P_p_compiling; op P_zero_equals; IfThen (says (b " ok"));
         Num 13; op P_emit; op P_flush_output].
(* : quit reset begin ... again ; *)
Definition d_quit : prog := block [op P_reset; Again turn].
(* .token space .error source-id dup if dup ."  (" .source-path ." :" load-line# @ 0 .r ." : " .source-line ." )"
   else drop then ." , " .backtrace 13 emit *)
Definition d_report : prog :=
  block [op P_dot_token; Op (n_space n); op P_dot_error; op P_p_source_id; op P_dup;
    IfElse (block [op P_dup; says (b " ("); op P_dot_source_path; says (b ":"); Op (n_line n); op P_fetch; Num 0; op P_dot_r;
                   says (b ": "); op P_dot_source_line; says (b ")")])
           (op P_p_drop);
    says (b ", "); op P_dot_backtrace; Num 13; op P_emit].
(* : (abort) 0stacks error -2 1 within not if ... then flush-output 0error quit ; *)
Definition d_abort : prog :=
  block [op P_clear_stacks; op P_error; Num (-2); Num 1; op P_within; op P_zero_equals; IfThen d_report;
         op P_flush_output; op P_clear_error; Op (n_quit n)].
(* : nod begin pause again ; *)
Definition d_nod : prog := Again (op P_pause).
(* : halt activate nod ; *)
Definition d_halt : prog := block [op P_activate; Op (n_nod n)].
(* : cold 2 halt 3 halt 4 halt 5 halt ['] (abort) handler! evaluate-input quit ; *)
Definition d_cold : prog :=
  block [Num 2; Op (n_halt n); Num 3; Op (n_halt n); Num 4; Op (n_halt n); Num 5; Op (n_halt n);
         Num (n_abort n); op P_handler_store; Op (n_eval n); Op (n_quit n)].
End Text.

Section V.
Context {E : Env}.

(** [v] has the words of the terminal program, with their code in [K] *)
Definition shell (K : Z -> Prop) (n : names) (v : vm) : Prop :=
  (forall p, In p shell_prims -> word_is v (ix n p) p) /\
  colon_word K v (n_eval n) (d_evaluate n) (ix n P_exit) /\ colon_word K v (n_quit n) (d_quit n) (ix n P_exit) /\
  colon_word K v (n_abort n) (d_abort n) (ix n P_exit) /\ colon_word K v (n_space n) (d_space (ix n)) (ix n P_exit) /\
  colon_word K v (n_nod n) (d_nod n) (ix n P_exit) /\ colon_word K v (n_halt n) (d_halt n) (ix n P_exit) /\
  colon_word K v (n_cold n) (d_cold n) (ix n P_exit) /\
  word_is v (n_line n) P_p_var /\ n_abort n < 2 ^ 63.

(** From [v] to [v'] the words of the terminal program and their code stay as they are *)
Definition intact (K : Z -> Prop) (n : names) (v v' : vm) : Prop :=
  kept K v v' /\ forall i, In i (numbers n) -> 0 <= i < words v -> i < words v' /\ word_of v' i = word_of v i.

(** ** The prompt *)

(** Between the words of a line of the source [s]: the check of the stacks finds nothing, there is room for the two cells
    that the prompt uses itself, the input buffer of the terminal is there, and the input comes from [s] *)
Definition steady_on (s : Z) (v : vm) : Prop :=
  quiet 0 P_check_stacks v v /\ (exists d, stack_has (t_s (cur v)) d /\ zlen d <= 62) /\
  t_inbuf (cur v) <> None /\ st_sid (st v) = s.
(** The source 0 is the terminal *)
Notation steady := (steady_on 0).
(** The address of the loop of QUIT, where it waits for a line *)
Definition prompt_addr (n : names) (v : vm) : Z := w_dfa (word_of v (n_quit n)) + 8.
(** At the prompt: steady, and nothing on the return stack *)
Definition at_prompt (K : Z -> Prop) (n : names) (v : vm) : Prop :=
  shell K n v /\ steady v /\ stack_has (t_r (cur v)) [].

(** ** What a line does *)

(** [v] after [x] has been pushed and dropped again: it remains in the cell above the stack *)
Definition shown (x : Z) (v : vm) : vm := drop_s 1 (add_s x v).
Definition flag_of (c : bool) : Z := if c then -1 else 0.
(** [v] after the string [s], whose characters are at [a], has been pushed and printed *)
Definition put (s : bytes) (v : vm) : vm := match v_out v with Some o => set_v_out (Some (o ++ s)) v | None => v end.
Definition spoken (a : Z) (s : bytes) (v : vm) : vm := put s (drop_s 2 (add_s (zlen s) (add_s a v))).

(** The address of the call of INTERPRET-TOKEN or COMPILE-TOKEN in EVALUATE-INPUT, and the state in which that word looks
    at the token just read *)
Definition token_addr (n : names) (v : vm) : Z :=
  w_dfa (word_of v (n_eval n)) + (if st_compiling (st v) then 64 else 96).
Definition token_word (v : vm) : prim := if st_compiling (st v) then P_compile_token else P_interpret_token.
Definition dispatched (n : names) (v : vm) : vm := set_ip (token_addr n v + 8) (set_wp (ix n (token_word v)) v).
(** EVALUATE-INPUT has looked at the compilation state *)
Definition noted (v : vm) : vm := shown (flag_of (st_compiling (st v))) v.

(** The interpreter executes word [i] when it meets it (it does not compile or refuse it) *)
Definition executes (v : vm) (i : Z) : Prop := if st_compiling (st v) then w_imm (word_of v i) = true else w_co (word_of v i) = false.

(** The token [t], just read, takes [v] to [v2]: its meaning (see C38) and the code that it may have started bring control
    back to EVALUATE-INPUT, with the return stack and the terminal program as before *)
Definition acts (K : Z -> Prop) (n : names) (fuel : nat) (t : bytes) (v v2 : vm) : Prop :=
  intact K n v v2 /\ (forall rs, stack_has (t_r (cur v)) rs -> stack_has (t_r (cur v2)) rs) /\
  exists u, performs fuel t (dispatched n v) u /\ goes u (st_ip (st u)) v2 (token_addr n v + 8).

(** [obeyed_on s v ts v']: EVALUATE-INPUT reads the tokens [ts] from the source [s], each acts without raising an exception
    and leaves the stacks in order, and they take [v] to [v'] *)
Inductive obeyed_on (s : Z) (K : Z -> Prop) (n : names) : vm -> list bytes -> vm -> Prop :=
| Oy_none v : steady_on s v -> obeyed_on s K n v [] v
| Oy_word v t v1 fuel v2 ts v' :
    steady_on s v -> reads v t v1 -> t <> [] -> at_token fuel v1 t -> acts K n fuel t (noted v1) v2 ->
    obeyed_on s K n v2 ts v' -> obeyed_on s K n v (t :: ts) v'.
Notation obeyed := (obeyed_on 0).
(** [obeys_on s v ts v']: these are all tokens of the input *)
Definition obeys_on (s : Z) (K : Z -> Prop) (n : names) (v : vm) (ts : list bytes) (v' : vm) : Prop :=
  exists v0 v1, obeyed_on s K n v ts v0 /\ reads v0 [] v1 /\ v' = shown 0 v1.
Notation obeys := (obeys_on 0).

(** The terminal has answered [r]: a line becomes the input; a failure is reported, and the input stays as it is *)
Definition taken (o : os) (r : received) (v : vm) : vm :=
  match r with
  | Line s => upd_cur (set_t_inbuf (Some s)) (set_idx 0 (set_v_os o v))
  | Failed => put (b "Other") (set_v_os o v)
  | Eof => set_v_os o v
  end.
(** ... and the prompt has printed a blank *)
Definition entered (n : names) (o : os) (r : received) (v : vm) : vm := spoken (prompt_addr n v + 24) (b " ") (taken o r v).
(** The address behind the call of EVALUATE-INPUT in QUIT *)
Definition after_line (n : names) (v : vm) : Z := round8 (prompt_addr n v + 25) + 16.
(** The output goes to the terminal, with a line feed, unless there is none *)
Definition flushed (v : vm) : vm :=
  match v_out v with
  | Some (c :: r) => set_v_out (Some []) (set_v_stdout (v_stdout v ++ (c :: r) ++ [10]) v)
  | _ => v
  end.
(** The end of a turn: ok unless a definition is open, a carriage return, and the output is shown *)
Definition closed (n : names) (v : vm) : vm :=
  let u := shown (flag_of (negb (st_compiling (st v)))) v in
  let u := if st_compiling (st v) then u else spoken (after_line n v + 48) (b " ok") u in
  flushed (put [13] (shown 13 u)).

(** A session: the lines [ss] are typed in one after the other, and each is obeyed *)
Inductive session (K : Z -> Prop) (n : names) : vm -> list bytes -> vm -> Prop :=
| Se_none v : session K n v [] v
| Se_line v o s ts v1 ss v' : os_receive (v_os v) = (o, Line s) ->
    obeys K n (add_r (after_line n v) (entered n o (Line s) v)) ts v1 -> session K n (closed n (drop_r 1 v1)) ss v' ->
    session K n v (s :: ss) v'.
(** The input has been read to its end *)
Definition used_up (v : vm) : Prop := exists s, t_inbuf (cur v) = Some s /\ zlen s <= st_idx (st v).

(** ** Exceptions *)

(** The words being executed, for the return stack [rs] *)
Definition trace_text (n : names) (v : vm) (rs : list Z) (text : bytes) : Prop :=
  exists ts nm z t, Forall2 (fun x t => exists a, addr_of x a /\ location v a t) (rev rs) ts /\
    (st_awp (st v) = 0 /\ nm = [] \/ st_awp (st v) <> 0 /\ exists n', named v (st_awp (st v)) n' /\ nm = n' ++ [32]) /\
    own_code v (n_abort n) (d_abort n) (ix n P_exit) z /\ location v z t /\
    text = b "backtrace: " ++ List.concat ts ++ nm ++ t.

(** What is printed about the exception [e]: nothing for 0, -1 and -2 *)
Inductive report (n : names) (v : vm) (rs : list Z) (e : Z) : bytes -> Prop :=
| Rep_none : -2 <= e < 1 -> report n v rs e []
| Rep_some tok t : ~ -2 <= e < 1 -> v_tkn v = Some tok -> trace_text n v rs t ->
    report n v rs e (tok ++ [32] ++ description e ++ b ", " ++ t ++ [13]).

(** From [v] to [v'] the message is shown, the stacks of the task are emptied, and the interpreter waits for a line;
    nothing else changes *)
Definition recovered (v : vm) (text : bytes) (v' : vm) : Prop :=
  stack_has (t_s (cur v')) [] /\ fresh_stack (t_f (cur v)) (t_f (cur v')) /\
  fresh_stack (t_c (cur v)) (t_c (cur v')) /\ fresh_stack (t_r (cur v)) (t_r (cur v')) /\
  v_err v' = None /\ st_compiling (st v') = false /\ st_sid (st v') = 0 /\ st_idx (st v') = 0 /\ t_inbuf (cur v') = Some [] /\
  v_out v' = Some [] /\ v_stdout v' = v_stdout v ++ text /\
  v_cur v' = v_cur v /\ v_handler v' = v_handler v /\ v_wl v' = v_wl v /\ v_ds v' = v_ds v /\ v_tkn v' = v_tkn v /\
  v_hld v' = v_hld v /\ v_refs v' = v_refs v /\ v_now v' = v_now v /\ v_fwd v' = v_fwd v /\ v_res v' = v_res v /\ v_labels v' = v_labels v /\
  v_os v' = v_os v /\ v_stderr v' = v_stderr v /\ same_other_tasks v v' /\
  t_awake (cur v') = t_awake (cur v) /\ t_files (cur v') = t_files (cur v) /\ t_sources (cur v') = t_sources (cur v) /\
  t_lines (cur v') = t_lines (cur v).
(** Output [o] shown with a line feed, if there is any *)
Definition shown_line (o : bytes) : bytes := match o with [] => [] | _ => o ++ [10] end.

(** A state in which the handler of the terminal program can do its work: it has been given control by an exception [e],
    the input is a line typed in, there is an output buffer, holding [o], and the return stack [rs] has room *)
Definition recoverable (K : Z -> Prop) (n : names) (e : Z) (rs : list Z) (o : bytes) (x : vm) : Prop :=
  shell K n x /\ dict_ok x /\ v_handler x = n_abort n /\ (exists y, raised e y x) /\ v_tkn x <> None /\ v_out x = Some o /\
  st_sid (st x) = 0 /\ t_inbuf (cur x) <> None /\ stack_has (t_r (cur x)) rs /\ zlen rs <= 240 /\
  0 <= st_awp (st x) < words x /\ 0 <= st_ip (st x) < 2 ^ 63.
(** What leads to a state in [P] gives control to the handler, in the state [x] *)
Definition hands_over (P : vm -> Prop) (x : vm) : Prop :=
  exists f, forall u, execute_word (S f) (v_handler x) x = Ok (tt, u) -> P u.
(** The code at [a] runs until one of its words gives control to the handler *)
Definition breaks (v : vm) (a : Z) (x : vm) : Prop :=
  exists v' b, goes v a v' b /\ forall w, continues v' b w -> running w = Ok (true, w) /\ hands_over (fun u => exists fuel, run_step fuel w = Ok (tt, u)) x.
(** The token [t], just read, ends in an exception: [x] is the state in which the handler is given control.  The meaning of
    the token itself raises it, or the code that the token has started, or the check of the stacks after the token. *)
Inductive fails (K : Z -> Prop) (n : names) (fuel : nat) (t : bytes) (v x : vm) : Prop :=
| F_token : hands_over (performs fuel t (dispatched n v)) x -> fails K n fuel t v x
| F_code u : performs fuel t (dispatched n v) u -> breaks u (st_ip (st u)) x -> fails K n fuel t v x
| F_stacks v2 : acts K n fuel t v v2 ->
    (forall ew, exec_prim 0 ew P_check_stacks (set_ip (token_addr n v + 16) (set_wp (ix n P_check_stacks) v2)) = ew (v_handler x) x) ->
    fails K n fuel t v x.

End V.
Notation steady := (steady_on 0).
Notation obeyed := (obeyed_on 0).
Notation obeys := (obeys_on 0).
