(** System words: status, settings, listings, execution times, and the words that take a name from the input: C75 - C80. *)
From Coq Require Import ZArith List Bool Lia String.
From Verif Require Import Base Stack Mem Parser Flt State CoreM Exec Boot Std.
From Verif Require Import Spec Spec2 Spec4 Spec5 Spec6 Spec9 Spec10 Spec11 Spec12 Spec14 Spec15 Spec16 Spec24 LSys LSys2 LName Ex6 Ex9 Ex10 Ex18.
Import ListNotations.
Open Scope list_scope.
Open Scope Z_scope.

(** * C75: words that report or change the state of the interpreter *)

(** compiling? answers whether the interpreter is compiling *)
Theorem C75_compiling {E : Env} : forall v, 
  reports P_p_compiling v (fun x => truth x (st_compiling (st v) = true)).
Proof. exact compiling_reports. Qed.
Print Assumptions C75_compiling.

(** token-empty? answers whether the current token is empty *)
Theorem C75_token_empty {E : Env} : forall v, 
  reports P_token_empty v (fun x => truth x (v_tkn v = None \/ v_tkn v = Some [])).
Proof. exact token_empty_reports. Qed.
Print Assumptions C75_token_empty.

(** error pushes the pending exception, 0 if there is none *)
Theorem C75_error {E : Env} : forall v, 
  reports P_error v (fun x => v_err v = Some x \/ (v_err v = None /\ x = 0)).
Proof. exact error_reports. Qed.
Print Assumptions C75_error.

(** max-n is the greatest cell *)
Theorem C75_max_n {E : Env} : forall v, 
  reports P_max_n v (fun x => is_cell x /\ forall y, is_cell y -> y <= x).
Proof. exact max_n_reports. Qed.
Print Assumptions C75_max_n.

(** max-u is the cell with all bits set *)
Theorem C75_max_u {E : Env} : forall v, 
  reports P_max_u v (bits_are (fun _ => true)).
Proof. exact max_u_reports. Qed.
Print Assumptions C75_max_u.

(** mtime and utime are the milliseconds and microseconds of the clock, modulo 2^64 *)
Theorem C75_mtime {E : Env} : forall v, 
  reports P_mtime v (fun x => exists ms, ms * 1000000 <= v_now v < (ms + 1) * 1000000 /\ wraps_to ms x).
Proof. exact mtime_reports. Qed.
Print Assumptions C75_mtime.

Theorem C75_utime {E : Env} : forall v, 
  reports P_utime v (fun x => exists us, us * 1000 <= v_now v < (us + 1) * 1000 /\ wraps_to us x).
Proof. exact utime_reports. Qed.
Print Assumptions C75_utime.

(** base is the address of the cell that holds the number base *)
Theorem C75_base {E : Env} : forall v, 
  ds_ok (v_ds v) -> 16 <= limit (v_ds v) - start (v_ds v) -> reports P_base v (fun x => exists a, addr_of x a /\
  start (v_ds v) < a /\ a + 8 <= limit (v_ds v) /\
  forall u n, start (v_ds u) = start (v_ds v) -> limit (v_ds u) = limit (v_ds v) -> is_cell n -> cell_at (v_ds u) a n -> base_is u n).
Proof. exact base_reports. Qed.
Print Assumptions C75_base.

(** handler! takes the execution token of the exception handler, and only sets the handler *)
Theorem C75_handler {E : Env} : forall fuel v x l, 
  stack_has (t_s (cur v)) (x :: l) ->
  exists v1, only_data_stack v v1 /\ stack_has (t_s (cur v1)) l /\ exists h, addr_of x h /\ quiet fuel P_handler_store v (set_v_handler h v1).
Proof. exact handler_sets. Qed.
Print Assumptions C75_handler.

(** 0error only forgets the pending exception *)
Theorem C75_clear_error {E : Env} : forall fuel v, 
  quiet fuel P_clear_error v (set_v_err None v).
Proof. exact clear_error_sets. Qed.
Print Assumptions C75_clear_error.

(** 0labels only forgets the labels *)
Theorem C75_clear_labels {E : Env} : forall fuel v, 
  quiet fuel P_imm_clear_labels v (set_v_res [] (set_v_fwd [] v)).
Proof. exact clear_labels_sets. Qed.
Print Assumptions C75_clear_labels.

(** 0stacks empties the data, the float and the control stack, and nothing else *)
Theorem C75_clear_stacks {E : Env} : forall fuel v, 
  exists s f c, fresh_stack (t_s (cur v)) s /\ fresh_stack (t_f (cur v)) f /\ fresh_stack (t_c (cur v)) c /\
  quiet fuel P_clear_stacks v (set_c c (set_f f (set_s s v))).
Proof. exact clear_stacks_sets. Qed.
Print Assumptions C75_clear_stacks.

(** flush-output moves the buffered output and a line end to the standard output, flush-to-err to the standard error *)
Theorem C75_flush_output {E : Env} : forall fuel v, 
  quiet fuel P_flush_output v
  (match v_out v with Some (c :: s) => set_v_out (Some []) (set_v_stdout (v_stdout v ++ (c :: s) ++ [10]) v) | _ => v end).
Proof. exact flush_sets. Qed.
Print Assumptions C75_flush_output.

Theorem C75_flush_to_err {E : Env} : forall fuel v, 
  quiet fuel P_flush_to_err v
  (match v_out v with Some s => set_v_out (Some []) (set_v_stderr (v_stderr v ++ s ++ [10]) v) | None => v end).
Proof. exact flush_err_sets. Qed.
Print Assumptions C75_flush_to_err.

(** to-name takes an execution token to the address of the word's name, and rejects anything else *)
Theorem C75_name {E : Env} : forall fuel v x i l, 
  dict_ok v -> stack_has (t_s (cur v)) (x :: l) -> addr_of x i -> i < words v ->
  exists v' y, quiet fuel P_to_name v v' /\ addr_of y (w_nfa (word_of v i)) /\ stack_has (t_s (cur v')) (y :: l) /\ only_data_stack v v'.
Proof. exact to_name_ok. Qed.
Print Assumptions C75_name.

Theorem C75_name_bad {E : Env} : forall fuel v x i l, 
  stack_has (t_s (cur v)) (x :: l) -> addr_of x i -> words v <= i -> raises fuel (-24) P_to_name v.
Proof. exact to_name_bad. Qed.
Print Assumptions C75_name_bad.

(** !token stores the current token as a counted string and makes it empty *)
Theorem C75_store_token {E : Env} : forall fuel v x a l t, 
  ds_ok (v_ds v) -> stack_has (t_s (cur v)) (x :: l) -> addr_of x a -> v_tkn v = Some t ->
  start (v_ds v) <= a -> a + Z.min (zlen t) 255 + 8 <= limit (v_ds v) ->
  exists v1 d', quiet fuel P_store_token v (set_v_tkn (Some []) (set_v_ds d' v1)) /\ only_data_stack v v1 /\ stack_has (t_s (cur v1)) l /\ counted (v_ds v) a t d'.
Proof. exact store_token_ok. Qed.
Print Assumptions C75_store_token.

(** below the data space it raises the invalid address exception *)
Theorem C75_store_token_low {E : Env} : forall fuel v x a l, 
  stack_has (t_s (cur v)) (x :: l) -> addr_of x a -> a < start (v_ds v) -> raises fuel (-9) P_store_token v.
Proof. exact store_token_low. Qed.
Print Assumptions C75_store_token_low.

Example C75_case :
  ends "compiling? error max-n" [9223372036854775807; 0; 0] None [] /\
  ends ": t [ compiling? ] ; immediate token-empty?" [0; 0] None [] /\ ends "1 2 0stacks 3" [3] None [].
Proof. exact status_lines. Qed.

(** * C76: printed numbers and listings *)

(** .R writes a number in the current base without superfluous zeros, signed in decimal and as bits otherwise, right-aligned in a field *)
Theorem C76_dot_r {E : Env} : forall fuel v b n w l o, 
  In b [2; 8; 10; 16] -> base_is v b -> is_cell n -> - 2 ^ 63 + 65 <= w < 2 ^ 63 ->
  v_out v = Some o -> stack_has (t_s (cur v)) (w :: n :: l) ->
  exists t v1 v', written b n t /\ quiet fuel P_dot_r v v' /\ only_data_stack v v1 /\ stack_has (t_s (cur v1)) l /\
    v' = set_v_out (Some (o ++ repeat 32 (Z.to_nat (w - zlen t)) ++ t)) (set_v_hld t v1).
Proof. exact dot_r_written. Qed.
Print Assumptions C76_dot_r.

(** F.R prints the platform's representation of the float with the given number of digits, right-aligned *)
Theorem C76_fdot_r {E : Env} : forall fuel v n w l r fs o, 
  v_out v = Some o -> stack_has (t_s (cur v)) (n :: w :: l) -> stack_has (t_f (cur v)) (r :: fs) ->
  let t := fmt_f64 (if (0 <=? n) && (n <=? 16) then n else 17) r in is_cell (w - zlen t) ->
  exists v1 v', quiet fuel P_fdot_r v v' /\ only_data_float v v1 /\ stack_has (t_s (cur v1)) l /\ stack_has (t_f (cur v1)) fs /\
    v' = set_v_out (Some (o ++ repeat 32 (Z.to_nat (w - zlen t)) ++ t)) (set_v_hld t v1).
Proof. exact fdot_r_ok. Qed.
Print Assumptions C76_fdot_r.

(** WORDS prints the names of all words, newest first *)
Theorem C76_words {E : Env} : forall v, 
  dict_ok v -> exists l, names_below v (Z.to_nat (words v)) l /\ prints P_words v (spaced l).
Proof. exact words_prints. Qed.
Print Assumptions C76_words.

(** .S prints the data stack from the bottom in decimal, then the float stack *)
Theorem C76_dot_s {E : Env} : forall v d f, 
  stack_has (t_s (cur v)) d -> stack_has (t_f (cur v)) f -> Forall is_cell d ->
  exists ts, Forall2 decimal_of (rev d) ts /\
    prints P_dot_s v (spaced ts ++ (if (0 <? zlen d) && (0 <? zlen f) then [32] else []) ++
                      (if 0 <? zlen f then b "F: " ++ spaced (map (fmt_f64 7) (rev f)) else [])).
Proof. exact dot_s_ok. Qed.
Print Assumptions C76_dot_s.

(** .memory prints capacity, use, limits and the end of the data space *)
Theorem C76_dot_memory {E : Env} : forall v, 
  ds_ok (v_ds v) -> exists cap used st lim he,
  decimal_of (limit (v_ds v) - start (v_ds v)) cap /\ decimal_of (here (v_ds v) - start (v_ds v)) used /\
  unsigned_in 16 (start (v_ds v)) st /\ unsigned_in 16 (limit (v_ds v)) lim /\ unsigned_in 16 (here (v_ds v)) he /\
  prints P_dot_memory v (b "data space capacity: " ++ cap ++ b ", used: " ++ used ++ b ", start: 0x" ++ st ++ b ", limit: 0x" ++ lim ++ b ", here: 0x" ++ he ++ [10]).
Proof. exact dot_memory_ok. Qed.
Print Assumptions C76_dot_memory.

(** .backtrace prints the words in which the addresses on the return stack, from the bottom, and the instruction pointer lie *)
Theorem C76_dot_backtrace {E : Env} : forall v rs o, 
  dict_ok v -> v_out v = Some o -> stack_has (t_r (cur v)) rs -> 0 <= st_awp (st v) < words v -> 0 <= st_ip (st v) < 2 ^ 64 ->
  exists ts n t, Forall2 (fun x t => exists a, addr_of x a /\ location v a t) (rev rs) ts /\
    (st_awp (st v) = 0 /\ n = [] \/ st_awp (st v) <> 0 /\ exists n', named v (st_awp (st v)) n' /\ n = n' ++ [32]) /\
    location v (st_ip (st v)) t /\
    prints P_dot_backtrace v (b "backtrace: " ++ List.concat ts ++ n ++ t).
Proof. exact dot_backtrace_ok. Qed.
Print Assumptions C76_dot_backtrace.

(** .token prints the current token *)
Theorem C76_dot_token {E : Env} : forall v t, 
  v_tkn v = Some t -> prints P_dot_token v t.
Proof. exact dot_token_prints. Qed.
Print Assumptions C76_dot_token.

(** .input prints the text of the current input source *)
Theorem C76_dot_input {E : Env} : forall v buf, 
  input_text v buf -> prints P_dot_input v buf.
Proof. exact dot_input_prints. Qed.
Print Assumptions C76_dot_input.

(** .word prints the name of the word with the given execution token *)
Theorem C76_dot_word {E : Env} : forall fuel v o x l i n, 
  dict_ok v -> v_out v = Some o -> stack_has (t_s (cur v)) (x :: l) -> addr_of x i ->
  (i < words v /\ named v i n \/ words v <= i /\ n = b "unknown") ->
  exists v1 v', quiet fuel P_dot_word v v' /\ only_data_stack v v1 /\ stack_has (t_s (cur v1)) l /\ printed v1 (n ++ [32]) v'.
Proof. exact dot_word_ok. Qed.
Print Assumptions C76_dot_word.

(** .word takes its argument from the stack: false without an output buffer, the word then does nothing at all *)
Theorem C76_dot_word_refuted : exists (v : @vm env_d) x, v_out v = None /\ stack_has (t_s (cur v)) [x] /\ forall fuel, quiet fuel P_dot_word v v.
Proof. exact dot_word_idle. Qed.
Print Assumptions C76_dot_word_refuted.

Example C76_case : ends "-7 5 .r 255 16 base ! 4 .r -1 1 .r" [] None (b "   -7  FFFFFFFFFFFFFFFFFF") /\ ends "2 1 ' + .word .s" [1; 2] None (b "+ 2 1 ").
Proof. exact number_lines. Qed.
Example C76_dict : @dict_ok env_d booted_d. Proof. exact booted_dict. Qed.

(** * C77: the table of execution times *)

(** (xtime) enters the time since t0 into the times of the word: the smallest one, 0 meaning none, and the greatest one *)
Theorem C77_set {E : Env} : forall fuel v xt t0 l, 
  stack_has (t_s (cur v)) (xt :: t0 :: l) -> 0 <= xt < words v -> words v < 2 ^ 63 -> 0 <= t0 <= v_now v / 1000 -> v_now v < 2 ^ 63 ->
  let t := v_now v / 1000 - t0 in let lo := w_mint (word_of v xt) in
  exists v1 v', quiet fuel P_set_execution_times v v' /\ only_data_stack v v1 /\ stack_has (t_s (cur v1)) l /\
    retimed v1 (fun j => if j =? xt then (if lo =? 0 then t else Z.min lo t) else w_mint (word_of v j))
               (fun j => if j =? xt then Z.max (w_maxt (word_of v xt)) t else w_maxt (word_of v j)) v'.
Proof. exact set_times_ok. Qed.
Print Assumptions C77_set.

(** .xtime prints the times of all words that have been measured *)
Theorem C77_list {E : Env} : forall v, 
  dict_ok v -> (forall i, 0 <= i < words v -> w_mint (word_of v i) < 2 ^ 64 /\ 0 <= w_maxt (word_of v i) < 2 ^ 64) ->
  exists l, times_below v (Z.to_nat (words v)) l /\ prints P_dot_xtime v (barred l).
Proof. exact dot_xtime_ok. Qed.
Print Assumptions C77_list.

(** 0xtime forgets the times of all words *)
Theorem C77_clear {E : Env} : forall fuel v, 
  1 <= words v -> (forall i, 0 <= i < words v -> 0 <= w_mint (word_of v i)) ->
  exists v', quiet fuel P_clear_xtime v v' /\
    retimed v (fun j => if j =? 0 then w_mint (word_of v 0) else 0) (fun j => if (j =? 0) || (w_mint (word_of v j) =? 0) then w_maxt (word_of v j) else 0) v'.
Proof. exact clear_xtime_ok. Qed.
Print Assumptions C77_clear.

(** The recorded minimum is the smallest time measured: false, a measured time of 0 is forgotten by the next measurement *)
Theorem C77_minimum_refuted : exists v v1 v2 : @vm env_d, exists xt,
  v_now v / 1000 = 1000 /\ stack_has (t_s (cur v)) [xt; 1000; xt; 1000] /\ w_mint (word_of v xt) = 0 /\ w_maxt (word_of v xt) = 0 /\
  quiet 0 P_set_execution_times v v1 /\ quiet 0 P_set_execution_times (set_v_now 1005000 v1) v2 /\
  w_mint (word_of v2 xt) = 5 /\ w_maxt (word_of v2 xt) = 5.
Proof. exact minimum_lost. Qed.
Print Assumptions C77_minimum_refuted.
Example C77_case : @dict_ok env_d booted_d /\
  forall i, 0 <= i < @words env_d booted_d -> w_mint (@word_of env_d booted_d i) < 2 ^ 64 /\ 0 <= w_maxt (@word_of env_d booted_d i) < 2 ^ 64.
Proof. exact (conj booted_dict mint_ok). Qed.

(** * C78: the words that take a name from the input *)

(** ' pushes the execution token of the newest visible word with that name *)
Theorem C78_tick {E : Env} : forall fuel v t i l, 
  next_is v t -> dict_ok v -> words v < Z.of_nat fuel -> words v <= 2 ^ 63 -> newest v t (Some i) ->
  stack_has (t_s (cur v)) l -> zlen l < 255 ->
  exists n v1 v', token_read v t n v1 /\ quiet fuel P_tick v v' /\ stack_has (t_s (cur v')) (i :: l) /\ only_data_stack v1 v'.
Proof. exact tick_ok. Qed.
Print Assumptions C78_tick.

(** ['] compiles it as a number *)
Theorem C78_bracket_tick {E : Env} : forall fuel v t i l k, 
  next_is v t -> dict_ok v -> words v < Z.of_nat fuel -> newest v t (Some i) ->
  can_compile l k v -> here (v_ds v) + 16 <= limit (v_ds v) ->
  exists n v1 v', token_read v t n v1 /\ quiet fuel P_bracket_tick v v' /\ compiled (Num i) v1 v' /\ v_tkn v' = Some t.
Proof. exact bracket_tick_ok. Qed.
Print Assumptions C78_bracket_tick.

(** a name that is not defined raises the undefined word exception *)
Theorem C78_unknown {E : Env} : forall fuel p v t, 
  In p [P_tick; P_bracket_tick; P_postpone] -> next_is v t -> dict_ok v -> words v < Z.of_nat fuel -> newest v t None ->
  raises fuel (-13) p v.
Proof. exact unknown_raises. Qed.
Print Assumptions C78_unknown.

(** CHAR pushes the code of the first character of the next word *)
Theorem C78_char {E : Env} : forall fuel v t c cs l, 
  next_is v t -> utf8_text t (c :: cs) -> stack_has (t_s (cur v)) l -> zlen l < 255 ->
  exists n v1 v', token_read v t n v1 /\ quiet fuel P_char v v' /\ stack_has (t_s (cur v')) (c :: l) /\ only_data_stack v1 v'.
Proof. exact char_ok. Qed.
Print Assumptions C78_char.

(** [CHAR] compiles it as a number *)
Theorem C78_bracket_char {E : Env} : forall fuel v t c cs l k d, 
  next_is v t -> utf8_text t (c :: cs) -> v_err v = None -> stack_has (t_s (cur v)) d -> zlen d < 255 ->
  can_compile l k v -> here (v_ds v) + 16 <= limit (v_ds v) ->
  exists n v1 v2 v', token_read v t n v1 /\ quiet fuel P_bracket_char v v' /\ only_data_stack1 v1 v2 /\ compiled (Num c) v2 v' /\ v_tkn v' = Some t /\
    stack_has (t_s (cur v')) d.
Proof. exact bracket_char_ok. Qed.
Print Assumptions C78_bracket_char.

Local Existing Instance env_d.
Example C78_case : let v := nm (b "dup") in next_is v (b "dup") /\ dict_ok v /\ words v < Z.of_nat 400 /\
  newest v (b "dup") (Some dup_ix) /\ can_compile false 64 v /\ here (v_ds v) + 500 <= limit (v_ds v) /\
  word_is v (idx__postpone (v_refs v)) P__postpone /\ word_is v (idx__does (v_refs v)) P__does /\
  utf8_text (b "dup") [100; 117; 112] /\ v_err v = None /\ stack_has (t_s (cur v)) [].
Proof. exact nm_ready. Qed.
Example C78_case_unknown : next_is (nm (b "nosuch")) (b "nosuch") /\ newest (nm (b "nosuch")) (b "nosuch") None.
Proof. exact nm_unknown. Qed.
Example C78_lines : ends "char A ' dup >name @ : t [char] B ['] drop ; t" [27; 66; 3; 65] None [] /\
  ends ": t postpone over ; immediate : u t ; 5 6 u" [5; 6; 5] None [] /\ ends ": dw create , does> @ 1 + ; 41 dw x x" [42] None [] /\
  ends "2.5e fconstant foo foo foo f+ f>s" [5] None [].
Proof. exact name_lines. Qed.

(** * C79: POSTPONE *)


(** POSTPONE compiles the execution token as a number, followed by a word that *)
Theorem C79_postpone {E : Env} : forall fuel v t i l k, 
  next_is v t -> dict_ok v -> words v < Z.of_nat fuel -> newest v t (Some i) ->
  can_compile l k v -> 0 <= k -> word_is v (idx__postpone (v_refs v)) P__postpone -> here (v_ds v) + 24 <= limit (v_ds v) ->
  exists n v1 v' j, token_read v t n v1 /\ quiet fuel P_postpone v v' /\ word_is v j P__postpone /\ compiled (Seq (Num i) (Op j)) v1 v' /\ v_tkn v' = Some t.
Proof. exact postpone_ok. Qed.
Print Assumptions C79_postpone.

(** when executed, compiles that execution token: what the text interpreter does with a word that is not immediate *)
Theorem C79_postponed {E : Env} : forall fuel v i x l k d, 
  can_compile l k v -> stack_has (t_s (cur v)) (x :: d) -> addr_of x i -> i < words v ->
  w_cs (word_of v i) <> CS_compile_leave -> here (v_ds v) + 8 <= limit (v_ds v) ->
  exists v1 v', quiet fuel P__postpone v v' /\ only_data_stack v v1 /\ stack_has (t_s (cur v')) d /\ compiled (Op i) v1 v'.
Proof. exact postponed_ok. Qed.
Print Assumptions C79_postponed.

(** It also performs the compilation of a word that is immediate: false, the word is not executed but compiled.  [ in a
    definition ends compiling, a postponed [ does not. *)
Theorem C79_immediate_refuted : exists v1 v2 : vm,
  load_str 3000 (b ": u [") booted_d = Ok (tt, v1) /\ v_err v1 = None /\ st_compiling (st v1) = false /\
  load_str 3000 (b ": t postpone [ ; immediate : u t") booted_d = Ok (tt, v2) /\ v_err v2 = None /\ st_compiling (st v2) = true.
Proof. exact postponed_immediate. Qed.
Print Assumptions C79_immediate_refuted.

(** * C80: float constants, and the code of DOES> *)


(** FCONSTANT takes a name from the input and a float, and makes a float constant *)
Theorem C80_fconstant {E : Env} : forall fuel v t x l, 
  next_is v t -> dict_ok v -> words v < Z.of_nat fuel -> room_for v t 8 ->
  stack_has (t_f (cur v)) (x :: l) ->
  exists v', quiet fuel P_fconstant v v' /\ makes P_p_fconst t v v' /\ stack_has (t_f (cur v')) l /\
    t_s (cur v') = t_s (cur v) /\ t_r (cur v') = t_r (cur v) /\ fconstant_is v' (words v) x /\ here (v_ds v') = body v' (words v) + 8.
Proof. exact fconstant_ok. Qed.
Print Assumptions C80_fconstant.

(** A float constant pushes its value, whatever is defined and whatever happens elsewhere after its definition *)
Theorem C80_fconstant_forever {E : Env} : forall fuel v v' i x, 
  dict_ok v -> fconstant_is v i x -> body v i + 8 <= here (v_ds v) -> 0 <= x < 2 ^ 64 -> history fuel i 8 v v' ->
  fconstant_is v' i x /\ fpushes v' i x.
Proof. exact fconstant_forever. Qed.
Print Assumptions C80_fconstant_forever.

(** DOES> compiles the word that gives the newest word its code (C57), followed by EXIT; the code of the children starts behind *)
Theorem C80_does {E : Env} : forall fuel v d r, 
  ds_ok (v_ds v) -> here (v_ds v) + 16 <= limit (v_ds v) ->
  word_is v (idx__does (v_refs v)) P__does -> word_is v (idx_exit (v_refs v)) P_exit -> words v <= 2 ^ 63 ->
  stack_has (t_s (cur v)) d -> zlen d < 255 -> r = here (v_ds v) ->
  exists i j v', quiet fuel P_does v v' /\ word_is v i P__does /\ word_is v j P_exit /\ cell_at (v_ds v') r i /\ cell_at (v_ds v') (r + 8) j /\
    same_memory_but (v_ds v) (v_ds v') r 16 /\ here (v_ds v') = r + 16 /\ stack_has (t_s (cur v')) d.
Proof. exact does_ok. Qed.
Print Assumptions C80_does.
