(** The inner and the outer interpreter: dispatch of a word's action,
    [execute_word], [run], [forth], [evaluate_input], [load_str]. *)
From Coq Require Import ZArith List Bool String.
From Verif Require Import Base Stack Mem Parser Flt State CoreM IoM FloatM FileM.
Import ListNotations.
Open Scope Z_scope.
Open Scope m_scope.

Section Exec.
Context {E : Env}.

(** Call of a word's [action] (src/core.rs 765): one line per registered function. *)
Definition exec_prim (fuel : nat) (ew : Z -> M unit) (p : prim) : M unit :=
  match p with
  | P_noop => noop
  | P_exit => exit
  | P_lit => lit
  | P_flit => flit
  | P_p_s_quote => p_s_quote
  | P_branch => branch
  | P_zero_branch => zero_branch
  | P__do => _do
  | P__qdo => _qdo
  | P__loop => _loop
  | P__plus_loop => _plus_loop
  | P_unloop => unloop
  | P_leave => leave ew
  | P_p_i => p_i
  | P_p_j => p_j
  | P_p_to_r => p_to_r
  | P_r_from => r_from
  | P_r_fetch => r_fetch
  | P_two_to_r => two_to_r
  | P_two_r_from => two_r_from
  | P_two_r_fetch => two_r_fetch
  | P_compile_comma => comma
  | P__postpone => _postpone ew
  | P__does => _does
  | P_execute => execute ew
  | P_dup => on_s dup_
  | P_p_drop => on_s drop_
  | P_swap => on_s swap_
  | P_over => on_s over_
  | P_nip => on_s nip_
  | P_depth => on_s depth_
  | P_check_stacks => check_stacks ew
  | P_zero_less => on_s zero_less_
  | P_equals => on_s equals_
  | P_less_than => on_s less_than_
  | P_invert => on_s invert_
  | P_and => on_s and_
  | P_or => on_s or_
  | P_xor => on_s xor_
  | P_lshift => on_s lshift_
  | P_rshift => on_s rshift_
  | P_one_plus => on_s one_plus_
  | P_one_minus => on_s one_minus_
  | P_minus => on_s minus_
  | P_plus => on_s plus_
  | P_star => on_s star_
  | P_slash_mod => slash_mod ew
  | P_cell_plus => cell_plus
  | P_cells => cells
  | P_fetch => fetch ew
  | P_store => store ew
  | P_char_plus => char_plus
  | P_here => p_here
  | P_allot => allot
  | P_aligned => aligned
  | P_align => align
  | P_c_fetch => c_fetch ew
  | P_c_store => c_store ew
  | P_p_move => p_move ew
  | P_base => p_base
  | P_immediate => immediate
  | P_compile_only => compile_only
  | P_imm_paren => imm_paren
  | P_imm_backslash => imm_backslash
  | P_left_bracket => left_bracket
  | P_bracket_tick => bracket_tick fuel ew
  | P_bracket_char => bracket_char ew
  | P_semicolon => semicolon ew
  | P_imm_if => imm_if
  | P_imm_else => imm_else ew
  | P_imm_then => imm_then ew
  | P_imm_case => imm_case
  | P_imm_of => imm_of ew
  | P_imm_endof => imm_endof ew
  | P_imm_endcase => imm_endcase fuel ew
  | P_imm_begin => imm_begin
  | P_imm_while => imm_while
  | P_imm_repeat => imm_repeat ew
  | P_imm_until => imm_until ew
  | P_imm_again => imm_again ew
  | P_imm_clear_labels => imm_clear_labels
  | P_imm_label => imm_label fuel ew
  | P_imm_goto => imm_goto ew
  | P_imm_call => imm_call ew
  | P_imm_recurse => imm_recurse
  | P_imm_do => imm_do
  | P_imm_qdo => imm_qdo
  | P_imm_loop => imm_loop ew
  | P_imm_plus_loop => imm_plus_loop ew
  | P_postpone => postpone fuel ew
  | P_does => does
  | P_p_true => p_true
  | P_p_false => p_false
  | P_zero_equals => on_s zero_equals_
  | P_zero_greater => on_s zero_greater_
  | P_zero_not_equals => on_s zero_not_equals_
  | P_greater_than => on_s greater_than_
  | P_not_equals => on_s not_equals_
  | P_within => on_s within_
  | P_rot => on_s rot_
  | P_minus_rot => on_s minus_rot_
  | P_pick => on_s pick_
  | P_two_dup => on_s two_dup_
  | P_two_drop => on_s two_drop_
  | P_two_swap => on_s two_swap_
  | P_two_over => on_s two_over_
  | P_slash => slash ew
  | P_p_mod => p_mod ew
  | P_abs => on_s abs_
  | P_negate => on_s negate_
  | P_parse_word => parse_word
  | P_char => p_char ew
  | P__skip => _skip
  | P_parse => parse
  | P_colon => colon fuel ew
  | P_constant => constant fuel ew
  | P_create => create fuel ew
  | P_tick => tick fuel ew
  | P_to_body => to_body ew
  | P_to_name => to_name ew
  | P_right_bracket => right_bracket
  | P_comma => comma
  | P_marker => marker fuel ew
  | P_handler_store => handler_store
  | P_error => error
  | P_dot_error => dot_error
  | P_clear_error => clear_error
  | P_clear_stacks => clear_stacks
  | P_reset => reset ew
  | P_abort => abort ew
  | P_p_compiling => p_compiling
  | P_token_empty => token_empty
  | P_dot_token => dot_token
  | P_store_token => store_token ew
  | P_compile_token => compile_token fuel ew
  | P_interpret_token => interpret_token fuel ew
  | P_p_source_id => p_source_id
  | P_p_set_source_id => p_set_source_id ew
  | P_p_source_idx => p_source_idx
  | P_p_set_source_idx => p_set_source_idx
  | P_bye => bye
  | P_pause => pause fuel
  | P_activate => activate ew
  | P_me => me
  | P_suspend => suspend ew
  | P_resume => resume ew
  | P_nest => nest
  | P_p_var => p_var
  | P_p_const => p_const
  | P_unmark => unmark
  | P_xdoes => xdoes
  | P_emit => emit
  | P_p_type => p_type ew
  | P_s_quote => s_quote ew
  | P_dot_quote => dot_quote ew
  | P_dot_paren => dot_paren
  | P_dot_r => dot_r ew
  | P_fdot_r => fdot_r
  | P_flush_output => flush_output
  | P_words => words
  | P_dot_word => dot_word
  | P_dot_backtrace => dot_backtrace
  | P_dot_s => dot_s
  | P_dot_memory => dot_memory
  | P_set_execution_times => set_execution_times
  | P_dot_xtime => dot_xtime
  | P_clear_xtime => clear_xtime
  | P_dot_input => dot_input
  | P_flush_to_err => flush_to_err
  | P_max_n => max_n
  | P_max_u => max_u
  | P_mtime => mtime
  | P_utime => utime
  | P_p_fconst => p_fconst
  | P_fconstant => fconstant fuel ew
  | P_float_plus => float_plus
  | P_floats => floats
  | P_faligned => faligned
  | P_falign => falign
  | P_pi => pi
  | P_fstore => fstore ew
  | P_ffetch => ffetch ew
  | P_fabs => fabs
  | P_fsin => fsin
  | P_fcos => fcos
  | P_ftan => ftan
  | P_fsincos => fsincos
  | P_fasin => fasin
  | P_facos => facos
  | P_fatan => fatan
  | P_fatan2 => fatan2
  | P_fsqrt => fsqrt
  | P_fdrop => fdrop
  | P_fdup => fdup
  | P_fswap => fswap
  | P_fnip => fnip
  | P_fover => fover
  | P_frot => frot
  | P_fpick => fpick
  | P_s_to_f => s_to_f
  | P_f_to_s => f_to_s
  | P_fplus => fplus
  | P_fminus => fminus
  | P_fstar => fstar
  | P_fslash => fslash
  | P_fpowf => fpowf
  | P_fproximate => fproximate
  | P_f_zero_less_than => f_zero_less_than
  | P_f_zero_equals => f_zero_equals
  | P_f_less_than => f_less_than
  | P_fmin => fmin
  | P_fmax => fmax
  | P_floor => floor
  | P_fround => fround
  | P_fceil => fceil
  | P_fnegate => fnegate
  | P_from_meter => from_meter
  | P_from_mm => from_mm
  | P_from_um => from_um
  | P_from_deg => from_deg
  | P_from_rad => from_rad
  | P_from_hour => from_hour
  | P_from_minute => from_minute
  | P_from_sec => from_sec
  | P_from_msec => from_msec
  | P_from_usec => from_usec
  | P_mm_per_min => mm_per_min
  | P_mm_per_sec => mm_per_sec
  | P_um_per_msec => um_per_msec
  | P_rpm => rpm
  | P_hertz => hertz
  | P_file_size => file_size
  | P_file_position => file_position
  | P_close_file => close_file
  | P_create_file => create_file
  | P_delete_file => delete_file
  | P_open_file => open_file
  | P_read_file => read_file
  | P_write_file => write_file
  | P_resize_file => resize_file
  | P_reposition_file => reposition_file
  | P_open_source => open_source ew
  | P_close_source => close_source ew
  | P_dot_source_path => dot_source_path ew
  | P_p_load_line => p_load_line ew
  | P_dot_source_line => dot_source_line ew
  | P_receive => receive
  end.

(** src/core.rs 762-769 [execute_word].  [fuel] bounds the nesting of
    [execute_word] calls (a word's action may execute another word) and is
    handed to the data-dependent loops inside primitives. *)
Fixpoint execute_word (fuel : nat) (i : Z) : M unit :=
  match fuel with
  | O => out_of_fuel
  | S f =>
    modify (set_wp i) ;;;
    n <- gets (fun v => wl_len (v_wl v)) ;;
    if i <? n
    then w <- word_at i ;; exec_prim f (execute_word f) (w_action w)
    else abort_with (execute_word f) UNSUPPORTED_OPERATION
  end.

(** The loop condition of [run] (src/core.rs 803-804) *)
Definition running : M bool :=
  i <- get_ip ;;
  d <- gets v_ds ;;
  if start d <=? i then e <- chk_u64 (i + 8) ;; ret (e <=? limit d) else ret false.

(** One iteration of [run] (src/core.rs 806-808) *)
Definition run_step (fuel : nat) : M unit :=
  i <- get_ip ;;
  x <- ds_get (fun d => get_isize d i) ;;
  skip_cell ;;;
  execute_word fuel (to_u64 x).

(** src/core.rs 801-811 [run] *)
Fixpoint run (fuel : nat) : M unit :=
  match fuel with
  | O => out_of_fuel
  | S f =>
    go <- running ;;
    if (go : bool) then run_step f ;;; run f else ret tt
  end.

(** src/core.rs 816-829 [forth] *)
Definition forth (fuel : nat) : M bool :=
  go <- running ;;
  if (go : bool) then run_step fuel ;;; ret true else ret false.

(** One round of [evaluate_input] (src/core.rs 2036-2060): [true] when the loop
    goes on *)
Definition eval_round (fuel : nat) : M bool :=
  parse_word ;;;
  t <- gets v_tkn ;;
  match t with
  | Some [] => ret false
  | _ =>
    k <- is_compiling ;;
    (if (k : bool) then compile_token fuel (execute_word fuel)
     else interpret_token fuel (execute_word fuel)) ;;;
    e <- gets v_err ;;
    match e with
    | Some _ => ret false
    | None =>
      run fuel ;;;
      check_stacks (execute_word fuel) ;;;
      e <- gets v_err ;;
      ret (match e with Some _ => false | None => true end)
    end
  end.

(** src/core.rs 2034-2062 [evaluate_input] *)
Fixpoint evaluate_input (fuel : nat) : M unit :=
  match fuel with
  | O => out_of_fuel
  | S f => c <- eval_round f ;; if (c : bool) then evaluate_input f else ret tt
  end.

(** src/loader.rs 186-193 [load_str] *)
Definition load_str (fuel : nat) (script : bytes) : M unit :=
  set_source script ;;; evaluate_input fuel.

End Exec.
