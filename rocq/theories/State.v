(** The virtual machine state, its environment, and the state monad of the model.
    The VM modelled is the one of src/mock_vm.rs (the reference VM used by the
    library's own tests); rtf/src/main.rs has the same fields and accessors
    except for the differences listed in DESIGN.md. *)
From Coq Require Import ZArith List Bool String.
From Verif Require Import Base Stack Mem Parser Flt.
Import ListNotations.
Open Scope Z_scope.

(** ** The environment: everything outside the modelled code.

    An instance fixes the build profile (overflow checks), the operating
    system's file interface and libm.  Theorems hold for every instance. *)
Record open_opts := mkOpts { oo_read : bool; oo_write : bool; oo_trunc : bool; oo_create : bool }.

(** rtf/src/term.rs 14-18 [Error] and the result of [read_line] *)
Inductive received := Line (s : bytes) | Eof | Failed.

Class Env := {
  (** true: debug profile (plain [+ - *] panic on overflow); false: release (wrap) *)
  chk : bool;
  (** file system *)
  os : Type;
  handle : Type;
  reader : Type;
  os_open : os -> bytes -> open_opts -> os * option handle;
  os_close : os -> handle -> os;
  os_remove : os -> bytes -> os * bool;
  os_size : os -> handle -> option Z;
  os_tell : os -> handle -> os * option Z;
  os_seek : os -> handle -> Z -> os * bool;
  os_set_len : os -> handle -> Z -> os * bool;
  os_read : os -> handle -> Z -> os * option bytes;
  os_write_all : os -> handle -> bytes -> os * bool;
  os_reader : os -> handle -> reader;
  os_read_line : os -> reader -> os * reader * option bytes;
  os_close_reader : os -> reader -> os;
  (** the terminal: [Term::read_line] of rtf/src/term.rs (see Term.v) *)
  os_receive : os -> os * received;
  (** libm and float formatting, on bit patterns *)
  l_sin : Z -> Z; l_cos : Z -> Z; l_tan : Z -> Z;
  l_asin : Z -> Z; l_acos : Z -> Z; l_atan : Z -> Z;
  l_atan2 : Z -> Z -> Z; l_powf : Z -> Z -> Z; l_powi : Z -> Z -> Z;
  fmt_f64 : Z -> Z -> bytes
}.

(** ** Function pointers stored in words (the [action] field, src/core.rs 35):
    one constructor per Rust function registered with [add_primitive] and friends
    or used as the action of a defined word. *)
Inductive prim :=
(* core (src/core.rs) *)
| P_noop | P_exit | P_lit | P_flit | P_p_s_quote | P_branch | P_zero_branch | P__do | P__qdo | P__loop | P__plus_loop | P_unloop | P_leave | P_p_i | P_p_j | P_p_to_r | P_r_from | P_r_fetch | P_two_to_r | P_two_r_from | P_two_r_fetch | P_compile_comma | P__postpone | P__does | P_execute | P_dup | P_p_drop | P_swap | P_over | P_nip | P_depth | P_check_stacks | P_zero_less | P_equals | P_less_than | P_invert | P_and | P_or | P_xor | P_lshift | P_rshift | P_one_plus | P_one_minus | P_minus | P_plus | P_star | P_slash_mod | P_cell_plus | P_cells | P_fetch | P_store | P_char_plus | P_here | P_allot | P_aligned | P_align | P_c_fetch | P_c_store | P_p_move | P_base | P_immediate | P_compile_only | P_imm_paren | P_imm_backslash | P_left_bracket | P_bracket_tick | P_bracket_char | P_semicolon | P_imm_if | P_imm_else | P_imm_then | P_imm_case | P_imm_of | P_imm_endof | P_imm_endcase | P_imm_begin | P_imm_while | P_imm_repeat | P_imm_until | P_imm_again | P_imm_clear_labels | P_imm_label | P_imm_goto | P_imm_call | P_imm_recurse | P_imm_do | P_imm_qdo | P_imm_loop | P_imm_plus_loop | P_postpone | P_does | P_p_true | P_p_false | P_zero_equals | P_zero_greater | P_zero_not_equals | P_greater_than | P_not_equals | P_within | P_rot | P_minus_rot | P_pick | P_two_dup | P_two_drop | P_two_swap | P_two_over | P_slash | P_p_mod | P_abs | P_negate | P_parse_word | P_char | P__skip | P_parse | P_colon | P_constant | P_create | P_tick | P_to_body | P_to_name | P_right_bracket | P_comma | P_marker | P_handler_store | P_error | P_dot_error | P_clear_error | P_clear_stacks | P_reset | P_abort | P_p_compiling | P_token_empty | P_dot_token | P_store_token | P_compile_token | P_interpret_token | P_p_source_id | P_p_set_source_id | P_p_source_idx | P_p_set_source_idx | P_bye | P_pause | P_activate | P_me | P_suspend | P_resume | P_nest | P_p_var | P_p_const | P_unmark | P_xdoes
(* src/output.rs *)
| P_emit | P_p_type | P_s_quote | P_dot_quote | P_dot_paren | P_dot_r | P_fdot_r | P_flush_output
(* src/tools.rs *)
| P_words | P_dot_word | P_dot_backtrace | P_dot_s | P_dot_memory | P_set_execution_times | P_dot_xtime | P_clear_xtime | P_dot_input | P_flush_to_err
(* src/env.rs *)
| P_max_n | P_max_u
(* src/facility.rs *)
| P_mtime | P_utime
(* src/float.rs *)
| P_p_fconst | P_fconstant | P_float_plus | P_floats | P_faligned | P_falign | P_pi | P_fstore | P_ffetch | P_fabs | P_fsin | P_fcos | P_ftan | P_fsincos | P_fasin | P_facos | P_fatan | P_fatan2 | P_fsqrt | P_fdrop | P_fdup | P_fswap | P_fnip | P_fover | P_frot | P_fpick | P_s_to_f | P_f_to_s | P_fplus | P_fminus | P_fstar | P_fslash | P_fpowf | P_fproximate | P_f_zero_less_than | P_f_zero_equals | P_f_less_than | P_fmin | P_fmax | P_floor | P_fround | P_fceil | P_fnegate
(* src/units.rs *)
| P_from_meter | P_from_mm | P_from_um | P_from_deg | P_from_rad | P_from_hour | P_from_minute | P_from_sec | P_from_msec | P_from_usec | P_mm_per_min | P_mm_per_sec | P_um_per_msec | P_rpm | P_hertz
(* src/file_access.rs *)
| P_file_size | P_file_position | P_close_file | P_create_file | P_delete_file | P_open_file | P_read_file | P_write_file | P_resize_file | P_reposition_file
(* src/loader.rs *)
| P_open_source | P_close_source | P_dot_source_path | P_p_load_line | P_dot_source_line
(* rtf/src/main.rs *)
| P_receive.

(** The [compilation_semantics] function pointers (src/core.rs 36, 831-857, 1069). *)
Inductive csem :=
| CS_compile_word | CS_compile_nest | CS_compile_var | CS_compile_const
| CS_compile_unmark | CS_compile_fconst | CS_compile_leave.

(** src/core.rs 436-448 [Control] *)
Inductive control :=
| CDefault | CCanary
| CIf (p : Z) | CElse (p : Z) | CBegin (p : Z) | CWhile (p : Z)
| CDo (p q : Z) | CCase | COf (p : Z) | CEndof (p : Z).

(** derived PartialEq of [Control] *)
Definition control_eqb (a c : control) : bool :=
  match a, c with
  | CDefault, CDefault | CCanary, CCanary | CCase, CCase => true
  | CIf p, CIf q | CElse p, CElse q | CBegin p, CBegin q | CWhile p, CWhile q
  | COf p, COf q | CEndof p, CEndof q => p =? q
  | CDo p p', CDo q q' => (p =? q) && (p' =? q')
  | _, _ => false
  end.

(** src/core.rs 26-41 [Word] *)
Record word := mkWord {
  w_imm : bool;
  w_co : bool;
  w_hidden : bool;
  w_link : Z;
  w_hash : Z;
  w_nfa : Z;
  w_dfa : Z;
  w_doer : Z;
  w_action : prim;
  w_cs : csem;
  w_mint : Z;
  w_maxt : Z
}.

Definition set_w_imm (x : bool) (r : word) : word :=
  mkWord x (w_co r) (w_hidden r) (w_link r) (w_hash r) (w_nfa r) (w_dfa r) (w_doer r) (w_action r) (w_cs r) (w_mint r) (w_maxt r).
Definition set_w_co (x : bool) (r : word) : word :=
  mkWord (w_imm r) x (w_hidden r) (w_link r) (w_hash r) (w_nfa r) (w_dfa r) (w_doer r) (w_action r) (w_cs r) (w_mint r) (w_maxt r).
Definition set_w_hidden (x : bool) (r : word) : word :=
  mkWord (w_imm r) (w_co r) x (w_link r) (w_hash r) (w_nfa r) (w_dfa r) (w_doer r) (w_action r) (w_cs r) (w_mint r) (w_maxt r).
Definition set_w_link (x : Z) (r : word) : word :=
  mkWord (w_imm r) (w_co r) (w_hidden r) x (w_hash r) (w_nfa r) (w_dfa r) (w_doer r) (w_action r) (w_cs r) (w_mint r) (w_maxt r).
Definition set_w_hash (x : Z) (r : word) : word :=
  mkWord (w_imm r) (w_co r) (w_hidden r) (w_link r) x (w_nfa r) (w_dfa r) (w_doer r) (w_action r) (w_cs r) (w_mint r) (w_maxt r).
Definition set_w_nfa (x : Z) (r : word) : word :=
  mkWord (w_imm r) (w_co r) (w_hidden r) (w_link r) (w_hash r) x (w_dfa r) (w_doer r) (w_action r) (w_cs r) (w_mint r) (w_maxt r).
Definition set_w_dfa (x : Z) (r : word) : word :=
  mkWord (w_imm r) (w_co r) (w_hidden r) (w_link r) (w_hash r) (w_nfa r) x (w_doer r) (w_action r) (w_cs r) (w_mint r) (w_maxt r).
Definition set_w_doer (x : Z) (r : word) : word :=
  mkWord (w_imm r) (w_co r) (w_hidden r) (w_link r) (w_hash r) (w_nfa r) (w_dfa r) x (w_action r) (w_cs r) (w_mint r) (w_maxt r).
Definition set_w_action (x : prim) (r : word) : word :=
  mkWord (w_imm r) (w_co r) (w_hidden r) (w_link r) (w_hash r) (w_nfa r) (w_dfa r) (w_doer r) x (w_cs r) (w_mint r) (w_maxt r).
Definition set_w_cs (x : csem) (r : word) : word :=
  mkWord (w_imm r) (w_co r) (w_hidden r) (w_link r) (w_hash r) (w_nfa r) (w_dfa r) (w_doer r) (w_action r) x (w_mint r) (w_maxt r).
Definition set_w_mint (x : Z) (r : word) : word :=
  mkWord (w_imm r) (w_co r) (w_hidden r) (w_link r) (w_hash r) (w_nfa r) (w_dfa r) (w_doer r) (w_action r) (w_cs r) x (w_maxt r).
Definition set_w_maxt (x : Z) (r : word) : word :=
  mkWord (w_imm r) (w_co r) (w_hidden r) (w_link r) (w_hash r) (w_nfa r) (w_dfa r) (w_doer r) (w_action r) (w_cs r) (w_mint r) x.

(** src/core.rs 44-64 [Word::new] *)
Definition word_new (a : prim) (c : csem) (nfa dfa : Z) : word :=
  mkWord false false false 0 0 nfa dfa 0 a c 0 0.

(** src/core.rs 106-111 [Wordlist].  The vector [words] is a map with an explicit
    length; entries at or beyond [wl_len] are never read (see [word_at]). *)
Record wordlist := mkWl {
  wl_tbl : tmap word;
  wl_len : Z;
  wl_buckets : tmap Z;
  wl_temp : tmap Z;
  wl_last : Z
}.

Definition set_wl_tbl (x : tmap word) (r : wordlist) : wordlist :=
  mkWl x (wl_len r) (wl_buckets r) (wl_temp r) (wl_last r).
Definition set_wl_len (x : Z) (r : wordlist) : wordlist :=
  mkWl (wl_tbl r) x (wl_buckets r) (wl_temp r) (wl_last r).
Definition set_wl_buckets (x : tmap Z) (r : wordlist) : wordlist :=
  mkWl (wl_tbl r) (wl_len r) x (wl_temp r) (wl_last r).
Definition set_wl_temp (x : tmap Z) (r : wordlist) : wordlist :=
  mkWl (wl_tbl r) (wl_len r) (wl_buckets r) x (wl_last r).
Definition set_wl_last (x : Z) (r : wordlist) : wordlist :=
  mkWl (wl_tbl r) (wl_len r) (wl_buckets r) (wl_temp r) x.

(** src/core.rs 410-417 [State] *)
Record state := mkState {
  st_compiling : bool;
  st_ip : Z;
  st_wp : Z;
  st_awp : Z;
  st_idx : Z;
  st_sid : Z
}.

Definition set_st_compiling (x : bool) (r : state) : state :=
  mkState x (st_ip r) (st_wp r) (st_awp r) (st_idx r) (st_sid r).
Definition set_st_ip (x : Z) (r : state) : state :=
  mkState (st_compiling r) x (st_wp r) (st_awp r) (st_idx r) (st_sid r).
Definition set_st_wp (x : Z) (r : state) : state :=
  mkState (st_compiling r) (st_ip r) x (st_awp r) (st_idx r) (st_sid r).
Definition set_st_awp (x : Z) (r : state) : state :=
  mkState (st_compiling r) (st_ip r) (st_wp r) x (st_idx r) (st_sid r).
Definition set_st_idx (x : Z) (r : state) : state :=
  mkState (st_compiling r) (st_ip r) (st_wp r) (st_awp r) x (st_sid r).
Definition set_st_sid (x : Z) (r : state) : state :=
  mkState (st_compiling r) (st_ip r) (st_wp r) (st_awp r) (st_idx r) x.

(** src/core.rs 366-384 [ForwardReferences] *)
Record refs := mkRefs {
  idx_lit : Z;
  idx_flit : Z;
  idx_exit : Z;
  idx_zero_branch : Z;
  idx_branch : Z;
  idx_do : Z;
  idx_qdo : Z;
  idx_loop : Z;
  idx_plus_loop : Z;
  idx_s_quote : Z;
  idx_type : Z;
  idx_over : Z;
  idx_equal : Z;
  idx_drop : Z;
  idx__postpone : Z;
  idx_to_r : Z;
  idx__does : Z
}.

Definition set_idx_lit (x : Z) (r : refs) : refs :=
  mkRefs x (idx_flit r) (idx_exit r) (idx_zero_branch r) (idx_branch r) (idx_do r) (idx_qdo r) (idx_loop r) (idx_plus_loop r) (idx_s_quote r) (idx_type r) (idx_over r) (idx_equal r) (idx_drop r) (idx__postpone r) (idx_to_r r) (idx__does r).
Definition set_idx_flit (x : Z) (r : refs) : refs :=
  mkRefs (idx_lit r) x (idx_exit r) (idx_zero_branch r) (idx_branch r) (idx_do r) (idx_qdo r) (idx_loop r) (idx_plus_loop r) (idx_s_quote r) (idx_type r) (idx_over r) (idx_equal r) (idx_drop r) (idx__postpone r) (idx_to_r r) (idx__does r).
Definition set_idx_exit (x : Z) (r : refs) : refs :=
  mkRefs (idx_lit r) (idx_flit r) x (idx_zero_branch r) (idx_branch r) (idx_do r) (idx_qdo r) (idx_loop r) (idx_plus_loop r) (idx_s_quote r) (idx_type r) (idx_over r) (idx_equal r) (idx_drop r) (idx__postpone r) (idx_to_r r) (idx__does r).
Definition set_idx_zero_branch (x : Z) (r : refs) : refs :=
  mkRefs (idx_lit r) (idx_flit r) (idx_exit r) x (idx_branch r) (idx_do r) (idx_qdo r) (idx_loop r) (idx_plus_loop r) (idx_s_quote r) (idx_type r) (idx_over r) (idx_equal r) (idx_drop r) (idx__postpone r) (idx_to_r r) (idx__does r).
Definition set_idx_branch (x : Z) (r : refs) : refs :=
  mkRefs (idx_lit r) (idx_flit r) (idx_exit r) (idx_zero_branch r) x (idx_do r) (idx_qdo r) (idx_loop r) (idx_plus_loop r) (idx_s_quote r) (idx_type r) (idx_over r) (idx_equal r) (idx_drop r) (idx__postpone r) (idx_to_r r) (idx__does r).
Definition set_idx_do (x : Z) (r : refs) : refs :=
  mkRefs (idx_lit r) (idx_flit r) (idx_exit r) (idx_zero_branch r) (idx_branch r) x (idx_qdo r) (idx_loop r) (idx_plus_loop r) (idx_s_quote r) (idx_type r) (idx_over r) (idx_equal r) (idx_drop r) (idx__postpone r) (idx_to_r r) (idx__does r).
Definition set_idx_qdo (x : Z) (r : refs) : refs :=
  mkRefs (idx_lit r) (idx_flit r) (idx_exit r) (idx_zero_branch r) (idx_branch r) (idx_do r) x (idx_loop r) (idx_plus_loop r) (idx_s_quote r) (idx_type r) (idx_over r) (idx_equal r) (idx_drop r) (idx__postpone r) (idx_to_r r) (idx__does r).
Definition set_idx_loop (x : Z) (r : refs) : refs :=
  mkRefs (idx_lit r) (idx_flit r) (idx_exit r) (idx_zero_branch r) (idx_branch r) (idx_do r) (idx_qdo r) x (idx_plus_loop r) (idx_s_quote r) (idx_type r) (idx_over r) (idx_equal r) (idx_drop r) (idx__postpone r) (idx_to_r r) (idx__does r).
Definition set_idx_plus_loop (x : Z) (r : refs) : refs :=
  mkRefs (idx_lit r) (idx_flit r) (idx_exit r) (idx_zero_branch r) (idx_branch r) (idx_do r) (idx_qdo r) (idx_loop r) x (idx_s_quote r) (idx_type r) (idx_over r) (idx_equal r) (idx_drop r) (idx__postpone r) (idx_to_r r) (idx__does r).
Definition set_idx_s_quote (x : Z) (r : refs) : refs :=
  mkRefs (idx_lit r) (idx_flit r) (idx_exit r) (idx_zero_branch r) (idx_branch r) (idx_do r) (idx_qdo r) (idx_loop r) (idx_plus_loop r) x (idx_type r) (idx_over r) (idx_equal r) (idx_drop r) (idx__postpone r) (idx_to_r r) (idx__does r).
Definition set_idx_type (x : Z) (r : refs) : refs :=
  mkRefs (idx_lit r) (idx_flit r) (idx_exit r) (idx_zero_branch r) (idx_branch r) (idx_do r) (idx_qdo r) (idx_loop r) (idx_plus_loop r) (idx_s_quote r) x (idx_over r) (idx_equal r) (idx_drop r) (idx__postpone r) (idx_to_r r) (idx__does r).
Definition set_idx_over (x : Z) (r : refs) : refs :=
  mkRefs (idx_lit r) (idx_flit r) (idx_exit r) (idx_zero_branch r) (idx_branch r) (idx_do r) (idx_qdo r) (idx_loop r) (idx_plus_loop r) (idx_s_quote r) (idx_type r) x (idx_equal r) (idx_drop r) (idx__postpone r) (idx_to_r r) (idx__does r).
Definition set_idx_equal (x : Z) (r : refs) : refs :=
  mkRefs (idx_lit r) (idx_flit r) (idx_exit r) (idx_zero_branch r) (idx_branch r) (idx_do r) (idx_qdo r) (idx_loop r) (idx_plus_loop r) (idx_s_quote r) (idx_type r) (idx_over r) x (idx_drop r) (idx__postpone r) (idx_to_r r) (idx__does r).
Definition set_idx_drop (x : Z) (r : refs) : refs :=
  mkRefs (idx_lit r) (idx_flit r) (idx_exit r) (idx_zero_branch r) (idx_branch r) (idx_do r) (idx_qdo r) (idx_loop r) (idx_plus_loop r) (idx_s_quote r) (idx_type r) (idx_over r) (idx_equal r) x (idx__postpone r) (idx_to_r r) (idx__does r).
Definition set_idx__postpone (x : Z) (r : refs) : refs :=
  mkRefs (idx_lit r) (idx_flit r) (idx_exit r) (idx_zero_branch r) (idx_branch r) (idx_do r) (idx_qdo r) (idx_loop r) (idx_plus_loop r) (idx_s_quote r) (idx_type r) (idx_over r) (idx_equal r) (idx_drop r) x (idx_to_r r) (idx__does r).
Definition set_idx_to_r (x : Z) (r : refs) : refs :=
  mkRefs (idx_lit r) (idx_flit r) (idx_exit r) (idx_zero_branch r) (idx_branch r) (idx_do r) (idx_qdo r) (idx_loop r) (idx_plus_loop r) (idx_s_quote r) (idx_type r) (idx_over r) (idx_equal r) (idx_drop r) (idx__postpone r) x (idx__does r).
Definition set_idx__does (x : Z) (r : refs) : refs :=
  mkRefs (idx_lit r) (idx_flit r) (idx_exit r) (idx_zero_branch r) (idx_branch r) (idx_do r) (idx_qdo r) (idx_loop r) (idx_plus_loop r) (idx_s_quote r) (idx_type r) (idx_over r) (idx_equal r) (idx_drop r) (idx__postpone r) (idx_to_r r) x.

Section VM.
Context {E : Env}.

(** src/loader.rs 11-14 [Source] *)
Record source := mkSource { src_reader : reader; src_path : bytes }.

(** src/mock_vm.rs 24-35 [Task] *)
Record task := mkTask {
  t_awake : bool;
  t_state : state;
  t_s : stack Z;
  t_r : stack Z;
  t_c : stack control;
  t_f : stack Z;
  t_inbuf : option bytes;
  t_files : list (option handle);
  t_sources : list (option source);
  t_lines : list (option bytes)
}.

Definition set_t_awake (x : bool) (r : task) : task :=
  mkTask x (t_state r) (t_s r) (t_r r) (t_c r) (t_f r) (t_inbuf r) (t_files r) (t_sources r) (t_lines r).
Definition set_t_state (x : state) (r : task) : task :=
  mkTask (t_awake r) x (t_s r) (t_r r) (t_c r) (t_f r) (t_inbuf r) (t_files r) (t_sources r) (t_lines r).
Definition set_t_s (x : stack Z) (r : task) : task :=
  mkTask (t_awake r) (t_state r) x (t_r r) (t_c r) (t_f r) (t_inbuf r) (t_files r) (t_sources r) (t_lines r).
Definition set_t_r (x : stack Z) (r : task) : task :=
  mkTask (t_awake r) (t_state r) (t_s r) x (t_c r) (t_f r) (t_inbuf r) (t_files r) (t_sources r) (t_lines r).
Definition set_t_c (x : stack control) (r : task) : task :=
  mkTask (t_awake r) (t_state r) (t_s r) (t_r r) x (t_f r) (t_inbuf r) (t_files r) (t_sources r) (t_lines r).
Definition set_t_f (x : stack Z) (r : task) : task :=
  mkTask (t_awake r) (t_state r) (t_s r) (t_r r) (t_c r) x (t_inbuf r) (t_files r) (t_sources r) (t_lines r).
Definition set_t_inbuf (x : option bytes) (r : task) : task :=
  mkTask (t_awake r) (t_state r) (t_s r) (t_r r) (t_c r) (t_f r) x (t_files r) (t_sources r) (t_lines r).
Definition set_t_files (x : list (option handle)) (r : task) : task :=
  mkTask (t_awake r) (t_state r) (t_s r) (t_r r) (t_c r) (t_f r) (t_inbuf r) x (t_sources r) (t_lines r).
Definition set_t_sources (x : list (option source)) (r : task) : task :=
  mkTask (t_awake r) (t_state r) (t_s r) (t_r r) (t_c r) (t_f r) (t_inbuf r) (t_files r) x (t_lines r).
Definition set_t_lines (x : list (option bytes)) (r : task) : task :=
  mkTask (t_awake r) (t_state r) (t_s r) (t_r r) (t_c r) (t_f r) (t_inbuf r) (t_files r) (t_sources r) x.

(** src/mock_vm.rs 63-78 [VM], plus the world outside: [v_os] the file system,
    [v_stdout]/[v_stderr] everything printed by println!/eprintln!.
    The bit sets are lists of members; hibitset's layer3() is non-zero exactly
    when the set is not empty. *)
Record vm := mkVm {
  v_cur : Z;
  v_tasks : tmap task;
  v_err : option Z;
  v_handler : Z;
  v_wl : wordlist;
  v_ds : dspace;
  v_tkn : option bytes;
  v_out : option bytes;
  v_hld : bytes;
  v_refs : refs;
  v_now : Z;
  v_fwd : list Z;
  v_res : list Z;
  v_labels : tmap Z;
  v_os : os;
  v_stdout : bytes;
  v_stderr : bytes
}.

Definition set_v_cur (x : Z) (r : vm) : vm :=
  mkVm x (v_tasks r) (v_err r) (v_handler r) (v_wl r) (v_ds r) (v_tkn r) (v_out r) (v_hld r) (v_refs r) (v_now r) (v_fwd r) (v_res r) (v_labels r) (v_os r) (v_stdout r) (v_stderr r).
Definition set_v_tasks (x : tmap task) (r : vm) : vm :=
  mkVm (v_cur r) x (v_err r) (v_handler r) (v_wl r) (v_ds r) (v_tkn r) (v_out r) (v_hld r) (v_refs r) (v_now r) (v_fwd r) (v_res r) (v_labels r) (v_os r) (v_stdout r) (v_stderr r).
Definition set_v_err (x : option Z) (r : vm) : vm :=
  mkVm (v_cur r) (v_tasks r) x (v_handler r) (v_wl r) (v_ds r) (v_tkn r) (v_out r) (v_hld r) (v_refs r) (v_now r) (v_fwd r) (v_res r) (v_labels r) (v_os r) (v_stdout r) (v_stderr r).
Definition set_v_handler (x : Z) (r : vm) : vm :=
  mkVm (v_cur r) (v_tasks r) (v_err r) x (v_wl r) (v_ds r) (v_tkn r) (v_out r) (v_hld r) (v_refs r) (v_now r) (v_fwd r) (v_res r) (v_labels r) (v_os r) (v_stdout r) (v_stderr r).
Definition set_v_wl (x : wordlist) (r : vm) : vm :=
  mkVm (v_cur r) (v_tasks r) (v_err r) (v_handler r) x (v_ds r) (v_tkn r) (v_out r) (v_hld r) (v_refs r) (v_now r) (v_fwd r) (v_res r) (v_labels r) (v_os r) (v_stdout r) (v_stderr r).
Definition set_v_ds (x : dspace) (r : vm) : vm :=
  mkVm (v_cur r) (v_tasks r) (v_err r) (v_handler r) (v_wl r) x (v_tkn r) (v_out r) (v_hld r) (v_refs r) (v_now r) (v_fwd r) (v_res r) (v_labels r) (v_os r) (v_stdout r) (v_stderr r).
Definition set_v_tkn (x : option bytes) (r : vm) : vm :=
  mkVm (v_cur r) (v_tasks r) (v_err r) (v_handler r) (v_wl r) (v_ds r) x (v_out r) (v_hld r) (v_refs r) (v_now r) (v_fwd r) (v_res r) (v_labels r) (v_os r) (v_stdout r) (v_stderr r).
Definition set_v_out (x : option bytes) (r : vm) : vm :=
  mkVm (v_cur r) (v_tasks r) (v_err r) (v_handler r) (v_wl r) (v_ds r) (v_tkn r) x (v_hld r) (v_refs r) (v_now r) (v_fwd r) (v_res r) (v_labels r) (v_os r) (v_stdout r) (v_stderr r).
Definition set_v_hld (x : bytes) (r : vm) : vm :=
  mkVm (v_cur r) (v_tasks r) (v_err r) (v_handler r) (v_wl r) (v_ds r) (v_tkn r) (v_out r) x (v_refs r) (v_now r) (v_fwd r) (v_res r) (v_labels r) (v_os r) (v_stdout r) (v_stderr r).
Definition set_v_refs (x : refs) (r : vm) : vm :=
  mkVm (v_cur r) (v_tasks r) (v_err r) (v_handler r) (v_wl r) (v_ds r) (v_tkn r) (v_out r) (v_hld r) x (v_now r) (v_fwd r) (v_res r) (v_labels r) (v_os r) (v_stdout r) (v_stderr r).
Definition set_v_now (x : Z) (r : vm) : vm :=
  mkVm (v_cur r) (v_tasks r) (v_err r) (v_handler r) (v_wl r) (v_ds r) (v_tkn r) (v_out r) (v_hld r) (v_refs r) x (v_fwd r) (v_res r) (v_labels r) (v_os r) (v_stdout r) (v_stderr r).
Definition set_v_fwd (x : list Z) (r : vm) : vm :=
  mkVm (v_cur r) (v_tasks r) (v_err r) (v_handler r) (v_wl r) (v_ds r) (v_tkn r) (v_out r) (v_hld r) (v_refs r) (v_now r) x (v_res r) (v_labels r) (v_os r) (v_stdout r) (v_stderr r).
Definition set_v_res (x : list Z) (r : vm) : vm :=
  mkVm (v_cur r) (v_tasks r) (v_err r) (v_handler r) (v_wl r) (v_ds r) (v_tkn r) (v_out r) (v_hld r) (v_refs r) (v_now r) (v_fwd r) x (v_labels r) (v_os r) (v_stdout r) (v_stderr r).
Definition set_v_labels (x : tmap Z) (r : vm) : vm :=
  mkVm (v_cur r) (v_tasks r) (v_err r) (v_handler r) (v_wl r) (v_ds r) (v_tkn r) (v_out r) (v_hld r) (v_refs r) (v_now r) (v_fwd r) (v_res r) x (v_os r) (v_stdout r) (v_stderr r).
Definition set_v_os (x : os) (r : vm) : vm :=
  mkVm (v_cur r) (v_tasks r) (v_err r) (v_handler r) (v_wl r) (v_ds r) (v_tkn r) (v_out r) (v_hld r) (v_refs r) (v_now r) (v_fwd r) (v_res r) (v_labels r) x (v_stdout r) (v_stderr r).
Definition set_v_stdout (x : bytes) (r : vm) : vm :=
  mkVm (v_cur r) (v_tasks r) (v_err r) (v_handler r) (v_wl r) (v_ds r) (v_tkn r) (v_out r) (v_hld r) (v_refs r) (v_now r) (v_fwd r) (v_res r) (v_labels r) (v_os r) x (v_stderr r).
Definition set_v_stderr (x : bytes) (r : vm) : vm :=
  mkVm (v_cur r) (v_tasks r) (v_err r) (v_handler r) (v_wl r) (v_ds r) (v_tkn r) (v_out r) (v_hld r) (v_refs r) (v_now r) (v_fwd r) (v_res r) (v_labels r) (v_os r) (v_stdout r) x.

(** src/core.rs 420-429 [State::new] *)
Definition state_new : state := mkState false 0 0 0 0 0.

(** src/mock_vm.rs 39-52 [new_background], with the control-stack canary as a
    parameter (mock_vm.rs: [CCanary], rtf/src/main.rs: [CDefault]) *)
Definition F_CANARY : Z := 4608238818662014491.   (* bits of 1.234567890 *)
Definition S_CANARY : Z := 305419896.             (* 0x12345678 *)
Definition new_background (cc : control) : task :=
  mkTask false state_new (stack_new S_CANARY) (stack_new S_CANARY) (stack_new cc)
         (stack_new F_CANARY) None [] [] [].

(** src/mock_vm.rs 55-59 [new_terminal] *)
Definition new_terminal (cc : control) : task :=
  set_t_inbuf (Some []) (new_background cc).

(** ** The state monad *)
Definition M (A : Type) := vm -> res (A * vm).
Definition ret {A} (a : A) : M A := fun v => Ok (a, v).
Definition bind {A B} (m : M A) (k : A -> M B) : M B :=
  fun v => match m v with
           | Ok (a, v') => k a v'
           | Panic p => Panic p
           | UB => UB
           | OutOfFuel => OutOfFuel
           end.
Definition panic {A} (p : panic_reason) : M A := fun _ => Panic p.
Definition get : M vm := fun v => Ok (v, v).
Definition gets {A} (f : vm -> A) : M A := fun v => Ok (f v, v).
Definition modify (f : vm -> vm) : M unit := fun v => Ok (tt, f v).
Definition lift {A} (r : res A) : M A := fun v => rbind r (fun a => Ok (a, v)).
Definition out_of_fuel {A} : M A := fun _ => OutOfFuel.

(** Plain arithmetic on usize / isize / u8 under the build's overflow setting. *)
Definition chk_u64 (z : Z) : M Z :=
  if in_u64 z then ret z else if chk then panic POverflow else ret (to_u64 z).
Definition chk_i64 (z : Z) : M Z :=
  if in_i64 z then ret z else if chk then panic POverflow else ret (to_i64 z).
Definition chk_u8 (z : Z) : M Z :=
  if in_u8 z then ret z else if chk then panic POverflow else ret (to_u8 z).

(** ** Accessors of the current task (src/mock_vm.rs 158-220).
    [v_tasks] is an array of NUM_TASKS tasks; [v_cur] is always below NUM_TASKS
    because [set_current_task] (227-233) is the only writer. *)
Definition dummy_task : task := new_background CDefault.
Definition task_at (v : vm) (i : Z) : task := tget dummy_task (v_tasks v) i.
Definition cur (v : vm) : task := task_at v (v_cur v).
Definition put_task (i : Z) (t : task) (v : vm) : vm := set_v_tasks (tset (v_tasks v) i t) v.
Definition upd_cur (f : task -> task) (v : vm) : vm := put_task (v_cur v) (f (cur v)) v.

Definition s_stk (v : vm) : stack Z := t_s (cur v).
Definition r_stk (v : vm) : stack Z := t_r (cur v).
Definition c_stk (v : vm) : stack control := t_c (cur v).
Definition f_stk (v : vm) : stack Z := t_f (cur v).
Definition st (v : vm) : state := t_state (cur v).

Definition set_s (s : stack Z) (v : vm) : vm := upd_cur (set_t_s s) v.
Definition set_r (s : stack Z) (v : vm) : vm := upd_cur (set_t_r s) v.
Definition set_c (s : stack control) (v : vm) : vm := upd_cur (set_t_c s) v.
Definition set_f (s : stack Z) (v : vm) : vm := upd_cur (set_t_f s) v.
Definition set_st (s : state) (v : vm) : vm := upd_cur (set_t_state s) v.

Definition ip (v : vm) : Z := st_ip (st v).
Definition set_ip (x : Z) (v : vm) : vm := set_st (set_st_ip x (st v)) v.
Definition set_wp (x : Z) (v : vm) : vm := set_st (set_st_wp x (st v)) v.
Definition set_awp (x : Z) (v : vm) : vm := set_st (set_st_awp x (st v)) v.
Definition set_idx (x : Z) (v : vm) : vm := set_st (set_st_idx x (st v)) v.
Definition set_sid (x : Z) (v : vm) : vm := set_st (set_st_sid x (st v)) v.
Definition set_compiling (x : bool) (v : vm) : vm := set_st (set_st_compiling x (st v)) v.

(** Stack operations lifted to the monad. *)
Definition s_push (x : Z) : M unit := modify (fun v => set_s (push (s_stk v) x) v).
Definition s_push2 (x y : Z) : M unit := modify (fun v => set_s (push2 (s_stk v) x y) v).
Definition s_push3 (x y z : Z) : M unit := modify (fun v => set_s (push3 (s_stk v) x y z) v).
Definition s_pop : M Z := fun v => let (x, s) := pop (s_stk v) in Ok (x, set_s s v).
Definition s_pop2 : M (Z * Z) := fun v => let (x, s) := pop2 (s_stk v) in Ok (x, set_s s v).
Definition s_pop3 : M (Z * Z * Z) := fun v => let (x, s) := pop3 (s_stk v) in Ok (x, set_s s v).
Definition r_push (x : Z) : M unit := modify (fun v => set_r (push (r_stk v) x) v).
Definition r_push2 (x y : Z) : M unit := modify (fun v => set_r (push2 (r_stk v) x y) v).
Definition r_pop : M Z := fun v => let (x, s) := pop (r_stk v) in Ok (x, set_r s v).
Definition r_pop2 : M (Z * Z) := fun v => let (x, s) := pop2 (r_stk v) in Ok (x, set_r s v).
Definition r_pop3 : M (Z * Z * Z) := fun v => let (x, s) := pop3 (r_stk v) in Ok (x, set_r s v).
Definition c_push (x : control) : M unit := modify (fun v => set_c (push (c_stk v) x) v).
Definition c_pop : M control := fun v => let (x, s) := pop (c_stk v) in Ok (x, set_c s v).
Definition c_pop2 : M (control * control) := fun v => let (x, s) := pop2 (c_stk v) in Ok (x, set_c s v).
Definition f_push (x : Z) : M unit := modify (fun v => set_f (push (f_stk v) x) v).
Definition f_push2 (x y : Z) : M unit := modify (fun v => set_f (push2 (f_stk v) x y) v).
Definition f_push3 (x y z : Z) : M unit := modify (fun v => set_f (push3 (f_stk v) x y z) v).
Definition f_pop : M Z := fun v => let (x, s) := pop (f_stk v) in Ok (x, set_f s v).
Definition f_pop2 : M (Z * Z) := fun v => let (x, s) := pop2 (f_stk v) in Ok (x, set_f s v).
Definition f_pop3 : M (Z * Z * Z) := fun v => let (x, s) := pop3 (f_stk v) in Ok (x, set_f s v).

(** PartialEq on f64 elements of a stack against the canary: the canary is a
    normal number, for which IEEE equality and equality of bits coincide. *)
Definition s_underflow (v : vm) : bool := underflow Z.eqb (s_stk v).
Definition s_overflow (v : vm) : bool := overflow Z.eqb (s_stk v).
Definition r_underflow (v : vm) : bool := underflow Z.eqb (r_stk v).
Definition r_overflow (v : vm) : bool := overflow Z.eqb (r_stk v).
Definition c_underflow (v : vm) : bool := underflow control_eqb (c_stk v).
Definition c_overflow (v : vm) : bool := overflow control_eqb (c_stk v).
Definition f_underflow (v : vm) : bool := underflow Z.eqb (f_stk v).
Definition f_overflow (v : vm) : bool := overflow Z.eqb (f_stk v).

(** Data-space operations lifted to the monad. *)
Definition ds_upd (f : dspace -> res dspace) : M unit :=
  fun v => rbind (f (v_ds v)) (fun d => Ok (tt, set_v_ds d v)).
Definition ds_get {A} (f : dspace -> res A) : M A :=
  fun v => rbind (f (v_ds v)) (fun a => Ok (a, v)).

(** Indexing of the word vector: panics out of range (src/core.rs 175-188). *)
Definition dummy_word : word := word_new P_noop CS_compile_word 0 0.
Definition wl_get (w : wordlist) (i : Z) : word := tget dummy_word (wl_tbl w) i.
Definition word_at (i : Z) : M word :=
  fun v => if (0 <=? i) && (i <? wl_len (v_wl v)) then Ok (wl_get (v_wl v) i, v) else Panic PIndex.
Definition upd_word (i : Z) (f : word -> word) : M unit :=
  fun v => if (0 <=? i) && (i <? wl_len (v_wl v))
           then Ok (tt, set_v_wl (set_wl_tbl (tset (wl_tbl (v_wl v)) i (f (wl_get (v_wl v) i))) (v_wl v)) v)
           else Panic PIndex.

(** [last_token().take().expect(..)] and [set_last_token]. *)
Definition take_token : M bytes :=
  fun v => match v_tkn v with
           | Some t => Ok (t, set_v_tkn None v)
           | None => Panic PExpect
           end.
Definition set_token (t : bytes) : M unit := modify (set_v_tkn (Some t)).

(** src/mock_vm.rs 161-172 [input_buffer], [set_input_buffer]: a slot of
    [lines] (index panics) when source_id > 0, else the task's own buffer. *)
Definition nth_opt {A} (l : list A) (i : Z) : option A :=
  if 0 <=? i then nth_error l (Z.to_nat i) else None.
Fixpoint set_nth {A} (l : list A) (n : nat) (x : A) : list A :=
  match l, n with
  | [], _ => []
  | _ :: r, O => x :: r
  | y :: r, S n' => y :: set_nth r n' x
  end.
Definition get_inbuf : M (option bytes) :=
  fun v => let id := st_sid (st v) in
           if 0 <? id
           then match nth_opt (t_lines (cur v)) (id - 1) with
                | Some o => Ok (o, v)
                | None => Panic PIndex
                end
           else Ok (t_inbuf (cur v), v).
Definition put_inbuf (s : bytes) : M unit :=
  fun v => let id := st_sid (st v) in
           if 0 <? id
           then match nth_opt (t_lines (cur v)) (id - 1) with
                | Some _ => Ok (tt, upd_cur (set_t_lines (set_nth (t_lines (cur v)) (Z.to_nat (id - 1)) (Some s))) v)
                | None => Panic PIndex
                end
           else Ok (tt, upd_cur (set_t_inbuf (Some s)) v).
(** [input_buffer().take().expect(..)]: the callers put the buffer back
    unchanged before anything else can look at it, so [take] is modelled as a read. *)
Definition expect_inbuf : M bytes :=
  bind get_inbuf (fun o => match o with Some s => ret s | None => panic PExpect end).

(** Append to the output buffer, if there is one. *)
Definition out_push (s : bytes) : M unit :=
  modify (fun v => match v_out v with
                   | Some o => set_v_out (Some (o ++ s)) v
                   | None => v
                   end).
End VM.

Declare Scope m_scope.
Delimit Scope m_scope with M.
Notation "x <- m ;; k" := (bind m (fun x => k)) (at level 61, m at next level, right associativity) : m_scope.
Notation "' p <- m ;; k" := (bind m (fun p => k)) (at level 61, p pattern, m at next level, right associativity) : m_scope.
Notation "m ;;; k" := (bind m (fun _ => k)) (at level 61, right associativity) : m_scope.
