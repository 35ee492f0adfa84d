(** Construction of a VM: the tables of primitives, [add_core] etc., and
    [VM::new] of src/mock_vm.rs. *)
From Coq Require Import ZArith List Bool String.
From Verif Require Import Base Stack Mem Parser Flt State CoreM IoM FloatM FileM Exec CoreFth.
Import ListNotations.
Open Scope Z_scope.
Open Scope m_scope.

(** Which of add_primitive, add_immediate, add_compile_only,
    add_immediate_and_compile_only (src/core.rs 723-759) registers the word *)
Inductive reg := KP | KI | KC | KIC.

(** src/core.rs 545-692 *)
Definition core_table : list (reg * string * prim) :=
  [(KP, ""%string, P_noop);
   (KP, "noop"%string, P_noop);
   (KC, "exit"%string, P_exit);
   (KC, "lit"%string, P_lit);
   (KC, "flit"%string, P_flit);
   (KC, "_s"""%string, P_p_s_quote);
   (KC, "branch"%string, P_branch);
   (KC, "0branch"%string, P_zero_branch);
   (KC, "_do"%string, P__do);
   (KC, "_qdo"%string, P__qdo);
   (KC, "_loop"%string, P__loop);
   (KC, "_+loop"%string, P__plus_loop);
   (KC, "unloop"%string, P_unloop);
   (KC, "leave"%string, P_leave);
   (KC, "i"%string, P_p_i);
   (KC, "j"%string, P_p_j);
   (KC, ">r"%string, P_p_to_r);
   (KC, "r>"%string, P_r_from);
   (KC, "r@"%string, P_r_fetch);
   (KC, "2>r"%string, P_two_to_r);
   (KC, "2r>"%string, P_two_r_from);
   (KC, "2r@"%string, P_two_r_fetch);
   (KC, "compile,"%string, P_compile_comma);
   (KC, "_postpone"%string, P__postpone);
   (KC, "_does"%string, P__does);
   (KP, "execute"%string, P_execute);
   (KP, "dup"%string, P_dup);
   (KP, "drop"%string, P_p_drop);
   (KP, "swap"%string, P_swap);
   (KP, "over"%string, P_over);
   (KP, "nip"%string, P_nip);
   (KP, "depth"%string, P_depth);
   (KP, "?stacks"%string, P_check_stacks);
   (KP, "0<"%string, P_zero_less);
   (KP, "="%string, P_equals);
   (KP, "<"%string, P_less_than);
   (KP, "invert"%string, P_invert);
   (KP, "and"%string, P_and);
   (KP, "or"%string, P_or);
   (KP, "xor"%string, P_xor);
   (KP, "lshift"%string, P_lshift);
   (KP, "rshift"%string, P_rshift);
   (KP, "1+"%string, P_one_plus);
   (KP, "1-"%string, P_one_minus);
   (KP, "-"%string, P_minus);
   (KP, "+"%string, P_plus);
   (KP, "*"%string, P_star);
   (KP, "/mod"%string, P_slash_mod);
   (KP, "cell+"%string, P_cell_plus);
   (KP, "cells"%string, P_cells);
   (KP, "@"%string, P_fetch);
   (KP, "!"%string, P_store);
   (KP, "char+"%string, P_char_plus);
   (KP, "here"%string, P_here);
   (KP, "allot"%string, P_allot);
   (KP, "aligned"%string, P_aligned);
   (KP, "align"%string, P_align);
   (KP, "c@"%string, P_c_fetch);
   (KP, "c!"%string, P_c_store);
   (KP, "move"%string, P_p_move);
   (KP, "base"%string, P_base);
   (KP, "immediate"%string, P_immediate);
   (KP, "compile-only"%string, P_compile_only);
   (KI, "("%string, P_imm_paren);
   (KI, "\"%string, P_imm_backslash);
   (KI, "["%string, P_left_bracket);
   (KIC, "[']"%string, P_bracket_tick);
   (KIC, "[char]"%string, P_bracket_char);
   (KIC, ";"%string, P_semicolon);
   (KIC, "if"%string, P_imm_if);
   (KIC, "else"%string, P_imm_else);
   (KIC, "then"%string, P_imm_then);
   (KIC, "case"%string, P_imm_case);
   (KIC, "of"%string, P_imm_of);
   (KIC, "endof"%string, P_imm_endof);
   (KIC, "endcase"%string, P_imm_endcase);
   (KIC, "begin"%string, P_imm_begin);
   (KIC, "while"%string, P_imm_while);
   (KIC, "repeat"%string, P_imm_repeat);
   (KIC, "until"%string, P_imm_until);
   (KIC, "again"%string, P_imm_again);
   (KI, "0labels"%string, P_imm_clear_labels);
   (KIC, "label"%string, P_imm_label);
   (KIC, "goto"%string, P_imm_goto);
   (KIC, "call"%string, P_imm_call);
   (KIC, "recurse"%string, P_imm_recurse);
   (KIC, "do"%string, P_imm_do);
   (KIC, "?do"%string, P_imm_qdo);
   (KIC, "loop"%string, P_imm_loop);
   (KIC, "+loop"%string, P_imm_plus_loop);
   (KIC, "postpone"%string, P_postpone);
   (KIC, "does>"%string, P_does);
   (KP, "true"%string, P_p_true);
   (KP, "false"%string, P_p_false);
   (KP, "not"%string, P_zero_equals);
   (KP, "0="%string, P_zero_equals);
   (KP, "0>"%string, P_zero_greater);
   (KP, "0<>"%string, P_zero_not_equals);
   (KP, ">"%string, P_greater_than);
   (KP, "<>"%string, P_not_equals);
   (KP, "within"%string, P_within);
   (KP, "rot"%string, P_rot);
   (KP, "-rot"%string, P_minus_rot);
   (KP, "pick"%string, P_pick);
   (KP, "2dup"%string, P_two_dup);
   (KP, "2drop"%string, P_two_drop);
   (KP, "2swap"%string, P_two_swap);
   (KP, "2over"%string, P_two_over);
   (KP, "/"%string, P_slash);
   (KP, "mod"%string, P_p_mod);
   (KP, "abs"%string, P_abs);
   (KP, "negate"%string, P_negate);
   (KP, "parse-word"%string, P_parse_word);
   (KP, "char"%string, P_char);
   (KP, "_skip"%string, P__skip);
   (KP, "parse"%string, P_parse);
   (KP, ":"%string, P_colon);
   (KP, "constant"%string, P_constant);
   (KP, "create"%string, P_create);
   (KP, "'"%string, P_tick);
   (KP, ">body"%string, P_to_body);
   (KP, ">name"%string, P_to_name);
   (KP, "]"%string, P_right_bracket);
   (KP, ","%string, P_comma);
   (KP, "marker"%string, P_marker);
   (KP, "handler!"%string, P_handler_store);
   (KP, "error"%string, P_error);
   (KP, ".error"%string, P_dot_error);
   (KP, "0error"%string, P_clear_error);
   (KP, "0stacks"%string, P_clear_stacks);
   (KP, "reset"%string, P_reset);
   (KP, "abort"%string, P_abort);
   (KP, "compiling?"%string, P_p_compiling);
   (KP, "token-empty?"%string, P_token_empty);
   (KP, ".token"%string, P_dot_token);
   (KP, "!token"%string, P_store_token);
   (KP, "compile-token"%string, P_compile_token);
   (KP, "interpret-token"%string, P_interpret_token);
   (KP, "source-id"%string, P_p_source_id);
   (KP, "source-id!"%string, P_p_set_source_id);
   (KP, "source-idx"%string, P_p_source_idx);
   (KP, "source-idx"%string, P_p_source_idx);
   (KP, "source-idx!"%string, P_p_set_source_idx);
   (KP, "bye"%string, P_bye)].

(** src/core.rs 714-718 *)
Definition multitask_table : list (reg * string * prim) :=
  [(KC, "pause"%string, P_pause);
   (KC, "activate"%string, P_activate);
   (KP, "me"%string, P_me);
   (KP, "suspend"%string, P_suspend);
   (KP, "resume"%string, P_resume)].

(** src/output.rs 12-19 *)
Definition output_table : list (reg * string * prim) :=
  [(KP, "emit"%string, P_emit);
   (KP, "type"%string, P_p_type);
   (KIC, "s"""%string, P_s_quote);
   (KIC, "."""%string, P_dot_quote);
   (KI, ".("%string, P_dot_paren);
   (KP, ".r"%string, P_dot_r);
   (KP, "f.r"%string, P_fdot_r);
   (KP, "flush-output"%string, P_flush_output)].

(** src/tools.rs 10-19 *)
Definition tools_table : list (reg * string * prim) :=
  [(KP, "words"%string, P_words);
   (KP, ".word"%string, P_dot_word);
   (KP, ".backtrace"%string, P_dot_backtrace);
   (KP, ".s"%string, P_dot_s);
   (KP, ".memory"%string, P_dot_memory);
   (KP, "(xtime)"%string, P_set_execution_times);
   (KP, ".xtime"%string, P_dot_xtime);
   (KP, "0xtime"%string, P_clear_xtime);
   (KP, ".input"%string, P_dot_input);
   (KP, "flush-to-err"%string, P_flush_to_err)].

(** src/env.rs 8-9 *)
Definition env_table : list (reg * string * prim) :=
  [(KP, "max-n"%string, P_max_n);
   (KP, "max-u"%string, P_max_u)].

(** src/facility.rs 10-11 *)
Definition facility_table : list (reg * string * prim) :=
  [(KP, "mtime"%string, P_mtime);
   (KP, "utime"%string, P_utime)].

(** src/float.rs 12-53 *)
Definition float_table : list (reg * string * prim) :=
  [(KP, "fconstant"%string, P_fconstant);
   (KP, "float+"%string, P_float_plus);
   (KP, "floats"%string, P_floats);
   (KP, "faligned"%string, P_faligned);
   (KP, "falign"%string, P_falign);
   (KP, "pi"%string, P_pi);
   (KP, "f!"%string, P_fstore);
   (KP, "f@"%string, P_ffetch);
   (KP, "fabs"%string, P_fabs);
   (KP, "fsin"%string, P_fsin);
   (KP, "fcos"%string, P_fcos);
   (KP, "ftan"%string, P_ftan);
   (KP, "fsincos"%string, P_fsincos);
   (KP, "fasin"%string, P_fasin);
   (KP, "facos"%string, P_facos);
   (KP, "fatan"%string, P_fatan);
   (KP, "fatan2"%string, P_fatan2);
   (KP, "fsqrt"%string, P_fsqrt);
   (KP, "fdrop"%string, P_fdrop);
   (KP, "fdup"%string, P_fdup);
   (KP, "fswap"%string, P_fswap);
   (KP, "fnip"%string, P_fnip);
   (KP, "fover"%string, P_fover);
   (KP, "frot"%string, P_frot);
   (KP, "fpick"%string, P_fpick);
   (KP, "s>f"%string, P_s_to_f);
   (KP, "f>s"%string, P_f_to_s);
   (KP, "f+"%string, P_fplus);
   (KP, "f-"%string, P_fminus);
   (KP, "f*"%string, P_fstar);
   (KP, "f/"%string, P_fslash);
   (KP, "f**"%string, P_fpowf);
   (KP, "f~"%string, P_fproximate);
   (KP, "f0<"%string, P_f_zero_less_than);
   (KP, "f0="%string, P_f_zero_equals);
   (KP, "f<"%string, P_f_less_than);
   (KP, "fmin"%string, P_fmin);
   (KP, "fmax"%string, P_fmax);
   (KP, "floor"%string, P_floor);
   (KP, "fround"%string, P_fround);
   (KP, "fceil"%string, P_fceil);
   (KP, "fnegate"%string, P_fnegate)].

(** src/units.rs 18-37 *)
Definition units_table : list (reg * string * prim) :=
  [(KP, "meter"%string, P_from_meter);
   (KP, "mm"%string, P_from_mm);
   (KP, "um"%string, P_from_um);
   (KP, "deg"%string, P_from_deg);
   (KP, "rad"%string, P_from_rad);
   (KP, "hr"%string, P_from_hour);
   (KP, "minute"%string, P_from_minute);
   (KP, "sec"%string, P_from_sec);
   (KP, "msec"%string, P_from_msec);
   (KP, "usec"%string, P_from_usec);
   (KP, "mm/min"%string, P_mm_per_min);
   (KP, "mm/sec"%string, P_mm_per_sec);
   (KP, "um/msec"%string, P_um_per_msec);
   (KP, "rpm"%string, P_rpm);
   (KP, "hz"%string, P_hertz);
   (KP, "1/sec"%string, P_hertz)].

(** src/file_access.rs 15-24 *)
Definition file_table : list (reg * string * prim) :=
  [(KP, "file-size"%string, P_file_size);
   (KP, "file-position"%string, P_file_position);
   (KP, "close-file"%string, P_close_file);
   (KP, "create-file"%string, P_create_file);
   (KP, "delete-file"%string, P_delete_file);
   (KP, "open-file"%string, P_open_file);
   (KP, "read-file"%string, P_read_file);
   (KP, "write-file"%string, P_write_file);
   (KP, "resize-file"%string, P_resize_file);
   (KP, "reposition-file"%string, P_reposition_file)].

(** src/loader.rs 18-22 *)
Definition loader_table : list (reg * string * prim) :=
  [(KP, "open-source"%string, P_open_source);
   (KP, "close-source"%string, P_close_source);
   (KP, ".source-path"%string, P_dot_source_path);
   (KP, "load-line"%string, P_p_load_line);
   (KP, ".source-line"%string, P_dot_source_line)].

Section Boot.
Context {E : Env}.

(** src/core.rs 737-759 [add_immediate], [add_compile_only],
    [add_immediate_and_compile_only] *)
Definition add_word (r : reg * string * prim) : M unit :=
  let '(k, n, p) := r in
  add_primitive (b n) p ;;;
  match k with
  | KP => ret tt
  | KI => immediate
  | KC => compile_only
  | KIC => immediate ;;; compile_only
  end.

(** [self.find(name).expect(..)] *)
Definition find_expect (name : bytes) : M Z :=
  n <- gets (fun v => wl_len (v_wl v)) ;;
  o <- find (S (Z.to_nat n)) name ;;
  match o with Some i => ret i | None => panic PExpect end.
Definition set_ref (f : Z -> refs -> refs) (name : string) : M unit :=
  i <- find_expect (b name) ;; modify (fun v => set_v_refs (f i (v_refs v)) v).

(** src/core.rs 694-708 *)
Definition core_refs : list ((Z -> refs -> refs) * string) :=
  [(set_idx_lit, "lit"); (set_idx_flit, "flit"); (set_idx_exit, "exit");
   (set_idx_zero_branch, "0branch"); (set_idx_branch, "branch"); (set_idx_do, "_do");
   (set_idx_qdo, "_qdo"); (set_idx_loop, "_loop"); (set_idx_plus_loop, "_+loop");
   (set_idx_over, "over"); (set_idx_equal, "="); (set_idx_drop, "drop");
   (set_idx__postpone, "_postpone"); (set_idx_to_r, ">r"); (set_idx__does, "_does")]%string.

(** src/core.rs 908-911 [patch_compilation_semanticses] *)
Definition patch_compilation_semanticses : M unit :=
  i <- find_expect (b "leave") ;; upd_word i (set_w_cs CS_compile_leave).

(** src/core.rs 544-721 [add_core] *)
Definition add_core : M unit :=
  mapM_ add_word core_table ;;;
  mapM_ (fun r => set_ref (fst r) (snd r)) core_refs ;;;
  patch_compilation_semanticses ;;;
  mapM_ add_word multitask_table ;;;
  set_awake 0 true.

(** src/output.rs 11-22 [add_output] *)
Definition add_output : M unit :=
  mapM_ add_word output_table ;;;
  set_ref set_idx_s_quote "_s""" ;;;
  set_ref set_idx_type "type".

(** src/mock_vm.rs 80-117 [VM::new] up to the registration of words.
    [addr] is the address returned by the allocator, [cap] the capacity
    (64 KiB in mock_vm.rs), [cc] the control stack canary. *)
Definition vm_init (addr cap : Z) (cc : control) (o : os) : vm :=
  mkVm 0
    (tset (tset (tset (tset (tset tempty 0 (new_terminal cc)) 1 (new_background cc))
                            2 (new_background cc)) 3 (new_background cc)) 4 (new_background cc))
    None 0 (mkWl tempty 0 tempty tempty 0) (ds_new addr cap) (Some []) (Some []) []
    (mkRefs 0 0 0 0 0 0 0 0 0 0 0 0 0 0 0 0 0) 0 [] [] tempty o [] [].

Definition add_words : M unit :=
  add_core ;;; add_output ;;; mapM_ add_word tools_table ;;; mapM_ add_word env_table ;;;
  mapM_ add_word facility_table ;;; mapM_ add_word float_table ;;; mapM_ add_word units_table ;;;
  mapM_ add_word file_table ;;; mapM_ add_word loader_table.

(** src/loader.rs 195-206 [load_core_fth] *)
Definition load_core_fth (fuel : nat) : M unit :=
  load_str fuel core_fth ;;;
  e <- gets v_err ;;
  match e with Some _ => panic PExpect | None => ret tt end.

(** src/mock_vm.rs 80-131 [VM::new] *)
Definition vm_new (fuel : nat) (addr cap : Z) (cc : control) (o : os) : res vm :=
  match (add_words ;;; load_core_fth fuel) (vm_init addr cap cc o) with
  | Ok (_, v) => Ok v
  | Panic p => Panic p
  | UB => UB
  | OutOfFuel => OutOfFuel
  end.

End Boot.
