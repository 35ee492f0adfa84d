(** Vocabulary of C40: lines that cannot crash the interpreter. *)
From Coq Require Import ZArith List Bool String.
From Verif Require Import Base Stack Mem State CoreM Exec Spec Spec4 Spec5 Spec10 Spec11.
Import ListNotations.
Open Scope list_scope.
Open Scope Z_scope.

(** Words that only use the data and the float stack, the output and the operating system, or that raise an exception *)
Definition plain_words : list prim :=
  [P_noop; P_dup; P_p_drop; P_swap; P_over; P_nip; P_rot; P_minus_rot; P_pick; P_depth; P_two_dup; P_two_drop; P_two_swap; P_two_over;
   P_plus; P_minus; P_star; P_slash; P_p_mod; P_slash_mod; P_one_plus; P_one_minus; P_abs; P_negate; P_lshift; P_rshift;
   P_invert; P_and; P_or; P_xor; P_p_true; P_p_false;
   P_zero_less; P_zero_equals; P_zero_greater; P_zero_not_equals; P_equals; P_less_than; P_greater_than; P_not_equals; P_within;
   P_here; P_base; P_c_fetch; P_max_n; P_max_u; P_mtime; P_utime; P_me; P_p_source_id; P_p_source_idx; P_p_compiling; P_token_empty;
   P_error; P_dot_error; P_clear_error; P_clear_stacks; P_abort; P_check_stacks; P_bye;
   P_left_bracket; P_imm_clear_labels; P_imm_case; P_imm_begin; P_r_fetch; P_two_r_fetch; P_dot_source_path; P_dot_source_line;
   P_emit; P_dot_s; P_dot_memory; P_dot_token; P_flush_output; P_flush_to_err;
   P_pi; P_fabs; P_fsin; P_fcos; P_ftan; P_fsincos; P_fasin; P_facos; P_fatan; P_fatan2; P_fsqrt;
   P_fdrop; P_fdup; P_fswap; P_fnip; P_fover; P_frot; P_fpick; P_s_to_f; P_f_to_s;
   P_fplus; P_fminus; P_fstar; P_fslash; P_fpowf; P_fproximate; P_f_zero_less_than; P_f_zero_equals; P_f_less_than;
   P_fmin; P_fmax; P_floor; P_fround; P_fceil; P_fnegate;
   P_from_meter; P_from_mm; P_from_um; P_from_deg; P_from_rad; P_from_hour; P_from_minute; P_from_sec; P_from_msec; P_from_usec;
   P_mm_per_min; P_mm_per_sec; P_um_per_msec; P_rpm; P_hertz;
   P_file_size; P_file_position; P_close_file; P_resize_file; P_reposition_file].

Section S.
Context {E : Env}.

(** Neither a panic nor undefined behaviour *)
Definition crash_free {A} (r : res A) : Prop := match r with Ok _ | OutOfFuel => True | Panic _ | UB => False end.

(** [p] is made of literals, conditionals, BEGIN loops, EXIT and words of [H] *)
Fixpoint made_of (H : Z -> Prop) (v : vm) (p : prog) : Prop :=
  match p with
  | Skip | Num _ | Flo _ | Str _ => True
  | Op i => H i \/ word_is v i P_exit
  | Seq p q | IfElse p q | While p q => made_of H v p /\ made_of H v q
  | IfThen p | Until p | Again p => made_of H v p
  | Do _ _ _ => False
  end.

(** The words of [H] are plain words, constants, variables, and colon definitions made of words of [H]
    (which may call each other, recursively or not) *)
Definition harmless (v : vm) (H : Z -> Prop) : Prop :=
  forall i, H i ->
    (exists p, In p plain_words /\ word_is v i p) \/
    word_is v i P_p_var \/
    (word_is v i P_p_const /\ start (v_ds v) <= w_dfa (word_of v i) /\ w_dfa (word_of v i) + 8 <= limit (v_ds v)) \/
    (word_is v i P_nest /\ exists p x, word_is v x P_exit /\ made_of H v p /\
       laid (fun _ => True) v (Seq p (Op x)) (w_dfa (word_of v i))).

(** Interpreting, with nothing running, and with the handler that does nothing *)
Definition at_rest (v : vm) : Prop :=
  dict_ok v /\ (exists base, base_is v base) /\ st_compiling (st v) = false /\ ip v = 0 /\ v_tkn v <> None /\
  word_is v (v_handler v) P_noop /\ exists buf, input_text v buf.

(** Every word of the line that names a word names one of [H], or one that may only be compiled *)
Definition uses_only (H : Z -> Prop) (v : vm) (ts : list bytes) : Prop :=
  forall t i, In t ts -> newest v t (Some i) -> H i \/ w_co (word_of v i) = true.

(** Words of core.fth that are made of plain words *)
Definition safe_library : list string :=
  ["2*"; "2/"; "<="; ">="; "?dup"; "tuck"; "max"; "min"; "chars"; "count"; "bounds"; "space"; "spaces"; "cr"]%string.
Definition safe_word (v : vm) (i : Z) : Prop :=
  (exists p, In p plain_words /\ word_is v i p) \/ (exists n, In n safe_library /\ newest v (b n) (Some i)).
End S.
