(** Vocabulary of the properties of the words defined in core.fth (C48, C54 - C58). *)
From Coq Require Import ZArith List Bool String.
From Verif Require Import Base Stack Mem Parser State CoreM Exec Spec Spec2 Spec4 Spec5 Spec7 Spec10.
Import ListNotations.
Open Scope Z_scope.

Section V.
Context {E : Env}.

(** ** What a word defined by a colon definition does *)

(** Everything outside the stacks, the bytes of the data space and the output is as before; the slots
    that mark stack underflow are intact *)
Definition calm (v v' : vm) : Prop :=
  v_cur v' = v_cur v /\ v_err v' = v_err v /\ v_handler v' = v_handler v /\ v_wl v' = v_wl v /\
  v_tkn v' = v_tkn v /\ v_refs v' = v_refs v /\ v_now v' = v_now v /\ v_fwd v' = v_fwd v /\ v_res v' = v_res v /\
  v_labels v' = v_labels v /\ v_os v' = v_os v /\ v_stdout v' = v_stdout v /\ v_stderr v' = v_stderr v /\
  same_other_tasks v v' /\
  t_awake (cur v') = t_awake (cur v) /\ t_c (cur v') = t_c (cur v) /\ t_inbuf (cur v') = t_inbuf (cur v) /\
  t_files (cur v') = t_files (cur v) /\ t_sources (cur v') = t_sources (cur v) /\ t_lines (cur v') = t_lines (cur v) /\
  st_compiling (st v') = st_compiling (st v) /\ st_awp (st v') = st_awp (st v) /\
  st_idx (st v') = st_idx (st v) /\ st_sid (st v') = st_sid (st v) /\
  ds_inner (v_ds v') = ds_inner (v_ds v) /\ ds_cap (v_ds v') = ds_cap (v_ds v) /\
  canary (t_s (cur v')) = canary (t_s (cur v)) /\ sget (t_s (cur v')) 255 = sget (t_s (cur v)) 255 /\
  canary (t_r (cur v')) = canary (t_r (cur v)) /\ sget (t_r (cur v')) 255 = sget (t_r (cur v)) 255.

(** Executing the word [i], from wherever it is called, returns to the caller in a state satisfying [Q]
    (the instruction and word pointers of that state do not matter), with the code in [K] unchanged *)
Definition does (K : Z -> Prop) (v : vm) (i : Z) (Q : vm -> Prop) : Prop :=
  forall r, 0 <= r < 2 ^ 63 ->
    exists f u v', execute_word f i (set_ip r v) = Ok (tt, u) /\ goes u (st_ip (st u)) v' r /\ kept K v v' /\ Q v'.

(** The word [i] is a colon definition with body [p] and the final word [x], which is EXIT *)
Definition colon_word (K : Z -> Prop) (v : vm) (i : Z) (p : prog) (x : Z) : Prop :=
  word_is v i P_nest /\ word_is v x P_exit /\ holds K v (Seq p (Op x)) (w_dfa (word_of v i)).

(** ** The definitions of core.fth *)

(** Sequences *)
Fixpoint block (l : list prog) : prog :=
  match l with [] => Skip | [p] => p | p :: l => Seq p (block l) end.

(** The built-in words used in them *)
Definition lib_prims : list prim :=
  [P_exit; P_star; P_slash; P_greater_than; P_less_than; P_invert; P_dup; P_swap; P_over; P_cell_plus; P_fetch; P_store;
   P_rot; P_plus; P_minus; P_two_dup; P_nip; P_p_drop; P_two_drop; P_here; P_allot; P_c_store; P_c_fetch; P_zero_greater;
   P_p_to_r; P_r_from; P_p_i; P_p_true; P_p_false; P_emit; P_one_plus; P_cells;
   P_create; P_comma; P__does; P_execute; P_to_body; P_noop; P_pause; P_me; P_equals; P_one_minus; P_abort;
   P_p_source_id; P_p_source_idx; P_p_set_source_id; P_p_set_source_idx;
   P_dot_r; P_fdot_r; P_base; P_fswap; P_f_less_than; P_floats; P_fstore; P_falign; P_faligned; P_two_to_r; P_two_r_from; P_two_r_fetch;
   P_r_fetch; P_p_move; P_aligned; P_and; P_within; P_xor; P_lit; P_flit; P__postpone; P__skip; P_parse; P_store_token;
   P_set_execution_times; P_activate; P_suspend; P_mtime; P_pick; P_zero_equals; P_parse_word; P_token_empty; P_p_compiling;
   P_compile_token; P_interpret_token; P_check_stacks; P_p_load_line; P_flush_output; P_open_file; P_open_source; P_close_source;
   P_left_bracket].
(** [ix] gives the number of each of them *)
Definition library (ix : prim -> Z) (v : vm) : Prop := forall p, In p lib_prims -> word_is v (ix p) p.

(** The definitions, word by word; [ix] as above.  The comment is the line of core.fth. *)
Section Text.
Variable ix : prim -> Z.
Definition wd (p : prim) : prog := Op (ix p).
(* : 2* 2 * ; *)
Definition d_two_star := block [Num 2; wd P_star].
(* : 2/ 2 / ; *)
Definition d_two_slash := block [Num 2; wd P_slash].
(* : <= > invert ; *)
Definition d_le := block [wd P_greater_than; wd P_invert].
(* : >= < invert ; *)
Definition d_ge := block [wd P_less_than; wd P_invert].
(* : ?dup dup if dup then ; *)
Definition d_qdup := block [wd P_dup; IfThen (wd P_dup)].
(* : tuck swap over ; *)
Definition d_tuck := block [wd P_swap; wd P_over].
(* : 2@ dup cell+ @ swap @ ; *)
Definition d_two_fetch := block [wd P_dup; wd P_cell_plus; wd P_fetch; wd P_swap; wd P_fetch].
(* : 2! swap over ! cell+ ! ; *)
Definition d_two_store := block [wd P_swap; wd P_over; wd P_store; wd P_cell_plus; wd P_store].
(* : +! dup @ rot + swap ! ; *)
Definition d_plus_store := block [wd P_dup; wd P_fetch; wd P_rot; wd P_plus; wd P_swap; wd P_store].
(* : max 2dup < if nip else drop then ; *)
Definition d_max := block [wd P_two_dup; wd P_less_than; IfElse (wd P_nip) (wd P_p_drop)].
(* : min 2dup < if drop else nip then ; *)
Definition d_min := block [wd P_two_dup; wd P_less_than; IfElse (wd P_p_drop) (wd P_nip)].
(* : chars ; immediate *)
Definition d_chars := Skip.
(* : c, here 1 chars allot c! ; *)
Definition d_c_comma := block [wd P_here; Num 1; wd P_allot; wd P_c_store].
(* : count dup c@ swap 1 + swap ; *)
Definition d_count := block [wd P_dup; wd P_c_fetch; wd P_swap; Num 1; wd P_plus; wd P_swap].
(* : /string dup >r - swap r> chars + swap ; *)
Definition d_slash_string := block [wd P_dup; wd P_p_to_r; wd P_minus; wd P_swap; wd P_r_from; wd P_plus; wd P_swap].
(* : bounds over + swap ; *)
Definition d_bounds := block [wd P_over; wd P_plus; wd P_swap].
(* : on true swap ! ; *)
Definition d_on := block [wd P_p_true; wd P_swap; wd P_store].
(* : off false swap ! ; *)
Definition d_off := block [wd P_p_false; wd P_swap; wd P_store].
(* : space 32 emit ; *)
Definition d_space := block [Num 32; wd P_emit].
(* : spaces 0 begin 2dup > while 1+ space repeat 2drop ; *)
Definition d_spaces (space : Z) :=
  block [Num 0; While (block [wd P_two_dup; wd P_greater_than]) (block [wd P_one_plus; Op space]); wd P_two_drop].
(* : cr 10 emit ; *)
Definition d_cr := block [Num 10; wd P_emit].
(* : fill swap dup 0> if >r swap r> 0 do 2dup i + c! loop else drop then 2drop ; *)
Definition d_fill := block [wd P_swap; wd P_dup; wd P_zero_greater;
  IfElse (block [wd P_p_to_r; wd P_swap; wd P_r_from; Num 0; Do false false (block [wd P_two_dup; wd P_p_i; wd P_plus; wd P_c_store])])
    (wd P_p_drop); wd P_two_drop].
(* : 2, here 2 cells allot 2! ; *)
Definition d_two_comma (two_store : Z) := block [wd P_here; Num 2; wd P_cells; wd P_allot; Op two_store].
End Text.

(** The words with their names *)
Definition core_words : list (string * ((prim -> Z) -> prog)) :=
  [("2*", d_two_star); ("2/", d_two_slash); ("<=", d_le); (">=", d_ge); ("?dup", d_qdup); ("tuck", d_tuck);
   ("2@", d_two_fetch); ("2!", d_two_store); ("+!", d_plus_store); ("max", d_max); ("min", d_min);
   ("chars", fun _ => d_chars); ("c,", d_c_comma); ("count", d_count); ("/string", d_slash_string);
   ("bounds", d_bounds); ("on", d_on); ("off", d_off); ("space", d_space); ("cr", d_cr); ("fill", d_fill)]%string.

(** ** Stack effects of such words *)

(** For every word defined with the body [d]: with the cells [ins] on top of the data stack they are replaced by
    cells [outs] satisfying [Q], and nothing else changes; the word needs some room on both stacks *)
Definition lib_effect (d : (prim -> Z) -> prog) (ins : list Z) (Q : list Z -> Prop) : Prop :=
  forall K ix v i rest rs fs, library ix v -> colon_word K v i (d ix) (ix P_exit) ->
    stacks_are v (ins ++ rest) rs fs -> zlen rest <= 245 -> zlen rs <= 245 ->
    does K v i (fun v' => exists outs, Q outs /\ stacks_are v' (outs ++ rest) rs fs /\
      v_ds v' = v_ds v /\ v_out v' = v_out v /\ calm v v').

(** The part [K] of the data space does not meet the [n] bytes at [a], which lie in the data space *)
Definition free_of (K : Z -> Prop) (v : vm) (a n : Z) : Prop :=
  start (v_ds v) < a /\ a + n <= limit (v_ds v) /\
  forall k, K k -> start (v_ds v) <= k /\ (k < a \/ a + n <= k).

(** The same for words that read or write memory or print: [P] is required of the state, [Q] relates it to the
    results, the data space and the text printed *)
Definition lib_action (d : (prim -> Z) -> prog) (ins : list Z) (P : (Z -> Prop) -> vm -> Prop)
    (Q : vm -> list Z -> dspace -> bytes -> Prop) : Prop :=
  forall K ix v i rest rs fs, library ix v -> colon_word K v i (d ix) (ix P_exit) ->
    stacks_are v (ins ++ rest) rs fs -> zlen rest <= 245 -> zlen rs <= 245 -> ds_ok (v_ds v) -> P K v ->
    does K v i (fun v' => exists outs text, Q v outs (v_ds v') text /\ stacks_are v' (outs ++ rest) rs fs /\
      v_out v' = match v_out v with Some t => Some (t ++ text) | None => None end /\ calm v v').

(** ** The words of the loaded system *)

(** The cells of the definition of word [i] *)
Definition own_code (v : vm) (i : Z) (p : prog) (x : Z) (k : Z) : Prop :=
  w_dfa (word_of v i) <= k < fin (Seq p (Op x)) (w_dfa (word_of v i)).

(** The dictionary of [v] finds, under each of the names, a word with the definition above; CHARS is immediate *)
Definition installed (ix : prim -> Z) (v : vm) : Prop :=
  library ix v /\
  (forall name d, In (name, d) core_words -> exists i, newest v (b name) (Some i) /\
     colon_word (own_code v i (d ix) (ix P_exit)) v i (d ix) (ix P_exit) /\
     (w_imm (word_of v i) = true <-> name = "chars"%string)) /\
  (exists i sp, newest v (b "spaces") (Some i) /\ newest v (b "space") (Some sp) /\
     forall K : Z -> Prop, (forall k, own_code v i (d_spaces ix sp) (ix P_exit) k -> K k) ->
       (forall k, own_code v sp (d_space ix) (ix P_exit) k -> K k) ->
       colon_word K v i (d_spaces ix sp) (ix P_exit) /\ colon_word K v sp (d_space ix) (ix P_exit)) /\
  (exists i ts, newest v (b "2,") (Some i) /\ newest v (b "2!") (Some ts) /\
     forall K : Z -> Prop, (forall k, own_code v i (d_two_comma ix ts) (ix P_exit) k -> K k) ->
       (forall k, own_code v ts (d_two_store ix) (ix P_exit) k -> K k) ->
       colon_word K v i (d_two_comma ix ts) (ix P_exit) /\ colon_word K v ts (d_two_store ix) (ix P_exit)).
End V.
