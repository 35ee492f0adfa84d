(** Specification vocabulary: compiling structured programs. *)
From Coq Require Import ZArith List Bool.
From Verif Require Import Base Stack Mem State CoreM Exec Spec Spec4 Spec5.
Import ListNotations.
Open Scope Z_scope.
Open Scope m_scope.

Section S.
Context {E : Env}.

(** The words that the compiler itself puts into definitions are in the
    dictionary, under the numbers it has recorded. *)
Definition compiler_words : list ((refs -> Z) * prim) :=
  [(idx_lit, P_lit); (idx_flit, P_flit); (idx_s_quote, P_p_s_quote); (idx_branch, P_branch);
   (idx_zero_branch, P_zero_branch); (idx_do, P__do); (idx_qdo, P__qdo); (idx_loop, P__loop);
   (idx_plus_loop, P__plus_loop); (idx_over, P_over); (idx_equal, P_equals); (idx_drop, P_p_drop);
   (idx_exit, P_exit); (idx_to_r, P_p_to_r)].
Definition compiler_ready (v : vm) : Prop :=
  wl_len (v_wl v) <= 2 ^ 63 /\
  forall f p, In (f, p) compiler_words -> word_is v (f (v_refs v)) p.

(** A state in which compilation can go on: the data space is sound, at most 64
    control structures are open, [n] of which are still free, and the word
    that marks underflow of the control stack is intact.  In a [loop], one of the
    open structures is DO. *)
Definition can_compile (loop : bool) (n : Z) (v : vm) : Prop :=
  ds_ok (v_ds v) /\ compiler_ready v /\
  sget (t_c (cur v)) 255 = canary (t_c (cur v)) /\
  exists open, stack_has (t_c (cur v)) open /\ zlen open + n <= 64 /\
    (loop = true -> exists p q, In (CDo p q) open).

(** Everything that compiling code leaves alone *)
Definition same_but_code (v v' : vm) : Prop :=
  v_cur v' = v_cur v /\ v_err v' = v_err v /\ v_handler v' = v_handler v /\
  v_wl v' = v_wl v /\ v_out v' = v_out v /\
  v_hld v' = v_hld v /\ v_refs v' = v_refs v /\ v_now v' = v_now v /\ v_fwd v' = v_fwd v /\
  v_res v' = v_res v /\ v_labels v' = v_labels v /\ v_os v' = v_os v /\
  v_stdout v' = v_stdout v /\ v_stderr v' = v_stderr v /\ same_other_tasks v v' /\
  t_awake (cur v') = t_awake (cur v) /\ t_s (cur v') = t_s (cur v) /\ t_r (cur v') = t_r (cur v) /\
  t_f (cur v') = t_f (cur v) /\ t_inbuf (cur v') = t_inbuf (cur v) /\
  t_files (cur v') = t_files (cur v) /\ t_sources (cur v') = t_sources (cur v) /\
  t_lines (cur v') = t_lines (cur v) /\
  st_compiling (st v') = st_compiling (st v) /\ st_ip (st v') = st_ip (st v) /\
  st_awp (st v') = st_awp (st v) /\ st_sid (st v') = st_sid (st v).

(** [v'] is [v] with the code of [p] appended: it starts at the old end of the
    dictionary space, older memory is unchanged, the same control structures
    are open. *)
Definition compiled (p : prog) (v v' : vm) : Prop :=
  let h := here (v_ds v) in
  here (v_ds v') = fin p h /\
  start (v_ds v') = start (v_ds v) /\ limit (v_ds v') = limit (v_ds v) /\
  (forall i, start (v_ds v) <= i < h -> byte_at (v_ds v') i = byte_at (v_ds v) i) /\
  laid (fun i => h <= i < fin p h) v' p h /\
  canary (t_c (cur v')) = canary (t_c (cur v)) /\
  sget (t_c (cur v')) 255 = sget (t_c (cur v)) 255 /\
  (forall open, zlen open <= 64 -> stack_has (t_c (cur v)) open -> stack_has (t_c (cur v')) open) /\
  same_but_code v v'.

(** [m] compiles [p] whenever there is room *)
Definition compiles_to (loop : bool) (n : Z) (m : M unit) (p : prog) : Prop :=
  forall v, can_compile loop n v -> fin p (here (v_ds v)) <= limit (v_ds v) ->
    exists v', m v = Ok (tt, v') /\ compiled p v v'.

(** Sequences of compiler actions.  [wl] is the dictionary, [n] the number of
    control structures that may be opened, [o e d] the numbers of the words
    OVER, = and DROP. *)
Section Source.
Variable wl : wordlist.
Variable o e d : Z.
Variables (fuel : nat) (ew : Z -> M unit).
Let act (p : prim) : M unit := exec_prim fuel ew p.

Inductive source : bool -> Z -> prog -> M unit -> Prop :=
| S_skip l n : 0 <= n -> source l n Skip (ret tt)
| S_seq l n p q m1 m2 : source l n p m1 -> source l n q m2 -> source l n (Seq p q) (m1 ;;; m2)
(* a word that is not immediate *)
| S_word l n i : 0 <= n -> 0 <= i < wl_len wl -> w_cs (wl_get wl i) <> CS_compile_leave ->
    source l n (Op i) (run_cs ew (w_cs (wl_get wl i)) i)
(* leave, inside a loop *)
| S_leave n i : 0 <= n -> 0 <= i < wl_len wl -> w_cs (wl_get wl i) = CS_compile_leave ->
    source true n (Op i) (run_cs ew (w_cs (wl_get wl i)) i)
| S_num l n x : 0 <= n -> is_cell x -> source l n (Num x) (compile_integer x)
| S_flo l n x : 0 <= n -> 0 <= x < 2 ^ 64 -> source l n (Flo x) (compile_float x)
| S_if l n p m : source l n p m ->
    source l (n + 1) (IfThen p) (act P_imm_if ;;; m ;;; act P_imm_then)
| S_else l n p q m1 m2 : source l n p m1 -> source l n q m2 ->
    source l (n + 1) (IfElse p q) (act P_imm_if ;;; m1 ;;; act P_imm_else ;;; m2 ;;; act P_imm_then)
| S_until l n p m : source l n p m ->
    source l (n + 1) (Until p) (act P_imm_begin ;;; m ;;; act P_imm_until)
| S_while l n p q m1 m2 : source l (n + 1) p m1 -> source l n q m2 ->
    source l (n + 2) (While p q)
      (act P_imm_begin ;;; m1 ;;; act P_imm_while ;;; m2 ;;; act P_imm_repeat)
| S_again l n p m : source l n p m ->
    source l (n + 1) (Again p) (act P_imm_begin ;;; m ;;; act P_imm_again)
| S_do l n skip step p m : source true n p m ->
    source l (n + 1) (Do skip step p)
      (act (if skip then P_imm_qdo else P_imm_do) ;;; m ;;;
       act (if step then P_imm_plus_loop else P_imm_loop))
| S_case l n cs dflt m1 m2 : source_of l n cs m1 -> source l (n - zlen cs) dflt m2 ->
    source l (n + 1) (Case o e d cs dflt)
      (act P_imm_case ;;; m1 ;;; m2 ;;; act P_imm_endcase)
(* anything else known to compile a program *)
| S_any l n p m : 0 <= n -> compiles_to l n m p -> source l n p m
(** the clauses of a CASE; each leaves one item on the control stack *)
with source_of : bool -> Z -> list (prog * prog) -> M unit -> Prop :=
| S_none l n : 0 <= n -> source_of l n [] (ret tt)
| S_of l n x p cs m1 m2 m : source l n x m1 -> source l (n - 1) p m2 -> source_of l (n - 1) cs m ->
    source_of l n ((x, p) :: cs) (m1 ;;; act P_imm_of ;;; m2 ;;; act P_imm_endof ;;; m).

Scheme source_ind2 := Minimality for source Sort Prop
with source_of_ind2 := Minimality for source_of Sort Prop.
Combined Scheme source_both from source_ind2, source_of_ind2.

End Source.
End S.
