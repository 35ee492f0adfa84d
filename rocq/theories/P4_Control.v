(** Properties C24-C29, C31, C32: compiled control structures, calls and literals. *)
From Coq Require Import ZArith List Bool Lia String.
From Verif Require Import Base Stack Mem Parser State CoreM Exec Boot Std Spec Spec4 Spec5 Spec6 Spec7
  LBase LStack LState LMem LCode LComp LRun LCtl LDec Ex Ex2 Ex3.
Import ListNotations.
Open Scope Z_scope.
Open Scope m_scope.

(** C24.  The words IF ELSE THEN, around whatever compiles [p] and [q], compile
    the two-way branch at HERE; older memory and all else stay as they were. *)
Theorem C24_if_else_compiles {E : Env} : forall fuel ew l n m1 m2 p q,
  0 <= n -> compiles_to l n m1 p -> compiles_to l n m2 q ->
  compiles_to l (n + 1)
    (exec_prim fuel ew P_imm_if ;;; m1 ;;; exec_prim fuel ew P_imm_else ;;; m2 ;;; exec_prim fuel ew P_imm_then)
    (IfElse p q).
Proof. exact if_else_compiles. Qed.
Print Assumptions C24_if_else_compiles.

Theorem C24_if_then_compiles {E : Env} : forall fuel ew l n m p,
  0 <= n -> compiles_to l n m p ->
  compiles_to l (n + 1) (exec_prim fuel ew P_imm_if ;;; m ;;; exec_prim fuel ew P_imm_then) (IfThen p).
Proof. exact if_then_compiles. Qed.
Print Assumptions C24_if_then_compiles.

(** The compiled code takes the flag [x] from the stack and runs the first body
    if it is not 0, the second if it is; then control is behind THEN. *)
Theorem C24_if_else_runs {E : Env} : forall (K : Z -> Prop) p q v a x v1 v2,
  holds K v (IfElse p q) a -> takes v x v1 ->
  (x <> 0 -> part K v1 (a + 16) v2 (fin p (a + 16))) ->
  (x = 0 -> part K v1 (fin p (a + 16) + 16) v2 (fin q (fin p (a + 16) + 16))) ->
  part K v a v2 (fin (IfElse p q) a).
Proof. exact if_else_run. Qed.
Print Assumptions C24_if_else_runs.

Theorem C24_if_then_runs {E : Env} : forall (K : Z -> Prop) p v a x v1 v2,
  holds K v (IfThen p) a -> takes v x v1 ->
  (x <> 0 -> part K v1 (a + 16) v2 (fin p (a + 16))) -> (x = 0 -> v2 = v1) ->
  part K v a v2 (fin (IfThen p) a).
Proof. exact if_then_run. Qed.
Print Assumptions C24_if_then_runs.

(** Every nesting of control structures: compiling a program lays out its code,
    and running that code does what the program means ([exec]). *)
Theorem C24_every_nesting {E : Env} : forall fuel ew l n p m v, (65 <= fuel)%nat ->
  source (v_wl v) (idx_over (v_refs v)) (idx_equal (v_refs v)) (idx_drop (v_refs v)) fuel ew l n p m ->
  can_compile l n v -> fin p (here (v_ds v)) <= limit (v_ds v) ->
  exists v', m v = Ok (tt, v') /\ compiled p v v' /\
    let h := here (v_ds v) in let K i := h <= i < fin p h in
    holds K v' p h /\
    forall u u', kept K v' u -> exec K p h u Next u' -> part K u h u' (fin p h).
Proof. exact nesting. Qed.
Print Assumptions C24_every_nesting.

(** What "control reaches" means for the interpreter: whatever RUN returns from
    the first state, it returns from the second, and conversely. *)
Theorem C24_reaching_is_running {E : Env} : forall v a v' a' w,
  goes v a v' a' -> continues v a w ->
  exists w', continues v' a' w' /\
    forall r, r <> OutOfFuel -> (exists f, run f w = r) <-> (exists f, run f w' = r).
Proof. exact goes_run. Qed.
Print Assumptions C24_reaching_is_running.

(** if 5 else 7 then, compiled on the booted machine, replaces a flag by 5 or 7 *)
Example C24_example : @can_compile env_d false 64 booted_d /\
  exists v', (exec_prim 65 ew_nop P_imm_if ;;; compile_integer 5 ;;; exec_prim 65 ew_nop P_imm_else ;;; compile_integer 7 ;;;
              exec_prim 65 ew_nop P_imm_then) booted_d = Ok (tt, v') /\
  forall x, let v := add_s x v' in
    part (K0 p_if) v h0 (add_s (if x =? 0 then 7 else 5) (drop_s 1 v)) (fin p_if h0).
Proof. exact (conj booted_can ex_if). Qed.

(** C25. *)
Theorem C25_until_compiles {E : Env} : forall fuel ew l n m p,
  0 <= n -> compiles_to l n m p ->
  compiles_to l (n + 1) (exec_prim fuel ew P_imm_begin ;;; m ;;; exec_prim fuel ew P_imm_until) (Until p).
Proof. exact until_compiles. Qed.
Print Assumptions C25_until_compiles.

Theorem C25_while_compiles {E : Env} : forall fuel ew l n m1 m2 p q,
  0 <= n -> compiles_to l (n + 1) m1 p -> compiles_to l n m2 q ->
  compiles_to l (n + 2)
    (exec_prim fuel ew P_imm_begin ;;; m1 ;;; exec_prim fuel ew P_imm_while ;;; m2 ;;; exec_prim fuel ew P_imm_repeat)
    (While p q).
Proof. exact while_compiles. Qed.
Print Assumptions C25_while_compiles.

Theorem C25_again_compiles {E : Env} : forall fuel ew l n m p,
  0 <= n -> compiles_to l n m p ->
  compiles_to l (n + 1) (exec_prim fuel ew P_imm_begin ;;; m ;;; exec_prim fuel ew P_imm_again) (Again p).
Proof. exact again_compiles. Qed.
Print Assumptions C25_again_compiles.

(** BEGIN p UNTIL: [vs k] is the state at the start of round [k], [us k] the
    state after [p].  Rounds 0 .. n-1 leave the flag 0, round [n] another one. *)
Theorem C25_until_runs {E : Env} : forall (K : Z -> Prop) p a n (vs us : nat -> vm) x v',
  holds K (vs O) (Until p) a ->
  (forall k, (k <= n)%nat -> part K (vs k) a (us k) (fin p a)) ->
  (forall k, (k < n)%nat -> takes (us k) 0 (vs (S k))) -> takes (us n) x v' -> x <> 0 ->
  part K (vs O) a v' (fin (Until p) a).
Proof. exact until_run. Qed.
Print Assumptions C25_until_runs.

(** BEGIN p WHILE q REPEAT: in rounds 0 .. n-1 [p] leaves the flag [xs k], not 0,
    and [q] runs; in round [n] it leaves 0. *)
Theorem C25_while_runs {E : Env} : forall (K : Z -> Prop) p q a n (vs us ts : nat -> vm) (xs : nat -> Z) v',
  holds K (vs O) (While p q) a ->
  (forall k, (k <= n)%nat -> part K (vs k) a (us k) (fin p a)) ->
  (forall k, (k < n)%nat -> takes (us k) (xs k) (ts k) /\ xs k <> 0 /\
     part K (ts k) (fin p a + 16) (vs (S k)) (fin q (fin p a + 16))) ->
  takes (us n) 0 v' -> part K (vs O) a v' (fin (While p q) a).
Proof. exact while_run. Qed.
Print Assumptions C25_while_runs.

(** BEGIN p AGAIN: after any number of rounds, control is at the start of p *)
Theorem C25_again_runs {E : Env} : forall (K : Z -> Prop) p a n (vs : nat -> vm),
  holds K (vs O) (Again p) a ->
  (forall k, (k < n)%nat -> part K (vs k) a (vs (S k)) (fin p a)) -> part K (vs O) a (vs n) a.
Proof. exact again_run. Qed.
Print Assumptions C25_again_runs.

Example C25_example_until : exists v',
  (exec_prim 65 ew_nop P_imm_begin ;;; (cw 43 ;;; cw 26) ;;; exec_prim 65 ew_nop P_imm_until) booted_d = Ok (tt, v') /\
  part (K0 p_until) (add_s 1 v') h0 (drop_s 1 (round_u (drop_s 1 (round_u (add_s 1 v'))))) (fin p_until h0).
Proof. exact ex_until. Qed.
Example C25_example_while : exists v',
  (exec_prim 65 ew_nop P_imm_begin ;;; cw 26 ;;; exec_prim 65 ew_nop P_imm_while ;;; cw 43 ;;; exec_prim 65 ew_nop P_imm_repeat) booted_d = Ok (tt, v') /\
  part (K0 p_while) (add_s 1 v') h0 (drop_s 1 (then_s dup_ (then_s one_minus_ (drop_s 1 (then_s dup_ (add_s 1 v')))))) (fin p_while h0).
Proof. exact ex_while. Qed.

(** C26. *)
Theorem C26_do_compiles {E : Env} : forall fuel ew l n (skip step : bool) m p,
  0 <= n -> compiles_to true n m p ->
  compiles_to l (n + 1)
    (exec_prim fuel ew (if skip then P_imm_qdo else P_imm_do) ;;; m ;;;
     exec_prim fuel ew (if step then P_imm_plus_loop else P_imm_loop)) (Do skip step p).
Proof. exact do_compiles. Qed.
Print Assumptions C26_do_compiles.

(** DO p LOOP runs [p] exactly [loop_count lim first] times; in round [k] the
    index is [first + k] (wrapped), [us k] is the state after the round.  The
    body must leave its loop frame in place; what it does to it otherwise is
    free.  Afterwards the return stack is as before. *)
Theorem C26_do_loop_runs {E : Env} : forall (K : Z -> Prop) skip p v a lim first rest rs (us : Z -> vm),
  holds K v (Do skip false p) a -> is_cell lim -> is_cell first ->
  stack_has (t_s (cur v)) (first :: lim :: rest) -> stack_has (t_r (cur v)) rs -> zlen rs <= 252 ->
  (skip = true -> lim <> first) ->
  let N := loop_count lim first in
  let start_of k := if k =? 0 then enter_loop (a + 8) lim first v else with_index lim (index_at first k) (us (k - 1)) in
  (forall k, 0 <= k < N ->
     part K (start_of k) (a + 16) (us k) (fin p (a + 16)) /\
     in_frame (us k) (a + 8) lim (index_at first k) rs) ->
  part K v a (drop_r 3 (us (N - 1))) (fin (Do skip false p) a) /\
  stack_has (t_r (cur (drop_r 3 (us (N - 1))))) rs.
Proof. exact do_run. Qed.
Print Assumptions C26_do_loop_runs.

(** I pushes the index *)
Theorem C26_index {E : Env} : forall fuel ew v z lim idx rest,
  in_frame v z lim idx rest -> is_cell idx -> 0 <= len (t_s (cur v)) < 255 ->
  exec_prim fuel ew P_p_i v = Ok (tt, add_s idx v).
Proof. exact i_ok. Qed.
Print Assumptions C26_index.

(** limit -2^63 + 1, start 2^63 - 2: three rounds, across the end of the range *)
Example C26_example : loop_count lim0 first0 = 3 /\ loop_count 7 7 = 2 ^ 64 /\
  exists v', (exec_prim 65 ew_nop P_imm_do ;;; cw 14 ;;; exec_prim 65 ew_nop P_imm_loop) booted_d = Ok (tt, v') /\
  part (K0 p_do) (do0 v') h0 (drop_r 3 (do3 v')) (fin p_do h0) /\
  stack_has (t_s (cur (drop_r 3 (do3 v')))) [- 2 ^ 63; 2 ^ 63 - 1; 2 ^ 63 - 2] /\
  stack_has (t_r (cur (drop_r 3 (do3 v')))) [].
Proof. split; [reflexivity|]. split; [reflexivity|]. exact ex_do. Qed.

(** C27.  At the end of a round, LOOP (step 1) and +LOOP (step from the stack)
    leave the loop and drop its frame if the index crosses the boundary, and
    otherwise start the next round with the new index. *)
Theorem C27_loop_round {E : Env} : forall (K : Z -> Prop) skip step p v a n v2 z lim idx rest,
  holds K v (Do skip step p) a -> step_by step v n v2 -> in_frame v2 z lim idx rest ->
  (crosses lim idx n -> part K v (fin p (a + 16)) (drop_r 3 v2) (fin (Do skip step p) a)) /\
  (~ crosses lim idx n -> part K v (fin p (a + 16)) (with_index lim (to_i64 (idx + n)) v2) (a + 16)).
Proof. exact loop_round. Qed.
Print Assumptions C27_loop_round.

(** While the index does not wrap around, [crosses] says that it moves from one
    side of the boundary to the other. *)
Theorem C27_crosses_is_crossing : forall lim idx n,
  is_cell lim -> is_cell idx -> is_cell n -> is_cell (idx + n) ->
  (crosses lim idx n <-> idx <= lim - 1 /\ lim <= idx + n \/ idx + n <= lim - 1 /\ lim <= idx).
Proof. exact crosses_plain. Qed.
Print Assumptions C27_crosses_is_crossing.

Example C27_example :
  crosses 10 5 5 /\ ~ crosses 10 5 4 /\ ~ crosses 10 5 (-6) /\ crosses 10 12 (-3) /\ crosses (- 2 ^ 63) (2 ^ 63 - 1) 1 /\
  exists v', (exec_prim 65 ew_nop P_imm_do ;;; cw 14 ;;; exec_prim 65 ew_nop P_imm_plus_loop) booted_d = Ok (tt, v') /\
  holds (K0 p_plus) v' p_plus h0 /\
  (forall step, let v := pl0 step v' in
     holds (K0 p_plus) v p_plus h0 /\ step_by true v step (drop_s 1 v) /\ in_frame (drop_s 1 v) (h0 + 8) 10 5 []).
Proof. destruct ex_crosses as (A & B & C & D & F). exact (conj A (conj B (conj C (conj D (conj F ex_plus))))). Qed.

(** C28.  ?DO with equal limit and start *)
Theorem C28_skip {E : Env} : forall (K : Z -> Prop) step p v a x rest,
  holds K v (Do true step p) a -> stack_has (t_s (cur v)) (x :: x :: rest) ->
  part K v a (drop_s 2 v) (fin (Do true step p) a).
Proof. exact skip_run. Qed.
Print Assumptions C28_skip.

(** DO, and ?DO with different limit and start *)
Theorem C28_enter {E : Env} : forall (K : Z -> Prop) skip step p v a lim first rest,
  holds K v (Do skip step p) a -> stack_has (t_s (cur v)) (first :: lim :: rest) ->
  0 <= len (t_r (cur v)) <= 252 -> (skip = true -> lim <> first) ->
  part K v a (enter_loop (a + 8) lim first v) (a + 16).
Proof. exact enter_run. Qed.
Print Assumptions C28_enter.

(** LEAVE, wherever it stands in the body (address [b], inside any nesting) *)
Theorem C28_leave {E : Env} : forall (K : Z -> Prop) skip step p v0 v i a b x y rest,
  holds K v0 (Do skip step p) a -> kept K v0 v ->
  code_cell K v b i -> i < 2 ^ 63 -> word_is v i P_leave ->
  stack_has (t_r (cur v)) (x :: y :: a + 8 :: rest) -> zlen rest <= 128 ->
  sget (t_r (cur v)) 255 = canary (t_r (cur v)) ->
  part K v b (drop_r 3 v) (fin (Do skip step p) a) /\ stack_has (t_r (cur (drop_r 3 v))) rest.
Proof. exact leave_run. Qed.
Print Assumptions C28_leave.

Theorem C28_unloop {E : Env} : forall fuel ew v z lim idx rest,
  in_frame v z lim idx rest ->
  exec_prim fuel ew P_unloop v = Ok (tt, drop_r 3 v) /\ stack_has (t_r (cur (drop_r 3 v))) rest.
Proof. exact unloop_ok. Qed.
Print Assumptions C28_unloop.

Theorem C28_outer_index {E : Env} : forall fuel ew v z lim idx z' lim' idx' rest,
  in_frame v z lim idx (frame z' lim' idx' ++ rest) -> is_cell idx' -> 0 <= len (t_s (cur v)) < 255 ->
  exec_prim fuel ew P_p_j v = Ok (tt, add_s idx' v).
Proof. exact j_ok. Qed.
Print Assumptions C28_outer_index.

(** ?do if leave then loop *)
Example C28_example : exists v',
  (exec_prim 65 ew_nop P_imm_qdo ;;; (exec_prim 65 ew_nop P_imm_if ;;; cw 13 ;;; exec_prim 65 ew_nop P_imm_then) ;;; exec_prim 65 ew_nop P_imm_loop) booted_d = Ok (tt, v') /\
  (let v := enter_loop (h0 + 8) 10 5 (add_s 5 (add_s 10 v')) in
   holds (K0 p_leave) v' p_leave h0 /\ kept (K0 p_leave) v' v /\ code_cell (K0 p_leave) v (h0 + 32) 13 /\ word_is v 13 P_leave /\
   in_frame v (h0 + 8) 10 5 [] /\ sget (t_r (cur v)) 255 = canary (t_r (cur v)) /\
   (forall x, stack_has (t_s (cur (add_s x (add_s x v')))) [x; x])).
Proof. exact ex_leave. Qed.

(** C29.  Compiling CASE ... ENDCASE with any number of clauses: the case of
    [C24_every_nesting] for this construct, spelled out. *)
Theorem C29_case_compiles {E : Env} : forall fuel ew l n cs dflt m1 m2 v, (65 <= fuel)%nat ->
  let wl := v_wl v in
  let o := idx_over (v_refs v) in let e := idx_equal (v_refs v) in let d := idx_drop (v_refs v) in
  source_of wl o e d fuel ew l n cs m1 -> source wl o e d fuel ew l (n - zlen cs) dflt m2 ->
  can_compile l (n + 1) v -> fin (Case o e d cs dflt) (here (v_ds v)) <= limit (v_ds v) ->
  exists v', (exec_prim fuel ew P_imm_case ;;; m1 ;;; m2 ;;; exec_prim fuel ew P_imm_endcase) v = Ok (tt, v') /\
    compiled (Case o e d cs dflt) v v'.
Proof. exact case_compiles. Qed.
Print Assumptions C29_case_compiles.

(** Running it: see [selects].  The clauses are tried in order; the body of the
    first one whose value equals the selector runs, without the selector, and
    control is behind ENDCASE; without such a clause the default runs and the
    selector is dropped. *)
Theorem C29_case_runs {E : Env} : forall (K : Z -> Prop) cs d o e dr a v v' sel,
  holds K v (Case o e dr cs d) a ->
  word_is v o P_over -> word_is v e P_equals -> word_is v dr P_p_drop ->
  selects K cs d a v v' sel -> part K v a v' (fin (Case o e dr cs d) a).
Proof. exact case_run. Qed.
Print Assumptions C29_case_runs.

(** case 1 of 10 endof 2 of 20 endof endcase, with 2 on the stack *)
Example C29_example : exists v',
  (exec_prim 65 ew_nop P_imm_case ;;;
     (compile_integer 1 ;;; exec_prim 65 ew_nop P_imm_of ;;; compile_integer 10 ;;; exec_prim 65 ew_nop P_imm_endof ;;;
      (compile_integer 2 ;;; exec_prim 65 ew_nop P_imm_of ;;; compile_integer 20 ;;; exec_prim 65 ew_nop P_imm_endof ;;; ret tt)) ;;;
   ret tt ;;; exec_prim 65 ew_nop P_imm_endcase) booted_d = Ok (tt, v') /\
  holds (K0 p_case) v' p_case h0 /\ case_words v' /\
  selects (K0 p_case) cs0 Skip h0 (add_s 2 v') (add_s 20 (ca2 v')) 2 /\
  stack_has (t_s (cur (add_s 20 (ca2 v')))) [20].
Proof. exact ex_case. Qed.

(** C31.  A call, whatever its body does (including further calls), continues
    behind the call with the return address gone. *)
Theorem C31_call {E : Env} : forall (K : Z -> Prop) v i a,
  addressable v -> code_cell K v a i -> i < 2 ^ 63 -> word_is v i P_nest -> 0 <= len (t_r (cur v)) < 255 ->
  part K v a (add_r (a + 8) v) (w_dfa (wl_get (v_wl v) i)).
Proof. exact call_run. Qed.
Print Assumptions C31_call.

Theorem C31_call_and_return {E : Env} : forall (K : Z -> Prop) v i a v2 b j rest,
  addressable v -> code_cell K v a i -> i < 2 ^ 63 -> word_is v i P_nest -> 0 <= len (t_r (cur v)) < 255 ->
  part K (add_r (a + 8) v) (w_dfa (wl_get (v_wl v) i)) v2 b ->
  code_cell K v2 b j -> j < 2 ^ 63 -> word_is v2 j P_exit -> stack_has (t_r (cur v2)) (a + 8 :: rest) ->
  part K v a (drop_r 1 v2) (a + 8) /\ stack_has (t_r (cur (drop_r 1 v2))) rest.
Proof. exact call_and_return. Qed.
Print Assumptions C31_call_and_return.

(** RECURSE compiles a call of the newest word *)
Theorem C31_recurse {E : Env} : forall fuel ew l n v,
  can_compile l n v -> 0 < wl_len (v_wl v) -> here (v_ds v) + 8 <= limit (v_ds v) ->
  exists v', exec_prim fuel ew P_imm_recurse v = Ok (tt, v') /\ compiled (Op (wl_len (v_wl v) - 1)) v v'.
Proof. exact recurse_compiles. Qed.
Print Assumptions C31_recurse.

(** _type begins with a call of bounds, which is over + swap *)
Example C31_example :
  addressable booted_d /\ code_cell KA cv a0 293 /\ word_is cv 293 P_nest /\
  part KA (add_r (a0 + 8) cv) b0 cv2 (fin p_bounds b0) /\ code_cell KA cv2 (fin p_bounds b0) 2 /\ word_is cv2 2 P_exit /\
  stack_has (t_r (cur cv2)) [a0 + 8] /\ stack_has (t_s (cur (drop_r 1 cv2))) [1000; 1003].
Proof. exact ex_call. Qed.

(** C32. *)
Theorem C32_integer_compiles {E : Env} : forall l n x, is_cell x -> compiles_to l n (compile_integer x) (Num x).
Proof. exact num_compiles. Qed.
Print Assumptions C32_integer_compiles.

Theorem C32_integer_runs {E : Env} : forall (K : Z -> Prop) x v a,
  holds K v (Num x) a -> 0 <= len (t_s (cur v)) < 255 -> part K v a (add_s x v) (fin (Num x) a).
Proof. exact num_run. Qed.
Print Assumptions C32_integer_runs.

(** Floats are 64-bit patterns *)
Theorem C32_float_compiles {E : Env} : forall l n x, 0 <= x < 2 ^ 64 -> compiles_to l n (compile_float x) (Flo x).
Proof. exact flo_compiles. Qed.
Print Assumptions C32_float_compiles.

Theorem C32_float_runs {E : Env} : forall (K : Z -> Prop) x v a,
  holds K v (Flo x) a -> 0 <= len (t_f (cur v)) < 255 -> part K v a (add_f x v) (fin (Flo x) a).
Proof. exact flo_run. Qed.
Print Assumptions C32_float_runs.

(** Text: the word S-quote leaves the address and length of the compiled text *)
Theorem C32_text_runs {E : Env} : forall (K : Z -> Prop) s v a,
  holds K v (Str s) a -> 0 <= len (t_s (cur v)) < 254 ->
  part K v a (add_s (zlen s) (add_s (a + 16) v)) (fin (Str s) a).
Proof. exact str_run. Qed.
Print Assumptions C32_text_runs.

(** A literal with all bits set; the bit pattern of a NaN *)
Example C32_example : exists v', (compile_integer (-1) ;;; compile_float (2 ^ 63 - 1)) booted_d = Ok (tt, v') /\
  part (K0 p_lits) v' h0 (add_f (2 ^ 63 - 1) (add_s (-1) v')) (fin p_lits h0).
Proof. exact ex_lits. Qed.
