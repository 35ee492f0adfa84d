(** Vocabulary of the property statements: what a user can observe of a VM.
    These definitions use only the fields of the state, not the functions of
    the model under test. *)
From Coq Require Import ZArith List Bool.
From Verif Require Import Base Stack Mem State Exec.
Import ListNotations.
Open Scope Z_scope.

(** ** Numbers *)

(** [r] is the signed 64-bit cell congruent to the mathematical integer [z]. *)
Definition is_cell (r : Z) : Prop := - 2 ^ 63 <= r < 2 ^ 63.
Definition wraps_to (z r : Z) : Prop := is_cell r /\ exists k, z = r + k * 2 ^ 64.
(** Forth flags *)
Definition truth (f : Z) (P : Prop) : Prop := (f = -1 /\ P) \/ (f = 0 /\ ~ P).

(** Words leaving one cell that satisfies [P] *)
Definition result1 (P : Z -> Prop) (o : list Z) : Prop := exists r, o = [r] /\ P r.
(** Each of the 64 bits of [r] is given by [f] *)
Definition bits_are (f : Z -> bool) (r : Z) : Prop :=
  is_cell r /\ forall i, 0 <= i < 64 -> Z.testbit r i = f i.
(** Truncated division; the only quotient that does not fit, MIN/-1, wraps *)
Definition quot_rem (n d q r : Z) : Prop :=
  is_cell q /\ is_cell r /\
  (n = q * d + r \/ (n = - 2 ^ 63 /\ d = -1 /\ q = - 2 ^ 63 /\ r = 0)) /\
  Z.abs r < Z.abs d /\ (r = 0 \/ (0 < r <-> 0 < n)).

(** ** Stacks *)

(** The stack holds exactly [l], top of stack first.  At most 255 items can be
    told apart by the 8-bit depth counter. *)
Definition stack_has {T} (s : stack T) (l : list T) : Prop :=
  len s = zlen l /\ zlen l <= 255 /\
  forall k x, nth_error l k = Some x -> sget s (len s - 1 - Z.of_nat k) = x.

(** Slots at or above both depths keep their content: a word never writes
    beyond the cells it needs. *)
Definition high_slots_kept {T} (s s' : stack T) : Prop :=
  canary s' = canary s /\
  forall i, len s <= i -> len s' <= i -> i <= 255 -> sget s' i = sget s i.

Section Obs.
Context {E : Env}.

(** ** Frames: everything except what is listed is unchanged *)

(** The VM outside the current task, with a choice of exceptions *)
Definition same_globals (v v' : vm) : Prop :=
  v_cur v' = v_cur v /\ v_err v' = v_err v /\ v_handler v' = v_handler v /\
  v_wl v' = v_wl v /\ v_tkn v' = v_tkn v /\ v_out v' = v_out v /\
  v_hld v' = v_hld v /\ v_refs v' = v_refs v /\ v_now v' = v_now v /\ v_fwd v' = v_fwd v /\
  v_res v' = v_res v /\ v_labels v' = v_labels v /\ v_os v' = v_os v /\
  v_stdout v' = v_stdout v /\ v_stderr v' = v_stderr v.

(** (task numbers are unsigned) *)
Definition same_other_tasks (v v' : vm) : Prop :=
  forall i, 0 <= i -> 0 <= v_cur v -> i <> v_cur v -> task_at v' i = task_at v i.

(** The current task outside its data, return and float stacks *)
Definition same_task_rest (t t' : task) : Prop :=
  t_awake t' = t_awake t /\ t_state t' = t_state t /\ t_c t' = t_c t /\
  t_inbuf t' = t_inbuf t /\ t_files t' = t_files t /\ t_sources t' = t_sources t /\
  t_lines t' = t_lines t.

(** Only the data stack of the current task may differ *)
Definition only_data_stack (v v' : vm) : Prop :=
  same_globals v v' /\ v_ds v' = v_ds v /\ same_other_tasks v v' /\
  same_task_rest (cur v) (cur v') /\
  t_r (cur v') = t_r (cur v) /\ t_f (cur v') = t_f (cur v) /\
  high_slots_kept (t_s (cur v)) (t_s (cur v')).

(** Only the data and the return stack of the current task may differ *)
Definition only_data_return (v v' : vm) : Prop :=
  same_globals v v' /\ v_ds v' = v_ds v /\ same_other_tasks v v' /\
  same_task_rest (cur v) (cur v') /\ t_f (cur v') = t_f (cur v) /\
  high_slots_kept (t_s (cur v)) (t_s (cur v')) /\
  high_slots_kept (t_r (cur v)) (t_r (cur v')).

(** Only the data and the float stack of the current task may differ *)
Definition only_data_float (v v' : vm) : Prop :=
  same_globals v v' /\ v_ds v' = v_ds v /\ same_other_tasks v v' /\
  same_task_rest (cur v) (cur v') /\ t_r (cur v') = t_r (cur v) /\
  high_slots_kept (t_s (cur v)) (t_s (cur v')) /\
  high_slots_kept (t_f (cur v)) (t_f (cur v')).

(** Only the data stack and the bytes of the data space may differ *)
Definition only_data_memory (v v' : vm) : Prop :=
  same_globals v v' /\ same_other_tasks v v' /\
  same_task_rest (cur v) (cur v') /\
  t_r (cur v') = t_r (cur v) /\ t_f (cur v') = t_f (cur v) /\
  high_slots_kept (t_s (cur v)) (t_s (cur v')) /\
  ds_inner (v_ds v') = ds_inner (v_ds v) /\ ds_cap (v_ds v') = ds_cap (v_ds v).

(** ** Stack effects *)

(** Executing [p] with the cells [ins] on top of the data stack (top first)
    replaces them by some [outs] satisfying [Q], for every depth that leaves
    room, and changes nothing else. *)
Definition effect (p : prim) (ins : list Z) (Q : list Z -> Prop) : Prop :=
  forall fuel ew v rest,
    stack_has (t_s (cur v)) (ins ++ rest) ->
    exists outs, Q outs /\
    (zlen (outs ++ rest) <= 255 ->
     exists v', exec_prim fuel ew p v = Ok (tt, v') /\
                stack_has (t_s (cur v')) (outs ++ rest) /\ only_data_stack v v').

(** [effect] with a single possible result *)
Definition effect_is (p : prim) (ins outs : list Z) : Prop := effect p ins (eq outs).

(** The same for words using the data and the return stack *)
Definition effect_dr (p : prim) (din rin dout rout : list Z) : Prop :=
  forall fuel ew v dr rr,
    stack_has (t_s (cur v)) (din ++ dr) -> stack_has (t_r (cur v)) (rin ++ rr) ->
    zlen (dout ++ dr) <= 255 -> zlen (rout ++ rr) <= 255 ->
    exists v', exec_prim fuel ew p v = Ok (tt, v') /\
               stack_has (t_s (cur v')) (dout ++ dr) /\ stack_has (t_r (cur v')) (rout ++ rr) /\
               only_data_return v v'.

(** The same for words using the data and the float stack *)
Definition effect_df (p : prim) (din fin : list Z) (Q : list Z -> list Z -> Prop) : Prop :=
  forall fuel ew v dr fr,
    stack_has (t_s (cur v)) (din ++ dr) -> stack_has (t_f (cur v)) (fin ++ fr) ->
    exists dout fout, Q dout fout /\
    (zlen (dout ++ dr) <= 255 -> zlen (fout ++ fr) <= 255 ->
     exists v', exec_prim fuel ew p v = Ok (tt, v') /\
               stack_has (t_s (cur v')) (dout ++ dr) /\ stack_has (t_f (cur v')) (fout ++ fr) /\
               only_data_float v v').

End Obs.

(** ** Histories of pushes and pops *)
Section Hist.
Context {T : Type}.

Inductive stack_op := OPush (x : T) | OPush2 (x y : T) | OPush3 (x y z : T) | OPop | OPop2 | OPop3.

(** What the real stack does: the new stack and the values returned *)
Definition do_op (s : stack T) (o : stack_op) : stack T * list T :=
  match o with
  | OPush x => (push s x, [])
  | OPush2 x y => (push2 s x y, [])
  | OPush3 x y z => (push3 s x y z, [])
  | OPop => let (x, s') := pop s in (s', [x])
  | OPop2 => let '((x, y), s') := pop2 s in (s', [y; x])
  | OPop3 => let '((x, y, z), s') := pop3 s in (s', [z; y; x])
  end.
Fixpoint do_ops (s : stack T) (ops : list stack_op) : stack T * list T :=
  match ops with
  | [] => (s, [])
  | o :: r => let (s1, x1) := do_op s o in let (s2, x2) := do_ops s1 r in (s2, x1 ++ x2)
  end.

(** What an ideal stack holding at most [cap] items does; [None] when the
    history leaves the range 0..cap *)
Definition ideal_op (cap : Z) (l : list T) (o : stack_op) : option (list T * list T) :=
  let fits l' := if zlen l' <=? cap then Some (l', []) else None in
  match o, l with
  | OPush x, _ => fits (x :: l)
  | OPush2 x y, _ => fits (y :: x :: l)
  | OPush3 x y z, _ => fits (z :: y :: x :: l)
  | OPop, x :: r => Some (r, [x])
  | OPop2, x :: y :: r => Some (r, [x; y])
  | OPop3, x :: y :: z :: r => Some (r, [x; y; z])
  | _, _ => None
  end.
Fixpoint ideal_ops (cap : Z) (l : list T) (ops : list stack_op) : option (list T * list T) :=
  match ops with
  | [] => Some (l, [])
  | o :: r =>
    match ideal_op cap l o with
    | None => None
    | Some (l1, x1) =>
      match ideal_ops cap l1 r with
      | None => None
      | Some (l2, x2) => Some (l2, x1 ++ x2)
      end
    end
  end.

(** Pushes minus pops *)
Definition op_delta (o : stack_op) : Z :=
  match o with
  | OPush _ => 1 | OPush2 _ _ => 2 | OPush3 _ _ _ => 3 | OPop => -1 | OPop2 => -2 | OPop3 => -3
  end.
Definition net_depth (ops : list stack_op) : Z := fold_right (fun o d => op_delta o + d) 0 ops.

End Hist.
Arguments stack_op : clear implicits.

(** The stack was produced by a history that starts from an empty (reset)
    stack and always stays between 0 and 64 items. *)
Definition bounded_since_reset {T} (s : stack T) : Prop :=
  exists c ops l outs,
    ideal_ops 64 [] ops = Some (l, outs) /\ s = fst (do_ops (stack_new c) ops).

(** The stack was produced by the history [ops] from an empty stack *)
Definition history {T} (s : stack T) (ops : list (stack_op T)) : Prop :=
  exists c, s = fst (do_ops (stack_new c) ops).
(** All intermediate depths, starting at depth [d], lie in [lo..hi] *)
Fixpoint depths_within {T} (lo hi d : Z) (ops : list (stack_op T)) : Prop :=
  match ops with
  | [] => True
  | o :: r => lo <= d + op_delta o <= hi /\ depths_within lo hi (d + op_delta o) r
  end.

(** Words of the data stack group with a negative net stack effect *)
Definition shrinking_words : list (prim * Z) :=
  [(P_p_drop, -1); (P_nip, -1); (P_two_drop, -2); (P_plus, -1); (P_minus, -1); (P_star, -1);
   (P_and, -1); (P_or, -1); (P_xor, -1); (P_lshift, -1); (P_rshift, -1);
   (P_equals, -1); (P_less_than, -1); (P_greater_than, -1); (P_not_equals, -1); (P_within, -2)].

(** ** Memory *)

(** The eight bytes at [a] are the little-endian two's complement
    representation of [x]. *)
Definition cell_at (d : dspace) (a x : Z) : Prop :=
  forall k, 0 <= k < 8 -> byte_at d (a + k) = x / 256 ^ k mod 256.
(** The data space is a block of addressable memory: positive address, end
    below 2^63 (the contract of Rust's Layout), the allocation pointer inside. *)
Definition ds_ok (d : dspace) : Prop :=
  0 < start d /\ start d <= here d <= limit d /\ limit d < 2 ^ 63.
(** All cells of the memory are bytes *)
Definition mem_ok (d : dspace) : Prop := forall a, 0 <= byte_at d a < 256.
(** Same memory except the [n] bytes from [a] *)
Definition same_memory_but (d d' : dspace) (a n : Z) : Prop :=
  start d' = start d /\ limit d' = limit d /\
  forall i, start d <= i -> i < a \/ a + n <= i -> byte_at d' i = byte_at d i.
(** Address denoted by a cell *)
Definition addr_of (x a : Z) : Prop := 0 <= a < 2 ^ 64 /\ exists k, x = a + k * 2 ^ 64.

(** [a] is the least multiple of [al] that is not below [p] *)
Definition least_multiple (al p a : Z) : Prop :=
  p <= a /\ (exists m, a = al * m) /\ forall m, p <= al * m -> a <= al * m.
