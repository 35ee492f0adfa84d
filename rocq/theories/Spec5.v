(** Specification vocabulary: structured programs, the memory layout of their
    compiled form, and what executing them means. *)
From Coq Require Import ZArith List Bool.
From Verif Require Import Base Stack Mem State CoreM Exec Spec Spec4.
Import ListNotations.
Open Scope Z_scope.

(** ** Structured programs *)
Inductive prog :=
| Skip
| Seq (p q : prog)
| Op (i : Z)                          (* the word number [i] *)
| Num (n : Z)                         (* an integer or character literal *)
| Flo (x : Z)                         (* a float literal, 64-bit pattern *)
| Str (s : bytes)                     (* a string literal *)
| IfThen (p : prog)                   (* if P then *)
| IfElse (p q : prog)                 (* if P else Q then *)
| Until (p : prog)                    (* begin P until *)
| While (p q : prog)                  (* begin P while Q repeat *)
| Again (p : prog)                    (* begin P again *)
| Do (skip step : bool) (p : prog).   (* do / ?do P loop / +loop *)

(** case X1 of B1 endof ... D endcase, as nested conditionals *)
Fixpoint Case (over equal drop : Z) (cs : list (prog * prog)) (d : prog) : prog :=
  match cs with
  | [] => Seq d (Op drop)
  | (x, p) :: r =>
    Seq x (Seq (Op over) (Seq (Op equal) (IfElse (Seq (Op drop) p) (Case over equal drop r d))))
  end.

Definition round8 (p : Z) : Z := 8 * ((p + 7) / 8).

(** First address after the compiled form that starts at [a] *)
Fixpoint fin (p : prog) (a : Z) : Z :=
  match p with
  | Skip => a
  | Seq p q => fin q (fin p a)
  | Op _ => a + 8
  | Num _ => a + 16
  | Flo _ => round8 (a + 8) + 8
  | Str s => round8 (a + 16 + zlen s)
  | IfThen p => fin p (a + 16)
  | IfElse p q => fin q (fin p (a + 16) + 16)
  | Until p => fin p a + 16
  | While p q => fin q (fin p a + 16) + 16
  | Again p => fin p a + 16
  | Do _ _ p => fin p (a + 16) + 16
  end.

Section S.
Context {E : Env}.

(** Depth decreased by [n], or one item added, on the data and return stacks *)
Definition drop_items {T} (n : Z) (s : stack T) : stack T := set_len s (len s - n).
Definition add_item {T} (s : stack T) (x : T) : stack T := set_len (sset s (len s) x) (len s + 1).
Definition drop_s (n : Z) (v : vm) : vm := set_s (drop_items n (t_s (cur v))) v.
Definition drop_r (n : Z) (v : vm) : vm := set_r (drop_items n (t_r (cur v))) v.
Definition add_s (x : Z) (v : vm) : vm := set_s (add_item (t_s (cur v)) x) v.
Definition add_r (x : Z) (v : vm) : vm := set_r (add_item (t_r (cur v)) x) v.
Definition add_f (x : Z) (v : vm) : vm := set_f (add_item (t_f (cur v)) x) v.

(** [x] is on top of the data stack of [v]; [v'] is [v] without it *)
Definition takes (v : vm) (x : Z) (v' : vm) : Prop :=
  exists rest, stack_has (t_s (cur v)) (x :: rest) /\ v' = drop_s 1 v.

(** ** Compiled code *)

(** [K] is the part of the data space that holds code and that the running
    program leaves alone. *)
Section Code.
Variable K : Z -> Prop.

(** The cell at [a] holds [x] *)
Definition code_cell (v : vm) (a x : Z) : Prop :=
  start (v_ds v) <= a /\ a + 8 <= limit (v_ds v) /\ cell_at (v_ds v) a x /\
  forall k, 0 <= k < 8 -> K (a + k).
(** The cell at [a] holds the number of a word with action [p] *)
Definition code_word (v : vm) (a : Z) (p : prim) : Prop :=
  exists i, code_cell v a i /\ word_is v i p /\ i < 2 ^ 63.
Definition code_text (v : vm) (a : Z) (s : bytes) : Prop :=
  start (v_ds v) <= a /\ a + zlen s <= limit (v_ds v) /\
  forall k x, nth_error s k = Some x ->
    byte_at (v_ds v) (a + Z.of_nat k) = x /\ K (a + Z.of_nat k).

(** The memory of [v] holds the compiled form of [p] at [a] *)
Fixpoint laid (v : vm) (p : prog) (a : Z) : Prop :=
  match p with
  | Skip => True
  | Seq p q => laid v p a /\ laid v q (fin p a)
  | Op i => code_cell v a i /\ 0 <= i < 2 ^ 63
  | Num n => code_word v a P_lit /\ code_cell v (a + 8) n /\ is_cell n
  | Flo x => code_word v a P_flit /\ code_cell v (round8 (a + 8)) x /\ 0 <= x < 2 ^ 64
  | Str s => code_word v a P_p_s_quote /\ code_cell v (a + 8) (zlen s) /\ code_text v (a + 16) s /\
    round8 (a + 16 + zlen s) <= limit (v_ds v)
  | IfThen p =>
    code_word v a P_zero_branch /\ code_cell v (a + 8) (fin p (a + 16)) /\ laid v p (a + 16)
  | IfElse p q =>
    let m := fin p (a + 16) in
    code_word v a P_zero_branch /\ code_cell v (a + 8) (m + 16) /\ laid v p (a + 16) /\
    code_word v m P_branch /\ code_cell v (m + 8) (fin q (m + 16)) /\ laid v q (m + 16)
  | Until p =>
    let m := fin p a in
    laid v p a /\ code_word v m P_zero_branch /\ code_cell v (m + 8) a
  | While p q =>
    let m := fin p a in
    let n := fin q (m + 16) in
    laid v p a /\ code_word v m P_zero_branch /\ code_cell v (m + 8) (n + 16) /\
    laid v q (m + 16) /\ code_word v n P_branch /\ code_cell v (n + 8) a
  | Again p =>
    let m := fin p a in
    laid v p a /\ code_word v m P_branch /\ code_cell v (m + 8) a
  | Do skip step p =>
    let m := fin p (a + 16) in
    code_word v a (if skip then P__qdo else P__do) /\ code_cell v (a + 8) (m + 16) /\
    laid v p (a + 16) /\
    code_word v m (if step then P__plus_loop else P__loop) /\ code_cell v (m + 8) (a + 16)
  end.

(** The words that the compiler puts into definitions by itself *)
Definition control_words : list prim :=
  [P_lit; P_flit; P_p_s_quote; P_branch; P_zero_branch; P__do; P__qdo; P__loop; P__plus_loop;
   P_over; P_equals; P_p_drop; P_p_to_r].

(** From [v] to [v'] the code was not touched *)
Definition kept (v v' : vm) : Prop :=
  start (v_ds v') = start (v_ds v) /\ limit (v_ds v') = limit (v_ds v) /\
  (forall a, K a -> byte_at (v_ds v') a = byte_at (v_ds v) a) /\
  (forall i p, In p control_words -> word_is v i p -> word_is v' i p).

(** ** Executing structured programs *)

(** How a program ends: control reaches its end, or it leaves the loop whose
    frame carries the address [z], or it returns to address [a] *)
Inductive outcome := Next | Left (z : Z) | Returned (a : Z).

(** A loop frame on the return stack, top first.  [z] identifies the loop. *)
Definition frame (z lim idx : Z) : list Z :=
  [to_i64 (idx - lim - 2 ^ 63); to_i64 (lim - 2 ^ 63); z].

(** Adding [n] to the index takes it across the boundary between [lim - 1] and
    [lim]: the index lies at distance [u] after [lim] on the circle of 2^64
    cells, and the step leaves 0 .. 2^64 - 1. *)
Definition crosses (lim idx n : Z) : Prop :=
  let u := (idx - lim) mod 2 ^ 64 in u + n < 0 \/ 2 ^ 64 <= u + n.

(** The step taken at the end of a loop body: 1, or taken from the stack *)
Definition step_by (step : bool) (v : vm) (n : Z) (v' : vm) : Prop :=
  if step then takes v n v' else n = 1 /\ v' = v.

(** [v'] is [v] with the index of the innermost loop frame replaced *)
Definition new_index (v : vm) (lim idx : Z) (v' : vm) : Prop :=
  v' = set_r (sset (t_r (cur v)) (len (t_r (cur v)) - 1) (to_i64 (idx - lim - 2 ^ 63))) v.

(** [exec p a v o v']: executing [p], whose code is at [a], in state [v] ends
    with outcome [o] in state [v'].  The instruction pointer and the word
    pointer of [v] and [v'] carry no meaning here. *)
Inductive exec : prog -> Z -> vm -> outcome -> vm -> Prop :=
| X_skip a v : exec Skip a v Next v
| X_seq p q a v v1 o v2 :
    exec p a v Next v1 -> exec q (fin p a) v1 o v2 -> exec (Seq p q) a v o v2
| X_seq_out p q a v o v1 : o <> Next -> exec p a v o v1 -> exec (Seq p q) a v o v1
(* a word that returns to its caller at once *)
| X_op i a v f v1 :
    execute_word f i (set_ip (a + 8) v) = Ok (tt, v1) -> st_ip (st v1) = a + 8 -> kept v v1 ->
    exec (Op i) a v Next v1
(* a word that transfers control to code which returns to the cell after the call *)
| X_call i a v f v1 body v2 :
    execute_word f i (set_ip (a + 8) v) = Ok (tt, v1) -> kept v v1 ->
    start (v_ds v1) <= st_ip (st v1) <= limit (v_ds v1) ->
    laid v1 body (st_ip (st v1)) -> exec body (st_ip (st v1)) v1 (Returned (a + 8)) v2 ->
    exec (Op i) a v Next v2
| X_leave i a v x y z rest :
    word_is v i P_leave -> stack_has (t_r (cur v)) (x :: y :: z :: rest) ->
    zlen rest <= 128 -> sget (t_r (cur v)) 255 = canary (t_r (cur v)) ->
    exec (Op i) a v (Left z) (drop_r 3 v)
| X_exit i a v ra rest :
    word_is v i P_exit -> stack_has (t_r (cur v)) (ra :: rest) ->
    exec (Op i) a v (Returned ra) (drop_r 1 v)
| X_num n a v : 0 <= len (t_s (cur v)) < 255 -> exec (Num n) a v Next (add_s n v)
| X_flo x a v : 0 <= len (t_f (cur v)) < 255 -> exec (Flo x) a v Next (add_f x v)
| X_str s a v : 0 <= len (t_s (cur v)) < 254 ->
    exec (Str s) a v Next (add_s (zlen s) (add_s (a + 16) v))
| X_if p a v x v1 o v2 :
    takes v x v1 -> x <> 0 -> exec p (a + 16) v1 o v2 -> exec (IfThen p) a v o v2
| X_if_not p a v v1 : takes v 0 v1 -> exec (IfThen p) a v Next v1
| X_else p q a v x v1 o v2 :
    takes v x v1 -> x <> 0 -> exec p (a + 16) v1 o v2 -> exec (IfElse p q) a v o v2
| X_else_not p q a v v1 o v2 :
    takes v 0 v1 -> exec q (fin p (a + 16) + 16) v1 o v2 -> exec (IfElse p q) a v o v2
| X_until p a v v1 x v2 :
    exec p a v Next v1 -> takes v1 x v2 -> x <> 0 -> exec (Until p) a v Next v2
| X_until_not p a v v1 v2 o v3 :
    exec p a v Next v1 -> takes v1 0 v2 -> exec (Until p) a v2 o v3 -> exec (Until p) a v o v3
| X_until_out p a v o v1 : o <> Next -> exec p a v o v1 -> exec (Until p) a v o v1
| X_while p q a v v1 x v2 v3 o v4 :
    exec p a v Next v1 -> takes v1 x v2 -> x <> 0 -> exec q (fin p a + 16) v2 Next v3 ->
    exec (While p q) a v3 o v4 -> exec (While p q) a v o v4
| X_while_not p q a v v1 v2 :
    exec p a v Next v1 -> takes v1 0 v2 -> exec (While p q) a v Next v2
| X_while_out p q a v o v1 : o <> Next -> exec p a v o v1 -> exec (While p q) a v o v1
| X_while_out2 p q a v v1 x v2 o v3 : o <> Next ->
    exec p a v Next v1 -> takes v1 x v2 -> x <> 0 -> exec q (fin p a + 16) v2 o v3 ->
    exec (While p q) a v o v3
| X_again p a v v1 o v2 :
    exec p a v Next v1 -> exec (Again p) a v1 o v2 -> exec (Again p) a v o v2
| X_again_out p a v o v1 : o <> Next -> exec p a v o v1 -> exec (Again p) a v o v1
| X_do skip step p a v lim idx rest v1 o v2 :
    stack_has (t_s (cur v)) (idx :: lim :: rest) -> is_cell idx -> is_cell lim ->
    (skip = true -> lim <> idx) ->
    0 <= len (t_r (cur v)) <= 252 ->
    v1 = add_r (to_i64 (idx - lim - 2 ^ 63)) (add_r (to_i64 (lim - 2 ^ 63)) (add_r (a + 8) (drop_s 2 v))) ->
    repeats step p a v1 o v2 -> exec (Do skip step p) a v o v2
| X_do_skip step p a v x rest :
    stack_has (t_s (cur v)) (x :: x :: rest) ->
    exec (Do true step p) a v Next (drop_s 2 v)
(** the body of the loop at [a], with the frame already on the return stack *)
with repeats : bool -> prog -> Z -> vm -> outcome -> vm -> Prop :=
| R_again step p a v v1 n v2 z lim idx rest v3 o v4 :
    exec p (a + 16) v Next v1 -> step_by step v1 n v2 -> is_cell n ->
    stack_has (t_r (cur v2)) (frame z lim idx ++ rest) -> is_cell lim -> is_cell idx ->
    ~ crosses lim idx n -> new_index v2 lim (to_i64 (idx + n)) v3 ->
    repeats step p a v3 o v4 -> repeats step p a v o v4
| R_stop step p a v v1 n v2 z lim idx rest :
    exec p (a + 16) v Next v1 -> step_by step v1 n v2 -> is_cell n ->
    stack_has (t_r (cur v2)) (frame z lim idx ++ rest) -> is_cell lim -> is_cell idx ->
    crosses lim idx n ->
    repeats step p a v Next (drop_r 3 v2)
| R_leave step p a v v1 :
    exec p (a + 16) v (Left (a + 8)) v1 -> repeats step p a v Next v1
| R_return step p a v ra v1 :
    exec p (a + 16) v (Returned ra) v1 -> repeats step p a v (Returned ra) v1.

Scheme exec_ind2 := Minimality for exec Sort Prop
with repeats_ind2 := Minimality for repeats Sort Prop.
Combined Scheme exec_repeats from exec_ind2, repeats_ind2.

End Code.

(** ** The machine *)

(** One round of the inner interpreter: fetch the cell at the instruction
    pointer, advance, execute the word it names *)
Definition machine_step (v v' : vm) : Prop :=
  running v = Ok (true, v) /\ exists fuel, run_step fuel v = Ok (tt, v').
Inductive machine_steps : vm -> vm -> Prop :=
| steps_none v : machine_steps v v
| steps_more v v1 v2 : machine_step v v1 -> machine_steps v1 v2 -> machine_steps v v2.

(** [w] is about to continue at address [a] and equals [v] up to the instruction
    pointer and the word pointer *)
Definition continues (v : vm) (a : Z) (w : vm) : Prop :=
  st_ip (st w) = a /\ set_ip 0 (set_wp 0 w) = set_ip 0 (set_wp 0 v).

(** The data space is addressable memory *)
Definition addressable (v : vm) : Prop := 0 < start (v_ds v) /\ limit (v_ds v) < 2 ^ 63.

End S.
