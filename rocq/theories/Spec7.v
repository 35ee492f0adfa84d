(** Specification vocabulary: control flow of compiled code. *)
From Coq Require Import ZArith List Bool.
From Verif Require Import Base Stack Mem State CoreM Exec Spec Spec4 Spec5.
Import ListNotations.
Open Scope Z_scope.

Section S.
Context {E : Env}.

(** From address [a] with the machine state [v], control reaches address [a']
    with the machine state [v'].  (The instruction and word pointers of [v] and
    [v'] do not matter.) *)
Definition goes (v : vm) (a : Z) (v' : vm) (a' : Z) : Prop :=
  forall w, continues v a w -> exists w', machine_steps w w' /\ continues v' a' w'.

(** The compiled form of [p] is at [a], inside the region [K] *)
Definition holds (K : Z -> Prop) (v : vm) (p : prog) (a : Z) : Prop :=
  addressable v /\ start (v_ds v) <= a <= limit (v_ds v) /\ laid K v p a.

(** The code at [a] up to [b] takes [v] to [v'] and does not change the code *)
Definition part (K : Z -> Prop) (v : vm) (a : Z) (v' : vm) (b : Z) : Prop :=
  goes v a v' b /\ kept K v v'.

(** How often limit start DO ... LOOP runs its body *)
Definition loop_count (lim first : Z) : Z :=
  let d := (lim - first) mod 2 ^ 64 in if d =? 0 then 2 ^ 64 else d.
(** The index in round [k], counted from 0 *)
Definition index_at (first k : Z) : Z := to_i64 (first + k).

(** [v] with limit and start taken from the data stack and a loop frame on the
    return stack; [z] is the address where the end of the loop is recorded *)
Definition enter_loop (z lim first : Z) (v : vm) : vm :=
  add_r (to_i64 (first - lim - 2 ^ 63)) (add_r (to_i64 (lim - 2 ^ 63)) (add_r z (drop_s 2 v))).
(** [v] with the index of the innermost loop set *)
Definition with_index (lim idx : Z) (v : vm) : vm :=
  set_r (sset (t_r (cur v)) (len (t_r (cur v)) - 1) (to_i64 (idx - lim - 2 ^ 63))) v.
(** The innermost loop frame *)
Definition in_frame (v : vm) (z lim idx : Z) (rest : list Z) : Prop :=
  stack_has (t_r (cur v)) (frame z lim idx ++ rest).

(** [u] after OF has compared the two topmost cells [y] and [sel] and [y] is
    gone.  The two cells above the stack hold what was pushed in between. *)
Definition compared (y sel : Z) (u : vm) : vm :=
  let s := t_s (cur u) in let n := len s in
  set_s (set_len (sset (sset s n sel) (n - 1) (if y =? sel then -1 else 0)) (n - 1)) u.

(** The run of a CASE with selector [sel] from [v] at [a] to [v'] behind ENDCASE.
    [r] is what lies below the selector. *)
Fixpoint selects (K : Z -> Prop) (cs : list (prog * prog)) (d : prog) (a : Z) (v v' : vm) (sel : Z) : Prop :=
  match cs with
  | [] => (* the default, then the selector is dropped *)
    exists v1 r, part K v a v1 (fin d a) /\ stack_has (t_s (cur v1)) r /\ r <> [] /\ v' = drop_s 1 v1
  | (x, p) :: cs =>
    let m := fin x a in let n := fin p (m + 40) in
    (* [x] leaves a value [y] above the selector *)
    exists u y r, part K v a u m /\ stack_has (t_s (cur u)) (y :: sel :: r) /\ zlen r < 253 /\
      ((y = sel /\ part K (drop_s 1 (compared y sel u)) (m + 40) v' n) \/
       (y <> sel /\ selects K cs d (n + 16) (compared y sel u) v' sel))
  end.

End S.
