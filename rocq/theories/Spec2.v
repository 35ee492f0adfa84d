(** Specification vocabulary: words on the data, return and float stacks. *)
From Coq Require Import ZArith List Bool.
From Verif Require Import Base Stack Mem State CoreM Exec Spec.
Import ListNotations.
Open Scope Z_scope.

Section S.
Context {E : Env}.

(** Contents of the data, return and float stacks *)
Definition stacks_are (v : vm) (d r f : list Z) : Prop :=
  stack_has (t_s (cur v)) d /\ stack_has (t_r (cur v)) r /\ stack_has (t_f (cur v)) f.

(** Only the data, return and float stacks differ; slots above are kept *)
Definition only_stacks (v v' : vm) : Prop :=
  same_globals v v' /\ v_ds v' = v_ds v /\ same_other_tasks v v' /\
  same_task_rest (cur v) (cur v') /\
  high_slots_kept (t_s (cur v)) (t_s (cur v')) /\
  high_slots_kept (t_r (cur v)) (t_r (cur v')) /\
  high_slots_kept (t_f (cur v)) (t_f (cur v')).


(** Only these stacks and the bytes of the data space differ *)
Definition only_stacks_memory (v v' : vm) : Prop :=
  same_globals v v' /\ same_other_tasks v v' /\
  same_task_rest (cur v) (cur v') /\
  high_slots_kept (t_s (cur v)) (t_s (cur v')) /\
  high_slots_kept (t_r (cur v)) (t_r (cur v')) /\
  high_slots_kept (t_f (cur v)) (t_f (cur v')) /\
  ds_inner (v_ds v') = ds_inner (v_ds v) /\ ds_cap (v_ds v') = ds_cap (v_ds v).

(** The word either completes, or raises the invalid address exception without
    having changed the memory.  (Reading or writing outside the data space is
    [UB] in the model, so a completed word did neither.) *)
Definition safe_access (ew : Z -> M unit) (m : M unit) (v : vm) : Prop :=
  (exists v', m v = Ok (tt, v')) \/
  (exists v1, m v = abort_with ew INVALID_MEMORY_ADDRESS v1 /\ v_ds v1 = v_ds v).

(** The contents after copying [n] bytes from [a1] to [a2] *)
Definition copied (d d' : dspace) (a1 a2 n : Z) : Prop :=
  ds_inner d' = ds_inner d /\ ds_cap d' = ds_cap d /\ ds_len d' = ds_len d /\
  forall i, start d <= i ->
    byte_at d' i = if (a2 <=? i) && (i <? a2 + n) then byte_at d (i - a2 + a1) else byte_at d i.

(** Executing [p] replaces the top items [d r f] of the data, return and float
    stacks by [d' r' f'], for every depth that leaves room, and changes nothing
    else. *)
Definition word_effect (p : prim) (d r f d' r' f' : list Z) : Prop :=
  forall fuel ew v dr rr fr,
    stacks_are v (d ++ dr) (r ++ rr) (f ++ fr) ->
    zlen (d' ++ dr) <= 255 -> zlen (r' ++ rr) <= 255 -> zlen (f' ++ fr) <= 255 ->
    exists v', exec_prim fuel ew p v = Ok (tt, v') /\
               stacks_are v' (d' ++ dr) (r' ++ rr) (f' ++ fr) /\ only_stacks v v'.
End S.
