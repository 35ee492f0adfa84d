(** Saving and restoring the input source: C54.  The vocabulary is in Spec17. *)
From Coq Require Import ZArith List Bool Lia String.
From Verif Require Import Base Stack Mem Parser Flt State CoreM Exec Boot Std.
From Verif Require Import Spec Spec2 Spec4 Spec5 Spec7 Spec9 Spec10 Spec15 Spec16 Spec17.
From Verif Require Import LLib LLibWords LSource Ex Ex10 Ex11 Ex12.
Import ListNotations.
Open Scope list_scope.
Open Scope Z_scope.
Open Scope m_scope.

(** * C54: SAVE-SOURCE and RESTORE-SOURCE *)

(** In the loaded system the names have the definitions in Spec17, in both builds, and no source is saved *)
Theorem C54_installed : exists ix, @source_installed env_d ix booted_d /\ @source_installed env_r ix booted_r.
Proof. exact (ex_intro _ ix0 (conj (proj1 booted_source_both) booted_source_r)). Qed.
Print Assumptions C54_installed.

(** With fewer than 16 saved sources SAVE-SOURCE adds the current one; it changes nothing outside the stack of sources *)
Theorem C54_save {E : Env} : forall (K : Z -> Prop) ix sv rs a l v d r f,
  source_words K ix v sv rs a -> saved (v_ds v) a l -> ds_ok (v_ds v) -> stacks_are v d r f ->
  zlen d <= 240 -> zlen r <= 240 -> is_cell (st_sid (st v)) -> 0 <= st_idx (st v) < 2 ^ 64 -> zlen l < 16 ->
  does K v sv (fun v' => saved (v_ds v') a (source_of v :: l) /\ same_memory_but (v_ds v) (v_ds v') a 272 /\
    here (v_ds v') = here (v_ds v) /\ stacks_are v' d r f /\ v_out v' = v_out v /\ calm v v').
Proof. exact save_does. Qed.
Print Assumptions C54_save.

(** The 17th level: ABORT, with the memory as it was *)
Theorem C54_save_full {E : Env} : forall (K : Z -> Prop) ix sv rs a l v d r f,
  source_words K ix v sv rs a -> saved (v_ds v) a l -> ds_ok (v_ds v) -> stacks_are v d r f ->
  zlen d <= 240 -> zlen r <= 240 -> zlen l = 16 ->
  throws K v sv (-1) (fun w => v_ds w = v_ds v /\ source_of w = source_of v /\ calm v w).
Proof. exact save_full. Qed.
Print Assumptions C54_save_full.

(** RESTORE-SOURCE selects the source saved last and removes it, provided it is still open *)
Theorem C54_restore {E : Env} : forall (K : Z -> Prop) ix sv rs a id pos l v d r f,
  source_words K ix v sv rs a -> saved (v_ds v) a ((id, pos) :: l) -> ds_ok (v_ds v) -> stacks_are v d r f ->
  zlen d <= 240 -> zlen r <= 240 -> selectable v id ->
  does K v rs (fun v' => source_of v' = (id, pos) /\ saved (v_ds v') a l /\ same_memory_but (v_ds v) (v_ds v') a 272 /\
    here (v_ds v') = here (v_ds v) /\ stacks_are v' d r f /\ v_out v' = v_out v /\ calm (with_source v (id, pos)) v').
Proof. exact restore_does. Qed.
Print Assumptions C54_restore.

(** With no saved source: ABORT, with the memory as it was *)
Theorem C54_restore_empty {E : Env} : forall (K : Z -> Prop) ix sv rs a v d r f,
  source_words K ix v sv rs a -> saved (v_ds v) a [] -> ds_ok (v_ds v) -> stacks_are v d r f ->
  zlen d <= 240 -> zlen r <= 240 ->
  throws K v rs (-1) (fun w => v_ds w = v_ds v /\ source_of w = source_of v /\ calm v w).
Proof. exact restore_empty. Qed.
Print Assumptions C54_restore_empty.

(** Every balanced nesting: after SAVE-SOURCE p RESTORE-SOURCE, where [p] is any balanced program which together with the
    sources saved already does not nest more than 16 deep, source and position are those before and so is the stack of
    sources *)
Theorem C54_nesting {E : Env} : forall (K : Z -> Prop) ix sv rs a ids n p l v,
  balanced K ix sv rs a ids n p -> settled K ix sv rs a l v -> (forall id, In id ids -> selectable v id) -> In (st_sid (st v)) ids ->
  zlen l + n < 16 ->
  runs K (Seq (Op sv) (Seq p (Op rs))) (fun v' => source_of v' = source_of v /\ settled K ix sv rs a l v') v.
Proof. exact nest_runs. Qed.
Print Assumptions C54_nesting.

(** ** The hypotheses are met *)
Definition stack_at : Z := @body env_d booted_d 315.
Example C54_ready : settled (@outside env_d booted_d stack_at) ix0 316 317 stack_at [] booted_d.
Proof. exact (proj2 booted_source_both). Qed.
(** in particular those of [C54_save] and [C54_restore_empty] *)
Example C54_ready_parts : @source_words env_d (@outside env_d booted_d stack_at) ix0 booted_d 316 317 stack_at /\ saved (v_ds booted_d) stack_at [] /\
  ds_ok (v_ds booted_d) /\ stacks_are booted_d [] [] [] /\ st_sid (st booted_d) = 0.
Proof.
  destruct C54_ready as (A & B & C & _). split; [exact A|]. split; [exact B|]. split; [exact C|]. split; [exact (bs_stacks [] ltac:(reflexivity))|].
  vm_compute. reflexivity.
Qed.
(** a balanced program: two pairs in a row inside a third *)
Example C54_balanced : exists n p, n = 1 /\ @balanced env_d (@outside env_d booted_d stack_at) ix0 316 317 stack_at [0] n p /\ p <> Skip /\
  (forall id, In id [0] -> @selectable env_d booted_d id) /\ In (st_sid (@st env_d booted_d)) [0].
Proof.
  set (q := Seq (Op 316) (Seq Skip (Op 317))). exists 1, (Seq q q). split; [reflexivity|].
  assert (B0 : @balanced env_d (@outside env_d booted_d stack_at) ix0 316 317 stack_at [0] 0 Skip).
  { constructor. intros l v H1 H2 H3. apply (wp_skip (@outside env_d booted_d stack_at) (fun v' => _ v')). auto. }
  split; [apply (B_seq _ _ _ _ _ _ 1 1); apply (B_nest _ _ _ _ _ _ 0); exact B0|]. split; [discriminate|].
  split; [intros id [<-|[]]; left; reflexivity|]. left. vm_compute. reflexivity.
Qed.
(** and from the text interpreter: 16 levels, and back; the 17th fails, as does a superfluous RESTORE-SOURCE *)
Example C54_levels : after ": t 16 0 do save-source loop 16 0 do restore-source loop ; t 5" = Some [5].
Proof. vm_compute. reflexivity. Qed.
Example C54_level_17 : after ": t 17 0 do save-source loop ; t" = None /\ after "restore-source" = None.
Proof. split; vm_compute; reflexivity. Qed.
