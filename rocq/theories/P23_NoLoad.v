(** Source files that cannot be loaded (core.fth 137-148): C91. *)
From Coq Require Import ZArith List Bool Lia String.
From Verif Require Import Base Stack Mem Parser State CoreM IoM FileM Exec Boot Term Std Shell Spec Spec2 Spec4 Spec5 Spec7 Spec9 Spec10 Spec11 Spec12 Spec15 Spec16 Spec17 Spec25 Spec27 Spec28 Spec29 Spec30
  LInc5 LInc6 LInc7 Ex20 Ex21 Ex22 Ex23 Ex24.
Import ListNotations.
Open Scope list_scope.
Open Scope Z_scope.

(** * C91: INCLUDED reports a file that it cannot load *)

(** The name is too long, or the operating system cannot open the file: exception -1.  When it is raised, the memory, the
    words, the source, the output and the open files are as before. *)
Theorem C91_missing {E : Env} : forall K n m path o v xa x a d r f,
  shell K n v -> loader K n m v -> ds_ok (v_ds v) -> word_is v (l_zero m) P_zero_equals -> cannot_open path o a v ->
  stacks_are v (x :: xa :: d) r f -> addr_of xa a -> addr_of x (zlen path) -> zlen d <= 48 -> zlen r <= 56 ->
  throws K v (l_included m) (-1) (fun w => exists ra, stacks_are w (-1 :: x :: xa :: d) (ra :: r) f /\ v_ds w = v_ds v /\ v_out w = v_out v /\
    calm (world o (t_files (cur v)) (t_sources (cur v)) (t_lines (cur v)) v) w).
Proof. exact included_missing. Qed.
Print Assumptions C91_missing.
(** The terminal program as it comes up, with a file of another name *)
Example C91_missing_ex : shell KL nl nv /\ loader KL nl lm nv /\ ds_ok (v_ds nv) /\ word_is nv (l_zero lm) P_zero_equals /\
  @cannot_open env_d (b "included") nos la nv /\ stacks_are nv [8; la] [] [] /\
  throws KL nv (l_included lm) (-1) (fun w => v_ds w = v_ds nv /\ source_of w = source_of nv /\ t_files (cur w) = t_files (cur nv)).
Proof. exact (conj nv_shell (conj nv_loader (conj nv_ok (conj nv_zero (conj nv_open (conj nv_has nv_result)))))). Qed.

(** Sixteen sources are saved already: exception -1, although the file can be opened.  Memory and source are as before, but
    the file has been opened, and nothing closes it. *)
Theorem C91_full {E : Env} : forall K R n m path o h c l v xa x a d r f,
  shell K n v -> loader K n m v -> ds_ok (v_ds v) -> word_is v (l_zero m) P_zero_equals -> can_open R path o h c a v ->
  saved (v_ds v) (src_at m v) l -> zlen l = 16 ->
  stacks_are v (x :: xa :: d) r f -> addr_of xa a -> addr_of x (zlen path) -> zlen d <= 48 -> zlen r <= 56 ->
  throws K v (l_included m) (-1) (fun w => v_ds w = v_ds v /\ source_of w = source_of v /\
    exists fl, one_more v h fl /\ calm (world o fl (t_sources (cur v)) (t_lines (cur v)) v) w).
Proof. exact included_full. Qed.
Print Assumptions C91_full.
Example C91_full_ex : shell KL nl fv /\ loader KL nl lm fv /\ ds_ok (v_ds fv) /\ word_is fv (l_zero lm) P_zero_equals /\
  can_open RL (b "included") los1 1 (b "7 8" ++ [10] ++ b "-9" ++ [13; 10]) la fv /\ saved (v_ds fv) (src_at lm fv) (repeat (0, 0) 16) /\ stacks_are fv [8; la] [] [].
Proof. exact (conj fv_shell (conj fv_loader (conj fv_ok (conj fv_zero (conj fv_open (conj fv_saved fv_has)))))). Qed.

(** One would expect the files that are open after the exception to be those that were open before.  They are not. *)
Theorem C91_closed_refuted : exists (K : Z -> Prop) (v : @vm env_d) i a,
  newest v (b "included") (Some i) /\ stacks_are v [8; a] [] [] /\ t_files (cur v) = [] /\ can_open RL (b "included") los1 1 (b "7 8" ++ [10] ++ b "-9" ++ [13; 10]) a v /\
  throws K v i (-1) (fun w => exists k, nth_error (t_files (cur w)) k = Some (Some 1)).
Proof. exact included_leaks. Qed.
Print Assumptions C91_closed_refuted.

(** The file can be opened, but one of its lines ends in an exception, in a state in [P], after the lines before it have been
    obeyed ([collapses]).  Then INCLUDED ends in that exception: the handler is given control in a state in [P], whatever
    called INCLUDED. *)
Theorem C91_line_fails {E : Env} : forall K R n m path o h c l (P : vm -> Prop) v xa x a d r f,
  shell K n v -> loader K n m v -> at_home m l v -> spare K n m v -> can_open R path o h c a v ->
  stacks_are v (x :: xa :: d) r f -> addr_of xa a -> addr_of x (zlen path) -> zlen d <= 48 -> zlen r <= 56 ->
  (a + zlen path <= src_at m v \/ src_at m v + 272 <= a) ->
  (forall id v1, opened n m o h path l d r f v id v1 -> collapses R K n m id (source_of v) l P c v1) ->
  fails_at v (l_included m) P.
Proof. exact included_fails. Qed.
Print Assumptions C91_line_fails.
(** The file contains the lines 7 and foo 8 *)
Example C91_line_fails_ex : shell KL nl tv /\ loader KL nl lm tv /\ at_home lm [] tv /\ spare KL nl lm tv /\
  can_open RL (b "included") tos1 1 (b "7" ++ [10] ++ b "foo 8" ++ [10]) la tv /\ stacks_are tv [8; la] [] [] /\
  (forall id v1, @opened env_d nl lm tos1 1 (b "included") [] [] [] [] tv id v1 ->
     collapses RL KL nl lm id (source_of tv) [] (fun y => v_err y = Some (-13)) (b "7" ++ [10] ++ b "foo 8" ++ [10]) v1).
Proof. exact (conj tv_shell (conj tv_loader (conj tv_home (conj tv_spare (conj tv_open (conj tv_has tv_collapses)))))). Qed.

(** Any number of lines of integers, and then a line whose first token is neither a word nor a number: exception -13.  The
    source that was current before stays saved, and the file is not closed: it is still the current source when the handler
    is given control.  So every file that cannot be loaded takes one of the sixteen places for saved sources. *)
Theorem C91_unknown {E : Env} : forall K R n m path o h c xs l v xa x a d r f,
  shell K n v -> loader K n m v -> at_home m l v -> spare K n m v -> in_order n m v -> can_open R path o h c a v -> typo_in v c xs ->
  stacks_are v (x :: xa :: d) r f -> addr_of xa a -> addr_of x (zlen path) -> zlen d + zlen xs <= 48 -> zlen r <= 56 ->
  (a + zlen path <= src_at m v \/ src_at m v + 272 <= a) ->
  fails_at v (l_included m) (fun y => v_err y = Some (-13) /\ v_wl y = v_wl v /\ saved (v_ds y) (src_at m v) (source_of v :: l) /\
    exists id, st_sid (st y) = id /\ is_source y id /\ ~ is_source v id).
Proof. exact included_typo. Qed.
Print Assumptions C91_unknown.
Example C91_unknown_ex : in_order nl lm tv /\ typo_in tv (b "7" ++ [10] ++ b "foo 8" ++ [10]) [7] /\
  (la + zlen (b "included") <= src_at lm tv \/ src_at lm tv + 272 <= la) /\
  fails_at tv (l_included lm) (fun y => v_err y = Some (-13) /\ v_wl y = v_wl tv /\ saved (v_ds y) (src_at lm tv) [source_of tv] /\
    exists id, st_sid (st y) = id /\ is_source y id /\ ~ is_source tv id).
Proof. exact (conj tv_order (conj tv_typo (conj tv_away tv_result))). Qed.
