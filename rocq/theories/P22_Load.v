(** Loading source files (core.fth 126-148): C90. *)
From Coq Require Import ZArith List Bool Lia String.
From Verif Require Import Base Stack Mem Parser State CoreM IoM FileM Exec Boot Term Std Shell Spec Spec2 Spec5 Spec7 Spec9 Spec10 Spec11 Spec12 Spec15 Spec16 Spec17 Spec25 Spec27 Spec28 Spec29
  LInc2 LInc3 LInc4 Ex20 Ex22.
Import ListNotations.
Open Scope list_scope.
Open Scope Z_scope.

(** * C90: INCLUDED obeys the lines of a file and comes back *)

(** The file whose name is on the stack can be opened, and its lines can be obeyed one after the other, from whatever state
    there is once the file has become the current source ([follows]).  Then INCLUDED comes to its end: the lines have been
    obeyed, the file is closed, the source that was current before is current again, at the same position, and the sources
    saved earlier are still saved. *)
Theorem C90_included {E : Env} : forall K R n m path o h c l (Q : vm -> Prop) v xa x a d r f,
  shell K n v -> loader K n m v -> at_home m l v -> spare K n m v -> can_open R path o h c a v ->
  stacks_are v (x :: xa :: d) r f -> addr_of xa a -> addr_of x (zlen path) -> zlen d <= 48 -> zlen r <= 56 ->
  (a + zlen path <= src_at m v \/ src_at m v + 272 <= a) ->
  (forall id v1, opened n m o h path l d r f v id v1 -> follows R K n m id (source_of v) l Q c v1) ->
  does K v (l_included m) (fun v' => exists id w, ~ is_source v id /\ Q w /\ closed_again m id (source_of v) l w v').
Proof. exact included_wp. Qed.
Print Assumptions C90_included.
(** A file of two lines, 7 8 and -9, in the terminal program as it comes up *)
Example C90_included_ex : shell KL nl lv /\ loader KL nl lm lv /\ at_home lm [] lv /\ spare KL nl lm lv /\
  can_open RL (b "included") los1 1 (b "7 8" ++ [10] ++ b "-9" ++ [13; 10]) la lv /\ stacks_are lv [8; la] [] [] /\
  (forall id v1, @opened env_d nl lm los1 1 (b "included") [] [] [] [] lv id v1 ->
     follows RL KL nl lm id (source_of lv) [] (fun u => exists ra rb, stacks_are u [-9; 8; 7] [rb; ra] []) (b "7 8" ++ [10] ++ b "-9" ++ [13; 10]) v1).
Proof. exact (conj lv_shell (conj lv_loader (conj lv_home (conj lv_spare (conj lv_open (conj lv_has lv_opened)))))). Qed.

(** A file of any length that contains nothing but integers: they are pushed, in order; the words, the source and its position
    are as before, and so is the memory, except for SRC-STACK, LOAD-LINE# and one more cell, which is now allocated *)
Theorem C90_numbers {E : Env} : forall K R n m path o h c xs l v xa x a d r f,
  shell K n v -> loader K n m v -> at_home m l v -> spare K n m v -> in_order n m v -> can_open R path o h c a v -> numbers_in v c xs ->
  stacks_are v (x :: xa :: d) r f -> addr_of xa a -> addr_of x (zlen path) -> zlen d + zlen xs <= 48 -> zlen r <= 56 ->
  (a + zlen path <= src_at m v \/ src_at m v + 272 <= a) ->
  does K v (l_included m) (fun v' => stacks_are v' (rev xs ++ d) r f /\ source_of v' = source_of v /\ saved (v_ds v') (src_at m v) l /\
    v_wl v' = v_wl v /\ here (v_ds v') = here (v_ds v) + 8 /\ st_compiling (st v') = false /\
    (forall k, start (v_ds v) <= k -> k < src_at m v \/ src_at m v + 272 <= k -> k < line_at n v \/ line_at n v + 8 <= k ->
       k < here (v_ds v) \/ here (v_ds v) + 8 <= k -> byte_at (v_ds v') k = byte_at (v_ds v) k)).
Proof. exact included_numbers. Qed.
Print Assumptions C90_numbers.
Example C90_numbers_ex : in_order nl lm lv /\ numbers_in lv (b "7 8" ++ [10] ++ b "-9" ++ [13; 10]) [7; 8; -9] /\
  (la + zlen (b "included") <= src_at lm lv \/ src_at lm lv + 272 <= la) /\
  does KL lv (l_included lm) (fun v' => stacks_are v' [-9; 8; 7] [] [] /\ here (v_ds v') = here (v_ds lv) + 8).
Proof. exact (conj lv_order (conj lv_numbers (conj lv_away lv_result))). Qed.

(** An empty file, whether the interpreter interprets or compiles: all that remains is one more cell, with the word [ in it.
    INCLUDED contains POSTPONE [, which compiles [ into the current definition instead of executing it. *)
Theorem C90_empty {E : Env} : forall K R n m path o h l v xa x a d r f,
  shell K n v -> loader K n m v -> at_home m l v -> spare K n m v -> can_open R path o h [] a v ->
  stacks_are v (x :: xa :: d) r f -> addr_of xa a -> addr_of x (zlen path) -> zlen d <= 48 -> zlen r <= 56 ->
  (a + zlen path <= src_at m v \/ src_at m v + 272 <= a) ->
  does K v (l_included m) (fun v' => stacks_are v' d r f /\ source_of v' = source_of v /\ v_wl v' = v_wl v /\ v_out v' = v_out v /\
    st_compiling (st v') = st_compiling (st v) /\ here (v_ds v') = here (v_ds v) + 8 /\ cell_at (v_ds v') (here (v_ds v)) (ix n P_left_bracket)).
Proof. exact included_empty. Qed.
Print Assumptions C90_empty.
Example C90_empty_ex : shell KL nl ev /\ loader KL nl lm ev /\ at_home lm [] ev /\ spare KL nl lm ev /\ can_open RL (b "included") eos1 1 [] la ev /\
  stacks_are ev [8; la] [] [] /\ st_compiling (st ev) = true.
Proof. exact (conj ev_shell (conj ev_loader (conj ev_home (conj ev_spare (conj ev_open (conj ev_has ev_compiling)))))). Qed.

(** One would expect INCLUDED to make the interpreter interpret the file (this is what POSTPONE [ is meant for), and to leave
    the allocated memory to the file.  It does neither: in the middle of a definition, an empty file leaves the interpreter
    compiling, and allocates a cell. *)
Theorem C90_interprets_refuted : exists (K : Z -> Prop) (v : @vm env_d) i a,
  newest v (b "included") (Some i) /\ stacks_are v [8; a] [] [] /\ dict_ok v /\ st_compiling (st v) = true /\
  can_open RL (b "included") eos1 1 [] a v /\ does K v i (fun v' => st_compiling (st v') = true /\ here (v_ds v') = here (v_ds v) + 8).
Proof. exact included_leaves. Qed.
Print Assumptions C90_interprets_refuted.
