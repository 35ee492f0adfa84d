(** Vocabulary of the properties of SAVE-SOURCE and RESTORE-SOURCE (C54). *)
From Coq Require Import ZArith List Bool String.
From Verif Require Import Base Stack Mem Parser State CoreM Exec Spec Spec2 Spec4 Spec5 Spec7 Spec9 Spec10 Spec15 Spec16.
Import ListNotations.
Open Scope Z_scope.

Section V.
Context {E : Env}.

(** ** The definitions of core.fth *)
Section Text.
Variable ix : prim -> Z.
(** the numbers of SRC-STACK, 2@, 2*, 2! and SOURCE-IDX *)
Variables src fetch2 twice store2 pos : Z.
(* : save-source source-id source-idx src-stack 2@ over > if 1+ dup src-stack cell+ ! 2* cells src-stack + 2! else abort then ; *)
Definition d_save_source := block [wd ix P_p_source_id; Op pos; Op src; Op fetch2; wd ix P_over; wd ix P_greater_than;
  IfElse (block [wd ix P_one_plus; wd ix P_dup; Op src; wd ix P_cell_plus; wd ix P_store;
                 Op twice; wd ix P_cells; Op src; wd ix P_plus; Op store2]) (wd ix P_abort)].
(* : restore-source src-stack 2@ drop dup 0 > if dup 1- src-stack cell+ ! 2* cells src-stack + 2@ source-idx! source-id! else abort then ; *)
Definition d_restore_source := block [Op src; Op fetch2; wd ix P_p_drop; wd ix P_dup; Num 0; wd ix P_greater_than;
  IfElse (block [wd ix P_dup; wd ix P_one_minus; Op src; wd ix P_cell_plus; wd ix P_store;
                 Op twice; wd ix P_cells; Op src; wd ix P_plus; Op fetch2; wd ix P_p_set_source_idx; wd ix P_p_set_source_id]) (wd ix P_abort)].
End Text.

(** The two words [sv] and [rs], the words they use, and the stack at [a]; none of the code in [K] lies in that stack *)
Definition source_words (K : Z -> Prop) (ix : prim -> Z) (v : vm) (sv rs a : Z) : Prop :=
  library ix v /\ exists src fetch2 twice store2 pos,
    word_is v src P_p_var /\ body v src = a /\ word_is v pos P_p_source_idx /\
    colon_word K v fetch2 (d_two_fetch ix) (ix P_exit) /\ colon_word K v twice (d_two_star ix) (ix P_exit) /\
    colon_word K v store2 (d_two_store ix) (ix P_exit) /\
    colon_word K v sv (d_save_source ix src fetch2 twice store2 pos) (ix P_exit) /\
    colon_word K v rs (d_restore_source ix src fetch2 twice) (ix P_exit) /\ free_of K v a 272.

(** ** The stack of sources *)
(** The sources saved in the memory [m] at [a]: pairs of source id and position, the newest first *)
Fixpoint entries (m : dspace) (a : Z) (l : list (Z * Z)) : Prop :=
  match l with
  | [] => True
  | (id, pos) :: r => cell_at m (a + 16 * zlen l) (to_i64 pos) /\ cell_at m (a + 16 * zlen l + 8) id /\
      is_cell id /\ 0 <= pos < 2 ^ 64 /\ entries m a r
  end.
Definition saved (m : dspace) (a : Z) (l : list (Z * Z)) : Prop :=
  cell_at m a 16 /\ cell_at m (a + 8) (zlen l) /\ zlen l <= 16 /\ entries m a l.
(** The current source and the position in it *)
Definition source_of (v : vm) : Z * Z := (st_sid (st v), st_idx (st v)).
(** The source [id] can be selected: it is the terminal or an open source *)
Definition selectable (v : vm) (id : Z) : Prop :=
  id = 0 \/ 0 < id /\ (exists s, nth_error (t_sources (cur v)) (Z.to_nat (id - 1)) = Some (Some s)) /\
                      (exists s, nth_error (t_lines (cur v)) (Z.to_nat (id - 1)) = Some (Some s)).
(** [v] with another source and position *)
Definition with_source (v : vm) (s : Z * Z) : vm := set_sid (fst s) (set_idx (snd s) v).

(** Executing the word [i] ends with the exception [e], without returning, in the situation of a state satisfying [Q] *)
Definition throws (K : Z -> Prop) (v : vm) (i e : Z) (Q : vm -> Prop) : Prop :=
  forall r, 0 <= r < 2 ^ 63 ->
    exists f u w a k p, execute_word f i (set_ip r v) = Ok (tt, u) /\ goes u (st_ip (st u)) w a /\ kept K v w /\
      code_cell K w a k /\ word_is w k p /\ (forall fuel, raises fuel e p (set_wp k (set_ip (a + 8) w))) /\ Q w.

(** ** Balanced nesting *)
(** Enough room on the stacks *)
Definition roomy (v : vm) : Prop := exists d r f, stacks_are v d r f /\ zlen d <= 240 /\ zlen r <= 240.
(** The situation between two operations: the words are there, the stack of sources holds [l], the current source and
    position are proper values *)
Definition settled (K : Z -> Prop) (ix : prim -> Z) (sv rs a : Z) (l : list (Z * Z)) (v : vm) : Prop :=
  source_words K ix v sv rs a /\ saved (v_ds v) a l /\ ds_ok (v_ds v) /\ roomy v /\
  is_cell (st_sid (st v)) /\ 0 <= st_idx (st v) < 2 ^ 64.
(** Programs made of such code and of matching pairs SAVE-SOURCE ... RESTORE-SOURCE, nested [n] deep at most.
    The sources that are current at a SAVE-SOURCE are among [ids]. *)
Inductive balanced (K : Z -> Prop) (ix : prim -> Z) (sv rs a : Z) (ids : list Z) : Z -> prog -> Prop :=
| B_other p : (forall l v, settled K ix sv rs a l v -> (forall id, In id ids -> selectable v id) -> In (st_sid (st v)) ids ->
      runs K p (fun v' => settled K ix sv rs a l v' /\ (forall id, In id ids -> selectable v' id) /\ In (st_sid (st v')) ids) v) ->
    balanced K ix sv rs a ids 0 p
| B_seq n m p q : balanced K ix sv rs a ids n p -> balanced K ix sv rs a ids m q -> balanced K ix sv rs a ids (Z.max n m) (Seq p q)
| B_nest n p : balanced K ix sv rs a ids n p -> balanced K ix sv rs a ids (n + 1) (Seq (Op sv) (Seq p (Op rs))).

(** The loaded system has these words *)
Definition source_installed (ix : prim -> Z) (v : vm) : Prop :=
  exists (K : Z -> Prop) sv rs src, newest v (b "save-source"%string) (Some sv) /\ newest v (b "restore-source"%string) (Some rs) /\ newest v (b "src-stack"%string) (Some src) /\
    source_words K ix v sv rs (body v src) /\ saved (v_ds v) (body v src) [] /\
    (forall k, K k -> start (v_ds v) <= k < here (v_ds v)) /\ settled K ix sv rs (body v src) [] v.
End V.
