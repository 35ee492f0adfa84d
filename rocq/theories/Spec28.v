(** Vocabulary of loading source files (C90, C91): the words of core.fth, and what a file does. *)
From Coq Require Import ZArith List Bool String.
From Verif Require Import Base Stack Mem Parser State CoreM FileM Exec Spec Spec2 Spec4 Spec5 Spec7 Spec9 Spec10 Spec12 Spec15 Spec16 Spec17 Spec27.
Import ListNotations.
Open Scope list_scope.
Open Scope Z_scope.

(** ** The definitions of core.fth *)

(** The numbers of SAVE-SOURCE, RESTORE-SOURCE, SRC-STACK, 2@, 2*, 2!, SOURCE-IDX, +!, R/O, LOAD-SOURCE-FILE, INCLUDED and 0=
    (0= and NOT are two words with one action) *)
Record loader_names := mkLoader { l_save : Z; l_restore : Z; l_src : Z; l_fetch2 : Z; l_twice : Z; l_store2 : Z; l_pos : Z; l_plus : Z;
  l_ro : Z; l_load : Z; l_included : Z; l_zero : Z }.
Definition loader_numbers (m : loader_names) : list Z :=
  [l_save m; l_restore m; l_src m; l_fetch2 m; l_twice m; l_store2 m; l_pos m; l_plus m; l_ro m; l_load m; l_included m].
Section Text.
Variable n : names.
Variable m : loader_names.
(* : load-source-file begin source-id load-line while drop 0 source-idx! evaluate-input flush-output 1 load-line# +! repeat drop ; *)
Definition d_load : prog :=
  Seq (While (block [op n P_p_source_id; op n P_p_load_line])
         (block [op n P_p_drop; Num 0; op n P_p_set_source_idx; Op (n_eval n); op n P_flush_output; Num 1; Op (n_line n); Op (l_plus m)]))
      (op n P_p_drop).
(* : included 2dup r/o open-file 0= if save-source open-source source-id! postpone [ 1 load-line# ! load-source-file
     source-id restore-source close-source else abort then ;
   POSTPONE [ is two instructions, which append [ to the code of a definition, as POSTPONE does with every word. *)
Definition d_included : prog :=
  block [op n P_two_dup; Op (l_ro m); op n P_open_file; Op (l_zero m);
    IfElse (block [Op (l_save m); op n P_open_source; op n P_p_set_source_id; Num (ix n P_left_bracket); op n P__postpone; Num 1; Op (n_line n); op n P_store;
                   Op (l_load m); op n P_p_source_id; Op (l_restore m); op n P_close_source])
           (op n P_abort)].
End Text.

Section V.
Context {E : Env}.

(** The addresses of SRC-STACK and of LOAD-LINE# *)
Definition src_at (m : loader_names) (v : vm) : Z := body v (l_src m).
Definition line_at (n : names) (v : vm) : Z := body v (n_line n).
(** [v] has these words, with their code in [K]; SRC-STACK and LOAD-LINE# are not part of it, the constant R/O is.  They are
    among the words that are to stay. *)
Definition loader (K : Z -> Prop) (n : names) (m : loader_names) (v : vm) : Prop :=
  library (ix n) v /\ word_is v (l_src m) P_p_var /\ word_is v (l_pos m) P_p_source_idx /\
  colon_word K v (l_fetch2 m) (d_two_fetch (ix n)) (ix n P_exit) /\ colon_word K v (l_twice m) (d_two_star (ix n)) (ix n P_exit) /\
  colon_word K v (l_store2 m) (d_two_store (ix n)) (ix n P_exit) /\ colon_word K v (l_plus m) (d_plus_store (ix n)) (ix n P_exit) /\
  colon_word K v (l_save m) (d_save_source (ix n) (l_src m) (l_fetch2 m) (l_twice m) (l_store2 m) (l_pos m)) (ix n P_exit) /\
  colon_word K v (l_restore m) (d_restore_source (ix n) (l_src m) (l_fetch2 m) (l_twice m)) (ix n P_exit) /\
  colon_word K v (l_load m) (d_load n m) (ix n P_exit) /\ colon_word K v (l_included m) (d_included n m) (ix n P_exit) /\
  constant_is v (l_ro m) 0 /\ (forall k, body v (l_ro m) <= k < body v (l_ro m) + 8 -> K k) /\
  free_of K v (src_at m v) 272 /\ free_of K v (line_at n v) 8 /\
  (line_at n v + 8 <= src_at m v \/ src_at m v + 272 <= line_at n v) /\
  (forall i, In i (loader_numbers m ++ map (ix n) lib_prims) -> In i (n_others n)).

(** ** The course of events *)

(** The cells from the 64th on, which mark overflow and underflow, are the same *)
Definition upper {T} (s s' : stack T) : Prop := canary s' = canary s /\ forall i, 64 <= i <= 255 -> sget s' i = sget s i.
Definition trim (v v' : vm) : Prop :=
  upper (t_s (cur v)) (t_s (cur v')) /\ upper (t_r (cur v)) (t_r (cur v')) /\ t_f (cur v') = t_f (cur v).
(** [v'] is [v], but for the pointers of the interpreter and the cells above the stacks, up to the 64th *)
Definition alike (v v' : vm) : Prop :=
  (forall d r f, stacks_are v d r f -> stacks_are v' d r f) /\ v_ds v' = v_ds v /\ v_out v' = v_out v /\ calm v v' /\ trim v v'.
(** [v] with the outside world and the files of the task as given *)
Definition world (o : os) (fl : list (option handle)) (ss : list (option source)) (ls : list (option bytes)) (v : vm) : vm :=
  set_v_os o (upd_cur (fun t => set_t_lines ls (set_t_sources ss (set_t_files fl t))) v).

(** The source [id] is being loaded, with the text [c] still to come; [s] is the source that was current before, [l] those
    saved earlier *)
Definition loading (R : line_reader) (n : names) (m : loader_names) (id : Z) (s : Z * Z) (l : list (Z * Z)) (c : bytes) (v : vm) : Prop :=
  (exists sr, source_as v id sr /\ rest R (v_os v) (src_reader sr) = Some c) /\ line_of v id <> None /\
  is_cell id /\ ds_ok (v_ds v) /\ saved (v_ds v) (src_at m v) (s :: l) /\ selectable v (fst s) /\
  (exists f, stack_has (t_f (cur v)) f) /\ (exists x, cell_at (v_ds v) (line_at n v) x /\ is_cell x) /\
  st_sid (st v) = id /\ (exists d, stack_has (t_s (cur v)) d /\ zlen d <= 48).
(** A line [t] has been read from the source [id], and [c] is left *)
Definition fetched (R : line_reader) (id : Z) (t c : bytes) (v v1 : vm) : Prop :=
  exists sr o rd, source_as v id sr /\ rest R o rd = Some c /\
    alike (world o (t_files (cur v)) (set_nth (t_sources (cur v)) (Z.to_nat (id - 1)) (Some (mkSource rd (src_path sr))))
             (set_nth (t_lines (cur v)) (Z.to_nat (id - 1)) (Some t)) v) v1.
(** ... from its start *)
Definition started (R : line_reader) (id : Z) (t c : bytes) (v v1 : vm) : Prop :=
  exists v0, fetched R id t c v v0 /\ alike (set_idx 0 v0) v1.
(** The output is shown, and the number of the line in LOAD-LINE# goes up by one *)
Definition tallied (n : names) (v v1 : vm) : Prop :=
  exists x y mem, cell_at (v_ds v) (line_at n v) x /\ is_cell x /\ wraps_to (x + 1) y /\ cell_at mem (line_at n v) y /\
    same_memory_but (v_ds v) mem (line_at n v) 8 /\ here mem = here (v_ds v) /\ alike (set_v_ds mem (flushed v)) v1.

(** [follows c Q v]: the lines of the text [c], to come from the source [id], can be obeyed one after the other, and whatever
    the rest of the machine looks like they lead from [v] to states in [Q].  ([ra] is the return address of the line.) *)
Inductive follows (R : line_reader) (K : Z -> Prop) (n : names) (m : loader_names) (id : Z) (s : Z * Z) (l : list (Z * Z)) (Q : vm -> Prop) :
    bytes -> vm -> Prop :=
| Fo_end v : (forall v', fetched R id [] [] v v' -> Q v') -> follows R K n m id s l Q [] v
| Fo_line c ln r t v : c <> [] -> first_line c ln r -> stripped ln t ->
    (forall v1 ra, started R id t r v v1 ->
       exists ts v2, obeys_on id K n (add_r ra v1) ts v2 /\ loading R n m id s l r v2 /\
         forall v3, tallied n (drop_r 1 v2) v3 -> follows R K n m id s l Q r v3) ->
    follows R K n m id s l Q c v.

(** ** INCLUDED *)

(** The file named [path], the bytes at [a], can be opened for reading: the operating system becomes [o], the file is [h], and
    reading it line by line gives the text [c] *)
Definition can_open (R : line_reader) (path : bytes) (o : os) (h : handle) (c : bytes) (a : Z) (v : vm) : Prop :=
  bytes_at (v_ds v) a path /\ zlen path <= 256 /\ os_open (v_os v) path (mkOpts true false false false) = (o, Some h) /\
  rest R o (os_reader o h) = Some c.
(** The current source and its position are proper values, and there is room for saving them above [l]; there is a line
    for every source *)
Definition at_home (m : loader_names) (l : list (Z * Z)) (v : vm) : Prop :=
  ds_ok (v_ds v) /\ saved (v_ds v) (src_at m v) l /\ zlen l < 16 /\ is_cell (st_sid (st v)) /\ 0 <= st_idx (st v) < 2 ^ 64 /\
  selectable v (st_sid (st v)) /\ List.length (t_lines (cur v)) = List.length (t_sources (cur v)) /\ zlen (t_sources (cur v)) < 2 ^ 63 - 1 /\
  (forall k, nth_error (t_lines (cur v)) k <> Some None).

(** There is room for one more cell after the allocated memory, which contains the code [K], SRC-STACK and LOAD-LINE#; the
    word [ is compiled like any other, and 0= is the primitive *)
Definition spare (K : Z -> Prop) (n : names) (m : loader_names) (v : vm) : Prop :=
  (forall k, K k -> k < here (v_ds v)) /\ src_at m v + 272 <= here (v_ds v) /\ line_at n v + 8 <= here (v_ds v) /\
  here (v_ds v) + 8 <= limit (v_ds v) /\ w_cs (word_of v (ix n P_left_bracket)) <> CS_compile_leave /\ words v <= 2 ^ 63 /\ word_is v (l_zero m) P_zero_equals.
(** The file [h] named [path], opened with [o] as a result, has become the source [id], a new one, which is current; the source
    before is saved, and the line number is 1.  The name is no longer on the stack [d], and two return addresses are on the
    return stack.  One more cell is allocated: it is [, compiled by POSTPONE.  Whether the interpreter interprets or compiles
    has not changed. *)
Definition opened (n : names) (m : loader_names) (o : os) (h : handle) (path : bytes) (l : list (Z * Z)) (d r f : list Z) (v : vm) (id : Z) (v1 : vm) : Prop :=
  exists fl ss ls ra rb,
    1 <= id /\ ~ is_source v id /\
    nth_error ss (Z.to_nat (id - 1)) = Some (Some (mkSource (os_reader o h) path)) /\
    (forall k, k <> Z.to_nat (id - 1) -> nth_error ss k = nth_error (t_sources (cur v)) k) /\
    (exists t, nth_error ls (Z.to_nat (id - 1)) = Some (Some t)) /\
    (forall k t, nth_error (t_lines (cur v)) k = Some t -> nth_error ls k = Some t) /\
    (forall k x, nth_error fl k = Some (Some x) <-> nth_error (t_files (cur v)) k = Some (Some x)) /\
    ds_ok (v_ds v1) /\ saved (v_ds v1) (src_at m v) (source_of v :: l) /\ cell_at (v_ds v1) (line_at n v) 1 /\
    here (v_ds v1) = here (v_ds v) + 8 /\ cell_at (v_ds v1) (here (v_ds v)) (ix n P_left_bracket) /\
    start (v_ds v1) = start (v_ds v) /\ limit (v_ds v1) = limit (v_ds v) /\
    (forall k, start (v_ds v) <= k -> k < src_at m v \/ src_at m v + 272 <= k -> k < line_at n v \/ line_at n v + 8 <= k ->
       k < here (v_ds v) \/ here (v_ds v) + 8 <= k -> byte_at (v_ds v1) k = byte_at (v_ds v) k) /\
    stacks_are v1 d (rb :: ra :: r) f /\ v_out v1 = v_out v /\
    calm (set_sid id (world o fl ss ls v)) v1 /\ trim v v1.

(** From [w], at the end of the source [id]: the source is closed, the saved source [s] is current again, and [l] is still
    saved; the two return addresses are gone *)
Definition closed_again (m : loader_names) (id : Z) (s : Z * Z) (l : list (Z * Z)) (w v' : vm) : Prop :=
  exists sr d ra rb r f,
    source_as w id sr /\ stacks_are w d (rb :: ra :: r) f /\ stacks_are v' d r f /\
    saved (v_ds v') (src_at m w) l /\ same_memory_but (v_ds w) (v_ds v') (src_at m w) 272 /\ here (v_ds v') = here (v_ds w) /\
    v_out v' = v_out w /\
    calm (world (os_close_reader (v_os w) (src_reader sr)) (t_files (cur w))
            (set_nth (t_sources (cur w)) (Z.to_nat (id - 1)) None) (t_lines (cur w)) (with_source w s)) v' /\ trim w v'.
End V.
