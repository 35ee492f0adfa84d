(** Files and source texts: C50 - C53, C64. *)
From Coq Require Import ZArith List Bool Lia.
From Verif Require Import Base Stack Mem Parser Flt State CoreM FileM Exec Boot Std.
From Verif Require Import Spec Spec4 Spec9 Spec12 LMemWords LFile2 LFile3 LFile4 LFile5 Ex Ex2 Ex8.
Import ListNotations.
Open Scope list_scope.
Open Scope Z_scope.

(** * C50: identifiers *)

(** Opening or creating a file: on success the identifier returned was not open, is open now, and every
    other identifier stands for the same file as before; on failure no identifier changes. *)
Theorem C50_opened {E : Env} : forall fuel ew w v v' a u fam l,
  In w [P_create_file; P_open_file] -> stack_has (t_s (cur v)) (fam :: u :: a :: l) -> exec_prim fuel ew w v = Ok (tt, v') ->
  exists id ior, stack_has (t_s (cur v')) (ior :: id :: l) /\ only_files v v' /\ v_ds v' = v_ds v /\
    (ior = 0 -> ~ is_open v id /\ is_open v' id /\ forall id' h, id' <> id -> (open_as v' id' h <-> open_as v id' h)) /\
    (ior <> 0 -> t_files (cur v') = t_files (cur v)).
Proof. exact opened. Qed.
Print Assumptions C50_opened.

Theorem C50_closed {E : Env} : forall fuel v id l, stack_has (t_s (cur v)) (id :: l) -> is_open v id ->
  exists v' h, open_as v id h /\ quiet fuel P_close_file v v' /\ stack_has (t_s (cur v')) (0 :: l) /\ only_files v v' /\ v_ds v' = v_ds v /\
    v_os v' = os_close (v_os v) h /\ ~ is_open v' id /\ forall id' k, id' <> id -> (open_as v' id' k <-> open_as v id' k).
Proof. exact closed. Qed.
Print Assumptions C50_closed.

(** Every word that takes an identifier refuses one that is not open with ior -24, and changes nothing
    but the stack. *)
Theorem C50_refused {E : Env} : forall fuel w k v id xs l,
  In (w, k) id_words -> is_cell id -> zlen (t_files (cur v)) < 2 ^ 63 -> ~ is_open v id ->
  zlen xs = k -> stack_has (t_s (cur v)) (id :: xs ++ l) -> zlen l < 253 ->
  exists v' ys, quiet fuel w v v' /\ stack_has (t_s (cur v')) (-24 :: ys ++ l) /\ only_data_stack v v'.
Proof. exact refused. Qed.
Print Assumptions C50_refused.

(** Over every history of opening and closing: the open identifiers are distinct, and each stands for the
    file that was opened under it. *)
Theorem C50_history {E : Env} : forall fuel ids v, history fuel ids v ->
  NoDup (map fst ids) /\ forall id h, open_as v id h <-> In (id, h) ids.
Proof. exact history_ok. Qed.
Print Assumptions C50_history.

Example C50_example : (* one file created, used, closed *)
  @history env_d 0 [(1, 1)] f4' /\ @history env_d 0 [] f5' /\ @open_as env_d f4' 1 1 /\ ~ is_open f5' 1 /\
  stack_has (t_s (cur f4')) [1] /\ stack_has (t_s (cur f5')) [1].
Proof. split; [apply ex_history|]. split; [apply ex_history|]. exact (conj ex_open4 (conj ex_not_open5 (conj s_f4' s_f5'))). Qed.

(** Source texts: opening takes an open file away and gives a fresh source identifier *)
Theorem C50_source_opened {E : Env} : forall fuel v fid h u xa a n l,
  open_as v fid h -> stack_has (t_s (cur v)) (fid :: u :: xa :: l) -> addr_of xa a -> addr_of u (zlen n) ->
  bytes_at (v_ds v) a n -> (zlen (t_lines (cur v)) = zlen (t_sources (cur v))) ->
  exists v' id, quiet fuel P_open_source v v' /\ stack_has (t_s (cur v')) (id :: l) /\ only_sources v v' /\ v_os v' = v_os v /\
    ~ is_source v id /\ source_as v' id (mkSource (os_reader (v_os v) h) n) /\
    (forall i sr, i <> id -> (source_as v' i sr <-> source_as v i sr)) /\
    ~ is_open v' fid /\ (forall i k, i <> fid -> (open_as v' i k <-> open_as v i k)) /\
    zlen (t_lines (cur v')) = zlen (t_sources (cur v')) /\ (forall i t, line_of v i = Some t -> line_of v' i = Some t).
Proof. exact source_opened. Qed.
Print Assumptions C50_source_opened.

Theorem C50_source_closed {E : Env} : forall fuel v id sr l,
  source_as v id sr -> st_sid (st v) <> id -> stack_has (t_s (cur v)) (id :: l) ->
  exists v', quiet fuel P_close_source v v' /\ stack_has (t_s (cur v')) l /\ only_sources v v' /\ v_os v' = os_close_reader (v_os v) (src_reader sr) /\
    ~ is_source v' id /\ (forall i s, i <> id -> (source_as v' i s <-> source_as v i s)) /\ t_files (cur v') = t_files (cur v) /\ t_lines (cur v') = t_lines (cur v).
Proof. exact source_closed. Qed.
Print Assumptions C50_source_closed.

(** The source being read cannot be closed; it is refused with exception -24 *)
Theorem C50_source_current {E : Env} : forall fuel ew v id l, st_sid (st v) = id -> stack_has (t_s (cur v)) (id :: l) ->
  exists u v1, only_data_stack v u /\ stack_has (t_s (cur u)) l /\ raised (-24) u v1 /\ exec_prim fuel ew P_close_source v = ew (v_handler v) v1.
Proof. exact current_source_kept'. Qed.
Print Assumptions C50_source_current.

Theorem C50_source_refused {E : Env} : forall fuel ew w v id l,
  In w [P_close_source; P_dot_source_path; P_p_load_line] -> is_cell id -> zlen (t_sources (cur v)) < 2 ^ 63 ->
  ~ is_source v id -> stack_has (t_s (cur v)) (id :: l) ->
  exists u v1, only_data_stack v u /\ stack_has (t_s (cur u)) l /\ raised (-24) u v1 /\ exec_prim fuel ew w v = ew (v_handler v) v1.
Proof. exact source_refused'. Qed.
Print Assumptions C50_source_refused.

Theorem C50_open_source_refused {E : Env} : forall fuel ew v fid u0 a l, ~ is_open v fid -> stack_has (t_s (cur v)) (fid :: u0 :: a :: l) ->
  exists u v1, only_data_stack v u /\ stack_has (t_s (cur u)) l /\ raised (-24) u v1 /\ exec_prim fuel ew P_open_source v = ew (v_handler v) v1.
Proof. exact open_source_refused'. Qed.
Print Assumptions C50_open_source_refused.

(** One word does not refuse closed source identifiers: .SOURCE-LINE prints the last line of a closed source *)
Theorem C50_source_line_refuted : exists (v v' : @vm env_d) id,
  stack_has (t_s (cur v)) [id] /\ ~ is_source v id /\ quiet 0 P_dot_source_line v v' /\ v_out v = Some [] /\ v_out v' = Some [98].
Proof. exists g5', g6, 1. destruct ex_closed_line as (A & B & C & D). exact (conj B (conj A (conj C D))). Qed.
Print Assumptions C50_source_line_refuted.

Example C50_source_example : @source_as env_d g1' 1 (@mkSource env_d 1 [102]) /\ stack_has (t_s (cur g1')) [1].
Proof. exact (conj (proj1 ex_source) (proj1 (proj2 (proj2 s_g)))). Qed.

(** * C51: READ-FILE and the caller's buffer *)

(** When READ-FILE returns, what it has stored is inside the buffer, which is inside the data space *)
Theorem C51_inside {E : Env} : forall fuel ew v v' id u u1 xa a l,
  stack_has (t_s (cur v)) (id :: u :: xa :: l) -> addr_of xa a -> addr_of u u1 -> exec_prim fuel ew P_read_file v = Ok (tt, v') ->
  exists u2 ior, stack_has (t_s (cur v')) (ior :: u2 :: l) /\ only_files v v' /\ t_files (cur v') = t_files (cur v) /\
    (ior = 0 -> 0 <= u2 <= u1 /\ in_space (v_ds v) a u1 /\ same_memory_but (v_ds v) (v_ds v') a u2) /\
    (ior <> 0 -> v_ds v' = v_ds v).
Proof. exact read_inside. Qed.
Print Assumptions C51_inside.

(** It returns whenever the end of the buffer does not wrap *)
Theorem C51_returns {E : Env} : forall fuel v id u u1 xa a l,
  stack_has (t_s (cur v)) (id :: u :: xa :: l) -> addr_of xa a -> addr_of u u1 -> a + u1 < 2 ^ 64 -> exists v', quiet fuel P_read_file v v'.
Proof. exact read_total. Qed.
Print Assumptions C51_returns.

(** If it does wrap, the release build makes a slice outside of the data space (undefined behaviour) and the debug
    build panics *)
Theorem C51_refuted :
  (exists (v : @vm env_r) id u xa, stack_has (t_s (cur v)) [id; u; xa] /\ is_open v id /\ forall ew, exec_prim 0 ew P_read_file v = UB) /\
  (exists (v : @vm env_d) id u xa, stack_has (t_s (cur v)) [id; u; xa] /\ is_open v id /\ forall ew, exec_prim 0 ew P_read_file v = Panic POverflow).
Proof. split; [exists wrap_r, 1, (-8), fa; exact ex_wrap_r|exists wrap_d, 1, (-8), fa; exact ex_wrap_d]. Qed.
Print Assumptions C51_refuted.

Example C51_example : (* four bytes of a file *)
  stack_has (t_s (cur f3')) [1; 4; fa + 16] /\ quiet 0 P_read_file f3' f4 /\ stack_has (t_s (cur f4)) [0; 4] /\ bytes_at (v_ds f4) (fa + 16) tx0.
Proof. split; [exact s_f3'|]. split; [ran|]. split; [exact s_f4|bo]. Qed.

(** * C52: stack effects *)
Theorem C52_effect {E : Env} : forall fuel ew w i o v v' ins l,
  In (w, i, o) file_words -> zlen ins = i -> zlen l + o <= 255 ->
  stack_has (t_s (cur v)) (ins ++ l) -> exec_prim fuel ew w v = Ok (tt, v') ->
  (exists outs, zlen outs = o /\ stack_has (t_s (cur v')) (outs ++ l) /\ only_files v v') /\ quiet fuel w v v'.
Proof. exact file_effect. Qed.
Print Assumptions C52_effect.

(** The words return unless the end of their buffer wraps *)
Theorem C52_returns {E : Env} : forall fuel w i o v ins l,
  In (w, i, o) ((P_delete_file, 2, 1) :: file_words) -> zlen ins = i -> 0 < start (v_ds v) ->
  stack_has (t_s (cur v)) (ins ++ l) ->
  (forall xa u a n, buffer w ins = Some (xa, u) -> addr_of xa a -> addr_of u n -> a + n < 2 ^ 64) ->
  exists v', quiet fuel w v v'.
Proof. exact file_total. Qed.
Print Assumptions C52_returns.

(** DELETE-FILE ( c-addr u -- ior ) leaves two cells when the name is too long *)
Theorem C52_delete_refuted : exists (v v' : @vm env_d) u a,
  stack_has (t_s (cur v)) [u; a] /\ quiet 0 P_delete_file v v' /\ stack_has (t_s (cur v')) [-24; -1].
Proof.
  destruct (delete_long 0 long_d 300 300 fa [] ex_long) as (v' & H1 & H2); [split; [lia|exists 0; lia]|lia|].
  exists long_d, v', 300, fa. exact (conj ex_long (conj H1 H2)).
Qed.
Print Assumptions C52_delete_refuted.

Theorem C52_delete_partial {E : Env} : forall fuel ew v v' xu u a l,
  stack_has (t_s (cur v)) (xu :: a :: l) -> addr_of xu u -> u <= 256 -> exec_prim fuel ew P_delete_file v = Ok (tt, v') ->
  (exists outs, zlen outs = 1 /\ stack_has (t_s (cur v')) (outs ++ l) /\ only_files v v') /\ quiet fuel P_delete_file v v'.
Proof. exact delete_effect. Qed.
Print Assumptions C52_delete_partial.

Example C52_example : In (P_create_file, 3, 2) file_words /\ quiet 0 P_create_file f0 f1 /\
  stack_has (t_s (cur f0)) [2; 1; fa] /\ stack_has (t_s (cur f1)) [0; 1].
Proof. split; [cbn; tauto|]. split; [ran|]. exact (conj s_f0 s_f1). Qed.

(** * C53: files are byte arrays with a position *)

(** Every history of file words on an ideal file system is a history of the abstract one *)
Theorem C53_history {E : Env} : forall (F : ideal) fuel ops v v', file_history fuel ops v v' ->
  forall A, described F v A -> exists B, described F v' B /\ fsteps ops A B.
Proof. exact file_history_ok. Qed.
Print Assumptions C53_history.

(** What is written is read back *)
Theorem C53_round_trip {E : Env} : forall (F : ideal) fuel A v v' id n p c bs r,
  described F v A -> f_open A id = Some (n, p) -> f_content A n = Some c -> 0 <= p ->
  file_history fuel [Write id bs; Seek id p; Read id (zlen bs) r] v v' ->
  exists B, described F v' B /\
  (exists k, r = firstn k bs) /\ (r = [] -> bs = []) /\ f_open B id = Some (n, p + zlen r) /\ f_content B n = Some (written c p bs) /\
  (forall i, i <> id -> f_open B i = f_open A i) /\ (forall m, m <> n -> f_content B m = f_content A m).
Proof. exact round_trip_history. Qed.
Print Assumptions C53_round_trip.

Example C53_example : (* an ideal file system; a file is created, written, read back and closed *)
  @described env_d (toy true) f0 no_files /\
  file_history 0 [Create [102] 1; Write 1 tx0; Seek 1 0; Read 1 4 tx0; Close 1] f0 f5 /\
  file_history 0 [Write 1 tx0; Seek 1 0; Read 1 4 tx0] f1' f4.
Proof. exact (conj ex_described (conj ex_all ex_middle)). Qed.

(** * C64: lines of source texts *)
Theorem C64_line {E : Env} : forall fuel v id sr t0 l o' rd line,
  is_cell id -> source_as v id sr -> line_of v id = Some t0 -> stack_has (t_s (cur v)) (id :: l) -> zlen l < 254 ->
  os_read_line (v_os v) (src_reader sr) = (o', rd, Some line) ->
  exists v' t, quiet fuel P_p_load_line v v' /\ stripped line t /\ line_of v' id = Some t /\
    stack_has (t_s (cur v')) ((if zlen line =? 0 then 0 else -1) :: zlen t :: l) /\
    v_os v' = o' /\ source_as v' id (mkSource rd (src_path sr)) /\ t_files (cur v') = t_files (cur v) /\
    (forall i, i <> Z.to_nat (id - 1) -> nth_error (t_sources (cur v')) i = nth_error (t_sources (cur v)) i /\
                                         nth_error (t_lines (cur v')) i = nth_error (t_lines (cur v)) i) /\
    only_sources v v'.
Proof. exact load_line_ok. Qed.
Print Assumptions C64_line.

(** The relation with the terminator is functional: exactly one \n or \r\n is removed *)
Theorem C64_stripped_unique : forall l t t', stripped l t -> stripped l t' -> t = t'.
Proof. exact stripped_fun. Qed.
Print Assumptions C64_stripped_unique.

(** A reading error raises exception -37 *)
Theorem C64_error {E : Env} : forall fuel ew v id sr t0 l o' rd,
  is_cell id -> source_as v id sr -> line_of v id = Some t0 -> stack_has (t_s (cur v)) (id :: l) ->
  os_read_line (v_os v) (src_reader sr) = (o', rd, None) ->
  exists u v1, only_sources v u /\ stack_has (t_s (cur u)) l /\ raised (-37) u v1 /\ exec_prim fuel ew P_p_load_line v = ew (v_handler v) v1.
Proof. exact load_line_error'. Qed.
Print Assumptions C64_error.

(** A whole text: its lines in order, each with a true flag, then empty lines with the flag 0, for any
    number of calls *)
Theorem C64_text {E : Env} : forall (R : line_reader) id v k v', loads id v k v' -> is_cell id -> forall sr c ts,
  source_as v id sr -> line_of v id <> None -> rest R (v_os v) (src_reader sr) = Some c -> text_lines c ts ->
  k = reported ts (List.length k).
Proof. exact loads_text. Qed.
Print Assumptions C64_text.

Theorem C64_lines_exist : forall c, exists ts, text_lines c ts.
Proof. exact text_lines_exist. Qed.
Print Assumptions C64_lines_exist.

Theorem C64_lines_unique : forall c ts, text_lines c ts -> forall ts', text_lines c ts' -> ts = ts'.
Proof. exact text_lines_fun. Qed.
Print Assumptions C64_lines_unique.

Example C64_example : (* the text a CR LF b, read three times *)
  loads 1 g1' [(1, -1, [97]); (1, -1, [98]); (0, 0, [])] g4 /\ text_lines tx0 [[97]; [98]] /\
  @source_as env_d g1' 1 (@mkSource env_d 1 [102]) /\ line_of g1' 1 <> None /\ rest (toy_lines true) (v_os g1') 1 = Some tx0.
Proof. exact (conj ex_loads (conj ex_text ex_source)). Qed.
