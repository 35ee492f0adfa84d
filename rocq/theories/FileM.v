(** Model of src/file_access.rs and src/loader.rs (words).  The operating
    system is reached only through the [Env] functions. *)
From Coq Require Import ZArith List Bool String.
From Verif Require Import Base Stack Mem Parser Flt State CoreM IoM.
Import ListNotations.
Open Scope Z_scope.
Open Scope m_scope.

(** src/file_access.rs 11 *)
Definition PATH_NAME_MAX_LEN : Z := 256.

Section File.
Context {E : Env}.

Definition files (v : vm) : list (option handle) := t_files (cur v).
Definition set_files (l : list (option handle)) (v : vm) : vm := upd_cur (set_t_files l) v.

(** Index of the first [None] *)
Fixpoint first_none {A} (l : list (option A)) : option nat :=
  match l with
  | [] => None
  | None :: _ => Some 0%nat
  | Some _ :: r => match first_none r with Some n => Some (S n) | None => None end
  end.
(** Put [x] into the first free slot, or append; returns the slot number plus one *)
Definition alloc_slot {A} (l : list (option A)) (x : A) : Z * list (option A) :=
  match first_none l with
  | Some p => (Z.of_nat p + 1, set_nth l p (Some x))
  | None => (zlen l + 1, l ++ [Some x])
  end.

(** [fileid] (already decremented) below [files().len()]; the slot's content *)
Definition file_slot (v : vm) (i : Z) : option (option handle) := nth_opt (files v) i.

(** An OS call returning a new OS state *)
Definition os_call {A} (f : os -> os * A) : M A :=
  fun v => let (o, a) := f (v_os v) in Ok (a, set_v_os o v).

(** src/file_access.rs 39-73 [file_size] *)
Definition file_size : M unit :=
  id <- s_pop ;;
  if id <=? 0 then s_push3 (-1) (-1) INVALID_NUMERIC_ARGUMENT
  else
    sl <- gets (fun v => file_slot v (id - 1)) ;;
    match sl with
    | Some (Some h) =>
      r <- gets (fun v => os_size (v_os v) h) ;;
      match r with
      | Some n => if n <=? imax then s_push3 n 0 0 else s_push3 (-1) (-1) RESULT_OUT_OF_RANGE
      | None => s_push3 (-1) (-1) FILE_IO_EXCEPTION
      end
    | _ => s_push3 (-1) (-1) INVALID_NUMERIC_ARGUMENT
    end.

(** src/file_access.rs 86-117 [file_position] *)
Definition file_position : M unit :=
  id <- s_pop ;;
  if id <=? 0 then s_push3 (-1) (-1) INVALID_NUMERIC_ARGUMENT
  else
    sl <- gets (fun v => file_slot v (id - 1)) ;;
    match sl with
    | Some (Some h) =>
      r <- os_call (fun o => os_tell o h) ;;
      match r with
      | Some n => if n <=? imax then s_push3 n 0 0 else s_push3 (-1) (-1) RESULT_OUT_OF_RANGE
      | None => s_push3 (-1) (-1) FILE_IO_EXCEPTION
      end
    | _ => s_push3 (-1) (-1) INVALID_NUMERIC_ARGUMENT
    end.

(** src/file_access.rs 123-136 [close_file]; dropping the File closes it *)
Definition close_file : M unit :=
  id <- s_pop ;;
  if id <=? 0 then s_push INVALID_NUMERIC_ARGUMENT
  else
    sl <- gets (fun v => file_slot v (id - 1)) ;;
    match sl with
    | Some (Some h) =>
      modify (fun v => set_files (set_nth (files v) (Z.to_nat (id - 1)) None) v) ;;;
      modify (fun v => set_v_os (os_close (v_os v) h) v) ;;;
      s_push 0
    | _ => s_push INVALID_NUMERIC_ARGUMENT
    end.

(** [start <= caddr && caddr + u <= limit] *)
Definition buf_ok (caddr u : Z) : M bool :=
  d <- gets v_ds ;;
  if start d <=? caddr then e <- chk_u64 (caddr + u) ;; ret (e <=? limit d) else ret false.

(** src/file_access.rs 178-206, 270-298: opening and recording the file *)
Definition open_common (caddr u : Z) (opts : open_opts) : M unit :=
  ok <- buf_ok caddr u ;;
  if (ok : bool) then
    path <- ds_get (fun d => read_bytes d caddr u) ;;
    r <- os_call (fun o => os_open o path opts) ;;
    match r with
    | None => s_push2 (-1) FILE_IO_EXCEPTION
    | Some h =>
      l <- gets files ;;
      let p := alloc_slot l h in
      modify (set_files (snd p)) ;;;
      s_push2 (fst p) 0
    end
  else s_push2 (-1) INVALID_MEMORY_ADDRESS.

(** src/file_access.rs 151-208 [create_file] *)
Definition create_file : M unit :=
  '(caddr, u, fam) <- s_pop3 ;;
  let caddr := to_u64 caddr in
  let u := to_u64 u in
  if PATH_NAME_MAX_LEN <? u then s_push2 (-1) INVALID_NUMERIC_ARGUMENT
  else if fam =? 1 then open_common caddr u (mkOpts false true true true)
  else if fam =? 2 then open_common caddr u (mkOpts true true true true)
  else s_push2 (-1) INVALID_NUMERIC_ARGUMENT.

(** src/file_access.rs 214-234 [delete_file] *)
Definition delete_file : M unit :=
  '(caddr, u) <- s_pop2 ;;
  let caddr := to_u64 caddr in
  let u := to_u64 u in
  if PATH_NAME_MAX_LEN <? u then s_push2 (-1) INVALID_NUMERIC_ARGUMENT
  else
    ok <- buf_ok caddr u ;;
    if (ok : bool) then
      path <- ds_get (fun d => read_bytes d caddr u) ;;
      r <- os_call (fun o => os_remove o path) ;;
      s_push (if (r : bool) then 0 else FILE_IO_EXCEPTION)
    else s_push INVALID_MEMORY_ADDRESS.

(** src/file_access.rs 246-300 [open_file] *)
Definition open_file : M unit :=
  '(caddr, u, fam) <- s_pop3 ;;
  let caddr := to_u64 caddr in
  let u := to_u64 u in
  if PATH_NAME_MAX_LEN <? u then s_push2 (-1) INVALID_NUMERIC_ARGUMENT
  else if fam =? 0 then open_common caddr u (mkOpts true false false false)
  else if fam =? 1 then open_common caddr u (mkOpts false true false false)
  else if fam =? 2 then open_common caddr u (mkOpts true true false false)
  else s_push2 (-1) INVALID_NUMERIC_ARGUMENT.

(** src/file_access.rs 329-363 [read_file].  A release build may compute a
    wrapped [caddr + u1 <= limit] for an enormous [u1]; the slice handed to the
    OS then exceeds the allocation, which [in_ds] turns into UB.  The bytes
    delivered by the OS are cut to the requested count: [Read::read] never
    returns more than the buffer's length. *)
Definition read_file : M unit :=
  '(caddr, u1, fileid) <- s_pop3 ;;
  let caddr := to_u64 caddr in
  let u1 := to_u64 u1 in
  let fileid := to_u64 fileid in
  if fileid =? 0 then s_push2 (-1) INVALID_NUMERIC_ARGUMENT
  else
    sl <- gets (fun v => file_slot v (fileid - 1)) ;;
    match sl with
    | Some (Some h) =>
      ok <- buf_ok caddr u1 ;;
      if (ok : bool) then
        d <- gets v_ds ;;
        if in_ds d caddr u1 then
          r <- os_call (fun o => os_read o h u1) ;;
          match r with
          | Some bs =>
            let bs := firstn (Z.to_nat u1) bs in
            modify (fun v => set_v_ds (write_bytes (v_ds v) caddr bs) v) ;;;
            s_push2 (zlen bs) 0
          | None => s_push2 0 FILE_IO_EXCEPTION
          end
        else fun _ => UB
      else s_push2 0 INVALID_MEMORY_ADDRESS
    | _ => s_push2 0 INVALID_NUMERIC_ARGUMENT
    end.

(** src/file_access.rs 375-410 [write_file] *)
Definition write_file : M unit :=
  '(caddr, u, fileid) <- s_pop3 ;;
  let caddr := to_u64 caddr in
  let u := to_u64 u in
  if fileid <=? 0 then s_push INVALID_NUMERIC_ARGUMENT
  else
    sl <- gets (fun v => file_slot v (fileid - 1)) ;;
    match sl with
    | Some (Some h) =>
      ok <- buf_ok caddr u ;;
      if (ok : bool) then
        bs <- ds_get (fun d => read_bytes d caddr u) ;;
        r <- os_call (fun o => os_write_all o h bs) ;;
        s_push (if (r : bool) then 0 else FILE_IO_EXCEPTION)
      else s_push FILE_IO_EXCEPTION
    | _ => s_push INVALID_NUMERIC_ARGUMENT
    end.

(** src/file_access.rs 429-460 [resize_file], 476-507 [reposition_file] *)
Definition len_or_seek (call : os -> handle -> Z -> os * bool) : M unit :=
  '(lo, up, fileid) <- s_pop3 ;;
  if fileid <=? 0 then s_push INVALID_NUMERIC_ARGUMENT
  else
    let lo := to_u64 lo in
    if negb (up =? 0) then s_push INVALID_NUMERIC_ARGUMENT
    else if imax <? lo then s_push INVALID_NUMERIC_ARGUMENT
    else
      sl <- gets (fun v => file_slot v (fileid - 1)) ;;
      match sl with
      | Some (Some h) =>
        r <- os_call (fun o => call o h lo) ;;
        s_push (if (r : bool) then 0 else FILE_IO_EXCEPTION)
      | _ => s_push INVALID_NUMERIC_ARGUMENT
      end.
Definition resize_file : M unit := len_or_seek os_set_len.
Definition reposition_file : M unit := len_or_seek os_seek.

Section Rec.
Variable fuel : nat.
Variable ew : Z -> M unit.

Definition sources (v : vm) : list (option source) := t_sources (cur v).
Definition set_sources (l : list (option source)) (v : vm) : vm := upd_cur (set_t_sources l) v.
Definition lines (v : vm) : list (option bytes) := t_lines (cur v).
Definition set_lines (l : list (option bytes)) (v : vm) : vm := upd_cur (set_t_lines l) v.

(** src/loader.rs 39-69 [open_source] *)
Definition open_source : M unit :=
  '(caddr, u, id) <- s_pop3 ;;
  l <- gets files ;;
  if (0 <? id) && (id - 1 <? zlen l) then
    match nth_opt l (id - 1) with
    | Some (Some h) =>
      modify (fun v => set_files (set_nth (files v) (Z.to_nat (id - 1)) None) v) ;;;
      path <- ds_get (fun d => read_bytes d (to_u64 caddr) (to_u64 u)) ;;
      r <- gets (fun v => os_reader (v_os v) h) ;;
      ss <- gets sources ;;
      let p := alloc_slot ss (mkSource r path) in
      modify (set_sources (snd p)) ;;;
      s_push (fst p) ;;;
      match first_none ss with
      | Some _ => ret tt
      | None => modify (fun v => set_lines (lines v ++ [Some []]) v)
      end
    | _ => abort_with ew INVALID_NUMERIC_ARGUMENT
    end
  else abort_with ew INVALID_NUMERIC_ARGUMENT.

(** src/loader.rs 78-92 [close_source] *)
Definition close_source : M unit :=
  id <- s_pop ;;
  sid <- gets (fun v => st_sid (st v)) ;;
  if sid =? id then abort_with ew INVALID_NUMERIC_ARGUMENT
  else
    ss <- gets sources ;;
    if (0 <? id) && (id - 1 <? zlen ss) then
      match nth_opt ss (id - 1) with
      | Some (Some s) =>
        modify (fun v => set_sources (set_nth (sources v) (Z.to_nat (id - 1)) None) v) ;;;
        modify (fun v => set_v_os (os_close_reader (v_os v) (src_reader s)) v)
      | _ => abort_with ew INVALID_NUMERIC_ARGUMENT
      end
    else abort_with ew INVALID_NUMERIC_ARGUMENT.

(** src/loader.rs 95-109 [dot_source_path] *)
Definition dot_source_path : M unit :=
  id <- s_pop ;;
  ss <- gets sources ;;
  if (0 <? id) && (id - 1 <? zlen ss) then
    match nth_opt ss (id - 1) with
    | Some (Some s) => push_output (src_path s)
    | _ => abort_with ew INVALID_NUMERIC_ARGUMENT
    end
  else abort_with ew INVALID_NUMERIC_ARGUMENT.

(** src/loader.rs 112-126 [dot_source_line] *)
Definition dot_source_line : M unit :=
  id <- s_pop ;;
  ls <- gets lines ;;
  if (0 <? id) && (id - 1 <? zlen ls) then
    match nth_opt ls (id - 1) with
    | Some (Some s) => push_output s
    | _ => abort_with ew INVALID_NUMERIC_ARGUMENT
    end
  else abort_with ew INVALID_NUMERIC_ARGUMENT.

(** The last byte of a string *)
Definition last_is (s : bytes) (c : Z) : bool :=
  match rev s with x :: _ => x =? c | [] => false end.

(** src/loader.rs 166-179: the line without its terminator.  [line] was
    cleared, so [len] is the length of the line read. *)
Definition strip_eol (line : bytes) : bytes :=
  let n := List.length line in
  if last_is line 10
  then let l1 := firstn (n - 1) line in
       if last_is l1 13 then firstn (n - 2) l1 else l1
  else line.

(** src/loader.rs 145-184 [load_line].  The Rust result Err(e) is [inr e].
    On a read error the content left in the line buffer is unspecified by the
    model's OS interface; it is taken to be empty. *)
Definition load_line (id : Z) : M ((Z * bool) + Z) :=
  ss <- gets sources ;;
  if (0 <? id) && (id - 1 <? zlen ss) then
    s <- index_list ss (id - 1) ;;
    match s with
    | None => ret (inr INVALID_NUMERIC_ARGUMENT)
    | Some s =>
      ls <- gets lines ;;
      l <- index_list ls (id - 1) ;;
      match l with
      | None => ret (inr INVALID_NUMERIC_ARGUMENT)
      | Some _ =>
        r <- os_call (fun o => let '(o', rd, x) := os_read_line o (src_reader s) in (o', (rd, x))) ;;
        modify (fun v => set_sources (set_nth (sources v) (Z.to_nat (id - 1))
                                              (Some (mkSource (fst r) (src_path s)))) v) ;;;
        match snd r with
        | Some line =>
          let t := strip_eol line in
          modify (fun v => set_lines (set_nth (lines v) (Z.to_nat (id - 1)) (Some t)) v) ;;;
          ret (inl (zlen t, negb (zlen line =? 0)))
        | None =>
          modify (fun v => set_lines (set_nth (lines v) (Z.to_nat (id - 1)) (Some [])) v) ;;;
          ret (inr FILE_IO_EXCEPTION)
        end
      end
    end
  else ret (inr INVALID_NUMERIC_ARGUMENT).

(** src/loader.rs 131-140 [p_load_line] *)
Definition p_load_line : M unit :=
  x <- s_pop ;;
  r <- load_line (to_u64 x) ;;
  match r with
  | inr e => abort_with ew e
  | inl (n, more) => s_push2 n (if more then -1 else 0)
  end.

(** rtf/src/main.rs 339-355 [receive] *)
Definition receive : M unit :=
  r <- os_call os_receive ;;
  match r with
  | Line s => set_source s
  | Eof => bye
  | Failed => out_push (b "Other")
  end.

End Rec.
End File.
