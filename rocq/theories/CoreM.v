(** Model of src/core.rs, function by function (names are the Rust names). *)
From Coq Require Import ZArith List Bool String.
From Verif Require Import Base Stack Mem Parser Flt State.
Import ListNotations.
Open Scope Z_scope.
Open Scope m_scope.

(** src/exception.rs 15-129 (the codes used by the code) *)
Definition ABORT : Z := -1.
Definition STACK_OVERFLOW : Z := -3.
Definition STACK_UNDERFLOW : Z := -4.
Definition RETURN_STACK_OVERFLOW : Z := -5.
Definition RETURN_STACK_UNDERFLOW : Z := -6.
Definition INVALID_MEMORY_ADDRESS : Z := -9.
Definition DIVISION_BY_ZERO : Z := -10.
Definition RESULT_OUT_OF_RANGE : Z := -11.
Definition UNDEFINED_WORD : Z := -13.
Definition INTERPRETING_A_COMPILE_ONLY_WORD : Z := -14.
Definition UNSUPPORTED_OPERATION : Z := -21.
Definition CONTROL_STRUCTURE_MISMATCH : Z := -22.
Definition INVALID_NUMERIC_ARGUMENT : Z := -24.
Definition FILE_IO_EXCEPTION : Z := -37.
Definition UNEXPECTED_END_OF_FILE : Z := -39.
Definition FLOATING_POINT_STACK_OVERFLOW : Z := -44.
Definition FLOATING_POINT_STACK_UNDERFLOW : Z := -45.

(** src/exception.rs 132-196 [description] *)
Definition description (e : Z) : bytes :=
  nth (Z.to_nat (- e)) (map b
  [""; "Aborted"; "Aborted"; "Stack overflow"; "Stack underflow";
   "Return stack overflow"; "Return stack underflow"; "Do-loop nested too deeply";
   "Dictionary overflow"; "Invalid memory address"; "Division by zero";
   "Result out of range"; "Argument type mismatch"; "Undefined word";
   "Interpreting a compile only word"; "Invalid FORGET";
   "Attempt to use zero length string"; "Picture numeric output string overflow";
   "Parsed string overflow"; "Definition name too long"; "Write to a read only location";
   "Unsupported operation"; "Control structure mismatch"; "Address alignment exception";
   "Invalid numeric argument"; "Return stack imbalance"; "Loop parameters unavailable";
   "Invalid recursion"; "User interrupt"; "Compiler nesting"; "Obsolescent feature";
   ">BODY used on non-CREATEd definition"; "Invalid name argument"; "Block read exception";
   "Block write exception"; "Invalid block number"; "Invalid file position";
   "File I/O exception"; "Non-existent file"; "Unexpected end of file";
   "Invalid BASE for floating point conversion"; "Loss of precision";
   "Floating point divided by zero"; "Floating point result out of range";
   "Floating point stack overflow"; "Floating point stack underflow";
   "Floating point invalid argument"; "Compilation word list deleted"; "Invalid POSTPONE";
   "Search order overflow"; "Search order underflow"; "Compilation word list changed";
   "Control flow stack overflow"; "Exception stack overflow"; "Floating point underflow";
   "Floating point unidentified fault"; "QUIT";
   "Exception in sending or receiving a character"; "[IF],[ELSE],[THEN] exception"]%string) [].

(** src/core.rs 103 *)
Definition BUCKET_SIZE : Z := 64.
Definition BUCKET_COUNT : nat := 64.
(** src/mock_vm.rs 18 and 84: [Vec::with_capacity(1000)]; the capacity actually
    obtained is at least this (exactly this with the standard allocator API). *)
Definition LABEL_COUNT : Z := 1000.

(** src/core.rs 132-141 [Wordlist::hash] *)
Definition hash_step (h c : Z) : Z := (h * 33 + lower c) mod 4294967296.
Definition hash (name : bytes) : Z := fold_left hash_step name 5381.

(** src/core.rs 144-151 [Wordlist::push] *)
Definition wl_push (name : bytes) (w : word) (l : wordlist) : wordlist :=
  let h := hash name in
  let k := h mod BUCKET_SIZE in
  let w := set_w_link (tget 0 (wl_buckets l) k) (set_w_hash h w) in
  mkWl (tset (wl_tbl l) (wl_len l) w) (wl_len l + 1)
       (tset (wl_buckets l) k (wl_len l)) (wl_temp l) (wl_len l).

(** src/core.rs 160-172 [Wordlist::find_xt], with the binary search of
    [slice::binary_search_by] (Rust 1.25 to 1.51 and again since 1.82; other
    releases return the same index when the keys are distinct). *)
Fixpoint bsearch (fuel : nat) (key : Z -> Z) (addr base size : Z) : Z :=
  match fuel with
  | O => base
  | S f =>
    if 1 <? size then
      let half := size / 2 in
      let mid := base + half in
      bsearch f key addr (if addr <? key mid then base else mid) (size - half)
    else base
  end.
Definition find_xt (l : wordlist) (addr : Z) : option Z :=
  if wl_len l =? 0 then None
  else
    let key i := w_nfa (tget (word_new P_noop CS_compile_word 0 0) (wl_tbl l) i) in
    let base := bsearch 64 key addr 0 (wl_len l) in
    if key base =? addr then Some base
    else
      let xt := if key base <? addr then base + 1 else base in
      if xt =? 0 then None else Some (xt - 1).

(** [Vec] indexing: panics out of range *)
Section Core.
Context {E : Env}.

Definition index_list {A} (l : list A) (i : Z) : M A :=
  match nth_opt l i with Some x => ret x | None => panic PIndex end.

Fixpoint mapM_ {A} (f : A -> M unit) (l : list A) : M unit :=
  match l with
  | [] => ret tt
  | x :: r => f x ;;; mapM_ f r
  end.

(** A primitive that only rewrites the data stack. *)
Definition on_s (f : stack Z -> stack Z) : M unit := modify (fun v => set_s (f (s_stk v)) v).

(** src/core.rs 774-792 [find] (the loop needs fuel: links of a corrupted
    dictionary could form a cycle) *)
Fixpoint find_loop (fuel : nat) (h : Z) (name : bytes) (w : Z) : M (option Z) :=
  match fuel with
  | O => out_of_fuel
  | S f =>
    if w =? 0 then ret None
    else
      wd <- word_at w ;;
      found <- (if negb (w_hidden wd) && (w_hash wd =? h)
                then nm <- ds_get (fun d => get_str chk d (w_nfa wd)) ;;
                     ret (eq_ignore_case nm name)
                else ret false) ;;
      if (found : bool) then ret (Some w) else find_loop f h name (w_link wd)
  end.
Definition find (fuel : nat) (name : bytes) : M (option Z) :=
  let h := hash name in
  w <- gets (fun v => tget 0 (wl_buckets (v_wl v)) (h mod BUCKET_SIZE)) ;;
  find_loop fuel h name w.

(** src/core.rs 723-729 [add_primitive] *)
Definition add_primitive (name : bytes) (a : prim) : M unit :=
  nfa <- (fun v => rbind (compile_str (v_ds v) name) (fun p => Ok (fst p, set_v_ds (snd p) v))) ;;
  ds_upd (ds_align chk) ;;;
  h <- gets (fun v => here (v_ds v)) ;;
  modify (fun v => set_v_wl (wl_push name (word_new a CS_compile_word nfa h) (v_wl v)) v).

(** src/core.rs 732-735 [immediate] *)
Definition immediate : M unit :=
  def <- gets (fun v => wl_last (v_wl v)) ;; upd_word def (set_w_imm true).
(** src/core.rs 744-747 [compile_only] *)
Definition compile_only : M unit :=
  def <- gets (fun v => wl_last (v_wl v)) ;; upd_word def (set_w_co true).

(** src/core.rs 831-857 [compile_word] (and [compile_nest], [compile_var],
    [compile_const], [compile_unmark], [compile_fconst], which only call it;
    [compile_nest_code] does nothing) *)
Definition compile_word (i : Z) : M unit := ds_upd (fun d => compile_cell d i).

(** Address of the instruction pointer and its increment, a plain usize [+=] *)
Definition get_ip : M Z := gets ip.
Definition put_ip (x : Z) : M unit := modify (set_ip x).
Definition skip_cell : M unit := i <- get_ip ;; n <- chk_u64 (i + 8) ;; put_ip n.

(** src/core.rs 859-866 [lit] *)
Definition lit : M unit :=
  i <- get_ip ;;
  x <- ds_get (fun d => get_isize d i) ;;
  on_s (fun s => let slen := w8add (len s) 1 in sset (set_len s slen) (w8sub slen 1) x) ;;;
  skip_cell.

Definition refs_get (f : refs -> Z) : M Z := gets (fun v => f (v_refs v)).

(** src/core.rs 869-873 [compile_integer] *)
Definition compile_integer (i : Z) : M unit :=
  idx <- refs_get idx_lit ;;
  compile_word idx ;;;
  ds_upd (fun d => compile_cell d i).

(** src/core.rs 875-882 [flit] *)
Definition flit : M unit :=
  i <- get_ip ;;
  a <- lift (aligned_to chk 8 i) ;;
  x <- ds_get (fun d => get_f64 d a) ;;
  modify (fun v => let s := f_stk v in let flen := w8add (len s) 1 in
                   set_f (sset (set_len s flen) (w8sub flen 1) x) v) ;;;
  n <- chk_u64 (a + 8) ;;
  put_ip n.

(** src/core.rs 885-890 [compile_float] *)
Definition compile_float (f : Z) : M unit :=
  idx <- refs_get idx_flit ;;
  compile_word idx ;;;
  ds_upd (ds_align chk) ;;;
  ds_upd (fun d => compile_cell d f).

(** src/core.rs 893-906 [p_s_quote] *)
Definition p_s_quote : M unit :=
  i <- get_ip ;;
  str <- ds_get (fun d => get_str chk d i) ;;
  let addr := to_i64 (i + 8) in
  let cnt := zlen str in
  on_s (fun s => let slen := w8add (len s) 2 in
                 sset (sset (set_len s slen) (w8sub slen 1) cnt) (w8sub slen 2) addr) ;;;
  a <- chk_u64 (i + 8) ;;
  a <- chk_u64 (a + cnt) ;;
  a <- lift (aligned_to chk 8 a) ;;
  put_ip a.

(** src/core.rs 913-916 [branch] *)
Definition branch : M unit :=
  i <- get_ip ;;
  x <- ds_get (fun d => get_isize d i) ;;
  put_ip (to_u64 x).

(** src/core.rs 918-923 [compile_branch] *)
Definition compile_branch (dest : Z) : M Z :=
  idx <- refs_get idx_branch ;;
  compile_word idx ;;;
  ds_upd (fun d => compile_cell d dest) ;;;
  gets (fun v => here (v_ds v)).

(** src/core.rs 925-932 [zero_branch] *)
Definition zero_branch : M unit :=
  x <- s_pop ;;
  if x =? 0 then branch else skip_cell.

(** src/core.rs 934-939 [compile_zero_branch] *)
Definition compile_zero_branch (dest : Z) : M Z :=
  idx <- refs_get idx_zero_branch ;;
  compile_word idx ;;;
  ds_upd (fun d => compile_cell d dest) ;;;
  gets (fun v => here (v_ds v)).

(** src/core.rs 960-968 [_do] *)
Definition _do : M unit :=
  i <- get_ip ;;
  r_push (to_i64 i) ;;;
  skip_cell ;;;
  '(n, t) <- s_pop2 ;;
  let rt := to_i64 (to_i64 (imin + t) - n) in
  let rn := to_i64 (t - rt) in
  r_push2 rn rt.

(** src/core.rs 991-1003 [_qdo] *)
Definition _qdo : M unit :=
  '(n, t) <- s_pop2 ;;
  if n =? t then branch
  else
    i <- get_ip ;;
    r_push (to_i64 i) ;;;
    skip_cell ;;;
    let rt := to_i64 (to_i64 (imin + t) - n) in
    let rn := to_i64 (t - rt) in
    r_push2 rn rt.

(** src/core.rs 1012-1024 [_loop] *)
Definition _loop : M unit :=
  rt <- r_pop ;;
  if in_i64 (rt + 1) then r_push (rt + 1) ;;; branch
  else r_pop2 ;;; skip_cell.

(** src/core.rs 1034-1047 [_plus_loop] *)
Definition _plus_loop : M unit :=
  rt <- r_pop ;;
  t <- s_pop ;;
  if in_i64 (rt + t) then r_push (rt + t) ;;; branch
  else r_pop2 ;;; skip_cell.

(** src/core.rs 1055-1057 [unloop] *)
Definition unloop : M unit := r_pop3 ;;; ret tt.

(** src/core.rs 1094-1106 [leave_part] *)
Definition leave_part : M (option Z) :=
  gets (fun v => fold_left (fun acc c => match c with CDo _ q => Some q | _ => acc end)
                           (as_slice (c_stk v)) None).

(** src/core.rs 1121-1124 [imm_if] *)
Definition imm_if : M unit := h <- compile_zero_branch 0 ;; c_push (CIf h).

(** src/core.rs 1203-1205 [imm_case] *)
Definition imm_case : M unit := c_push CCase.

(** src/core.rs 1284-1287 [imm_begin] *)
Definition imm_begin : M unit := h <- gets (fun v => here (v_ds v)) ;; c_push (CBegin h).

(** src/core.rs 1307-1310 [imm_while] *)
Definition imm_while : M unit := h <- compile_zero_branch 0 ;; c_push (CWhile h).

(** src/core.rs 1395-1398 [imm_clear_labels] *)
Definition imm_clear_labels : M unit := modify (fun v => set_v_res [] (set_v_fwd [] v)).

(** hibitset [contains], [add], [remove] *)
Definition bs_contains (s : list Z) (n : Z) : bool := existsb (Z.eqb n) s.
Definition bs_add (s : list Z) (n : Z) : list Z := if bs_contains s n then s else n :: s.
Definition bs_remove (s : list Z) (n : Z) : list Z := filter (fun m => negb (m =? n)) s.

(** src/core.rs 1507-1513 [imm_do] *)
Definition imm_do : M unit :=
  idx <- refs_get idx_do ;;
  compile_word idx ;;;
  ds_upd (fun d => compile_cell d 0) ;;;
  h <- gets (fun v => here (v_ds v)) ;;
  c_push (CDo h h).

(** src/core.rs 1515-1518 [imm_recurse] *)
Definition imm_recurse : M unit :=
  l <- gets (fun v => wl_len (v_wl v)) ;; n <- chk_u64 (l - 1) ;; compile_word n.

(** src/core.rs 1535-1541 [imm_qdo] *)
Definition imm_qdo : M unit :=
  idx <- refs_get idx_qdo ;;
  compile_word idx ;;;
  ds_upd (fun d => compile_cell d 0) ;;;
  h <- gets (fun v => here (v_ds v)) ;;
  c_push (CDo h h).

(** src/core.rs 1670-1676 [left_bracket], [right_bracket] *)
Definition left_bracket : M unit := modify (set_compiling false).
Definition right_bracket : M unit := modify (set_compiling true).

(** src/core.rs 1679-1685 [set_source] (also the first lines of
    src/loader.rs 186-193 [load_str]) *)
Definition set_source (s : bytes) : M unit :=
  expect_inbuf ;;; modify (set_idx 0) ;;; put_inbuf s.
(** src/core.rs 1688-1692 [push_source] *)
Definition push_source (s : bytes) : M unit :=
  o <- expect_inbuf ;; put_inbuf (o ++ s).

(** src/core.rs 1709: white space *)
Definition is_ws (c : Z) : bool := (c =? 9) || (c =? 10) || (c =? 13) || (c =? 32).

(** src/core.rs 1704-1722: the loop of [parse_word]; [idx] is the byte index in
    the source, [total] its length *)
Fixpoint pw_loop (cs : list (Z * bytes)) (idx total : Z) (tok : bytes) : bytes * Z :=
  match cs with
  | [] => (tok, total)
  | (c, bs) :: r =>
    if is_ws c
    then match tok with
         | [] => pw_loop r (idx + zlen bs) total tok
         | _ => (tok, idx)
         end
    else pw_loop r (idx + zlen bs) total (tok ++ bs)
  end.

(** [&input_buffer[source_index..]] *)
Definition slice_or_panic (s : bytes) (i : Z) : M bytes :=
  match slice_from s i with Some x => ret x | None => panic PSlice end.

(** src/core.rs 1697-1728 [parse_word] *)
Definition parse_word : M unit :=
  take_token ;;;
  o <- get_inbuf ;;
  match o with
  | Some buf =>
    i <- gets (fun v => st_idx (st v)) ;;
    if i <? zlen buf
    then
      src <- slice_or_panic buf i ;;
      let p := pw_loop (chars_of src) 0 (zlen src) [] in
      n <- chk_u64 (i + snd p) ;;
      modify (set_idx n) ;;;
      set_token (fst p)
    else set_token []
  | None => set_token []
  end.

(** src/core.rs 1775-1797: the loop of [parse] *)
Fixpoint p_loop (cs : list (Z * bytes)) (d idx total : Z) (tok : bytes) : bytes * Z :=
  match cs with
  | [] => (tok, total)
  | (c, bs) :: r =>
    if c =? d
    then (tok, match r with [] => total | _ => idx + zlen bs end)
    else p_loop r d (idx + zlen bs) total (tok ++ bs)
  end.

(** src/core.rs 1769-1802 [parse] *)
Definition parse : M unit :=
  buf <- expect_inbuf ;;
  d <- s_pop ;;
  take_token ;;;
  i <- gets (fun v => st_idx (st v)) ;;
  src <- slice_or_panic buf i ;;
  let p := p_loop (chars_of src) d 0 (zlen src) [] in
  n <- chk_u64 (i + snd p) ;;
  modify (set_idx n) ;;;
  set_token (fst p).

(** src/core.rs 1812-1827: the loop of [_skip] counts characters *)
Fixpoint skip_loop (cs : list (Z * bytes)) (d cnt : Z) : Z :=
  match cs with
  | [] => cnt
  | (c, _) :: r => if c =? d then skip_loop r d (cnt + 1) else cnt
  end.

(** src/core.rs 1807-1831 [_skip] *)
Definition _skip : M unit :=
  buf <- expect_inbuf ;;
  d <- s_pop ;;
  i <- gets (fun v => st_idx (st v)) ;;
  src <- slice_or_panic buf i ;;
  n <- chk_u64 (i + skip_loop (chars_of src) d 0) ;;
  modify (set_idx n).

(** src/core.rs 1833-1836 [imm_paren] *)
Definition imm_paren : M unit := s_push 41 ;;; parse.
(** src/core.rs 1839-1842 [imm_backslash] *)
Definition imm_backslash : M unit := s_push 10 ;;; parse.

(** src/core.rs 1969-1976 [p_compiling] *)
Definition p_compiling : M unit := c <- gets (fun v => st_compiling (st v)) ;; s_push (flag c).

(** src/core.rs 1979-1991 [token_empty] *)
Definition token_empty : M unit :=
  t <- gets v_tkn ;;
  s_push (match t with Some (_ :: _) => FALSE | _ => TRUE end).

(** src/core.rs 1994-2007 [dot_token] *)
Definition dot_token : M unit :=
  t <- gets v_tkn ;;
  match t with Some s => out_push s | None => ret tt end.

(** src/core.rs 2064-2067 [base] *)
Definition p_base : M unit := a <- gets (fun v => base_addr (v_ds v)) ;; s_push (to_i64 a).

Definition set_error (e : option Z) : M unit := modify (set_v_err e).
Definition is_compiling : M bool := gets (fun v => st_compiling (st v)).

(** src/core.rs 2069-2109 [evaluate_integer] *)
Definition evaluate_integer (token : bytes) : M unit :=
  db <- ds_get (fun d => get_isize d (base_addr d)) ;;
  match quoted_char token with
  | Some c => k <- is_compiling ;; if (k : bool) then compile_integer c else s_push c
  | None =>
    let p := base_prefix token db in
    let q := sign (fst p) in
    match uint_in_base (fst q) (snd p) with
    | Done (_ :: _) _ => set_error (Some UNSUPPORTED_OPERATION)
    | Done [] value =>
      let x := to_i64 (snd q * value) in
      k <- is_compiling ;; if (k : bool) then compile_integer x else s_push x
    | Err e => set_error (Some e)
    end
  end.

Definition F_TEN : Z := 4621819117588971520.     (* bits of 10.0 *)
Definition F_ZERO : Z := 0.

(** src/core.rs 2156-2220: the exponent part.  [None]: no exponent marker was
    found; otherwise the remaining bytes, the sign and the digits' value. *)
Definition exponent (bytes : bytes) : iresult (option (Z * Z)) :=
  let after input :=
    let q := sign input in
    match uint (fst q) with
    | Done rest e => Done rest (Some (snd q, e))
    | Err x => Err x
    end in
  let p := ascii_p bytes 69 in
  if snd p then after (fst p)
  else
    let p := ascii_p bytes 101 in
    if snd p then after (fst p) else Done bytes None.

(** src/core.rs 2112-2245 [evaluate_float].  [bytes.len() == len_before] after
    the exponent (2218) can only hold when no marker was consumed. *)
Definition evaluate_float (token : bytes) : M unit :=
  let fail := set_error (Some UNSUPPORTED_OPERATION) in
  let q := sign token in
  match uint (fst q) with
  | Err e => set_error (Some e)
  | Done rest ipart =>
    if zlen rest =? zlen (fst q) then fail
    else
      match fraction rest with
      | Err e => set_error (Some e)
      | Done rest fr =>
        match exponent rest with
        | Err e => set_error (Some e)
        | Done rest None => fail
        | Done (_ :: _) (Some _) => fail
        | Done [] (Some (esign, ex)) =>
          idx <- refs_get idx_flit ;;
          if idx =? 0 then fail
          else
            let frac := match fr with
                        | Some (m, n) => fdiv (f_of_Z m false) (l_powi F_TEN n)
                        | None => F_ZERO
                        end in
            let value := fmul (fmul (f_of_Z (snd q) false) (fadd (f_of_Z ipart false) frac))
                              (l_powi F_TEN (to_i32 (to_i64 (esign * ex)))) in
            k <- is_compiling ;;
            if (k : bool) then compile_float value else f_push value
        end
      end
  end.

(** src/core.rs 2251-2257 [nest] *)
Definition nest : M unit :=
  modify (fun v => let s := r_stk v in let rlen := w8add (len s) 1 in
                   set_r (sset (set_len s rlen) (w8sub rlen 1) (to_i64 (ip v))) v) ;;;
  wp <- gets (fun v => st_wp (st v)) ;;
  w <- word_at wp ;;
  put_ip (w_dfa w).

(** src/core.rs 2259-2263 [p_var] *)
Definition p_var : M unit :=
  wp <- gets (fun v => st_wp (st v)) ;; w <- word_at wp ;; s_push (to_i64 (w_dfa w)).

(** src/core.rs 2265-2270 [p_const] *)
Definition p_const : M unit :=
  wp <- gets (fun v => st_wp (st v)) ;;
  w <- word_at wp ;;
  x <- ds_get (fun d => get_isize d (w_dfa w)) ;;
  s_push x.

(** src/core.rs 2341-2345: reading back the 64 buckets *)
Fixpoint unmark_loop (n : nat) (i dfa : Z) : M unit :=
  match n with
  | O => ret tt
  | S n' =>
    dfa <- chk_u64 (dfa + 8) ;;
    x <- ds_get (fun d => get_usize d dfa) ;;
    modify (fun v => set_v_wl (set_wl_buckets (tset (wl_buckets (v_wl v)) i x) (v_wl v)) v) ;;;
    unmark_loop n' (i + 1) dfa
  end.

(** src/core.rs 154-157 [Wordlist::truncate] *)
Definition wl_truncate (i : Z) : M unit :=
  modify (fun v => set_v_wl (set_wl_len (Z.min i (wl_len (v_wl v))) (v_wl v)) v) ;;;
  l <- gets (fun v => wl_len (v_wl v)) ;;
  n <- chk_u64 (l - 1) ;;
  modify (fun v => set_v_wl (set_wl_last n (v_wl v)) v).

(** src/core.rs 2333-2348 [unmark] *)
Definition unmark : M unit :=
  wp <- gets (fun v => st_wp (st v)) ;;
  w <- word_at wp ;;
  x <- ds_get (fun d => get_usize d (w_dfa w)) ;;
  modify (fun v => set_v_wl (set_wl_last x (v_wl v)) v) ;;;
  unmark_loop BUCKET_COUNT 0 (w_dfa w) ;;;
  modify (fun v => set_v_ds (ds_truncate (v_ds v) (w_nfa w)) v) ;;;
  wl_truncate wp.

(** src/core.rs 2963-2966, 3008-3011 [compile_comma], [comma] *)
Definition comma : M unit := x <- s_pop ;; ds_upd (fun d => compile_cell d x).

(** src/core.rs 2401-2408 [does] *)
Definition does : M unit :=
  idx <- refs_get idx__does ;;
  s_push (to_i64 idx) ;;;
  comma ;;;
  idx <- refs_get idx_exit ;;
  s_push (to_i64 idx) ;;;
  comma.

(** src/core.rs 2410-2421 [xdoes] *)
Definition xdoes : M unit :=
  wp <- gets (fun v => st_wp (st v)) ;;
  w <- word_at wp ;;
  s_push (to_i64 (w_dfa w)) ;;;
  i <- get_ip ;;
  r_push (to_i64 i) ;;;
  put_ip (w_doer w).

(** src/core.rs 2424-2431 [_does] *)
Definition _does : M unit :=
  i <- get_ip ;;
  doer <- chk_u64 (i + 8) ;;
  ds_upd (fun d => compile_cell d doer) ;;;
  def <- gets (fun v => wl_last (v_wl v)) ;;
  upd_word def (fun w => set_w_doer doer (set_w_action P_xdoes w)).

(** src/core.rs 2440-2456 [noop], [p_true], [p_false] *)
Definition noop : M unit := ret tt.
Definition p_true : M unit := s_push TRUE.
Definition p_false : M unit := s_push FALSE.

(** src/core.rs 2461-2480 [char_plus], [cell_plus], [cells] *)
Definition char_plus : M unit := x <- s_pop ;; y <- chk_i64 (x + 1) ;; s_push y.
Definition cell_plus : M unit := x <- s_pop ;; y <- chk_i64 (x + 8) ;; s_push y.
Definition cells : M unit := x <- s_pop ;; y <- chk_i64 (x * 8) ;; s_push y.

(** src/core.rs 2482-2488 [swap] *)
Definition swap_ (s : stack Z) : stack Z :=
  let l := len s in
  let t := sget s (w8sub l 1) in
  let n := sget s (w8sub l 2) in
  sset (sset s (w8sub l 1) n) (w8sub l 2) t.
(** src/core.rs 2490-2494 [dup] *)
Definition dup_ (s : stack Z) : stack Z :=
  let l := w8add (len s) 1 in
  let s := set_len s l in
  sset s (w8sub l 1) (sget s (w8sub l 2)).
(** src/core.rs 2496-2499 [p_drop] *)
Definition drop_ (s : stack Z) : stack Z := set_len s (w8sub (len s) 1).
(** src/core.rs 2508-2513 [nip] *)
Definition nip_ (s : stack Z) : stack Z :=
  let l := w8sub (len s) 1 in
  let t := sget s l in
  sset (set_len s l) (w8sub l 1) t.
(** src/core.rs 2515-2519 [over] *)
Definition over_ (s : stack Z) : stack Z :=
  let l := w8add (len s) 1 in
  let s := set_len s l in
  sset s (w8sub l 1) (sget s (w8sub l 3)).
(** src/core.rs 2521-2528 [rot] *)
Definition rot_ (s : stack Z) : stack Z :=
  let l := len s in
  let t := sget s (w8sub l 1) in
  let n := sget s (w8sub l 2) in
  let s := sset s (w8sub l 1) (sget s (w8sub l 3)) in
  let s := sset s (w8sub l 2) t in
  sset s (w8sub l 3) n.
(** src/core.rs 2530-2537 [minus_rot] *)
Definition minus_rot_ (s : stack Z) : stack Z :=
  let l := len s in
  let t := sget s (w8sub l 1) in
  let n := sget s (w8sub l 2) in
  let s := sset s (w8sub l 2) (sget s (w8sub l 3)) in
  let s := sset s (w8sub l 3) t in
  sset s (w8sub l 1) n.
(** src/core.rs 2542-2547 [pick] *)
Definition pick_ (s : stack Z) : stack Z :=
  let l := len s in
  let t := to_u8 (sget s (w8sub l 1)) in
  let x := sget s (w8sub l (w8add t 2)) in
  sset s (w8sub l 1) x.
(** src/core.rs 2549-2552 [two_drop] *)
Definition two_drop_ (s : stack Z) : stack Z := set_len s (w8sub (len s) 2).
(** src/core.rs 2554-2559 [two_dup] *)
Definition two_dup_ (s : stack Z) : stack Z :=
  let l := w8add (len s) 2 in
  let s := set_len s l in
  let s := sset s (w8sub l 1) (sget s (w8sub l 3)) in
  sset s (w8sub l 2) (sget s (w8sub l 4)).
(** src/core.rs 2561-2569 [two_swap] *)
Definition two_swap_ (s : stack Z) : stack Z :=
  let l := len s in
  let t := sget s (w8sub l 1) in
  let n := sget s (w8sub l 2) in
  let s := sset s (w8sub l 1) (sget s (w8sub l 3)) in
  let s := sset s (w8sub l 2) (sget s (w8sub l 4)) in
  let s := sset s (w8sub l 3) t in
  sset s (w8sub l 4) n.
(** src/core.rs 2571-2576 [two_over] *)
Definition two_over_ (s : stack Z) : stack Z :=
  let l := w8add (len s) 2 in
  let s := set_len s l in
  let s := sset s (w8sub l 1) (sget s (w8sub l 5)) in
  sset s (w8sub l 2) (sget s (w8sub l 6)).
(** src/core.rs 2578-2581 [depth] *)
Definition depth_ (s : stack Z) : stack Z := push s (len s).

(** src/core.rs 2583-2593 [one_plus], [one_minus] *)
Definition one_plus_ (s : stack Z) : stack Z :=
  let l := len s in sset s (w8sub l 1) (to_i64 (sget s (w8sub l 1) + 1)).
Definition one_minus_ (s : stack Z) : stack Z :=
  let l := len s in sset s (w8sub l 1) (to_i64 (sget s (w8sub l 1) - 1)).

(** src/core.rs 2595-2617 [plus], [minus], [star] *)
Definition bin_ (f : Z -> Z -> Z) (s : stack Z) : stack Z :=
  let l := len s in
  let t := sget s (w8sub l 1) in
  let n := sget s (w8sub l 2) in
  set_len (sset s (w8sub l 2) (f n t)) (w8sub l 1).
Definition plus_ := bin_ (fun n t => to_i64 (n + t)).
Definition minus_ := bin_ (fun n t => to_i64 (n - t)).
Definition star_ := bin_ (fun n t => to_i64 (n * t)).

(** isize::wrapping_div / wrapping_rem: truncated division, MIN / -1 wraps *)
Definition w_div (n t : Z) : Z := to_i64 (Z.quot n t).
Definition w_rem (n t : Z) : Z := to_i64 (Z.rem n t).

(** src/core.rs 2655-2663 [abs], [negate] *)
Definition un_ (f : Z -> Z) (s : stack Z) : stack Z := let (t, s) := pop s in push s (f t).
Definition abs_ := un_ (fun t => to_i64 (Z.abs t)).
Definition negate_ := un_ (fun t => to_i64 (- t)).

(** src/core.rs 2665-2683 [zero_less], [zero_equals], [zero_greater], [zero_not_equals] *)
Definition zero_less_ := un_ (fun t => flag (t <? 0)).
Definition zero_equals_ := un_ (fun t => flag (t =? 0)).
Definition zero_greater_ := un_ (fun t => flag (0 <? t)).
Definition zero_not_equals_ := un_ (fun t => if t =? 0 then FALSE else TRUE).

(** src/core.rs 2685-2703 [equals], [less_than], [greater_than], [not_equals] *)
Definition bin2_ (f : Z -> Z -> Z) (s : stack Z) : stack Z :=
  let (p, s) := pop2 s in push s (f (fst p) (snd p)).
Definition equals_ := bin2_ (fun n t => flag (t =? n)).
Definition less_than_ := bin2_ (fun n t => flag (n <? t)).
Definition greater_than_ := bin2_ (fun n t => flag (t <? n)).
Definition not_equals_ := bin2_ (fun n t => if n =? t then FALSE else TRUE).

(** src/core.rs 2709-2713 [within] *)
Definition within_ (s : stack Z) : stack Z :=
  let (p, s) := pop3 s in
  let '(x1, x2, x3) := p in
  push s (flag ((x2 <=? x1) && (x1 <? x3))).

(** src/core.rs 2715-2733 [invert], [and], [or], [xor] *)
Definition invert_ := un_ (fun t => Z.lnot t).
Definition and_ := bin2_ (fun n t => Z.land t n).
Definition or_ := bin2_ (fun n t => Z.lor t n).
Definition xor_ := bin2_ (fun n t => Z.lxor t n).

(** src/core.rs 2741-2756 [lshift], [rshift]; wrapping_shl/shr mask the count to 6 bits *)
Definition lshift_ := bin2_ (fun n t => to_i64 (Z.shiftl n (to_u32 t mod 64))).
Definition rshift_ := bin2_ (fun n t => to_i64 (Z.shiftr (to_u64 n) (to_u32 t mod 64))).

(** src/core.rs 2765-2769 [exit] *)
Definition exit : M unit :=
  modify (fun v => let s := r_stk v in
                   let rlen := w8sub (len s) 1 in
                   set_r (set_len s rlen) (set_ip (to_u64 (sget s rlen)) v)).

(** src/core.rs 2774-2776 [bye] *)
Definition bye : M unit := put_ip 0.

(** src/core.rs 2971-3000 [here], [allot], [aligned], [align] *)
Definition p_here : M unit := h <- gets (fun v => here (v_ds v)) ;; s_push (to_i64 h).
Definition allot : M unit := x <- s_pop ;; ds_upd (fun d => ds_allot chk d x).
Definition aligned : M unit :=
  x <- s_pop ;; a <- lift (aligned_to chk 8 (to_u64 x)) ;; s_push (to_i64 a).
Definition align : M unit := ds_upd (ds_align chk).

(** src/core.rs 3013-3060 [p_to_r], [r_from], [r_fetch], [two_to_r], [two_r_from],
    [two_r_fetch] *)
Definition p_to_r : M unit :=
  modify (fun v =>
    let s := s_stk v in
    let slen := len s in
    let r := r_stk v in
    let rlen := w8add (len r) 1 in
    let r := sset (set_len r rlen) (w8sub rlen 1) (sget s (w8sub slen 1)) in
    set_s (set_len s (w8sub slen 1)) (set_r r v)).
Definition r_from : M unit :=
  modify (fun v =>
    let s := s_stk v in
    let slen := w8add (len s) 1 in
    let r := r_stk v in
    let rlen := len r in
    let s := sset (set_len s slen) (w8sub slen 1) (sget r (w8sub rlen 1)) in
    set_r (set_len r (w8sub rlen 1)) (set_s s v)).
Definition r_fetch : M unit :=
  modify (fun v =>
    let s := s_stk v in
    let slen := w8add (len s) 1 in
    let r := r_stk v in
    let rlen := len r in
    set_s (sset (set_len s slen) (w8sub slen 1) (sget r (w8sub rlen 1))) v).
Definition two_to_r : M unit :=
  modify (fun v =>
    let s := s_stk v in
    let slen := len s in
    let r := r_stk v in
    let rlen := w8add (len r) 2 in
    let r := set_len r rlen in
    let r := sset r (w8sub rlen 2) (sget s (w8sub slen 2)) in
    let r := sset r (w8sub rlen 1) (sget s (w8sub slen 1)) in
    set_s (set_len s (w8sub slen 2)) (set_r r v)).
Definition two_r_from : M unit :=
  modify (fun v =>
    let s := s_stk v in
    let slen := w8add (len s) 2 in
    let r := r_stk v in
    let rlen := len r in
    let s := set_len s slen in
    let s := sset s (w8sub slen 2) (sget r (w8sub rlen 2)) in
    let s := sset s (w8sub slen 1) (sget r (w8sub rlen 1)) in
    set_r (set_len r (w8sub rlen 2)) (set_s s v)).
Definition two_r_fetch : M unit :=
  modify (fun v =>
    let s := s_stk v in
    let slen := w8add (len s) 2 in
    let r := r_stk v in
    let rlen := len r in
    let s := set_len s slen in
    let s := sset s (w8sub slen 2) (sget r (w8sub rlen 2)) in
    let s := sset s (w8sub slen 1) (sget r (w8sub rlen 1)) in
    set_s s v).

(** src/core.rs 3086-3127 [handler_store], [error], [clear_error], [dot_error],
    [clear_stacks] *)
Definition handler_store : M unit := t <- s_pop ;; modify (set_v_handler (to_u64 t)).
Definition error : M unit :=
  e <- gets v_err ;; s_push (match e with Some x => x | None => 0 end).
Definition clear_error : M unit := set_error None.
Definition dot_error : M unit :=
  e <- gets v_err ;;
  match e with Some x => out_push (description x) | None => ret tt end.
Definition clear_stacks : M unit :=
  modify (fun v => set_s (stack_reset (s_stk v)) v) ;;;
  modify (fun v => set_f (stack_reset (f_stk v)) v) ;;;
  modify (fun v => set_c (stack_reset (c_stk v)) v).

(** src/core.rs 3132-3135, 3167-3178 [p_source_id], [p_source_idx], [p_set_source_idx] *)
Definition p_source_id : M unit := x <- gets (fun v => st_sid (st v)) ;; s_push x.
Definition p_source_idx : M unit := x <- gets (fun v => st_idx (st v)) ;; s_push (to_i64 x).
Definition p_set_source_idx : M unit := x <- s_pop ;; modify (set_idx (to_u64 x)).

(** src/mock_vm.rs 224-247 [set_current_task], [awake], [set_awake] *)
Definition set_current_task (i : Z) : M unit :=
  modify (fun v => if i <? NUM_TASKS then set_v_cur i v else v).
Definition awake (v : vm) (i : Z) : bool := if i <? NUM_TASKS then t_awake (task_at v i) else false.
Definition set_awake (i : Z) (x : bool) : M unit :=
  modify (fun v => if i <? NUM_TASKS then put_task i (set_t_awake x (task_at v i)) v else v).

(** src/core.rs 3221-3224 [me] *)
Definition me : M unit := i <- gets v_cur ;; s_push (to_i64 (i + 1)).

(** src/core.rs 3209-3218 [pause] *)
Fixpoint pause_loop (fuel : nat) (i : Z) : M unit :=
  match fuel with
  | O => out_of_fuel
  | S f =>
    let i := (i + 1) mod NUM_TASKS in
    a <- gets (fun v => awake v i) ;;
    if (a : bool) then set_current_task i else pause_loop f i
  end.
Definition pause (fuel : nat) : M unit := i <- gets v_cur ;; pause_loop fuel i.

(** ** Functions that may execute another word: [ew] is [execute_word],
    [fuel] bounds the loops whose termination depends on the data. *)
Section Rec.
Variable fuel : nat.
Variable ew : Z -> M unit.

(** src/core.rs 3195-3206 [abort_with], [abort] *)
Definition abort_with (e : Z) : M unit :=
  clear_stacks ;;;
  set_error (Some e) ;;;
  h <- gets v_handler ;;
  modify (fun v => set_awp (st_wp (st v)) v) ;;;
  ew h.
Definition abort : M unit := abort_with ABORT.

(** src/core.rs 1059-1067 [leave] *)
Definition leave : M unit :=
  '(third, _, _) <- r_pop3 ;;
  u <- gets r_underflow ;;
  if (u : bool) then abort_with RETURN_STACK_UNDERFLOW
  else
    x <- ds_get (fun d => get_isize d (to_u64 third)) ;;
    put_ip (to_u64 x).

(** src/core.rs 1069-1079 [compile_leave] *)
Definition compile_leave (i : Z) : M unit :=
  p <- leave_part ;;
  match p with
  | Some _ => compile_word i
  | None => abort_with CONTROL_STRUCTURE_MISMATCH
  end.

(** Call of a [compilation_semantics] function pointer *)
Definition run_cs (c : csem) (i : Z) : M unit :=
  match c with
  | CS_compile_leave => compile_leave i
  | _ => compile_word i
  end.

(** src/core.rs 1081-1092 [p_j] ([get] never returns None) *)
Definition p_j : M unit :=
  l <- gets (fun v => len (r_stk v)) ;;
  pos <- chk_u8 (l - 4) ;;
  jt <- gets (fun v => sget (r_stk v) pos) ;;
  pos' <- chk_u8 (pos - 1) ;;
  jn <- gets (fun v => sget (r_stk v) pos') ;;
  s_push (to_i64 (jt + jn)).

(** src/core.rs 1651-1664 [p_i] *)
Definition p_i : M unit :=
  it <- gets (fun v => last (r_stk v)) ;;
  l <- gets (fun v => len (r_stk v)) ;;
  next <- chk_u8 (l - 2) ;;
  inext <- gets (fun v => sget (r_stk v) next) ;;
  s_push (to_i64 (it + inext)).

Definition mismatch : M unit := abort_with CONTROL_STRUCTURE_MISMATCH.

(** Store [x] at [part - size_of::<isize>()] *)
Definition patch (x part : Z) : M unit :=
  a <- chk_u64 (part - 8) ;; ds_upd (fun d => put_cell d x a).

(** src/core.rs 1140-1158 [imm_else] *)
Definition imm_else : M unit :=
  c <- c_pop ;;
  match c with
  | CIf if_part =>
    u <- gets c_underflow ;;
    if (u : bool) then mismatch
    else
      h <- compile_branch 0 ;;
      c_push (CElse h) ;;;
      patch h if_part
  | _ => mismatch
  end.

(** src/core.rs 1160-1178 [imm_then] *)
Definition imm_then : M unit :=
  c <- c_pop ;;
  match c with
  | CIf p | CElse p =>
    u <- gets c_underflow ;;
    if (u : bool) then mismatch
    else h <- gets (fun v => here (v_ds v)) ;; patch h p
  | _ => mismatch
  end.

(** src/core.rs 1207-1232 [imm_of] *)
Definition imm_of : M unit :=
  c <- c_pop ;;
  let go :=
    u <- gets c_underflow ;;
    if (u : bool) then mismatch
    else
      idx <- refs_get idx_over ;; compile_word idx ;;;
      idx <- refs_get idx_equal ;; compile_word idx ;;;
      h <- compile_zero_branch 0 ;;
      c_push (COf h) ;;;
      idx <- refs_get idx_drop ;; compile_word idx in
  match c with
  | CCase => c_push CCase ;;; go
  | CEndof n => c_push (CEndof n) ;;; go
  | _ => mismatch
  end.

(** src/core.rs 1234-1252 [imm_endof] *)
Definition imm_endof : M unit :=
  c <- c_pop ;;
  match c with
  | COf of_part =>
    u <- gets c_underflow ;;
    if (u : bool) then mismatch
    else
      h <- compile_branch 0 ;;
      c_push (CEndof h) ;;;
      patch h of_part
  | _ => mismatch
  end.

(** src/core.rs 1257-1280: the loop of [imm_endcase]; note that the underflow
    branch (1268-1269) does not leave the loop *)
Fixpoint endcase_loop (n : nat) : M unit :=
  match n with
  | O => out_of_fuel
  | S n' =>
    c <- c_pop ;;
    match c with
    | CCase => u <- gets c_underflow ;; if (u : bool) then mismatch else ret tt
    | CEndof p =>
      u <- gets c_underflow ;;
      (if (u : bool) then mismatch
       else h <- gets (fun v => here (v_ds v)) ;; patch h p) ;;;
      endcase_loop n'
    | _ => mismatch
    end
  end.
(** src/core.rs 1254-1281 [imm_endcase] *)
Definition imm_endcase : M unit :=
  idx <- refs_get idx_drop ;; compile_word idx ;;; endcase_loop fuel.

(** src/core.rs 1315-1332 [imm_repeat] *)
Definition imm_repeat : M unit :=
  p <- c_pop2 ;;
  match p with
  | (CBegin begin_part, CWhile while_part) =>
    u <- gets c_underflow ;;
    if (u : bool) then mismatch
    else h <- compile_branch begin_part ;; patch h while_part
  | _ => mismatch
  end.

(** src/core.rs 1349-1362 [imm_until] *)
Definition imm_until : M unit :=
  c <- c_pop ;;
  match c with
  | CBegin p =>
    u <- gets c_underflow ;;
    if (u : bool) then mismatch else compile_zero_branch p ;;; ret tt
  | _ => mismatch
  end.

(** src/core.rs 1379-1392 [imm_again] *)
Definition imm_again : M unit :=
  c <- c_pop ;;
  match c with
  | CBegin p =>
    u <- gets c_underflow ;;
    if (u : bool) then mismatch else compile_branch p ;;; ret tt
  | _ => mismatch
  end.

(** src/core.rs 1409-1419: resolving the chain of forward references *)
Fixpoint resolve_loop (n : nat) (h p : Z) : M unit :=
  match n with
  | O => out_of_fuel
  | S n' =>
    l <- ds_get (fun d => get_usize d p) ;;
    ds_upd (fun d => put_cell d h p) ;;;
    if l =? 0 then ret tt else resolve_loop n' h l
  end.

Definition label_get (n : Z) : M Z := gets (fun v => tget 0 (v_labels v) n).
Definition label_set (n x : Z) : M unit := modify (fun v => set_v_labels (tset (v_labels v) n x) v).

(** src/core.rs 1403-1432 [imm_label] *)
Definition imm_label : M unit :=
  x <- s_pop ;;
  let n := to_u64 x in
  if (0 <? n) && (n <? LABEL_COUNT) then
    h <- gets (fun v => here (v_ds v)) ;;
    f <- gets (fun v => bs_contains (v_fwd v) n) ;;
    r <- gets (fun v => bs_contains (v_res v) n) ;;
    if (f : bool) then
      p <- label_get n ;;
      resolve_loop fuel h p ;;;
      label_set n h ;;;
      modify (fun v => set_v_fwd (bs_remove (v_fwd v) n) v) ;;;
      modify (fun v => set_v_res (bs_add (v_res v) n) v)
    else if (r : bool) then abort_with INVALID_NUMERIC_ARGUMENT
    else
      label_set n h ;;;
      modify (fun v => set_v_res (bs_add (v_res v) n) v)
  else abort_with INVALID_NUMERIC_ARGUMENT.

(** src/core.rs 1448-1466 [imm_goto] *)
Definition imm_goto : M unit :=
  x <- s_pop ;;
  let n := to_u64 x in
  if (0 <? n) && (n <? LABEL_COUNT) then
    f <- gets (fun v => bs_contains (v_fwd v) n) ;;
    r <- gets (fun v => bs_contains (v_res v) n) ;;
    if (f : bool) then
      p <- label_get n ;;
      h <- compile_branch p ;;
      tp <- chk_u64 (h - 8) ;;
      label_set n tp
    else if (r : bool) then
      p <- label_get n ;;
      compile_branch p ;;; ret tt
    else
      h <- compile_branch 0 ;;
      tp <- chk_u64 (h - 8) ;;
      label_set n tp ;;;
      modify (fun v => set_v_fwd (bs_add (v_fwd v) n) v)
  else abort_with INVALID_NUMERIC_ARGUMENT.

(** src/core.rs 1484-1490 [imm_call] *)
Definition imm_call : M unit :=
  h <- gets (fun v => here (v_ds v)) ;;
  ra <- chk_u64 (h + 40) ;;
  compile_integer (to_i64 ra) ;;;
  idx <- refs_get idx_to_r ;;
  compile_word idx ;;;
  imm_goto.

(** src/core.rs 1579-1627 [imm_loop], [imm_plus_loop] *)
Definition loop_common (ref : refs -> Z) : M unit :=
  c <- c_pop ;;
  match c with
  | CDo do_part _ =>
    u <- gets c_underflow ;;
    if (u : bool) then mismatch
    else
      idx <- refs_get ref ;;
      compile_word idx ;;;
      ds_upd (fun d => compile_cell d do_part) ;;;
      h <- gets (fun v => here (v_ds v)) ;;
      patch h do_part
  | _ => mismatch
  end.
Definition imm_loop : M unit := loop_common idx_loop.
Definition imm_plus_loop : M unit := loop_common idx_plus_loop.

(** src/core.rs 3146-3162 [set_source_id] *)
Definition set_source_id (id : Z) : M unit :=
  if 0 <? id then
    ss <- gets (fun v => t_sources (cur v)) ;;
    ls <- gets (fun v => t_lines (cur v)) ;;
    if id - 1 <? zlen ss then
      s <- index_list ss (id - 1) ;;
      match s with
      | None => abort_with INVALID_NUMERIC_ARGUMENT
      | Some _ =>
        l <- index_list ls (id - 1) ;;
        match l with
        | None => abort_with INVALID_NUMERIC_ARGUMENT
        | Some _ => modify (set_sid id)
        end
      end
    else abort_with INVALID_NUMERIC_ARGUMENT
  else if id =? 0 then modify (set_sid id)
  else abort_with INVALID_NUMERIC_ARGUMENT.

(** src/core.rs 3140-3143 [p_set_source_id] *)
Definition p_set_source_id : M unit := id <- s_pop ;; set_source_id id.

(** src/core.rs 3182-3192 [reset] *)
Definition reset : M unit :=
  modify (fun v => set_r (stack_reset (r_stk v)) v) ;;;
  set_source_id 0 ;;;
  o <- get_inbuf ;;
  (match o with Some _ => put_inbuf [] | None => ret tt end) ;;;
  modify (set_awp 0) ;;;
  modify (set_idx 0) ;;;
  left_bracket ;;;
  set_error None.

(** src/core.rs 1629-1649 [activate] *)
Definition activate : M unit :=
  x <- s_pop ;;
  y <- chk_i64 (x - 1) ;;
  let i := to_u64 y in
  if i <? NUM_TASKS then
    set_awake i true ;;;
    ct <- gets v_cur ;;
    p <- get_ip ;;
    set_current_task i ;;;
    reset ;;;
    put_ip p ;;;
    set_current_task ct ;;;
    q <- r_pop ;;
    put_ip (to_u64 q)
  else
    q <- r_pop ;;
    put_ip (to_u64 q) ;;;
    abort_with INVALID_NUMERIC_ARGUMENT.

(** src/core.rs 3227-3244 [suspend], [resume] *)
Definition set_awake_word (val : bool) : M unit :=
  x <- s_pop ;;
  y <- chk_i64 (x - 1) ;;
  let i := to_u64 y in
  if i <? NUM_TASKS then set_awake i val else abort_with INVALID_NUMERIC_ARGUMENT.
Definition suspend : M unit := set_awake_word false.
Definition resume : M unit := set_awake_word true.

(** src/core.rs 1734-1747 [char] *)
Definition p_char : M unit :=
  parse_word ;;;
  t <- take_token ;;
  match chars_of t with
  | (c, _) :: _ => set_token t ;;; s_push c
  | [] => set_token t ;;; abort_with UNEXPECTED_END_OF_FILE
  end.

(** src/core.rs 1757-1764 [bracket_char] *)
Definition bracket_char : M unit :=
  p_char ;;;
  e <- gets v_err ;;
  match e with
  | Some _ => ret tt
  | None => c <- s_pop ;; compile_integer c
  end.

(** src/core.rs 1858-1878 [postpone] *)
Definition postpone : M unit :=
  parse_word ;;;
  t <- take_token ;;
  match t with
  | [] => set_token t ;;; abort_with UNEXPECTED_END_OF_FILE
  | _ =>
    f <- find fuel t ;;
    match f with
    | Some xt =>
      set_token t ;;;
      compile_integer (to_i64 xt) ;;;
      idx <- refs_get idx__postpone ;;
      compile_word idx
    | None => set_token t ;;; abort_with UNDEFINED_WORD
    end
  end.

(** src/core.rs 1885-1896 [_postpone] *)
Definition _postpone : M unit :=
  x <- s_pop ;;
  let xt := to_u64 x in
  w <- word_at xt ;;
  run_cs (w_cs w) xt.

(** src/core.rs 1911-1929, 1946-1964: a token that is not a word *)
Definition number_token (t : bytes) : M unit :=
  set_error None ;;;
  evaluate_integer t ;;;
  e <- gets v_err ;;
  match e with
  | None => set_token t
  | Some _ =>
    set_error None ;;;
    evaluate_float t ;;;
    e <- gets v_err ;;
    set_token t ;;;
    match e with
    | None => ret tt
    | Some _ => abort_with UNDEFINED_WORD
    end
  end.

(** src/core.rs 1898-1932 [compile_token] *)
Definition compile_token : M unit :=
  t <- take_token ;;
  f <- find fuel t ;;
  match f with
  | Some i =>
    set_token t ;;;
    w <- word_at i ;;
    if w_imm w then ew i else run_cs (w_cs w) i
  | None => number_token t
  end.

(** src/core.rs 1934-1967 [interpret_token] *)
Definition interpret_token : M unit :=
  t <- take_token ;;
  f <- find fuel t ;;
  match f with
  | Some i =>
    set_token t ;;;
    w <- word_at i ;;
    if w_co w then abort_with INTERPRETING_A_COMPILE_ONLY_WORD else ew i
  | None => number_token t
  end.

(** src/core.rs 2012-2032 [store_token] *)
Definition store_token : M unit :=
  x <- s_pop ;;
  let a := to_u64 x in
  d <- gets v_ds ;;
  if start d <=? a then
    t <- gets v_tkn ;;
    match t with
    | Some s => ds_upd (fun d => put_cstr chk d s a) ;;; set_token []
    | None => if a <? limit d then ds_upd (fun d => put_u8 d 0 a) else panic PFull
    end
  else abort_with INVALID_MEMORY_ADDRESS.

(** src/core.rs 2272-2294 [define] *)
Definition define (a : prim) (c : csem) : M unit :=
  parse_word ;;;
  t <- take_token ;;
  let t := map lower t in
  f <- find fuel t ;;
  (match f with
   | Some _ => out_push (b "Redefining " ++ t)
   | None => ret tt
   end) ;;;
  match t with
  | [] => set_token t ;;; abort_with UNEXPECTED_END_OF_FILE
  | _ =>
    nfa <- (fun v => rbind (compile_str (v_ds v) t) (fun p => Ok (fst p, set_v_ds (snd p) v))) ;;
    ds_upd (ds_align chk) ;;;
    h <- gets (fun v => here (v_ds v)) ;;
    modify (fun v => set_v_wl (wl_push t (word_new a c nfa h) (v_wl v)) v) ;;;
    set_token t
  end.

(** src/core.rs 2296-2304 [colon] *)
Definition colon : M unit :=
  define P_nest CS_compile_nest ;;;
  e <- gets v_err ;;
  match e with
  | Some _ => ret tt
  | None =>
    def <- gets (fun v => wl_last (v_wl v)) ;;
    upd_word def (set_w_hidden true) ;;;
    right_bracket
  end.

(** src/core.rs 2306-2319 [semicolon] *)
Definition semicolon : M unit :=
  l <- gets (fun v => len (c_stk v)) ;;
  fw <- gets v_fwd ;;
  (if negb (l =? 0) then mismatch
   else match fw with
        | _ :: _ => mismatch
        | [] =>
          idx <- refs_get idx_exit ;;
          w <- word_at idx ;;
          run_cs (w_cs w) idx ;;;
          def <- gets (fun v => wl_last (v_wl v)) ;;
          upd_word def (set_w_hidden false)
        end) ;;;
  left_bracket.

(** src/core.rs 2321-2331 [create], [constant] *)
Definition create : M unit := define P_p_var CS_compile_var.
Definition constant : M unit :=
  x <- s_pop ;;
  define P_p_const CS_compile_const ;;;
  e <- gets v_err ;;
  match e with
  | Some _ => ret tt
  | None => ds_upd (fun d => compile_cell d x)
  end.

(** src/core.rs 2364-2367: writing the 64 buckets *)
Fixpoint marker_loop (n : nat) (i : Z) : M unit :=
  match n with
  | O => ret tt
  | S n' =>
    x <- gets (fun v => tget 0 (wl_temp (v_wl v)) i) ;;
    ds_upd (fun d => compile_cell d x) ;;;
    marker_loop n' (i + 1)
  end.

(** src/core.rs 2359-2368 [marker] *)
Definition marker : M unit :=
  x <- gets (fun v => wl_last (v_wl v)) ;;
  modify (fun v => set_v_wl (set_wl_temp (wl_buckets (v_wl v)) (v_wl v)) v) ;;;
  define P_unmark CS_compile_unmark ;;;
  ds_upd (fun d => compile_cell d x) ;;;
  marker_loop BUCKET_COUNT 0.

(** src/core.rs 2619-2653 [slash], [p_mod], [slash_mod] *)
Definition div_word (f : stack Z -> stack Z) : M unit :=
  t <- gets (fun v => sget (s_stk v) (w8sub (len (s_stk v)) 1)) ;;
  if t =? 0 then abort_with DIVISION_BY_ZERO else on_s f.
Definition slash : M unit := div_word (bin_ w_div).
Definition p_mod : M unit := div_word (bin_ w_rem).
Definition slash_mod_ (s : stack Z) : stack Z :=
  let l := len s in
  let t := sget s (w8sub l 1) in
  let n := sget s (w8sub l 2) in
  sset (sset s (w8sub l 2) (w_rem n t)) (w8sub l 1) (w_div n t).
Definition slash_mod : M unit := div_word slash_mod_.

(** [start < t && t + 8 <= limit], the address check of [fetch] and [store] *)
Definition cell_ok (t : Z) : M bool :=
  d <- gets v_ds ;;
  if start d <? t then e <- chk_u64 (t + 8) ;; ret (e <=? limit d) else ret false.

(** src/core.rs 2781-2804 [fetch], [store] *)
Definition fetch : M unit :=
  x <- s_pop ;;
  let t := to_u64 x in
  ok <- cell_ok t ;;
  if (ok : bool) then y <- ds_get (fun d => get_isize d t) ;; s_push y
  else abort_with INVALID_MEMORY_ADDRESS.
Definition store : M unit :=
  '(n, x) <- s_pop2 ;;
  let t := to_u64 x in
  ok <- cell_ok t ;;
  if (ok : bool) then ds_upd (fun d => put_cell d n t)
  else abort_with INVALID_MEMORY_ADDRESS.

(** src/core.rs 2810-2833 [c_fetch], [c_store] *)
Definition c_fetch : M unit :=
  x <- s_pop ;;
  let t := to_u64 x in
  d <- gets v_ds ;;
  if (start d <=? t) && (t <? limit d) then y <- ds_get (fun d => get_u8 d t) ;; s_push y
  else abort_with INVALID_MEMORY_ADDRESS.
Definition c_store : M unit :=
  '(n, x) <- s_pop2 ;;
  let t := to_u64 x in
  d <- gets v_ds ;;
  if (start d <? t) && (t <? limit d) then ds_upd (fun d => put_u8 d (to_u8 n) t)
  else abort_with INVALID_MEMORY_ADDRESS.

(** [start < a && a + u <= limit] (2848-2851); returns the end address if the check holds *)
Definition range_ok (a u : Z) : M (option Z) :=
  d <- gets v_ds ;;
  if start d <? a then e <- chk_u64 (a + u) ;; ret (if e <=? limit d then Some e else None)
  else ret None.

(** src/core.rs 2855-2867: the two copy loops, [n] bytes *)
Fixpoint move_up (n : nat) (a1 a2 : Z) : M unit :=       (* addr1 >= addr2: ascending *)
  match n with
  | O => ret tt
  | S n' =>
    x <- ds_get (fun d => get_u8 d a1) ;;
    ds_upd (fun d => put_u8 d x a2) ;;;
    move_up n' (a1 + 1) (a2 + 1)
  end.
Fixpoint move_down (n : nat) (a1 a2 : Z) : M unit :=     (* addr1 < addr2: descending *)
  match n with
  | O => ret tt
  | S n' =>
    x <- ds_get (fun d => get_u8 d (a1 + Z.of_nat n')) ;;
    ds_upd (fun d => put_u8 d x (a2 + Z.of_nat n')) ;;;
    move_down n' a1 a2
  end.

(** src/core.rs 2842-2874 [p_move]; a range [a..e] with [e < a] (wrapped) is
    empty, and the zip has the length of the shorter range *)
Definition p_move : M unit :=
  '(a1, a2, u) <- s_pop3 ;;
  if 0 <? u then
    let a1 := to_u64 a1 in
    let a2 := to_u64 a2 in
    e1 <- range_ok a1 u ;;
    match e1 with
    | None => abort_with INVALID_MEMORY_ADDRESS
    | Some e1 =>
      e2 <- range_ok a2 u ;;
      match e2 with
      | None => abort_with INVALID_MEMORY_ADDRESS
      | Some e2 =>
        let n := Z.to_nat (Z.min (e1 - a1) (e2 - a2)) in
        if a1 <? a2 then move_down n a1 a2 else move_up n a1 a2
      end
    end
  else ret tt.

(** src/core.rs 2881-2899, 2939-2957 [tick], [bracket_tick] *)
Definition tick_with (k : Z -> M unit) : M unit :=
  parse_word ;;;
  t <- take_token ;;
  match t with
  | [] => set_token t ;;; abort_with UNEXPECTED_END_OF_FILE
  | _ =>
    f <- find fuel t ;;
    match f with
    | Some i => k (to_i64 i) ;;; set_token t
    | None => set_token t ;;; abort_with UNDEFINED_WORD
    end
  end.
Definition tick : M unit := tick_with s_push.
Definition bracket_tick : M unit := tick_with compile_integer.

(** src/core.rs 2904-2924 [to_body], [to_name] *)
Definition to_field (fld : word -> Z) : M unit :=
  x <- s_pop ;;
  let t := to_u64 x in
  l <- gets (fun v => wl_len (v_wl v)) ;;
  if t <? l then w <- word_at t ;; s_push (to_i64 (fld w))
  else abort_with INVALID_NUMERIC_ARGUMENT.
Definition to_body : M unit := to_field w_dfa.
Definition to_name : M unit := to_field w_nfa.

(** src/core.rs 2930-2933 [execute] *)
Definition execute : M unit := t <- s_pop ;; ew (to_u64 t).

(** src/core.rs 3066-3084 [check_stacks] *)
Definition check_stacks : M unit :=
  v <- get ;;
  if s_overflow v then abort_with STACK_OVERFLOW
  else if s_underflow v then abort_with STACK_UNDERFLOW
  else if r_overflow v then abort_with RETURN_STACK_OVERFLOW
  else if r_underflow v then abort_with RETURN_STACK_UNDERFLOW
  else if c_overflow v then abort_with CONTROL_STRUCTURE_MISMATCH
  else if c_underflow v then abort_with CONTROL_STRUCTURE_MISMATCH
  else if f_overflow v then abort_with FLOATING_POINT_STACK_OVERFLOW
  else if f_underflow v then abort_with FLOATING_POINT_STACK_UNDERFLOW
  else ret tt.

End Rec.
End Core.
