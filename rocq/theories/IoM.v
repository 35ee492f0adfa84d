(** Model of src/output.rs, src/tools.rs, src/env.rs, src/facility.rs. *)
From Coq Require Import ZArith List Bool String.
From Verif Require Import Base Stack Mem Parser Flt State CoreM.
Import ListNotations.
Open Scope Z_scope.
Open Scope m_scope.

(** Digits of a non-negative number, most significant first (Rust's {:b} {:o} {} {:X}) *)
Definition digit_char (d : Z) : Z := if d <? 10 then 48 + d else 55 + d.
Fixpoint digits_loop (fuel : nat) (base n : Z) (acc : bytes) : bytes :=
  match fuel with
  | O => acc
  | S f => let acc := digit_char (n mod base) :: acc in
           if n / base =? 0 then acc else digits_loop f base (n / base) acc
  end.
(** 64 digits are enough for any 64-bit value in base 2 or more *)
Definition fmt_radix (base n : Z) : bytes := digits_loop 64 base n [].
(** [{}] of an isize *)
Definition fmt_dec (n : Z) : bytes :=
  if n <? 0 then 45 :: fmt_radix 10 (- n) else fmt_radix 10 n.
(** [{:b}], [{:o}], [{:X}] of an isize: the two's complement pattern *)
Definition fmt_pattern (base n : Z) : bytes := fmt_radix base (to_u64 n).

Definition spaces (n : Z) : bytes := repeat 32 (Z.to_nat n).

Section Io.
Context {E : Env}.

(** [if let Some(buf) = self.output_buffer().take()]: run [m] when there is an
    output buffer.  The buffer is put back at the end of [m]; nothing that [m]
    calls reads it meanwhile, so appending in place is equivalent. *)
Definition when_out (m : M unit) : M unit :=
  o <- gets v_out ;;
  match o with Some _ => m | None => ret tt end.

(** src/output.rs 24-32 [push_output] *)
Definition push_output (s : bytes) : M unit := out_push s.

(** src/output.rs 37-46 [emit] *)
Definition emit : M unit := c <- s_pop ;; out_push (utf8_latin1 (to_u8 c)).

Section Rec.
Variable fuel : nat.
Variable ew : Z -> M unit.

(** src/output.rs 51-72 [p_type] *)
Definition p_type : M unit :=
  '(a, n) <- s_pop2 ;;
  u <- gets s_underflow ;;
  if (u : bool) then abort_with ew STACK_UNDERFLOW
  else when_out (s <- ds_get (fun d => read_bytes d (to_u64 a) (to_u64 n)) ;; out_push s).

(** src/output.rs 88-91: the part of the source before the first double quote *)
Fixpoint until_quote (s : bytes) : bytes :=
  match s with
  | [] => []
  | c :: r => if c =? 34 then [] else c :: until_quote r
  end.

(** src/output.rs 83-103 [s_quote] *)
Definition s_quote : M unit :=
  buf <- expect_inbuf ;;
  i <- gets (fun v => st_idx (st v)) ;;
  i1 <- chk_u64 (i + 1) ;;
  src <- slice_or_panic buf i1 ;;
  let s := until_quote src in
  idx <- refs_get idx_s_quote ;;
  w <- word_at idx ;;
  run_cs ew (w_cs w) idx ;;;
  ds_upd (fun d => rbind (compile_str d s) (fun p => Ok (snd p))) ;;;
  ds_upd (ds_align chk) ;;;
  i <- gets (fun v => st_idx (st v)) ;;
  n <- chk_u64 (i + 1 + zlen s + 1) ;;
  modify (set_idx n).

(** src/output.rs 113-117 [dot_quote] *)
Definition dot_quote : M unit :=
  s_quote ;;; idx <- refs_get idx_type ;; compile_word idx.

(** src/output.rs 122-130 [dot_paren] *)
Definition dot_paren : M unit :=
  s_push 41 ;;; parse ;;; t <- take_token ;; out_push t ;;; set_token t.

(** src/output.rs 158-166 (and 197-204): pad the converted number, kept in the
    hold buffer, to the field width [n] *)
Definition out_field (n : Z) (s : bytes) : M unit :=
  modify (set_v_hld s) ;;;
  k <- chk_i64 (n - zlen s) ;;
  out_push (spaces k ++ s).

(** src/output.rs 135-170 [dot_r] *)
Definition dot_r : M unit :=
  base <- ds_get (fun d => get_isize d (base_addr d)) ;;
  '(n1, n2) <- s_pop2 ;;
  when_out (
    modify (set_v_hld []) ;;;
    if base =? 2 then out_field n2 (fmt_pattern 2 n1)
    else if base =? 8 then out_field n2 (fmt_pattern 8 n1)
    else if base =? 10 then out_field n2 (fmt_dec n1)
    else if base =? 16 then out_field n2 (fmt_pattern 16 n1)
    else abort_with ew UNSUPPORTED_OPERATION).

(** src/output.rs 178-209 [fdot_r] *)
Definition fdot_r : M unit :=
  r <- f_pop ;;
  '(n1, n2) <- s_pop2 ;;
  when_out (
    let p := if (0 <=? n2) && (n2 <=? 16) then n2 else 17 in
    out_field n1 (fmt_f64 p r)).

(** src/output.rs 211-221 [flush_output] *)
Definition flush_output : M unit :=
  modify (fun v => match v_out v with
                   | Some (c :: r) => set_v_out (Some []) (set_v_stdout (v_stdout v ++ (c :: r) ++ [10]) v)
                   | _ => v
                   end).

(** src/tools.rs 25-41 [dot_s], src/core.rs 334-365 (Debug of the stacks) *)
Definition dot_s : M unit :=
  when_out (
    v <- get ;;
    (if 0 <? len (s_stk v)
     then out_push (List.concat (map (fun x => fmt_dec x ++ [32]) (as_slice (s_stk v))))
     else ret tt) ;;;
    (if 0 <? len (f_stk v)
     then (if 0 <? len (s_stk v) then out_push [32] else ret tt) ;;;
          out_push (b "F: " ++ List.concat (map (fun x => fmt_f64 7 x ++ [32]) (as_slice (f_stk v))))
     else ret tt)).

(** Word indices [(1..len).rev()] *)
Definition words_rev (v : vm) : list Z :=
  rev (map Z.of_nat (seq 1 (Z.to_nat (wl_len (v_wl v)) - 1))).

Definition name_of (w : word) : M bytes := ds_get (fun d => get_str chk d (w_nfa w)).
Definition push_name (i : Z) : M unit := w <- word_at i ;; nm <- name_of w ;; out_push (nm ++ [32]).

(** src/tools.rs 46-57 [words] *)
Definition words : M unit :=
  when_out (
    l <- gets words_rev ;;
    mapM_ (fun i => w <- word_at i ;; if w_hidden w then ret tt else push_name i) l).

(** src/tools.rs 62-74 [dot_word] *)
Definition dot_word : M unit :=
  when_out (
    x <- s_pop ;;
    let xt := to_u64 x in
    n <- gets (fun v => wl_len (v_wl v)) ;;
    if xt <? n then push_name xt else out_push (b "unknown ")).

(** src/tools.rs 84-93, 104-113 *)
Definition push_location (a : Z) : M unit :=
  r <- gets (fun v => find_xt (v_wl v) a) ;;
  match r with
  | Some xt => push_name xt
  | None => out_push (b "unknown(" ++ fmt_radix 16 a ++ b ") ")
  end.

(** src/tools.rs 79-117 [dot_backtrace] *)
Definition dot_backtrace : M unit :=
  when_out (
    out_push (b "backtrace: ") ;;;
    l <- gets (fun v => as_slice (r_stk v)) ;;
    mapM_ (fun x => push_location (to_u64 x)) l ;;;
    xt <- gets (fun v => st_awp (st v)) ;;
    (if xt =? 0 then ret tt else push_name xt) ;;;
    i <- get_ip ;;
    push_location i).

(** src/tools.rs 122-139 [dot_memory] *)
Definition dot_memory : M unit :=
  d <- gets v_ds ;;
  out_push (b "data space capacity: " ++ fmt_dec (limit d - start d) ++
            b ", used: " ++ fmt_dec (here d - start d) ++
            b ", start: 0x" ++ fmt_radix 16 (start d) ++
            b ", limit: 0x" ++ fmt_radix 16 (limit d) ++
            b ", here: 0x" ++ fmt_radix 16 (here d) ++ [10]).

(** src/tools.rs 152-162 [set_execution_times] *)
Definition set_execution_times : M unit :=
  '(t0, xt) <- s_pop2 ;;
  now <- gets v_now ;;
  t <- chk_u64 (now / 1000 - to_u64 t0) ;;
  upd_word (to_u64 xt) (fun w =>
    let w := set_w_mint (if w_mint w =? 0 then t else Z.min (w_mint w) t) w in
    set_w_maxt (Z.max (w_maxt w) t) w).

(** src/tools.rs 165-183 [dot_xtime] *)
Fixpoint dot_xtime_loop (l : list Z) (first : bool) : M unit :=
  match l with
  | [] => ret tt
  | i :: r =>
    w <- word_at i ;;
    if 0 <? w_mint w
    then (if first then ret tt else out_push (b "|")) ;;;
         nm <- name_of w ;;
         out_push (nm ++ b "|" ++ fmt_radix 10 (w_mint w) ++ b "," ++ fmt_radix 10 (w_maxt w)) ;;;
         dot_xtime_loop r false
    else dot_xtime_loop r first
  end.
Definition dot_xtime : M unit := when_out (l <- gets words_rev ;; dot_xtime_loop l true).

(** src/tools.rs 186-193 [clear_xtime] *)
Definition clear_xtime : M unit :=
  l <- gets words_rev ;;
  mapM_ (fun i => w <- word_at i ;;
                  if 0 <? w_mint w then upd_word i (fun w => set_w_maxt 0 (set_w_mint 0 w))
                  else ret tt) l.

(** src/tools.rs 196-209 [dot_input] *)
Definition dot_input : M unit :=
  o <- get_inbuf ;;
  match o with Some s => out_push s | None => ret tt end.

(** src/tools.rs 212-220 [flush_to_err] *)
Definition flush_to_err : M unit :=
  modify (fun v => match v_out v with
                   | Some s => set_v_out (Some []) (set_v_stderr (v_stderr v ++ s ++ [10]) v)
                   | None => v
                   end).

(** src/env.rs 15-24 [max_n], [max_u] *)
Definition max_n : M unit := s_push imax.
Definition max_u : M unit := s_push (to_i64 (two64 - 1)).

(** src/facility.rs 15-24 [mtime], [utime] *)
Definition mtime : M unit := t <- gets v_now ;; s_push (to_i64 (t / 1000000)).
Definition utime : M unit := t <- gets v_now ;; s_push (to_i64 (t / 1000)).

End Rec.
End Io.
