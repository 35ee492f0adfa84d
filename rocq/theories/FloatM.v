(** Model of src/float.rs and src/units.rs. *)
From Coq Require Import ZArith List Bool String.
From Verif Require Import Base Stack Mem Parser Flt State CoreM.
Import ListNotations.
Open Scope Z_scope.
Open Scope m_scope.

(** src/units.rs 6-14 and std::f64::consts::PI, as bit patterns *)
Definition F_ONE : Z := 4607182418800017408.
Definition F_PI : Z := 4614256656552045848.
Definition F_180 : Z := 4640537203540230144.
Definition F_RPM : Z := 4592210274265328597.
Definition F_MILLI : Z := 4562254508917369340.
Definition F_MICRO : Z := 4517329193108106637.
Definition F_HOUR : Z := 4660134898793709568.
Definition F_MINUTE : Z := 4633641066610819072.

Section Float.
Context {E : Env}.

(** A word replacing the top of the float stack by [f] of it *)
Definition f_un (f : Z -> Z) : M unit := t <- f_pop ;; f_push (f t).
(** A word replacing the two top floats [n t] by [f n t] (pop twice) *)
Definition f_bin (f : Z -> Z -> Z) : M unit := t <- f_pop ;; n <- f_pop ;; f_push (f n t).

(** src/float.rs 60-65 [p_fconst] *)
Definition p_fconst : M unit :=
  wp <- gets (fun v => st_wp (st v)) ;;
  w <- word_at wp ;;
  p <- lift (aligned_to chk 8 (w_dfa w)) ;;
  x <- ds_get (fun d => get_f64 d p) ;;
  f_push x.

(** src/float.rs 77-88 [float_plus], [floats] *)
Definition float_plus : M unit := x <- s_pop ;; y <- chk_i64 (x + 8) ;; s_push y.
Definition floats : M unit := x <- s_pop ;; y <- chk_i64 (x * 8) ;; s_push y.
(** src/float.rs 93-108 [faligned], [falign], [pi] *)
Definition faligned : M unit :=
  x <- s_pop ;; a <- lift (aligned_to chk 8 (to_u64 x)) ;; s_push (to_i64 a).
Definition falign : M unit := ds_upd (ds_align chk).
Definition pi : M unit := f_push F_PI.

(** src/float.rs 137-187 one-operand functions *)
Definition fabs : M unit := f_un fabs_.
Definition fsin : M unit := f_un l_sin.
Definition fcos : M unit := f_un l_cos.
Definition ftan : M unit := f_un l_tan.
Definition fsincos : M unit := t <- f_pop ;; f_push2 (l_sin t) (l_cos t).
Definition fasin : M unit := f_un l_asin.
Definition facos : M unit := f_un l_acos.
Definition fatan : M unit := f_un l_atan.
Definition fatan2 : M unit := f_bin l_atan2.
Definition fsqrt : M unit := f_un fsqrt_.

(** src/float.rs 189-229 stack words *)
Definition fswap : M unit := t <- f_pop ;; n <- f_pop ;; f_push2 t n.
Definition fnip : M unit := t <- f_pop ;; f_pop ;;; f_push t.
Definition fdup : M unit := t <- f_pop ;; f_push2 t t.
Definition fdrop : M unit := f_pop ;;; ret tt.
Definition frot : M unit := x3 <- f_pop ;; x2 <- f_pop ;; x1 <- f_pop ;; f_push3 x2 x3 x1.
Definition fover : M unit := t <- f_pop ;; n <- f_pop ;; f_push3 n t n.
Definition fpick : M unit :=
  x <- s_pop ;;
  let t := to_u8 x in
  y <- gets (fun v => sget (f_stk v) (w8sub (len (f_stk v)) (w8add t 1))) ;;
  f_push y.

(** src/float.rs 231-239 [s_to_f], [f_to_s] *)
Definition s_to_f : M unit := t <- s_pop ;; f_push (f_of_Z t false).
Definition f_to_s : M unit := t <- f_pop ;; s_push (f_to_i64 t).

(** src/float.rs 241-269 [fplus] [fminus] [fstar] [fslash] [fpowf] *)
Definition fplus : M unit := f_bin fadd.
Definition fminus : M unit := f_bin fsub.
Definition fstar : M unit := f_bin fmul.
Definition fslash : M unit := f_bin fdiv.
Definition fpowf : M unit := f_bin l_powf.

(** src/float.rs 271-287 [fproximate] *)
Definition fproximate : M unit :=
  '(x1, x2, x3) <- f_pop3 ;;
  if flt 0 x3 then s_push (flag (flt (fabs_ (fsub x1 x2)) x3))
  else if feq x3 0 then s_push (flag (feq x1 x2))
  else s_push (flag (flt (fabs_ (fsub x1 x2)) (fmul (fabs_ x3) (fadd (fabs_ x1) (fabs_ x2))))).

(** src/float.rs 289-303 comparisons *)
Definition f_zero_less_than : M unit := t <- f_pop ;; s_push (flag (flt t 0)).
Definition f_zero_equals : M unit := t <- f_pop ;; s_push (flag (feq t 0)).
Definition f_less_than : M unit := t <- f_pop ;; n <- f_pop ;; s_push (flag (flt n t)).

(** src/float.rs 305-332 [fmin] [fmax] [fround] [floor] [fceil] [fnegate] *)
Definition fmin : M unit := '(n, t) <- f_pop2 ;; f_push (fmin_ t n).
Definition fmax : M unit := '(n, t) <- f_pop2 ;; f_push (fmax_ t n).
Definition fround : M unit := f_un fround_.
Definition floor : M unit := f_un ffloor.
Definition fceil : M unit := f_un fceil_.
Definition fnegate : M unit := f_un fneg_.

(** src/units.rs 40-113 *)
Definition from_meter : M unit := f_un (fun t => fmul t F_ONE).
Definition from_mm : M unit := f_un (fun t => fmul t F_MILLI).
Definition from_um : M unit := f_un (fun t => fmul t F_MICRO).
Definition from_deg : M unit := f_un (fun t => fdiv (fmul t F_PI) F_180).
Definition from_rad : M unit := f_un (fun t => t).
Definition from_hour : M unit := f_un (fun t => fmul t F_HOUR).
Definition from_minute : M unit := f_un (fun t => fmul t F_MINUTE).
Definition from_sec : M unit := f_un (fun t => fmul t F_ONE).
Definition from_msec : M unit := f_un (fun t => fmul t F_MILLI).
Definition from_usec : M unit := f_un (fun t => fmul t F_MICRO).
Definition mm_per_min : M unit := f_un (fun t => fdiv (fmul t F_MILLI) F_MINUTE).
Definition mm_per_sec : M unit := f_un (fun t => fdiv (fmul t F_MILLI) F_ONE).
Definition um_per_msec : M unit := f_un (fun t => fdiv (fmul t F_MICRO) F_MILLI).
Definition rpm : M unit := f_un (fun t => fmul t F_RPM).
Definition hertz : M unit := f_un (fun t => t).

Section Rec.
Variable fuel : nat.
Variable ew : Z -> M unit.

(** src/float.rs 67-72 [fconstant] *)
Definition fconstant : M unit :=
  x <- f_pop ;;
  define fuel ew P_p_fconst CS_compile_fconst ;;;
  ds_upd (ds_align chk) ;;;
  ds_upd (fun d => compile_cell d x).

Definition f_addr_ok (t : Z) : M bool :=
  d <- gets v_ds ;; ret ((start d <=? t) && (t <? limit d)).

(** src/float.rs 112-122 [ffetch] *)
Definition ffetch : M unit :=
  x <- s_pop ;;
  t <- lift (aligned_to chk 8 (to_u64 x)) ;;
  ok <- f_addr_ok t ;;
  if (ok : bool) then y <- ds_get (fun d => get_f64 d t) ;; f_push y
  else abort_with ew INVALID_MEMORY_ADDRESS.

(** src/float.rs 124-134 [fstore] *)
Definition fstore : M unit :=
  x <- s_pop ;;
  t <- lift (aligned_to chk 8 (to_u64 x)) ;;
  n <- f_pop ;;
  ok <- f_addr_ok t ;;
  if (ok : bool) then ds_upd (fun d => put_cell d n t)
  else abort_with ew INVALID_MEMORY_ADDRESS.

End Rec.
End Float.
