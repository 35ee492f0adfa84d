(** The words defined in core.fth: C55, C56.  [lib_effect] and [lib_action] (Spec15) speak of every word whose
    compiled definition is that of core.fth; that the loaded system contains these words is [C55_installed]. *)
From Coq Require Import ZArith List Bool Lia String.
From Verif Require Import Base Stack Mem Parser Flt State CoreM Exec Boot Std.
From Verif Require Import Spec Spec2 Spec4 Spec5 Spec7 Spec10 Spec15.
From Verif Require Import LLib LLibWords Ex Ex10.
Import ListNotations.
Open Scope list_scope.
Open Scope Z_scope.
Open Scope m_scope.

(** * C55: arithmetic, stack and memory words *)

(** In the loaded system every name finds the word with the definition in Spec15, in both builds *)
Theorem C55_installed : exists ix, @installed env_d ix booted_d /\ @installed env_r ix booted_r.
Proof. exact (ex_intro _ ix0 (conj booted_installed booted_installed_r)). Qed.
Print Assumptions C55_installed.

(** Called from the interpreter (instruction pointer 0), such a word ends normally in the state described *)
Theorem C55_interpreted {E : Env} : forall (K : Z -> Prop) v i (Q : vm -> Prop), does K v i Q -> addressable v ->
  exists fuel v' w, (execute_word fuel i ;;; run fuel) (set_ip 0 v) = Ok (tt, w) /\ continues v' 0 w /\ Q v'.
Proof. exact does_run. Qed.
Print Assumptions C55_interpreted.

(** `2*` doubles, wrapping around *)
Theorem C55_two_star {E : Env} : forall n,
  lib_effect d_two_star [n] (result1 (wraps_to (2 * n))).
Proof. exact two_star_lib. Qed.
Print Assumptions C55_two_star.

(** `2/` divides by two, rounding towards zero (so it is not the arithmetic shift of the standard: -1 gives 0) *)
Theorem C55_two_slash {E : Env} : forall n,
  is_cell n -> lib_effect d_two_slash [n] (result1 (fun q => exists r, quot_rem n 2 q r)).
Proof. exact two_slash_lib. Qed.
Print Assumptions C55_two_slash.

Theorem C55_le {E : Env} : forall n t,
  lib_effect d_le [t; n] (result1 (fun f => truth f (n <= t))).
Proof. exact le_lib. Qed.
Print Assumptions C55_le.

Theorem C55_ge {E : Env} : forall n t,
  lib_effect d_ge [t; n] (result1 (fun f => truth f (n >= t))).
Proof. exact ge_lib. Qed.
Print Assumptions C55_ge.

Theorem C55_max {E : Env} : forall x y,
  lib_effect d_max [y; x] (eq [Z.max x y]).
Proof. exact max_lib. Qed.
Print Assumptions C55_max.

Theorem C55_min {E : Env} : forall x y,
  lib_effect d_min [y; x] (eq [Z.min x y]).
Proof. exact min_lib. Qed.
Print Assumptions C55_min.

Theorem C55_qdup {E : Env} : forall x,
  lib_effect d_qdup [x] (eq (if x =? 0 then [0] else [x; x])).
Proof. exact qdup_lib. Qed.
Print Assumptions C55_qdup.

Theorem C55_tuck {E : Env} : forall x y,
  lib_effect d_tuck [y; x] (eq [y; x; y]).
Proof. exact tuck_lib. Qed.
Print Assumptions C55_tuck.

(** `/string`: address and length of a string; the first [n] characters are cut off *)
Theorem C55_slash_string {E : Env} : forall a n u,
  lib_effect d_slash_string [n; u; a]
    (fun outs => exists u' a', outs = [u'; a'] /\ wraps_to (u - n) u' /\ wraps_to (a + n) a').
Proof. exact slash_string_lib. Qed.
Print Assumptions C55_slash_string.

Theorem C55_bounds {E : Env} : forall a n,
  lib_effect d_bounds [n; a] (fun outs => exists e, outs = [a; e] /\ wraps_to (a + n) e).
Proof. exact bounds_lib. Qed.
Print Assumptions C55_bounds.

(** `chars` does nothing: characters are bytes *)
Theorem C55_chars {E : Env} : 
  lib_effect (fun _ => d_chars) [] (eq []).
Proof. exact chars_lib. Qed.
Print Assumptions C55_chars.

Theorem C55_two_fetch {E : Env} : forall a x y,
  lib_action d_two_fetch [a]
    (fun _ v => start (v_ds v) < a /\ a + 16 <= limit (v_ds v) /\ cell_at (v_ds v) a x /\ cell_at (v_ds v) (a + 8) y /\
       is_cell x /\ is_cell y)
    (fun v outs m text => outs = [x; y] /\ m = v_ds v /\ text = []).
Proof. exact two_fetch_lib. Qed.
Print Assumptions C55_two_fetch.

Theorem C55_two_store {E : Env} : forall a x y,
  lib_action d_two_store [a; x; y]
    (fun K v => free_of K v a 16)
    (fun v outs m text => outs = [] /\ cell_at m a x /\ cell_at m (a + 8) y /\ same_memory_but (v_ds v) m a 16 /\
       here m = here (v_ds v) /\ text = []).
Proof. exact two_store_lib. Qed.
Print Assumptions C55_two_store.

Theorem C55_plus_store {E : Env} : forall a n x,
  lib_action d_plus_store [a; n]
    (fun K v => free_of K v a 8 /\ cell_at (v_ds v) a x /\ is_cell x)
    (fun v outs m text => outs = [] /\ (exists y, wraps_to (x + n) y /\ cell_at m a y) /\ same_memory_but (v_ds v) m a 8 /\
       here m = here (v_ds v) /\ text = []).
Proof. exact plus_store_lib. Qed.
Print Assumptions C55_plus_store.

Theorem C55_count {E : Env} : forall a,
  lib_action d_count [a]
    (fun _ v => start (v_ds v) <= a < limit (v_ds v))
    (fun v outs m text => outs = [byte_at (v_ds v) a; a + 1] /\ m = v_ds v /\ text = []).
Proof. exact count_lib. Qed.
Print Assumptions C55_count.

Theorem C55_on {E : Env} : forall a,
  lib_action d_on [a]
    (fun K v => free_of K v a 8)
    (fun v outs m text => outs = [] /\ cell_at m a (-1) /\ same_memory_but (v_ds v) m a 8 /\ here m = here (v_ds v) /\ text = []).
Proof. exact on_lib. Qed.
Print Assumptions C55_on.

Theorem C55_off {E : Env} : forall a,
  lib_action d_off [a]
    (fun K v => free_of K v a 8)
    (fun v outs m text => outs = [] /\ cell_at m a 0 /\ same_memory_but (v_ds v) m a 8 /\ here m = here (v_ds v) /\ text = []).
Proof. exact off_lib. Qed.
Print Assumptions C55_off.

Theorem C55_c_comma {E : Env} : forall c,
  lib_action d_c_comma [c]
    (fun K v => free_of K v (here (v_ds v)) 1)
    (fun v outs m text => outs = [] /\ byte_at m (here (v_ds v)) = c mod 256 /\ here m = here (v_ds v) + 1 /\
       same_memory_but (v_ds v) m (here (v_ds v)) 1 /\ text = []).
Proof. exact c_comma_lib. Qed.
Print Assumptions C55_c_comma.

(** `2,`; [ts] is the word `2!` *)
Theorem C55_two_comma {E : Env} : forall ts x y,
  lib_action (fun ix => d_two_comma ix ts) [x; y]
    (fun K v => len (t_s (cur v)) <= 240 /\ len (t_r (cur v)) <= 240 /\ free_of K v (here (v_ds v)) 16 /\
       exists ix, library ix v /\ colon_word K v ts (d_two_store ix) (ix P_exit))
    (fun v outs m text => outs = [] /\ cell_at m (here (v_ds v)) x /\ cell_at m (here (v_ds v) + 8) y /\
       here m = here (v_ds v) + 16 /\ same_memory_but (v_ds v) m (here (v_ds v)) 16 /\ text = []).
Proof. exact two_comma_lib. Qed.
Print Assumptions C55_two_comma.

Example C55_example : forall name d, In (name, d) core_words -> (* for all of them: the booted system with three cells *)
  lib_ready [7; -3; here (v_ds booted_d)] name d.
Proof. intros name d H. apply lib_ready_all; [exact H|vm_compute; reflexivity]. Qed.
Example C55_example_line :
  after "9223372036854775807 2* -7 2/ 3 -4 max 3 -4 min 3 4 <= 4 3 <= 3 4 >= 0 ?dup 1 2 tuck 100 10 3 /string 100 10 bounds" =
  Some [100; 110; 7; 103; 2; 1; 2; 0; 0; 0; -1; -4; 3; -3; -2] /\
  after "variable x 40 x ! 2 x +! x @ 5 6 x 2! x 2@ x on x @ x off x @ here 300 c, 44 c, dup 1 + c@ swap count nip here 7 8 2, dup 8 + @ swap @" =
  Some [8; 7; 44; 44; 0; -1; 6; 5; 42].
Proof. split; vm_compute; reflexivity. Qed.

(** * C56: FILL and SPACES *)

(** Exactly the [n] bytes at [a] are set; none if [n] is not positive *)
Theorem C56_fill {E : Env} : forall a n c,
  is_cell n -> lib_action d_fill [c; n; a]
    (fun K v => 0 < n -> free_of K v a n)
    (fun v outs m text => outs = [] /\ (forall k, 0 <= k < n -> byte_at m (a + k) = c mod 256) /\
       same_memory_but (v_ds v) m a (Z.max 0 n) /\ here m = here (v_ds v) /\ text = []).
Proof. exact fill_lib. Qed.
Print Assumptions C56_fill.

Theorem C56_space {E : Env} : 
  lib_action d_space [] (fun _ _ => True) (fun v outs m text => outs = [] /\ m = v_ds v /\ text = [32]).
Proof. exact space_lib. Qed.
Print Assumptions C56_space.

Theorem C56_cr {E : Env} : 
  lib_action d_cr [] (fun _ _ => True) (fun v outs m text => outs = [] /\ m = v_ds v /\ text = [10]).
Proof. exact cr_lib. Qed.
Print Assumptions C56_cr.

(** [sp] is the word `space`; for negative [n] nothing is printed *)
Theorem C56_spaces {E : Env} : forall sp n,
  is_cell n -> lib_action (fun ix => d_spaces ix sp) [n]
    (fun K v => len (t_s (cur v)) <= 240 /\ len (t_r (cur v)) <= 240 /\
       exists ix, library ix v /\ colon_word K v sp (d_space ix) (ix P_exit))
    (fun v outs m text => outs = [] /\ m = v_ds v /\ text = repeat 32 (Z.to_nat n)).
Proof. exact spaces_lib. Qed.
Print Assumptions C56_spaces.

Example C56_example : (* three cells for FILL; and lines that print *)
  lib_ready [42; 3; here (v_ds booted_d)] "fill" d_fill /\
  after "here 3 42 fill here 3 + c@ here 2 + c@ here c@" = Some [42; 42; 0] /\
  match load_str 3000 (b "3 spaces -3 spaces cr") (set_v_out (Some []) booted_d) with Ok (_, v) => v_out v | _ => None end = Some [32; 32; 32; 10].
Proof. split; [apply lib_ready_all; [cbn; tauto|vm_compute; reflexivity]|]. split; vm_compute; reflexivity. Qed.
