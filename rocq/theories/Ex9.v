(** Machines used by the examples of the interpreter properties. *)
From Coq Require Import ZArith List Bool Lia ZifyBool ZifyNat String.
From Verif Require Import Base Stack Mem Parser State CoreM IoM Exec Boot Std Spec Spec4 Spec5 Spec6 Spec7 Spec9 Spec10 Spec11 Spec12 Spec14.
From Verif Require Import LBase LStack LState LMem LMon LCode LDict LDict2 LDec LComp LCtl LSay LNoInput Ex Ex2 Ex3 Ex6 Ex7 Ex8.
Import ListNotations.
Open Scope list_scope.
Open Scope Z_scope.
Open Scope m_scope.

(** ** Histories *)
Lemma booted_own : @own_history env_d booted_d.
Proof. apply (@own_new env_d FUEL 65536 65536 CCanary fs0); [lia|lia|lia|exact boot_d_ok]. Qed.
Definition line_d (s : string) (v : @vm env_d) : @vm env_d := state_of booted_d (load_str 3000 (b s) v).
Definition line_ok (s : string) (v : @vm env_d) : bool := is_ok (load_str 3000 (b s) v).
Lemma line_runs s v : line_ok s v = true -> load_str 3000 (b s) v = Ok (tt, line_d s v).
Proof. intro H. apply ok_state. exact H. Qed.
Lemma line_own s v : line_ok s v = true -> @own_history env_d v -> own_history (line_d s v).
Proof. intros H O. eapply own_load; [exact O|apply line_runs; exact H]. Qed.
Definition undefined_line : @vm env_d := line_d "1 nosuchword" booted_d.
Lemma undefined_own : own_history undefined_line /\ v_err undefined_line = Some (-13).
Proof.
  split; [apply line_own; [vm_cast_no_check (@eq_refl bool true)|exact booted_own]|].
  apply err_eqb_eq. vm_cast_no_check (@eq_refl bool true).
Qed.

(** ** Lines that crash *)
Inductive crash := Crash_expect | Crash_slice | Crash_index | Crash_overflow | Crash_ub | No_crash.
Definition outcome {A} (r : res A) : crash :=
  match r with
  | Panic PExpect => Crash_expect | Panic PSlice => Crash_slice | Panic PIndex => Crash_index | Panic POverflow => Crash_overflow
  | UB => Crash_ub | _ => No_crash
  end.
Definition crash_eqb (a c : crash) : bool :=
  match a, c with
  | Crash_expect, Crash_expect | Crash_slice, Crash_slice | Crash_index, Crash_index | Crash_overflow, Crash_overflow | Crash_ub, Crash_ub | No_crash, No_crash => true
  | _, _ => false
  end.
Lemma crash_eqb_eq a c : crash_eqb a c = true -> a = c.
Proof. destruct a, c; cbn; congruence. Qed.
(** the line, what happens in the debug build, what happens in the release build *)
Definition crash_lines : list (string * crash * crash) :=
  [(": x s""", Crash_slice, Crash_slice);
   ("0 5 type", Crash_ub, Crash_ub);
   (": x _postpone ; 99999 x", Crash_index, Crash_index);
   ("1 99999 (xtime)", Crash_overflow, Crash_index);
   ("-1 !token", Crash_overflow, Crash_ub);
   ("-4 @", Crash_overflow, Crash_ub);
   ("9223372036854775807 cells", Crash_overflow, No_crash);
   ("-9223372036854775808 suspend", Crash_overflow, No_crash)]%string.
Definition crash_check (x : string * crash * crash) : bool :=
  crash_eqb (outcome (load_str 3000 (b (fst (fst x))) booted_d)) (snd (fst x)) &&
  crash_eqb (outcome (load_str 3000 (b (fst (fst x))) booted_r)) (snd x).
Lemma crash_all : forallb crash_check crash_lines = true.
Proof. vm_cast_no_check (@eq_refl bool true). Qed.
Lemma crashes line d r : In (line, d, r) crash_lines ->
  outcome (load_str 3000 (b line) booted_d) = d /\ outcome (load_str 3000 (b line) booted_r) = r.
Proof.
  intro H. pose proof crash_all as C. rewrite forallb_forall in C. apply C in H. unfold crash_check in H. cbn [fst snd] in H.
  apply andb_prop in H as (A & B). split; apply crash_eqb_eq; assumption.
Qed.

(** ** Labels that leak *)
Definition eqn (o : option Z) (e : option Z) : bool := match o, e with Some a, Some c => a =? c | None, None => true | _, _ => false end.
Lemma eqn_eq o e : eqn o e = true -> o = e.
Proof. destruct o, e; cbn; try congruence. intro. f_equal. lia. Qed.
Definition broken_def : @vm env_d := line_d ": x [ 1 ] goto nosuch" booted_d.
Definition after_reset : @vm env_d := state_of booted_d (exec_prim 0 ew_oof P_reset broken_def).
Definition next_def : @vm env_d := line_d ": y ;" after_reset.
Definition alone_def : @vm env_d := line_d ": y ;" booted_d.
Lemma labels_leak : exists v1 v2 v3 w,
  load_str 3000 (b ": x [ 1 ] goto nosuch") booted_d = Ok (tt, v1) /\ v_err v1 = Some (-13) /\
  quiet 0 P_reset v1 v2 /\ v_err v2 = None /\ len (t_c (cur v2)) = 0 /\
  load_str 3000 (b ": y ;") v2 = Ok (tt, v3) /\ v_err v3 = Some (-22) /\
  load_str 3000 (b ": y ;") booted_d = Ok (tt, w) /\ v_err w = None.
Proof.
  exists broken_def, after_reset, next_def, alone_def.
  split; [apply line_runs; vm_cast_no_check (@eq_refl bool true)|].
  split; [apply eqn_eq; vm_cast_no_check (@eq_refl bool true)|].
  split; [apply (quiet_run booted_d); vm_cast_no_check (@eq_refl bool true)|].
  split; [apply eqn_eq; vm_cast_no_check (@eq_refl bool true)|].
  split; [vm_cast_no_check (@eq_refl Z 0)|].
  split; [apply line_runs; vm_cast_no_check (@eq_refl bool true)|].
  split; [apply eqn_eq; vm_cast_no_check (@eq_refl bool true)|].
  split; [apply line_runs; vm_cast_no_check (@eq_refl bool true)|].
  apply eqn_eq; vm_cast_no_check (@eq_refl bool true).
Qed.
Definition label_def : @vm env_d := line_d ": a [ 1 ] label ;" booted_d.
Definition label_again : @vm env_d := line_d ": b [ 1 ] label ;" label_def.
Definition label_alone : @vm env_d := line_d ": b [ 1 ] label ;" booted_d.
Lemma resolved_leak : exists v1 v2 w,
  load_str 3000 (b ": a [ 1 ] label ;") booted_d = Ok (tt, v1) /\ v_err v1 = None /\
  load_str 3000 (b ": b [ 1 ] label ;") v1 = Ok (tt, v2) /\ v_err v2 = Some (-24) /\
  load_str 3000 (b ": b [ 1 ] label ;") booted_d = Ok (tt, w) /\ v_err w = None.
Proof.
  exists label_def, label_again, label_alone.
  split; [apply line_runs; vm_cast_no_check (@eq_refl bool true)|].
  split; [apply eqn_eq; vm_cast_no_check (@eq_refl bool true)|].
  split; [apply line_runs; vm_cast_no_check (@eq_refl bool true)|].
  split; [apply eqn_eq; vm_cast_no_check (@eq_refl bool true)|].
  split; [apply line_runs; vm_cast_no_check (@eq_refl bool true)|].
  apply eqn_eq; vm_cast_no_check (@eq_refl bool true).
Qed.
(** a definition whose semicolon succeeds *)
Definition open_def : @vm env_d := line_d ": y dup" booted_d.
Definition closed_def : @vm env_d := state_of booted_d (exec_prim 0 ew_oof P_semicolon open_def).
Lemma closed_quiet : quiet 0 P_semicolon open_def closed_def.
Proof. apply (quiet_run booted_d). vm_cast_no_check (@eq_refl bool true). Qed.
Lemma open_compiling : st_compiling (st open_def) = true.
Proof. vm_cast_no_check (@eq_refl bool true). Qed.

(** ** A task without input *)
Definition task1 : @vm env_d := set_v_cur 1 booted_d.
Lemma task1_no_input : no_input task1.
Proof.
  left. split.
  - assert (H : st_sid (st task1) = 0) by (vm_cast_no_check (@eq_refl Z 0)). rewrite H. discriminate.
  - vm_cast_no_check (@eq_refl (option bytes) None).
Qed.
Lemma task1_token : v_tkn task1 <> None.
Proof.
  assert (H : match v_tkn task1 with Some _ => true | None => false end = true) by (vm_cast_no_check (@eq_refl bool true)).
  destruct (v_tkn task1); [discriminate|discriminate H].
Qed.
Lemma task1_dict : dict_ok task1. Proof. exact booted_dict. Qed.
Lemma task1_words : words task1 < Z.of_nat 400. Proof. exact (bt_words []). Qed.
(** such a task from Forth source: task 2 runs PARSE when the main task pauses *)
Definition background : string := ": t 2 activate 41 parse begin pause again ; : p pause ; t p".
Lemma background_panics : load_str 3000 (b background) booted_d = Panic PExpect.
Proof. apply panic_eq. vm_cast_no_check (@eq_refl bool true). Qed.

(** ** Text *)
(** [v] with the input [s] *)
Definition inp {E : Env} (s : bytes) (v : vm) : vm := set_idx 0 (upd_cur (set_t_inbuf (Some s)) v).
Lemma inp_can {E : Env} l n s v : can_compile l n v -> can_compile l n (inp s v).
Proof. unfold can_compile, compiler_ready, word_is, inp. gnorm. exact id. Qed.
Lemma inp_rest {E : Env} s v : st_sid (st v) <= 0 -> zlen s < 2 ^ 63 -> rest_of_input (inp s v) s.
Proof.
  intros H L. exists s, []. split; [|split; [reflexivity|split; [|exact L]]].
  - left. unfold inp. gnorm. split; [exact H|reflexivity].
  - unfold inp. gnorm. reflexivity.
Qed.
Lemma booted_sid : st_sid (st booted_d) <= 0.
Proof. assert (H : st_sid (st booted_d) = 0) by (vm_cast_no_check (@eq_refl Z 0)). rewrite H. discriminate. Qed.
Definition quoted : bytes := b " Hello, world"" cr".
Definition say_d : @vm env_d := inp quoted booted_d.
Lemma say_can : can_compile false 64 say_d. Proof. apply inp_can, booted_can. Qed.
Lemma say_rest : rest_of_input say_d quoted. Proof. apply inp_rest; [exact booted_sid|reflexivity]. Qed.
Lemma say_ascii : utf8_text (b "Hello, world"" cr") (b "Hello, world"" cr").
Proof. apply ascii_utf8. reflexivity. Qed.
Lemma say_upto : text_upto 34 (b "Hello, world"" cr") (b "Hello, world") (b " cr").
Proof.
  apply (Up_found 34 (b "Hello, world") (b "Hello, world") [34] (b " cr") (b " cr")).
  - apply ascii_utf8. reflexivity.
  - vm_compute. intuition discriminate.
  - apply U1. lia.
  - apply ascii_utf8. reflexivity.
Qed.
Lemma say_cs : w_cs (word_of say_d (idx_s_quote (v_refs say_d))) <> CS_compile_leave.
Proof.
  change (w_cs (word_of booted_d (idx_s_quote (v_refs booted_d))) <> CS_compile_leave).
  assert (H : w_cs (word_of booted_d (idx_s_quote (v_refs booted_d))) = CS_compile_word) by (vm_cast_no_check (@eq_refl csem CS_compile_word)).
  rewrite H. discriminate.
Qed.
Lemma say_type : idx_type (v_refs say_d) = idx_type (v_refs booted_d) /\ 0 <= idx_type (v_refs booted_d) < words booted_d /\
  word_is booted_d (idx_type (v_refs booted_d)) P_p_type.
Proof.
  split; [reflexivity|]. split; [|apply booted_word; vm_cast_no_check (@eq_refl bool true)].
  assert (H : (0 <=? idx_type (v_refs booted_d)) && (idx_type (v_refs booted_d) <? words booted_d) = true) by (vm_cast_no_check (@eq_refl bool true)).
  lia.
Qed.
(** the bytes of a text in memory *)
Definition typed : @vm env_d := stk [5; 65600; 7] (mem 65600 (b "hello") vm_d).
Lemma typed_has : stack_has (t_s (cur typed)) [5; 65600; 7]. Proof. apply stack_hasb_ok. vm_cast_no_check (@eq_refl bool true). Qed.
Lemma typed_text : bytes_at (v_ds typed) 65600 (b "hello"). Proof. apply mem_hasb_ok. vm_cast_no_check (@eq_refl bool true). Qed.
Lemma typed_canary : sget (t_s (cur typed)) 255 = canary (t_s (cur typed)).
Proof. vm_cast_no_check (@eq_refl Z (sget (t_s (cur typed)) 255)). Qed.
Lemma type_ub : exec_prim 0 ew_nop P_p_type (ex_d [5; 0]) = UB.
Proof. apply ub_eq. lazy. reflexivity. Qed.
(** dot-quote compiled on the booted system, then run *)
Definition hello : prog := Seq (Str (b "Hello, world")) (Op (idx_type (v_refs booted_d))).
Lemma hello_room : fin hello (here (v_ds say_d)) <= limit (v_ds say_d).
Proof.
  change (fin hello (here (v_ds booted_d)) <= limit (v_ds booted_d)).
  assert (H : (fin hello (here (v_ds booted_d)) <=? limit (v_ds booted_d)) = true) by (vm_cast_no_check (@eq_refl bool true)). lia.
Qed.
Lemma hello_room1 : fin (Str (b "Hello, world")) (here (v_ds say_d)) <= limit (v_ds say_d).
Proof.
  change (fin (Str (b "Hello, world")) (here (v_ds booted_d)) <= limit (v_ds booted_d)).
  assert (H : (fin (Str (b "Hello, world")) (here (v_ds booted_d)) <=? limit (v_ds booted_d)) = true) by (vm_cast_no_check (@eq_refl bool true)). lia.
Qed.
Lemma hello_runs : exists v' v1 v2, quiet 0 P_dot_quote say_d v' /\
  holds (fun i => here (v_ds say_d) <= i < fin hello (here (v_ds say_d))) v' hello (here (v_ds say_d)) /\
  goes v' (here (v_ds say_d)) v2 (fin hello (here (v_ds say_d))) /\ stack_has (t_s (cur v1)) [] /\ printed v1 (b "Hello, world") v2.
Proof.
  destruct say_type as (T1 & T2 & T3).
  destruct (dot_quote_compiles 0 say_d 32 _ _ _ _ false 64 say_rest say_ascii say_upto say_can ltac:(lia) say_cs T2 hello_room) as (v' & Q & C & _).
  pose proof (compiled_holds _ _ _ (proj1 say_can) C hello_room) as H.
  assert (W : word_is v' (idx_type (v_refs booted_d)) P_p_type).
  { unfold word_is in *. replace (v_wl v') with (v_wl say_d); [exact T3|]. symmetry. apply C. }
  assert (S : t_s (cur v') = t_s (cur say_d)) by apply C.
  assert (S0 : t_s (cur say_d) = t_s (cur booted_d)) by (unfold say_d, inp; gnorm; reflexivity).
  destruct (dot_quote_runs _ v' _ _ _ [] H W) as (v1 & v2 & G & S1 & P1 & _).
  - rewrite S, S0. exact s0_has.
  - discriminate.
  - rewrite S, S0. lazy. reflexivity.
  - exists v', v1, v2. auto.
Qed.
Lemma type_unchecked : exists v : @vm env_d, stack_has (t_s (cur v)) [5; 0] /\ exec_prim 0 ew_nop P_p_type v = UB.
Proof. exists (ex_d [5; 0]). split; [apply ex_d_has; discriminate|exact type_ub]. Qed.
