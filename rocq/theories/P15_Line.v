(** The text interpreter: C38.  The vocabulary is in Spec19. *)
From Coq Require Import ZArith List Bool Lia String.
From Verif Require Import Base Stack Mem Parser Flt State CoreM Exec Boot Std.
From Verif Require Import Spec Spec4 Spec9 Spec10 Spec11 Spec19.
From Verif Require Import LEval Ex Ex3 Ex7 Ex9 Ex14.
Import ListNotations.
Open Scope list_scope.
Open Scope Z_scope.
Open Scope m_scope.

(** * C38: a line is executed from left to right and stops at the first error *)

(** One token: what the machine does with a token is exactly its meaning.  Names come before numbers, integers before
    floats; a name is executed or compiled according to the state and to the word, a number is pushed or compiled, and
    anything else raises -13.  Both directions, so the meaning of every token is unique. *)
Theorem C38_token {E : Env} : forall fuel v t v', at_token fuel v t ->
  (performs fuel t v v' <-> exec_prim fuel (execute_word fuel) (if st_compiling (st v) then P_compile_token else P_interpret_token) v = Ok (tt, v')).
Proof. exact performs_iff. Qed.
Print Assumptions C38_token.
(** in the loaded system a number that is no word *)
Example C38_token_case : at_token 400 (bt (b "$-fF")) (b "$-fF") /\ newest (bt (b "$-fF")) (b "$-fF") None.
Proof.
  split; [|apply bt_unknown; exact un_hex]. split; [reflexivity|]. split; [apply bt_dict|]. split; [apply bt_words|]. split; [exists 10; apply bt_base|].
  assert (H : Z.eqb (idx_flit (v_refs (bt (b "$-fF")))) 0 = false) by (vm_cast_no_check (@eq_refl bool false)).
  intro K. rewrite K in H. discriminate.
Qed.

(** One line: if no exception is pending, performing the tokens one after the other, each completely, up to the first one
    that leaves an exception, is what the evaluator does. *)
Theorem C38_line {E : Env} : forall fuel v l v', line fuel v l v' -> evaluate_input (S (List.length l + fuel)) v = Ok (tt, v').
Proof. exact line_evaluates. Qed.
Print Assumptions C38_line.

(** It does nothing else *)
Theorem C38_only {E : Env} : forall fuel v l v' n v2, line fuel v l v' -> evaluate_input n v = Ok (tt, v2) -> v2 = v'.
Proof. exact line_only. Qed.
Print Assumptions C38_only.

(** Conversely every evaluation that returns is of this kind, as long as the dictionary and the base stay readable *)
Theorem C38_complete {E : Env} : forall n v v', v_err v = None ->
  (forall u t u1, after_tokens n v u -> reads u t u1 -> t <> [] -> at_token n u1 t) ->
  evaluate_input n v = Ok (tt, v') -> exists l, line n v l v'.
Proof. exact evaluate_line. Qed.
Print Assumptions C38_complete.

(** The tokens are the words of the text, from left to right, as long as no word touches the input itself: all of them if
    the line ends without an exception, otherwise those up to the first that leaves one, and the line ends in the state
    that this token leaves. *)
Theorem C38_in_order {E : Env} : forall fuel v l v', line fuel v l v' -> forall s cs ts,
  rest_of_input v s -> utf8_text s cs -> v_tkn v <> None -> tokens s ts -> Forall input_kept l ->
  exists rest, ts = map token_of l ++ rest /\ (v_err v' = None -> rest = []) /\
    (v_err v' <> None -> exists l1 x, l = l1 ++ [x] /\ left_error x /\ Forall (fun y => ~ left_error y) l1 /\ snd x = v').
Proof. exact line_in_order. Qed.
Print Assumptions C38_in_order.

(** In the loaded system: of the line 12 nosuch 7 the first two tokens take effect, and 7 has none *)
Example C38_line_case : exists v l v', set_source (b "12 nosuch 7") booted_d = Ok (tt, v) /\ line 400 v l v' /\ Forall input_kept l /\
  (exists u1 u2 u3, l = [(b "12", u1, u2); (b "nosuch", u3, v')] /\ v_err u2 = None /\ len (t_s (cur u2)) = 1 /\ sget (t_s (cur u2)) 0 = 12) /\
  v_err v' = Some (-13) /\ rest_of_input v (b "12 nosuch 7") /\ v_tkn v <> None /\ tokens (b "12 nosuch 7") [b "12"; b "nosuch"; b "7"].
Proof.
  destruct line38 as (l & v' & A & B & C & D & F). exists src38, l, v'. split; [exact src38_source|]. split; [exact A|]. split; [exact D|]. split; [exact F|].
  split; [exact C|]. split; [exact src38_rest|]. split; [exact src38_tkn|exact text38_tokens].
Qed.
Example C38_complete_case : forall u t u1, after_tokens 400 src38 u -> reads u t u1 -> t <> [] -> at_token 400 u1 t.
Proof. destruct line38 as (l & v' & A & _). exact (line_covers 400 src38 l v' A). Qed.

(** The claim fails when an exception is still pending from an earlier line.  After : five 5 ; and a line that aborts, the
    line five pushes nothing: the evaluator stops before the code of five has run.  The code is not lost: it runs during
    the next line, 1, which leaves 1 and 5.  Without the pending exception, five pushes 5. *)
Theorem C38_pending_refuted : exists v1 v2 v3 v4 w : @vm env_d,
  load_str 3000 (b ": five 5 ;") booted_d = Ok (tt, v1) /\ v_err v1 = None /\
  load_str 3000 (b "abort") v1 = Ok (tt, v2) /\ v_err v2 = Some (-1) /\ stack_has (t_s (cur v2)) [] /\
  load_str 3000 (b "five") v2 = Ok (tt, v3) /\ stack_has (t_s (cur v3)) [] /\
  load_str 3000 (b "1") v3 = Ok (tt, v4) /\ v_err v4 = None /\ stack_has (t_s (cur v4)) [5; 1] /\
  load_str 3000 (b "five") v1 = Ok (tt, w) /\ v_err w = None /\ stack_has (t_s (cur w)) [5].
Proof. exact pending. Qed.
Print Assumptions C38_pending_refuted.

(** The claim fails for a line that calls the evaluator itself: in evaluate-input abort 7 the 7 is pushed after ABORT has
    raised its exception, and the exception is gone *)
Theorem C38_cleared_refuted : exists v' : @vm env_d,
  load_str 3000 (b "evaluate-input abort 7") booted_d = Ok (tt, v') /\ v_err v' = None /\ stack_has (t_s (cur v')) [7].
Proof. exact cleared. Qed.
Print Assumptions C38_cleared_refuted.
