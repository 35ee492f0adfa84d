(** Parsing words in a task that has no input (C62). *)
From Coq Require Import ZArith List Bool Lia ZifyBool ZifyNat String.
From Verif Require Import Base Stack Mem Parser Flt State CoreM IoM FloatM FileM Exec.
From Verif Require Import LBase LStack Spec Spec4 Spec9 Spec10 Spec14 LState LMem LMon LStep LTask LCode LDict LDict2 LDict3 LDict4 LDict5.
Import ListNotations.
Open Scope list_scope.
Open Scope Z_scope.
Open Scope m_scope.

Section N.
Context {E : Env}.
Implicit Types (v : vm).

Lemma get_no_input v : no_input v -> get_inbuf v = Ok (None, v).
Proof.
  unfold get_inbuf. intros [(A & B)|(A & B)].
  - replace (0 <? st_sid (st v)) with false by lia. rewrite B. reflexivity.
  - replace (0 <? st_sid (st v)) with true by lia. unfold nth_opt. replace (0 <=? st_sid (st v) - 1) with true by lia. rewrite B. reflexivity.
Qed.
Lemma expect_no_input {A} (k : bytes -> M A) v : no_input v -> bind expect_inbuf k v = Panic PExpect.
Proof. intro H. unfold bind at 1, expect_inbuf, bind at 1. rewrite (get_no_input v H). reflexivity. Qed.
Lemma no_input_same v v' : st v' = st v -> t_inbuf (cur v') = t_inbuf (cur v) -> t_lines (cur v') = t_lines (cur v) -> no_input v -> no_input v'.
Proof. unfold no_input. intros -> -> ->. exact id. Qed.
Lemma no_input_push v x : no_input v -> no_input (set_s (push (s_stk v) x) v).
Proof. apply no_input_same; unfold st; gnorm; reflexivity. Qed.
Lemma parse_panics v : no_input v -> parse v = Panic PExpect.
Proof. intro H. unfold parse. apply expect_no_input. exact H. Qed.
Lemma push_parse_panics x v : no_input v -> (s_push x ;;; parse) v = Panic PExpect.
Proof.
  intro H. unfold s_push. unfold bind at 1. apply (parse_panics _ (no_input_push v x H)).
Qed.

Definition scanning : list prim := [P_parse; P__skip; P_imm_paren; P_imm_backslash; P_s_quote; P_dot_quote; P_dot_paren].
Lemma scanning_panics fuel ew p v : In p scanning -> no_input v -> exec_prim fuel ew p v = Panic PExpect.
Proof.
  intros Hp H. cbn [scanning In] in Hp. destruct Hp as [<-|[<-|[<-|[<-|[<-|[<-|[<-|[]]]]]]]]; cbn [exec_prim].
  - apply parse_panics. exact H.
  - unfold _skip. apply expect_no_input. exact H.
  - apply push_parse_panics. exact H.
  - apply push_parse_panics. exact H.
  - unfold s_quote. apply expect_no_input. exact H.
  - unfold dot_quote. unfold bind at 1. unfold s_quote at 1. rewrite expect_no_input by exact H. reflexivity.
  - unfold dot_paren. rewrite <- bind_bind. unfold bind at 1. rewrite push_parse_panics by exact H. reflexivity.
Qed.

(** ** Words that take a name *)
Lemma parse_no_input v t : v_tkn v = Some t -> no_input v -> parse_word v = Ok (tt, set_v_tkn (Some []) (set_v_tkn None v)).
Proof.
  intros ET H. unfold parse_word.
  rewrite (bind_Ok _ _ _ t (set_v_tkn None v)) by (unfold take_token; rewrite ET; reflexivity).
  rewrite (bind_Ok _ _ _ None (set_v_tkn None v)) by (apply get_no_input; exact H). reflexivity.
Qed.
(** no word can be read: at the end of the input, or without input *)
Definition wordless v : Prop := exists v1, parse_word v = Ok (tt, v1) /\ v_tkn v1 = Some [] /\ fr v v1 /\ v_handler v1 = v_handler v.
Lemma wordless_no v : v_tkn v <> None -> no_input v -> wordless v.
Proof.
  intros HT H. destruct (v_tkn v) as [t|] eqn:ET; [|contradiction]. eexists. split; [eapply parse_no_input; eassumption|]. repeat split.
Qed.
Lemma define_wordless fuel v : dict_ok v -> words v < Z.of_nat fuel -> wordless v ->
  exists u, fr v u /\ v_handler u = v_handler v /\ forall ew a c, define fuel ew a c v = abort_with ew (-39) u.
Proof.
  intros HD Hf (v1 & E1 & ET & F1 & HH).
  set (v2 := set_v_tkn None v1). assert (F2 : fr v v2) by exact F1.
  destruct (find_newest fuel [] v2 (fr_dict _ _ F2 HD)) as (r & E2 & _).
  { destruct F2 as (A & _). unfold words in *. rewrite A. exact Hf. }
  assert (exists v3, (match r with Some _ => out_push (b "Redefining "%string ++ []) | None => ret tt end) v2 = Ok (tt, v3) /\ fr v v3 /\ v_handler v3 = v_handler v) as (v3 & E3 & F3 & H3).
  { destruct r; eexists; (split; [reflexivity|]); [destruct (v_out v2)|]; split; try exact F1; exact HH. }
  exists (set_v_tkn (Some []) v3). split; [exact F3|]. split; [exact H3|]. intros ew a c. unfold define.
  rewrite (bind_Ok _ _ _ tt v1) by exact E1. rewrite (bind_Ok take_token _ v1 [] (set_v_tkn None v1)) by (unfold take_token; rewrite ET; reflexivity).
  cbv zeta. cbn [map]. rewrite (bind_Ok _ _ _ r v2) by exact E2. rewrite (bind_Ok _ _ _ tt v3) by exact E3. reflexivity.
Qed.
Lemma ew_ret (ew : Z -> M unit) i v1 : ew i v1 = (ew i ;;; ret tt) v1.
Proof. unfold bind. destruct (ew i v1) as [[[] w]| | |]; reflexivity. Qed.

Lemma raises_abort fuel p v u k : v_handler u = v_handler v ->
  (forall ew, exec_prim fuel ew p v = (abort_with ew (-39) ;;; k ew) u) -> raises fuel (-39) p v.
Proof.
  intros HH HX. exists u, (aborted (-39) u), k. split; [apply aborted_raised|]. split; [exact HH|]. intro ew. rewrite HX.
  unfold bind. rewrite abort_with_eq, HH. reflexivity.
Qed.
Lemma raises_define fuel p v u a c k : dict_ok u -> words u < Z.of_nat fuel -> wordless u -> v_handler u = v_handler v ->
  (forall ew, exec_prim fuel ew p v = (define fuel ew a c ;;; k ew) u) -> raises fuel (-39) p v.
Proof.
  intros HD Hf HW HH HX. destruct (define_wordless fuel u HD Hf HW) as (u1 & _ & H1 & HF). apply (raises_abort fuel p v u1 k); [congruence|].
  intro ew. rewrite HX. unfold bind. rewrite HF. reflexivity.
Qed.
Lemma bind_ret_r (m : M unit) v : m v = (m ;;; ret tt) v.
Proof. unfold bind. destruct (m v) as [[[] w]| | |]; reflexivity. Qed.

Definition naming : list prim := [P_char; P_bracket_char; P_tick; P_bracket_tick; P_postpone; P_create; P_colon; P_constant; P_fconstant; P_marker].
Lemma naming_raises fuel p v : In p naming -> no_input v -> v_tkn v <> None -> dict_ok v -> words v < Z.of_nat fuel -> raises fuel (-39) p v.
Proof.
  intros Hp HN HT HD Hf. destruct (v_tkn v) as [t|] eqn:ET; [|contradiction].
  assert (HW : wordless v) by (apply wordless_no; [congruence|exact HN]).
  pose proof (parse_no_input v t ET HN) as HP. set (v1 := set_v_tkn (Some []) (set_v_tkn None v)) in *.
  set (v2 := set_v_tkn None v1). set (v3 := set_v_tkn (Some []) v2).
  assert (HC : forall ew, p_char ew v = abort_with ew (-39) v3).
  { intro ew. unfold p_char. rewrite (bind_Ok _ _ _ tt v1) by exact HP. rewrite (bind_Ok take_token _ v1 [] v2) by reflexivity. reflexivity. }
  cbn [naming In] in Hp. destruct Hp as [<-|[<-|[<-|[<-|[<-|[<-|[<-|[<-|[<-|[<-|[]]]]]]]]]]].
  - apply (raises_abort _ _ v v3 (fun _ => ret tt)); [reflexivity|]. intro ew. rewrite <- bind_ret_r. cbn [exec_prim]. apply HC.
  - eapply (raises_abort _ _ v v3 (fun ew => e <- gets v_err ;; match e with Some _ => ret tt | None => c <- s_pop ;; compile_integer c end)); [reflexivity|].
    intro ew. cbn [exec_prim]. unfold bracket_char. unfold bind at 1 4. rewrite HC. reflexivity.
  - apply (raises_abort _ _ v v3 (fun _ => ret tt)); [reflexivity|]. intro ew. rewrite <- bind_ret_r. cbn [exec_prim]. unfold tick, tick_with.
    rewrite (bind_Ok _ _ _ tt v1) by exact HP. rewrite (bind_Ok take_token _ v1 [] v2) by reflexivity. reflexivity.
  - apply (raises_abort _ _ v v3 (fun _ => ret tt)); [reflexivity|]. intro ew. rewrite <- bind_ret_r. cbn [exec_prim]. unfold bracket_tick, tick_with.
    rewrite (bind_Ok _ _ _ tt v1) by exact HP. rewrite (bind_Ok take_token _ v1 [] v2) by reflexivity. reflexivity.
  - apply (raises_abort _ _ v v3 (fun _ => ret tt)); [reflexivity|]. intro ew. rewrite <- bind_ret_r. cbn [exec_prim]. unfold postpone.
    rewrite (bind_Ok _ _ _ tt v1) by exact HP. rewrite (bind_Ok take_token _ v1 [] v2) by reflexivity. reflexivity.
  - apply (raises_define _ _ v v P_p_var CS_compile_var (fun _ => ret tt)); auto. intro ew. rewrite <- bind_ret_r. reflexivity.
  - eapply (raises_define _ _ v v P_nest CS_compile_nest); auto. intro ew. cbn [exec_prim]. unfold colon. reflexivity.
  - destruct (pop (s_stk v)) as (x & s) eqn:EP. set (u := set_s s v).
    assert (s_pop v = Ok (x, u)) as HS by (unfold s_pop; rewrite EP; reflexivity).
    eapply (raises_define _ _ v u P_p_const CS_compile_const (fun _ => e <- gets v_err ;; match e with Some _ => ret tt | None => ds_upd (fun d => compile_cell d x) end)); [exact HD|exact Hf| |reflexivity|].
    + apply wordless_no; [unfold u; cbn; congruence|]. revert HN. apply no_input_same; unfold u, st; gnorm; reflexivity.
    + intro ew. cbn [exec_prim]. unfold constant. rewrite (bind_Ok _ _ _ x u) by exact HS. reflexivity.
  - destruct (pop (f_stk v)) as (x & s) eqn:EP. set (u := set_f s v).
    assert (f_pop v = Ok (x, u)) as HS by (unfold f_pop; rewrite EP; reflexivity).
    eapply (raises_define _ _ v u P_p_fconst CS_compile_fconst (fun _ => ds_upd (ds_align chk) ;;; ds_upd (fun d => compile_cell d x))); [exact HD|exact Hf| |reflexivity|].
    + apply wordless_no; [unfold u; cbn; congruence|]. revert HN. apply no_input_same; unfold u, st; gnorm; reflexivity.
    + intro ew. cbn [exec_prim]. unfold fconstant. rewrite (bind_Ok _ _ _ x u) by exact HS. reflexivity.
  - set (u := set_v_wl (set_wl_temp (wl_buckets (v_wl v)) (v_wl v)) v).
    eapply (raises_define _ _ v u P_unmark CS_compile_unmark (fun _ => ds_upd (fun d => compile_cell d (wl_last (v_wl v))) ;;; marker_loop BUCKET_COUNT 0)).
    + exact HD.
    + exact Hf.
    + apply wordless_no; [unfold u; cbn; congruence|exact HN].
    + reflexivity.
    + intro ew. cbn [exec_prim]. unfold marker. rewrite bind_gets, bind_modify. reflexivity.
Qed.
Lemma word_no_input fuel v : no_input v -> v_tkn v <> None -> quiet fuel P_parse_word v (set_v_tkn (Some []) v).
Proof.
  intros HN HT ew. destruct (v_tkn v) as [t|] eqn:ET; [|contradiction]. cbn [exec_prim]. rewrite (parse_no_input v t ET HN). reflexivity.
Qed.
End N.
