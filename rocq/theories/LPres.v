(** Preservation for every primitive. *)
From Coq Require Import ZArith List Bool Lia ZifyBool ZifyNat.
From Verif Require Import Base Stack Mem Parser Flt State CoreM IoM FloatM FileM Exec.
From Verif Require Import LBase LStack Spec Spec13 LState LMem LMon LStep.
Import ListNotations.
Open Scope Z_scope.
Ltac Zify.zify_post_hook ::= Z.div_mod_to_equations.

Section Pres.
Context {E : Env}.
Variable R : vm -> vm -> Prop.
Hypothesis HR : closed R.
Notation pres := (pres R).

Ltac head t := lazymatch t with ?f _ => head f | _ => t end.
(** one stack or state update of the current task *)
Ltac upd :=
  let v := fresh "v" in let a := fresh "a" in let v' := fresh "v'" in let H := fresh "H" in
  intros v a v' H;
  lazymatch type of H with ?m v = _ => let h := head m in try unfold h in H end;
  cbv zeta in H; injection H as <- <-;
  unfold set_ip, set_wp, set_awp, set_idx, set_sid, set_compiling, ip;
  unfold set_s, set_r, set_c, set_f, set_st, s_stk, r_stk, c_stk, f_stk, st;
  rewrite ?upd_upd, ?cur_upd; apply (R_upd R HR); tst.

Lemma p_s_push x : pres (s_push x). Proof. upd. Qed.
Lemma p_s_push2 x y : pres (s_push2 x y). Proof. upd. Qed.
Lemma p_s_push3 x y z : pres (s_push3 x y z). Proof. upd. Qed.
Lemma p_s_pop : pres s_pop. Proof. upd. Qed.
Lemma p_s_pop2 : pres s_pop2. Proof. upd. Qed.
Lemma p_s_pop3 : pres s_pop3. Proof. upd. Qed.
Lemma p_r_push x : pres (r_push x). Proof. upd. Qed.
Lemma p_r_push2 x y : pres (r_push2 x y). Proof. upd. Qed.
Lemma p_r_pop : pres r_pop. Proof. upd. Qed.
Lemma p_r_pop2 : pres r_pop2. Proof. upd. Qed.
Lemma p_r_pop3 : pres r_pop3. Proof. upd. Qed.
Lemma p_c_push x : pres (c_push x). Proof. upd. Qed.
Lemma p_c_pop : pres c_pop. Proof. upd. Qed.
Lemma p_c_pop2 : pres c_pop2. Proof. upd. Qed.
Lemma p_f_push x : pres (f_push x). Proof. upd. Qed.
Lemma p_f_push2 x y : pres (f_push2 x y). Proof. upd. Qed.
Lemma p_f_push3 x y z : pres (f_push3 x y z). Proof. upd. Qed.
Lemma p_f_pop : pres f_pop. Proof. upd. Qed.
Lemma p_f_pop2 : pres f_pop2. Proof. upd. Qed.
Lemma p_f_pop3 : pres f_pop3. Proof. upd. Qed.

Lemma p_set_ip x : pres (modify (set_ip x)). Proof. upd. Qed.
Lemma p_set_wp x : pres (modify (set_wp x)). Proof. upd. Qed.
Lemma p_set_awp x : pres (modify (set_awp x)). Proof. upd. Qed.
Lemma p_set_idx x : 0 <= x < two64 -> pres (modify (set_idx x)). Proof. intro. upd. Qed.
Lemma p_set_compiling x : pres (modify (set_compiling x)). Proof. upd. Qed.
Lemma p_set_awp_wp : pres (modify (fun v => set_awp (st_wp (st v)) v)). Proof. upd. Qed.
Lemma p_set_sid0 : pres (modify (set_sid 0)). Proof. upd. Qed.
Lemma p_get_ip : pres get_ip. Proof. apply (p_gets R HR). Qed.
Lemma p_put_ip x : pres (put_ip x). Proof. apply p_set_ip. Qed.

(** the data stack rewritten by a function *)
Definition sgood (f : stack Z -> stack Z) : Prop :=
  forall s, canary (f s) = canary s /\ (len_ok s -> len_ok (f s)).
Lemma p_on_s f : sgood f -> pres (on_s f).
Proof.
  intros Hf v a v' H. injection H as <- <-. apply (R_upd R HR). destruct (Hf (s_stk v)) as [H1 H2].
  split; [reflexivity|]. split; [repeat split; try reflexivity; exact H1|].
  unfold task_ok. cbn. intros ((A & B) & C). split; [split; [apply H2; exact A|exact B]|exact C].
Qed.
Ltac sgd := let s := fresh in intro s; split; [reflexivity|]; unfold len_ok;
  unfold dup_, drop_, swap_, over_, nip_, depth_, rot_, minus_rot_, pick_, two_drop_, two_dup_, two_swap_, two_over_,
   one_plus_, one_minus_, plus_, minus_, star_, bin_, abs_, negate_, zero_less_, zero_equals_, zero_greater_, zero_not_equals_,
   equals_, less_than_, greater_than_, not_equals_, within_, invert_, and_, or_, xor_, lshift_, rshift_, slash_mod_, un_, bin2_,
   push, push2, push3, pop, pop2, pop3, sset, set_len, w8add, w8sub; cbn; lia.

Lemma sg_prims : Forall sgood [dup_; drop_; swap_; over_; nip_; depth_; rot_; minus_rot_; pick_; two_drop_; two_dup_;
   two_swap_; two_over_; one_plus_; one_minus_; plus_; minus_; star_; abs_; negate_; zero_less_; zero_equals_;
   zero_greater_; zero_not_equals_; equals_; less_than_; greater_than_; not_equals_; within_; invert_; and_; or_;
   xor_; lshift_; rshift_; slash_mod_; bin_ w_div; bin_ w_rem].
Proof. repeat (apply Forall_cons; [sgd|]). apply Forall_nil. Qed.
Lemma sg_in f : In f [dup_; drop_; swap_; over_; nip_; depth_; rot_; minus_rot_; pick_; two_drop_; two_dup_;
   two_swap_; two_over_; one_plus_; one_minus_; plus_; minus_; star_; abs_; negate_; zero_less_; zero_equals_;
   zero_greater_; zero_not_equals_; equals_; less_than_; greater_than_; not_equals_; within_; invert_; and_; or_;
   xor_; lshift_; rshift_; slash_mod_; bin_ w_div; bin_ w_rem] -> pres (on_s f).
Proof. intro H. apply p_on_s. eapply Forall_forall; [exact sg_prims|exact H]. Qed.

(** global fields *)
Ltac glb := let v := fresh "v" in apply (p_glob R HR); intro v;
  apply l_glob; reflexivity.
Lemma p_set_error e : known e -> pres (set_error e). Proof. intro H. apply (p_glob R HR); intro v. apply l_err. exact H. Qed.
Ltac code := first [exact I | assumption | cbn; tauto].
Lemma p_set_token t : pres (set_token t). Proof. glb. Qed.
Lemma p_take_token : pres take_token.
Proof. intros v a v' H. unfold take_token in H. destruct (v_tkn v); [|discriminate]. injection H as <- <-.
  apply (c_step _ HR), l_glob; reflexivity. Qed.
Lemma p_out_push s : pres (out_push s).
Proof. apply (p_glob R HR); intro v. apply l_glob; destruct (v_out v); reflexivity. Qed.
Lemma p_set_hld s : pres (modify (set_v_hld s)). Proof. glb. Qed.
Lemma p_os_call {A} (f : os -> os * A) : pres (os_call f).
Proof. intros v a v' H. unfold os_call in H. destruct (f (v_os v)). injection H as <- <-. apply (c_step _ HR), l_glob; reflexivity. Qed.
Lemma p_word_at i : pres (word_at i).
Proof. intros v a v' H. unfold word_at in H. destruct ((0 <=? i) && (i <? wl_len (v_wl v))); [|discriminate]. injection H as <- <-. apply (c_refl _ HR). Qed.
Lemma p_upd_word i f : (forall w, wstep w (f w)) -> pres (upd_word i f).
Proof.
  intros Hf v a v' H. unfold upd_word in H. destruct ((0 <=? i) && (i <? wl_len (v_wl v))) eqn:G; [|discriminate]. injection H as <- <-.
  apply (c_step _ HR), l_word; [lia|apply Hf].
Qed.
Lemma p_get_inbuf : pres get_inbuf.
Proof. intros v a v' H. unfold get_inbuf in H. destruct (0 <? _); [destruct nth_opt; [|discriminate]|]; injection H as <- <-; apply (c_refl _ HR). Qed.
Lemma length_set_nth {A} (l : list A) : forall n x, List.length (set_nth l n x) = List.length l.
Proof. induction l as [|y l IH]; intros [|n] x; cbn; auto. Qed.
Lemma p_put_inbuf s : pres (put_inbuf s).
Proof.
  intros v a v' H. unfold put_inbuf in H. destruct (0 <? _); [destruct nth_opt; [|discriminate]|]; injection H as <- <-;
    apply (R_upd R HR); tst; unfold zlen in *; cbn; rewrite ?length_set_nth; try lia.
Qed.
Lemma p_expect_inbuf : pres expect_inbuf.
Proof. apply (p_bind R HR); [apply p_get_inbuf|]. intros [s|]; [apply (p_ret R HR)|apply p_panic]. Qed.
Lemma p_index {A} (l : list A) i : pres (index_list l i).
Proof. unfold index_list. destruct nth_opt; [apply (p_ret R HR)|apply p_panic]. Qed.
Lemma p_slice s i : pres (slice_or_panic s i).
Proof. unfold slice_or_panic. destruct slice_from; [apply (p_ret R HR)|apply p_panic]. Qed.
Lemma p_compile_cell x : pres (ds_upd (fun d => compile_cell d x)).
Proof. apply (p_ds_upd R HR). intros d d'. apply dstep_compile_cell. Qed.
Lemma p_put_cell x a : pres (ds_upd (fun d => put_cell d x a)).
Proof. apply (p_ds_upd R HR). intros d d'. apply dstep_put_cell. Qed.
Lemma p_put_u8 x a : pres (ds_upd (fun d => put_u8 d x a)).
Proof. apply (p_ds_upd R HR). intros d d'. apply dstep_put_u8. Qed.
Lemma p_put_cstr s a : pres (ds_upd (fun d => put_cstr chk d s a)).
Proof. apply (p_ds_upd R HR). intros d d'. apply dstep_put_cstr. Qed.
Lemma p_ds_align : pres (ds_upd (ds_align chk)).
Proof. apply (p_ds_upd R HR). intros d d'. apply dstep_align. Qed.
Lemma p_ds_allot x : pres (ds_upd (fun d => ds_allot chk d x)).
Proof. apply (p_ds_upd R HR). intros d d'. apply dstep_allot. Qed.
Lemma p_compile_str_ s : pres (ds_upd (fun d => rbind (compile_str d s) (fun p => Ok (snd p)))).
Proof. apply (p_ds_upd R HR). intros d d' H. apply rbind_inv in H. destruct H as ([n d1] & H & [= <-]). eapply dstep_compile_str; exact H. Qed.
Lemma p_compile_name t : pres (fun v => rbind (compile_str (v_ds v) t) (fun p => Ok (fst p, set_v_ds (snd p) v))).
Proof. intros v a v' H. apply rbind_inv in H. destruct H as ([n d1] & H & [= <- <-]). apply (c_step _ HR), l_ds. eapply dstep_compile_str; exact H. Qed.
Lemma p_write_bytes a bs : pres (modify (fun v => set_v_ds (write_bytes (v_ds v) a bs) v)).
Proof. apply (p_glob R HR). intro v. apply l_ds, dstep_write_bytes. Qed.
Lemma p_wl_push name w : defined_action (w_action w) = true -> w_cs w <> CS_compile_leave ->
  pres (modify (fun v => set_v_wl (wl_push name w (v_wl v)) v)).
Proof. intros. apply (p_glob R HR). intro v. apply l_push; assumption. Qed.
Lemma p_set_temp : pres (modify (fun v => set_v_wl (set_wl_temp (wl_buckets (v_wl v)) (v_wl v)) v)).
Proof. apply (p_glob R HR). intro v. apply l_temp. Qed.
Lemma p_fold_s (f : stack Z -> stack Z) : sgood f -> pres (on_s f).
Proof. apply p_on_s. Qed.

Create HintDb pres discriminated.
Hint Extern 0 (LStep.pres _ (ret _)) => apply (p_ret R HR) : pres.
Hint Extern 0 (LStep.pres _ (panic _)) => apply (p_panic R) : pres.
Hint Extern 0 (LStep.pres _ (fun _ => UB)) => apply (p_ub R) : pres.
Hint Extern 0 (LStep.pres _ out_of_fuel) => apply (p_oof R) : pres.
Hint Extern 0 (LStep.pres _ get) => apply (p_get R HR) : pres.
Hint Resolve p_s_push p_s_push2 p_s_push3 p_s_pop p_s_pop2 p_s_pop3
  p_r_push p_r_push2 p_r_pop p_r_pop2 p_r_pop3 p_c_push p_c_pop p_c_pop2 p_f_push p_f_push2 p_f_push3 p_f_pop p_f_pop2 p_f_pop3 : pres.
Hint Resolve p_set_ip p_set_wp p_set_awp p_set_compiling p_set_awp_wp p_set_sid0 p_put_ip p_get_ip : pres.
Hint Extern 0 (LStep.pres _ (gets _)) => apply (p_gets R HR) : pres.
Hint Extern 0 (LStep.pres _ (ds_get _)) => apply (p_ds_get R HR) : pres.
Hint Extern 0 (LStep.pres _ (lift _)) => apply (p_lift R HR) : pres.
Hint Extern 0 (LStep.pres _ (chk_u64 _)) => apply (p_chk_u64 R HR) : pres.
Hint Extern 0 (LStep.pres _ (chk_i64 _)) => apply (p_chk_i64 R HR) : pres.
Hint Extern 0 (LStep.pres _ (chk_u8 _)) => apply (p_chk_u8 R HR) : pres.
Hint Extern 0 (LStep.pres _ (refs_get _)) => apply (p_gets R HR) : pres.
Hint Extern 0 (LStep.pres _ (modify (set_idx _))) => apply p_set_idx; first [assumption|apply to_u64_range|unfold two64; lia] : pres.
Hint Extern 0 (LStep.pres _ (set_error _)) => apply p_set_error; code : pres.
Hint Resolve p_set_token p_take_token p_out_push p_set_hld p_os_call p_word_at p_get_inbuf p_put_inbuf p_expect_inbuf
  p_index p_slice p_compile_cell p_put_cell p_put_u8 p_put_cstr p_ds_align p_ds_allot p_compile_str_ p_compile_name p_write_bytes p_set_temp : pres.
Hint Extern 0 (LStep.pres _ (upd_word _ _)) => apply p_upd_word; intro; repeat split; try (left; reflexivity); right; reflexivity : pres.
Hint Extern 0 (LStep.pres _ (modify (fun v => set_v_wl (wl_push _ _ _) v))) => apply p_wl_push; [reflexivity|discriminate] : pres.
Hint Extern 0 (LStep.pres _ (on_s _)) => (apply sg_in; cbn; tauto) : pres.

Ltac pr :=
  lazymatch goal with
  | |- LStep.pres _ (bind (chk_u64 _) _) => apply (p_bind_u64 R); intros; pr
  | |- LStep.pres _ (bind _ _) => apply (p_bind R HR); [pr | intro; pr]
  | |- LStep.pres _ (if ?b then _ else _) => destruct b; pr
  | |- LStep.pres _ (match ?x with _ => _ end) => destruct x; pr
  | |- LStep.pres _ (let x := _ in _) => cbv zeta; pr
  | |- LStep.pres _ (mapM_ _ _) => apply (p_mapM R HR); intro; pr
  | |- LStep.pres _ ?m => first [ solve [auto with pres nocore] | let h := head m in progress (unfold h); cbv beta; pr ]
  | |- _ => idtac
  end.
Ltac done := first [solve [upd] | solve [pr]].

(** Numbers *)
Lemma uint_in_base_err s base e : uint_in_base s base = Err e -> e = -11.
Proof.
  unfold uint_in_base. generalize 0. induction s as [|c s IH]; intro x; cbn [uint_in_base_loop]; [discriminate|].
  destruct (digit_of c) as [d|]; [|intros [= <-]; reflexivity]. destruct (base <=? d); [intros [= <-]; reflexivity|apply IH].
Qed.
Lemma uint_err s e : uint s = Err e -> e = -11.
Proof.
  unfold uint. generalize 0. induction s as [|c s IH]; intro x; cbn [uint_loop]; [discriminate|].
  destruct (_ && _); [|discriminate]. destruct (_ && _); [apply IH|intros [= <-]; reflexivity].
Qed.
Lemma fraction_err s e : fraction s = Err e -> e = -11.
Proof.
  destruct s as [|c s]; cbn [fraction]; [discriminate|]. destruct (c =? 46); [|discriminate].
  destruct (fraction_loop s 0 0) as [|x] eqn:Ef; [discriminate|]. intros [= <-]. revert Ef. generalize 0 at 1. generalize 0.
  induction s as [|d s IH]; intros y z; cbn [fraction_loop]; [discriminate|].
  destruct (_ && _); [|discriminate]. destruct (_ && _); [apply IH|intros [= <-]; reflexivity].
Qed.
Lemma exponent_err s e : exponent s = Err e -> e = -11.
Proof.
  unfold exponent. cbv zeta. repeat match goal with |- context [if ?b then _ else _] => destruct b end; try discriminate;
  match goal with |- context [uint ?x] => destruct (uint x) as [|y] eqn:Eu end; try discriminate; intros [= <-]; exact (uint_err _ _ Eu).
Qed.
Ltac num := apply p_set_error; first [code | match goal with
  | H : uint_in_base _ _ = Err _ |- _ => apply uint_in_base_err in H; subst; code
  | H : fraction _ = Err _ |- _ => apply fraction_err in H; subst; code
  | H : exponent _ = Err _ |- _ => apply exponent_err in H; subst; code
  | H : uint _ = Err _ |- _ => apply uint_err in H; subst; code end].
Lemma p_evaluate_integer t : pres (evaluate_integer t).
Proof.
  unfold evaluate_integer. apply (p_bind R HR); [pr|intro db]. destruct (quoted_char t); [pr|]. cbv zeta.
  destruct (uint_in_base _ _) as [[|]|] eqn:Eu; [pr|num|num].
Qed.
Lemma p_evaluate_float t : pres (evaluate_float t).
Proof.
  unfold evaluate_float. cbv zeta. destruct (uint _) eqn:E1; [|num]. destruct (_ =? _); [num|]. destruct (fraction _) eqn:E2; [|num].
  destruct (exponent _) as [[|? ?] [[? ?]|]|] eqn:E3; try num. pr.
Qed.
Hint Resolve p_evaluate_integer p_evaluate_float : pres.

(** Loops *)
Lemma p_find_loop h name : forall fuel w, pres (find_loop fuel h name w).
Proof. induction fuel as [|f IH]; intro w; cbn [find_loop]; [apply p_oof|]. pr. Qed.
Hint Resolve p_find_loop : pres.
Lemma p_find fuel name : pres (find fuel name). Proof. pr. Qed.
Hint Resolve p_find : pres.
Lemma p_resolve_loop h : forall n p, pres (resolve_loop n h p).
Proof. induction n as [|n IH]; intro p; cbn [resolve_loop]; [apply p_oof|]. pr. Qed.
Lemma p_marker_loop : forall n i, pres (marker_loop n i).
Proof. induction n as [|n IH]; intro i; cbn [marker_loop]; pr. Qed.
Lemma p_move_up : forall n a1 a2, pres (move_up n a1 a2).
Proof. induction n as [|n IH]; intros; cbn [move_up]; pr. Qed.
Lemma p_move_down : forall n a1 a2, pres (move_down n a1 a2).
Proof. induction n as [|n IH]; intros; cbn [move_down]; pr. Qed.
Lemma p_dot_xtime_loop : forall l b, pres (dot_xtime_loop l b).
Proof. induction l as [|x l IH]; intros; cbn [dot_xtime_loop]; pr. Qed.
Hint Resolve p_resolve_loop p_marker_loop p_move_up p_move_down p_dot_xtime_loop : pres.
Lemma p_label_set n x : pres (label_set n x). Proof. glb. Qed.
Hint Resolve p_label_set : pres.

Section Ew.
Variable fuel : nat.
Variable ew : Z -> M unit.
Hypothesis Habort : forall e, In e raised_codes -> pres (abort_with ew e).
Hint Extern 0 (LStep.pres _ (abort_with _ _)) => apply Habort; code : pres.
Hint Extern 0 (LStep.pres _ (mismatch _)) => apply Habort; code : pres.
Hint Extern 0 (LStep.pres _ (abort _)) => apply Habort; code : pres.

Lemma p_endcase_loop : forall n, pres (endcase_loop ew n).
Proof. induction n as [|n IH]; cbn [endcase_loop]; [apply p_oof|]. pr. Qed.
Hint Resolve p_endcase_loop : pres.
Lemma p_bs_fwd n : pres (modify (fun v => set_v_fwd (bs_remove (v_fwd v) n) v)). Proof. glb. Qed.
Lemma p_bs_fwd_add n : pres (modify (fun v => set_v_fwd (bs_add (v_fwd v) n) v)). Proof. glb. Qed.
Lemma p_bs_res n : pres (modify (fun v => set_v_res (bs_add (v_res v) n) v)). Proof. glb. Qed.
Lemma p_clear_labels : pres imm_clear_labels. Proof. glb. Qed.
Hint Resolve p_bs_fwd p_bs_fwd_add p_bs_res p_clear_labels : pres.
Lemma p_clear_stacks : pres clear_stacks.
Proof. apply (p_bind R HR); [upd|intros _]. apply (p_bind R HR); [upd|intros _]. upd. Qed.
Hint Resolve p_clear_stacks : pres.

(** source selection keeps the source id valid *)
Lemma nth_opt_some {A} (l : list A) i x : nth_opt l i = Some x -> 0 <= i < zlen l.
Proof.
  unfold nth_opt. destruct (0 <=? i) eqn:H; [|discriminate]. intro N.
  assert (nth_error l (Z.to_nat i) <> None) as K by congruence. apply nth_error_Some in K. unfold zlen. lia.
Qed.
Lemma p_set_source_id id : pres (set_source_id ew id).
Proof.
  unfold set_source_id. destruct (0 <? id) eqn:H0; [|destruct (id =? 0) eqn:H1; [|pr]].
  - intros v a v' H. apply bind_inv in H. destruct H as (ss & v1 & [= <- <-] & H).
    apply bind_inv in H. destruct H as (ls & v1 & [= <- <-] & H).
    destruct (id - 1 <? zlen (t_sources (cur v))); [|eapply Habort; [|exact H]; code].
    apply bind_inv in H. destruct H as (s & v1 & Hs & H).
    assert (v1 = v) as -> by (unfold index_list in Hs; destruct nth_opt; [injection Hs; congruence|discriminate]).
    destruct s; [|eapply Habort; [|exact H]; code].
    apply bind_inv in H. destruct H as (l & v1 & Hl & H).
    unfold index_list in Hl. destruct (nth_opt (t_lines (cur v)) (id - 1)) eqn:N; [|discriminate].
    injection Hl as <- <-. destruct o; [|eapply Habort; [|exact H]; code]. injection H as <- <-.
    apply nth_opt_some in N. apply (R_upd R HR). tst.
  - apply Z.eqb_eq in H1. subst. apply p_set_sid0.
Qed.
Hint Resolve p_set_source_id : pres.
Lemma p_reset_r : pres (modify (fun v => set_r (stack_reset (r_stk v)) v)). Proof. upd. Qed.
Hint Resolve p_reset_r : pres.
Lemma p_reset : pres (reset ew). Proof. pr. Qed.
Hint Resolve p_reset : pres.

(** files and sources of the current task *)
Lemma p_set_files l : pres (modify (set_files l)). Proof. upd. Qed.
Lemma p_close_slot i : pres (modify (fun v => set_files (set_nth (files v) i None) v)). Proof. upd. Qed.
Lemma p_os_close h : pres (modify (fun v => set_v_os (os_close (v_os v) h) v)). Proof. glb. Qed.
Lemma p_os_close_reader h : pres (modify (fun v => set_v_os (os_close_reader (v_os v) h) v)). Proof. glb. Qed.
Lemma p_upd_source i x : pres (modify (fun v => set_sources (set_nth (sources v) i x) v)).
Proof. upd; unfold sources in *; rewrite ?length_set_nth; assumption. Qed.
Lemma p_upd_line i x : pres (modify (fun v => set_lines (set_nth (lines v) i x) v)).
Proof. upd; unfold lines, zlen in *; rewrite ?length_set_nth; assumption. Qed.
Hint Resolve p_set_files p_close_slot p_os_close p_os_close_reader p_upd_source p_upd_line : pres.

Lemma first_none_app {A} (l : list (option A)) x :
  snd (alloc_slot l x) = match first_none l with Some p => set_nth l p (Some x) | None => l ++ [Some x] end.
Proof. unfold alloc_slot. destruct first_none; reflexivity. Qed.

Lemma p_open_source : pres (open_source ew).
Proof.
  unfold open_source. apply (p_bind R HR); [pr|]. intros [[a u] id].
  apply (p_bind R HR); [pr|]. intro l. destruct ((0 <? id) && (id - 1 <? zlen l)); [|pr].
  destruct (nth_opt l (id - 1)) as [[h|]|]; [|pr|pr].
  apply (p_bind R HR); [pr|]. intros _. apply (p_bind R HR); [pr|]. intro path.
  apply (p_bind R HR); [pr|]. intro r.
  intros v x v' H. apply bind_inv in H. destruct H as (ss & v1 & [= <- <-] & H).
  cbv zeta in H. apply bind_inv in H. destruct H as ([] & v1 & [= <-] & H).
  apply bind_inv in H. destruct H as ([] & v2 & [= <-] & H).
  rewrite first_none_app in H.
  destruct (first_none (sources v)) eqn:F; injection H as <- <-;
    unfold set_s, s_stk, set_sources, set_lines; rewrite ?upd_upd, ?cur_upd; apply (R_upd R HR); tst;
    unfold sources, lines, zlen in *; rewrite ?cur_upd; cbn; rewrite ?length_set_nth, ?app_length; cbn; lia.
Qed.
Lemma p_load_line_ id : pres (load_line id). Proof. pr. Qed.
Lemma load_line_code id v e v' : load_line id v = Ok (inr e, v') -> In e raised_codes.
Proof.
  unfold load_line. intro H. apply bind_inv in H. destruct H as (ss & v1 & _ & H).
  destruct ((0 <? id) && (id - 1 <? zlen ss)); [|injection H as <- _; code].
  apply bind_inv in H. destruct H as (x & v2 & _ & H). destruct x; [|injection H as <- _; code].
  apply bind_inv in H. destruct H as (ls & v3 & _ & H). apply bind_inv in H. destruct H as (x & v4 & _ & H).
  destruct x; [|injection H as <- _; code]. apply bind_inv in H. destruct H as (r & v5 & _ & H).
  apply bind_inv in H. destruct H as (? & v6 & _ & H). destruct (snd r); apply bind_inv in H; destruct H as (? & v7 & _ & H); [discriminate|].
  injection H as <- _. code.
Qed.
Lemma p_p_load_line : pres (p_load_line ew).
Proof.
  apply (p_bind R HR); [pr|intro x]. intros v a v' H. apply bind_inv in H. destruct H as (r & v1 & H1 & H2).
  apply (c_trans _ HR _ v1); [eapply p_load_line_; exact H1|]. destruct r as [[n m]|e].
  - assert (P : pres (s_push2 n (if m then -1 else 0))) by pr. eapply P. exact H2.
  - eapply Habort; [|exact H2]. eapply load_line_code. exact H1.
Qed.
Hint Resolve p_open_source p_load_line_ p_p_load_line : pres.

(** every primitive except the scheduler words, [handler!], a marker and the
    three words that execute an arbitrary other word *)
Definition special (p : prim) : bool :=
  match p with
  | P_pause | P_activate | P_suspend | P_resume | P_handler_store | P_unmark
  | P_execute | P_compile_token | P_interpret_token => true
  | _ => false
  end.

Lemma p_lit : pres lit.
Proof. apply (p_bind R HR); [pr|intro i]. apply (p_bind R HR); [pr|intro x]. apply (p_bind R HR); [|intro; pr]. apply p_on_s. sgd. Qed.
Lemma p_flit : pres flit.
Proof.
  apply (p_bind R HR); [pr|intro i]. apply (p_bind R HR); [pr|intro a]. apply (p_bind R HR); [pr|intro x].
  apply (p_bind R HR); [upd|intro; pr].
Qed.
Lemma p_p_s_quote : pres p_s_quote.
Proof. apply (p_bind R HR); [pr|intro i]. apply (p_bind R HR); [pr|intro x]. apply (p_bind R HR); [|intro; pr]. apply p_on_s. sgd. Qed.
Lemma p_nest : pres nest.
Proof. apply (p_bind R HR); [upd|intro; pr]. Qed.
Lemma p_flush : pres flush_output.
Proof. apply (p_glob R HR). intro v. apply l_glob; destruct (v_out v) as [[|]|]; reflexivity. Qed.
Lemma p_flush_err : pres flush_to_err.
Proof. apply (p_glob R HR). intro v. apply l_glob; destruct (v_out v); reflexivity. Qed.
Hint Resolve p_lit p_flit p_p_s_quote p_nest p_flush p_flush_err : pres.

Lemma p_prim_plain p : special p = false -> pres (exec_prim fuel ew p).
Proof. destruct p; intro S; try discriminate S; cbn [exec_prim]; done. Qed.

Lemma p_run_cs c i : pres (run_cs ew c i). Proof. pr. Qed.
Lemma p_check_stacks : pres (check_stacks ew). Proof. pr. Qed.
Lemma p_parse_word : pres parse_word. Proof. pr. Qed.

(** the words that execute another word *)
Hypothesis Hew : forall i, pres (ew i).
Hint Resolve Hew : pres.
Lemma p_execute : pres (execute ew). Proof. pr. Qed.
Lemma p_compile_token : pres (compile_token fuel ew). Proof. pr. Qed.
Lemma p_interpret_token : pres (interpret_token fuel ew). Proof. pr. Qed.

End Ew.

Lemma p_abort ew e : In e raised_codes -> (forall i, pres (ew i)) -> pres (abort_with ew e).
Proof.
  intros He H. apply (p_bind R HR); [apply p_clear_stacks|intros _]. apply (p_bind R HR); [pr|intros _].
  apply (p_bind R HR); [pr|intro h]. apply (p_bind R HR); [pr|intros _]. apply H.
Qed.

(** [handler!] changes only the handler besides popping *)
Lemma p_handler_store : (forall v h, R v (set_v_handler h v)) -> pres handler_store.
Proof. intro H. apply (p_bind R HR); [pr|intro x]. intros v a v' [= <- <-]. apply H. Qed.
(** [pause] only switches to an awake task *)
Lemma p_pause_loop : (forall v i, 0 <= i < NUM_TASKS -> t_awake (task_at v i) = true -> R v (set_v_cur i v)) ->
  forall fuel i, pres (pause_loop fuel i).
Proof.
  intros H. induction fuel as [|f IH]; intro i; cbn [pause_loop]; [apply p_oof|].
  intros v a v' K. cbv zeta in K. apply bind_inv in K. destruct K as (aw & v1 & [= <- <-] & K).
  unfold awake in K. destruct ((i + 1) mod NUM_TASKS <? NUM_TASKS) eqn:L; [|eapply IH; exact K].
  destruct (t_awake (task_at v ((i + 1) mod NUM_TASKS))) eqn:A; [|eapply IH; exact K].
  injection K as <- <-. rewrite L. apply H; [|exact A].
  pose proof (Z.mod_pos_bound (i + 1) NUM_TASKS eq_refl). lia.
Qed.
Lemma p_set_awake_word ew x : (forall e, In e raised_codes -> pres (abort_with ew e)) ->
  (forall v i x, 0 <= i < NUM_TASKS -> R v (put_task i (set_t_awake x (task_at v i)) v)) ->
  pres (set_awake_word ew x).
Proof.
  intros HA H. apply (p_bind R HR); [pr|intro y]. apply (p_bind R HR); [pr|intro z]. cbv zeta.
  destruct (to_u64 z <? NUM_TASKS) eqn:L; [|apply HA; code].
  intros v a v' [= <- <-]. rewrite L. apply H. pose proof (to_u64_range z). lia.
Qed.
(** what the wordlist may become when a marker is executed *)
Lemma p_unmark : (forall v w, wl_len w <= wl_len (v_wl v) -> wl_tbl w = wl_tbl (v_wl v) -> R v (set_v_wl w v)) -> pres unmark.
Proof.
  intro H.
  assert (L : forall n i dfa, pres (unmark_loop n i dfa)).
  { induction n as [|n IH]; intros i dfa; cbn [unmark_loop]; [pr|].
    apply (p_bind R HR); [pr|intro]. apply (p_bind R HR); [pr|intro]. apply (p_bind R HR); [|intros _; apply IH].
    intros v b v' [= <- <-]. apply H; [cbn; lia|reflexivity]. }
  apply (p_bind R HR); [pr|intro wp]. apply (p_bind R HR); [pr|intro w]. apply (p_bind R HR); [pr|intro x].
  apply (p_bind R HR); [intros v a v' [= <- <-]; apply H; [cbn; lia|reflexivity]|intros _].
  apply (p_bind R HR); [apply L|intros _].
  apply (p_bind R HR); [apply (p_glob R HR); intro v; apply l_ds, dstep_set_here|intros _].
  unfold wl_truncate.
  apply (p_bind R HR); [intros v a v' [= <- <-]; apply H; [cbn; lia|reflexivity]|intros _].
  apply (p_bind R HR); [pr|intro]. apply (p_bind R HR); [pr|intro].
  intros v a' v' [= <- <-]; apply H; [cbn; lia|reflexivity].
Qed.
End Pres.
