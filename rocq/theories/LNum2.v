(** Numbers at the level of the interpreter's words; printing. *)
From Coq Require Import ZArith List Bool Lia ZifyBool ZifyNat.
From Verif Require Import Base Stack Mem Parser Flt State CoreM IoM FloatM FileM Exec.
From Verif Require Import LBase LStack Spec Spec4 Spec5 Spec6 Spec9 Spec10 Spec11 LState LMem LMon LMemWords LStep LTask LCode LCtl LDict LDict2 LDict3 LDict4 LDict5 LParse LNum.
Import ListNotations.
Open Scope Z_scope.
Open Scope m_scope.
Ltac Zify.zify_post_hook ::= Z.div_mod_to_equations.

(** ** Printing *)
Lemma positional_snoc b ds d : positional b (ds ++ [d]) = positional b ds * b + d.
Proof. unfold positional. rewrite fold_left_app. reflexivity. Qed.
Lemma digits_spec b f : 2 <= b -> forall n acc, 0 <= n < b ^ Z.of_nat f -> (0 < f)%nat ->
  exists ds, digits_loop f b n acc = map digit_char ds ++ acc /\ ds <> [] /\ Forall (fun d => 0 <= d < b) ds /\ positional b ds = n /\ (List.length ds <= f)%nat.
Proof.
  intro Hb. induction f as [|f IH]; intros n acc Hn Hf; [lia|]. cbn [digits_loop]. destruct (n / b =? 0) eqn:EQ.
  - exists [n mod b]. assert (n mod b = n) by (apply Z.mod_small; apply Z.eqb_eq in EQ; apply Z.div_small_iff in EQ; lia).
    repeat split; [discriminate|constructor; [|constructor]; apply Z.mod_pos_bound; lia|cbn; lia|cbn; lia].
  - apply Z.eqb_neq in EQ. assert (Hq : 0 <= n / b < b ^ Z.of_nat f).
    { split; [apply Z.div_pos; lia|]. apply Z.div_lt_upper_bound; [lia|]. rewrite <- Z.pow_succ_r by lia. replace (Z.succ (Z.of_nat f)) with (Z.of_nat (S f)) by lia. lia. }
    assert (Hf0 : (0 < f)%nat). { destruct f; [|lia]. cbn in Hq. lia. }
    destruct (IH (n / b) (digit_char (n mod b) :: acc) Hq Hf0) as (ds & A & B & C & D & F). exists (ds ++ [n mod b]). rewrite A. split; [rewrite map_app, <- app_assoc; reflexivity|].
    split; [intro K; apply app_eq_nil in K; destruct K; discriminate|]. split; [apply Forall_app; split; [exact C|constructor; [apply Z.mod_pos_bound; lia|constructor]]|].
    split; [rewrite positional_snoc, D; pose proof (Z.div_mod n b ltac:(lia)); lia|]. rewrite app_length. cbn. lia.
Qed.
Lemma digit_char_ok d : 0 <= d < 16 -> digit (digit_char d) d.
Proof. intro H. unfold digit_char. destruct (d <? 10) eqn:K; [apply Dg_09|apply Dg_AF]; lia. Qed.
Lemma chars_digits b ds : b <= 16 -> Forall (fun d => 0 <= d < b) ds -> Forall2 digit (map digit_char ds) ds /\ Forall (fun d => d < b) ds.
Proof.
  intros Hb H. induction H as [|d ds Hd H (IH1 & IH2)]; [split; constructor|]. cbn [map]. split; constructor; try assumption; [apply digit_char_ok; lia|lia].
Qed.
Lemma radix_numeral b n : 2 <= b <= 16 -> 0 <= n < 2 ^ 64 -> numeral b (fmt_radix b n) n /\ 0 < zlen (fmt_radix b n) <= 64.
Proof.
  intros Hb Hn. unfold fmt_radix. assert (Hn' : 0 <= n < b ^ Z.of_nat 64) by (split; [lia|]; apply (Z.lt_le_trans _ (2 ^ 64)); [lia|]; apply Z.pow_le_mono_l; lia).
  destruct (digits_spec b 64 ltac:(lia) n [] Hn' ltac:(lia)) as (ds & A & B & C & D & F). rewrite A, app_nil_r. destruct (chars_digits b ds ltac:(lia) C) as (K1 & K2). split.
  - replace n with (1 * positional b ds) by lia. apply (Numeral b [] b [] 1 (map digit_char ds) ds); [constructor|constructor|destruct ds; [congruence|discriminate]|exact K1|exact K2].
  - unfold zlen. rewrite map_length. destruct ds; [congruence|]. cbn [List.length] in *. lia.
Qed.
Lemma minus_numeral b t n : numeral b t n -> (forall c r, t = c :: r -> exists d, digit c d) -> numeral b (45 :: t) (- n).
Proof.
  intros H HD. inversion H as [p b' g s t' ds Hp Hs Ht H2 HF Et En]. subst n. destruct p as [|p0 p].
  - inversion Hp; subst b'. destruct g as [|g0 g].
    + inversion Hs; subst s. cbn [app] in Et. subst t'. replace (- (1 * positional b ds)) with (-1 * positional b ds) by lia.
      apply (Numeral b [] b [45] (-1) t ds); [constructor|constructor|exact Ht|exact H2|exact HF].
    + exfalso. destruct (HD g0 (g ++ t')) as (d & Hd); [rewrite <- Et; reflexivity|]. apply digit_not in Hd. inversion Hs; subst; lia.
  - exfalso. destruct (HD p0 (p ++ g ++ t')) as (d & Hd); [rewrite <- Et; reflexivity|]. apply digit_not in Hd. inversion Hp; subst; lia.
Qed.
Lemma radix_first b n c r : 2 <= b <= 16 -> 0 <= n < 2 ^ 64 -> fmt_radix b n = c :: r -> exists d, digit c d.
Proof.
  intros Hb Hn EQ. unfold fmt_radix in EQ. assert (Hn' : 0 <= n < b ^ Z.of_nat 64) by (split; [lia|]; apply (Z.lt_le_trans _ (2 ^ 64)); [lia|]; apply Z.pow_le_mono_l; lia).
  destruct (digits_spec b 64 ltac:(lia) n [] Hn' ltac:(lia)) as (ds & A & B & C & D & F). rewrite A, app_nil_r in EQ. destruct ds as [|d ds]; [congruence|].
  inversion C; subst. injection EQ as <- _. exists d. apply digit_char_ok. lia.
Qed.
(** the text printed for [n] in base [b] *)
Definition printed (b n : Z) : bytes := if b =? 10 then fmt_dec n else fmt_pattern b n.
Lemma printed_ok b n : In b [2; 8; 10; 16] -> is_cell n -> exists m, numeral b (printed b n) m /\ wraps_to m n /\ 0 < zlen (printed b n) <= 65.
Proof.
  intros Hb Hn. assert (Hb' : 2 <= b <= 16) by (cbn [In] in Hb; lia). pose proof Hn as HC. unfold is_cell in Hn. change (2 ^ 63) with 9223372036854775808 in *. unfold printed.
  destruct (b =? 10) eqn:E10.
  - apply Z.eqb_eq in E10. subst b. unfold fmt_dec. destruct (n <? 0) eqn:Es.
    + destruct (radix_numeral 10 (- n) ltac:(lia) ltac:(change (2 ^ 64) with 18446744073709551616; lia)) as (A & B). exists (- - n). split; [apply minus_numeral; [exact A|]|].
      * intros c r EQ. apply (radix_first 10 (- n) c r ltac:(lia)); [change (2 ^ 64) with 18446744073709551616; lia|exact EQ].
      * split; [split; [exact HC|exists 0; lia]|]. unfold zlen in *. cbn [List.length]. lia.
    + destruct (radix_numeral 10 n ltac:(lia) ltac:(change (2 ^ 64) with 18446744073709551616; lia)) as (A & B). exists n. split; [exact A|]. split; [split; [exact HC|exists 0; lia]|lia].
  - unfold fmt_pattern. assert (HU : 0 <= to_u64 n < 2 ^ 64) by (pose proof (to_u64_range n); unfold two64 in *; change (2 ^ 64) with 18446744073709551616; lia).
    destruct (radix_numeral b (to_u64 n) Hb' HU) as (A & B). exists (to_u64 n). split; [exact A|]. split; [|lia]. split; [exact HC|]. unfold to_u64, two64. change (2 ^ 64) with 18446744073709551616. exists (- (n / 18446744073709551616)). lia.
Qed.
Lemma spaces_len n : zlen (spaces n) = Z.max n 0.
Proof. unfold spaces, zlen. rewrite repeat_length. lia. Qed.

Section N.
Context {E : Env}.
Implicit Types (v : vm).

(** the state in which a token that is not a word is evaluated *)
Definition before_number v : vm := set_v_err None (set_v_tkn None v).
Lemma token_unknown fuel v tok : dict_ok v -> words v < Z.of_nat fuel -> v_tkn v = Some tok -> newest v tok None ->
  forall ew, exec_prim fuel ew P_interpret_token v = number_token ew tok (set_v_tkn None v) /\
             exec_prim fuel ew P_compile_token v = number_token ew tok (set_v_tkn None v).
Proof.
  intros HD HF HT HN ew. assert (EF : find fuel tok (set_v_tkn None v) = Ok (None, set_v_tkn None v)) by (apply (find_iff fuel tok (set_v_tkn None v) None HD HF); exact HN).
  split; cbn [exec_prim]; unfold interpret_token, compile_token;
    rewrite (bind_Ok take_token _ v tok (set_v_tkn None v)) by (unfold take_token; rewrite HT; reflexivity);
    rewrite (bind_Ok (find fuel tok) _ _ None (set_v_tkn None v)) by exact EF; reflexivity.
Qed.
Lemma token_found fuel v tok i : dict_ok v -> words v < Z.of_nat fuel -> v_tkn v = Some tok -> newest v tok (Some i) ->
  forall ew, exec_prim fuel ew P_interpret_token v =
    (if w_co (word_of v i) then abort_with ew INTERPRETING_A_COMPILE_ONLY_WORD else ew i) (set_v_tkn (Some tok) v) /\
   exec_prim fuel ew P_compile_token v =
    (if w_imm (word_of v i) then ew i else run_cs ew (w_cs (word_of v i)) i) (set_v_tkn (Some tok) v).
Proof.
  intros HD HF HT HN ew. assert (EF : find fuel tok (set_v_tkn None v) = Ok (Some i, set_v_tkn None v)) by (apply (find_iff fuel tok (set_v_tkn None v) (Some i) HD HF); exact HN).
  destruct HN as (HI & _). assert (EW : word_at i (set_v_tkn (Some tok) v) = Ok (word_of v i, set_v_tkn (Some tok) v)) by (apply word_at_eq; unfold words in HI; cbn; lia).
  split; cbn [exec_prim]; unfold interpret_token, compile_token;
    rewrite (bind_Ok take_token _ v tok (set_v_tkn None v)) by (unfold take_token; rewrite HT; reflexivity);
    rewrite (bind_Ok (find fuel tok) _ _ (Some i) (set_v_tkn None v)) by exact EF;
    rewrite (bind_Ok (set_token tok) _ _ tt (set_v_tkn (Some tok) v)) by reflexivity;
    rewrite (bind_Ok (word_at i) _ _ (word_of v i) (set_v_tkn (Some tok) v)) by exact EW; reflexivity.
Qed.
(** the evaluation of a token that is not a word *)
Lemma number_token_int ew tok v x v1 : evaluate_integer tok (set_v_err None v) = Ok (tt, v1) -> v_err v1 = None ->
  number_token ew tok v = Ok (x, set_v_tkn (Some tok) v1).
Proof.
  intros H1 H2. unfold number_token. rewrite (bind_Ok (set_error None) _ v tt (set_v_err None v)) by reflexivity.
  rewrite (bind_Ok (evaluate_integer tok) _ _ tt v1) by exact H1. rewrite bind_gets, H2. destruct x. reflexivity.
Qed.
Lemma base_err v b e t : base_is v b -> base_is (set_v_err e (set_v_tkn t v)) b.
Proof. exact (fun H => H). Qed.

Lemma take_int_push x v l : st_compiling (st v) = false -> stack_has (t_s (cur v)) l -> zlen l < 255 ->
  take_integer x v = Ok (tt, set_s (push (t_s (cur v)) x) v) /\ stack_has (t_s (cur (set_s (push (t_s (cur v)) x) v))) (x :: l) /\ only_data_stack v (set_s (push (t_s (cur v)) x) v).
Proof.
  intros HC HS HL. split; [|split].
  - unfold take_integer, is_compiling. rewrite bind_gets, HC. reflexivity.
  - rewrite cur_set_s. apply (push_has _ _ _ HS HL).
  - apply only_data_set_s, push_high. destruct HS as (A & _). rewrite A. pose proof (zlen_nonneg l). lia.
Qed.
Lemma only_data_tkn v v' t : only_data_stack v v' -> v_tkn v = t -> only_data_stack v (set_v_tkn t v').
Proof.
  intros (G & D & O & R & K) <-. unfold same_globals in G. split; [unfold same_globals; cbn; intuition|]. split; [exact D|]. split; [exact O|]. split; [exact R|exact K].
Qed.
(** interpreting a token that is an integer *)
Lemma eval_integer_token tok x v : integer_token v tok x -> evaluate_integer tok v = take_integer x v.
Proof.
  intros (b & HB & [(n & HN & HW)|[(HD & ->)| ->]]).
  - destruct (eval_numeral tok v b n HB HN) as (y & HY & EQ). rewrite (wraps_unique n x y HW HY). exact EQ.
  - apply (eval_digitless tok v b HB HD).
  - apply (eval_quoted x v b HB).
Qed.
Lemma interpret_integer fuel v tok x l : dict_ok v -> words v < Z.of_nat fuel -> v_tkn v = Some tok -> newest v tok None ->
  st_compiling (st v) = false -> integer_token v tok x -> stack_has (t_s (cur v)) l -> zlen l < 255 ->
  exists v', quiet fuel P_interpret_token v v' /\ stack_has (t_s (cur v')) (x :: l) /\ only_data_stack (set_v_err None v) v'.
Proof.
  intros HD HF HT HN HC HI HS HL. set (v0 := set_v_err None (set_v_tkn None v)).
  destruct (take_int_push x v0 l HC HS HL) as (P1 & P2 & P3). exists (set_v_tkn (Some tok) (set_s (push (t_s (cur v0)) x) v0)). split; [|split; [exact P2|]].
  - intro ew. destruct (token_unknown fuel v tok HD HF HT HN ew) as (-> & _). apply (number_token_int ew tok (set_v_tkn None v) tt (set_s (push (t_s (cur v0)) x) v0)); [|reflexivity].
    change (set_v_err None (set_v_tkn None v)) with v0. rewrite <- P1. apply eval_integer_token. exact HI.
  - apply (only_data_tkn (set_v_err None v) (set_s (push (t_s (cur v)) x) (set_v_err None v)) (Some tok)); [|exact HT].
    apply (only_data_set_s (push (t_s (cur v)) x) (set_v_err None v)), push_high. change (cur (set_v_err None v)) with (cur v). destruct HS as (A & _). rewrite A. pose proof (zlen_nonneg l). lia.
Qed.
(** compiling it *)
Lemma compile_integer_token fuel v tok x l n : dict_ok v -> words v < Z.of_nat fuel -> v_tkn v = Some tok -> newest v tok None ->
  st_compiling (st v) = true -> integer_token v tok x -> is_cell x -> can_compile l n v -> here (v_ds v) + 16 <= limit (v_ds v) ->
  exists v', quiet fuel P_compile_token v v' /\ v_err v' = None /\ v_tkn v' = Some tok /\ compiled (Num x) (set_v_err None v) v'.
Proof.
  intros HD HF HT HN HC HI HX HCC HR. set (v0 := set_v_err None (set_v_tkn None v)).
  destruct (num_compiles l n x HX v0 HCC HR) as (v1 & K1 & K2). assert (EV : v_err v1 = None) by (destruct K2 as (_ & _ & _ & _ & _ & _ & _ & _ & _ & K2 & _); exact K2).
  exists (set_v_tkn (Some tok) v1). split; [|split; [exact EV|split; [reflexivity|exact K2]]].
  intro ew. destruct (token_unknown fuel v tok HD HF HT HN ew) as (_ & ->). apply (number_token_int ew tok (set_v_tkn None v) tt v1); [|exact EV].
  rewrite (eval_integer_token tok x (set_v_err None (set_v_tkn None v)) HI). unfold take_integer, is_compiling. rewrite bind_gets. change (st_compiling (st (set_v_err None (set_v_tkn None v)))) with (st_compiling (st v)). rewrite HC. exact K1.
Qed.
(** a token that is neither a word nor a number *)
Lemma number_token_float ew tok v : no_integer v tok -> number_token ew tok v =
  (evaluate_float tok ;;; e <- gets v_err ;; set_token tok ;;; match e with None => ret tt | Some _ => abort_with ew UNDEFINED_WORD end) (set_v_err None v).
Proof.
  intros (b & HB & H1 & H2 & H3). unfold number_token. rewrite (bind_Ok (set_error None) _ v tt (set_v_err None v)) by reflexivity.
  rewrite (bind_Ok (evaluate_integer tok) _ _ tt (set_v_err (Some RESULT_OUT_OF_RANGE) (set_v_err None v))) by (apply (eval_other tok (set_v_err None v) b HB H1 H2 H3)).
  rewrite bind_gets. cbn [v_err set_v_err]. rewrite (bind_Ok (set_error None) _ _ tt (set_v_err None v)) by reflexivity. reflexivity.
Qed.
Lemma token_refused fuel v tok : dict_ok v -> words v < Z.of_nat fuel -> v_tkn v = Some tok -> newest v tok None -> no_integer v tok ->
  (forall s i f es x, ~ float_text s i f es x tok) ->
  exists v1, raised (-13) v v1 /\ forall ew, exec_prim fuel ew P_interpret_token v = ew (v_handler v) v1 /\ exec_prim fuel ew P_compile_token v = ew (v_handler v) v1.
Proof.
  intros HD HF HT HN HI HX. destruct (eval_float_cases tok (set_v_err None (set_v_tkn None v))) as [(e & EF)|(s & i & f & es & x & K & _)]; [|exfalso; exact (HX _ _ _ _ _ K)].
  exists (aborted (-13) (set_v_tkn (Some tok) v)). split.
  - pose proof (aborted_raised (-13) (set_v_tkn (Some tok) v)) as K. unfold raised in *. rewrite HT. exact K.
  - intro ew. destruct (token_unknown fuel v tok HD HF HT HN ew) as (-> & ->). assert (G : number_token ew tok (set_v_tkn None v) = ew (v_handler v) (aborted (-13) (set_v_tkn (Some tok) v))); [|auto].
    rewrite (number_token_float ew tok (set_v_tkn None v) HI). rewrite (bind_Ok (evaluate_float tok) _ _ tt _ EF). rewrite bind_gets. cbn [v_err set_v_err].
    rewrite (bind_Ok (set_token tok) _ _ tt (set_v_tkn (Some tok) (set_v_err (Some e) (set_v_err None (set_v_tkn None v))))) by reflexivity. rewrite abort_with_eq. reflexivity.
Qed.
Lemma compile_only_refused fuel v tok i : dict_ok v -> words v < Z.of_nat fuel -> v_tkn v = Some tok -> newest v tok (Some i) -> w_co (word_of v i) = true ->
  exists v1, raised (-14) v v1 /\ forall ew, exec_prim fuel ew P_interpret_token v = ew (v_handler v) v1.
Proof.
  intros HD HF HT HN HC. exists (aborted (-14) (set_v_tkn (Some tok) v)). split.
  - pose proof (aborted_raised (-14) (set_v_tkn (Some tok) v)) as K. unfold raised in *. rewrite HT. exact K.
  - intro ew. destruct (token_found fuel v tok i HD HF HT HN ew) as (-> & _). rewrite HC, abort_with_eq. reflexivity.
Qed.
(** a float literal *)
Lemma interpret_float fuel v tok s i f es x l : dict_ok v -> words v < Z.of_nat fuel -> v_tkn v = Some tok -> newest v tok None -> no_integer v tok ->
  st_compiling (st v) = false -> idx_flit (v_refs v) <> 0 -> float_text s i f es x tok -> stack_has (t_f (cur v)) l -> zlen l < 255 ->
  exists v', quiet fuel P_interpret_token v v' /\ stack_has (t_f (cur v')) (float_value s i f es x :: l) /\ v' = set_v_tkn (Some tok) (set_f (push (t_f (cur v)) (float_value s i f es x)) (set_v_err None v)).
Proof.
  intros HD HF HT HN HI HC HL HX HS HZ. set (y := float_value s i f es x). eexists. split; [|split; [|reflexivity]].
  - intro ew. destruct (token_unknown fuel v tok HD HF HT HN ew) as (-> & _). rewrite (number_token_float ew tok (set_v_tkn None v) HI).
    rewrite (bind_Ok (evaluate_float tok) _ _ tt (set_f (push (t_f (cur v)) y) (set_v_err None (set_v_tkn None v)))).
    2:{ rewrite (eval_float_ok tok (set_v_err None (set_v_tkn None v)) s i f es x HX HL). unfold take_float, is_compiling. rewrite bind_gets. change (st_compiling (st (set_v_err None (set_v_tkn None v)))) with (st_compiling (st v)). rewrite HC. reflexivity. }
    rewrite bind_gets. reflexivity.
  - change (cur (set_v_tkn (Some tok) (set_f (push (t_f (cur v)) y) (set_v_err None v)))) with (cur (set_f (push (t_f (cur v)) y) (set_v_err None v))).
    rewrite cur_set_f. apply (push_has _ _ _ HS HZ).
Qed.

(** .R appends the blanks and the text *)
Lemma out_field_ok w t v o : v_out v = Some o -> in_i64 (w - zlen t) = true ->
  out_field w t v = Ok (tt, set_v_out (Some (o ++ spaces (w - zlen t) ++ t)) (set_v_hld t v)).
Proof.
  intros HO HI. unfold out_field. rewrite bind_modify. rewrite (bind_Ok (chk_i64 (w - zlen t)) _ _ (w - zlen t) (set_v_hld t v)) by (unfold chk_i64; rewrite HI; reflexivity).
  unfold out_push, modify. change (v_out (set_v_hld t v)) with (v_out v). rewrite HO. reflexivity.
Qed.
Lemma dot_r_ok fuel ew v b n w l o : In b [2; 8; 10; 16] -> base_is v b -> is_cell n -> - 2 ^ 63 + 65 <= w < 2 ^ 63 ->
  v_out v = Some o -> stack_has (t_s (cur v)) (w :: n :: l) ->
  exists k t m v1, only_data_stack v v1 /\ stack_has (t_s (cur v1)) l /\ numeral b t m /\ wraps_to m n /\ 0 <= k /\ k + zlen t = Z.max w (zlen t) /\
    exec_prim fuel ew P_dot_r v = Ok (tt, set_v_out (Some (o ++ repeat 32 (Z.to_nat k) ++ t)) (set_v_hld t v1)).
Proof.
  intros Hb HB Hn Hw HO HS. destruct (pop2_then v n w l HS) as (s1 & EP & S1 & S2 & _). destruct (printed_ok b n Hb Hn) as (m & P1 & P2 & P3).
  set (t := printed b n) in *. exists (Z.max (w - zlen t) 0), t, m, (set_s s1 v). split; [apply only_data_set_s; exact S2|]. split; [rewrite cur_set_s; exact S1|].
  split; [exact P1|]. split; [exact P2|]. split; [lia|]. split; [lia|]. cbn [exec_prim]. unfold dot_r.
  rewrite (bind_Ok (ds_get (fun d => get_isize d (base_addr d))) _ v b v) by (unfold ds_get, base_is in *; rewrite HB; reflexivity). rewrite EP. unfold when_out. rewrite bind_gets.
  change (v_out (set_s s1 v)) with (v_out v). rewrite HO. rewrite bind_modify.
  assert (HF : out_field w t (set_v_hld [] (set_s s1 v)) = Ok (tt, set_v_out (Some (o ++ spaces (w - zlen t) ++ t)) (set_v_hld t (set_s s1 v)))).
  { rewrite (out_field_ok w t (set_v_hld [] (set_s s1 v)) o HO); [reflexivity|]. change (2 ^ 63) with 9223372036854775808 in *. unfold in_i64, imin, imax, two63. lia. }
  replace (repeat 32 (Z.to_nat (Z.max (w - zlen t) 0))) with (spaces (w - zlen t)) by (unfold spaces; f_equal; lia). rewrite <- HF. unfold t, printed.
  cbn [In] in Hb. destruct Hb as [<-|[<-|[<-|[<-|[]]]]]; reflexivity.
Qed.
End N.
