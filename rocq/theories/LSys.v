(** Proofs about the system words (C75 - C77). *)
From Coq Require Import ZArith List Bool Lia ZifyBool ZifyNat String.
From Verif Require Import Base Stack Mem Parser Flt State CoreM IoM FloatM Exec LBase LStack Spec Spec2 Spec4 Spec5 Spec6 Spec9 Spec10 Spec11 Spec12 Spec14 Spec24
  LState LMem LMon LMemWords LFloat LTask LCode LComp LDict LDict2 LDict3 LDict4 LDict5 LParse LNum LNum2.
Import Spec14.
Import ListNotations.
Open Scope list_scope.
Open Scope Z_scope.
Open Scope m_scope.
Ltac Zify.zify_post_hook ::= Z.div_mod_to_equations.

(** ** Numbers *)
Lemma digits_lead b f : 2 <= b -> forall n acc, 0 <= n < b ^ Z.of_nat f -> (0 < f)%nat ->
  exists ds, digits_loop f b n acc = map digit_char ds ++ acc /\ Forall (fun d => 0 <= d < b) ds /\ positional b ds = n /\
    (ds = [0] /\ n = 0 \/ exists d r, ds = d :: r /\ d <> 0).
Proof.
  intro Hb. induction f as [|f IH]; intros n acc Hn Hf; [lia|]. cbn [digits_loop]. destruct (n / b =? 0) eqn:EQ.
  - exists [n mod b]. assert (n mod b = n) by (apply Z.mod_small; apply Z.eqb_eq in EQ; apply Z.div_small_iff in EQ; lia).
    split; [reflexivity|]. split; [constructor; [|constructor]; apply Z.mod_pos_bound; lia|]. split; [cbn; lia|].
    rewrite H. destruct (Z.eq_dec n 0) as [->|N]; [left; auto|right; eauto].
  - apply Z.eqb_neq in EQ. assert (Hq : 0 <= n / b < b ^ Z.of_nat f).
    { split; [apply Z.div_pos; lia|]. apply Z.div_lt_upper_bound; [lia|]. rewrite <- Z.pow_succ_r by lia. replace (Z.succ (Z.of_nat f)) with (Z.of_nat (S f)) by lia. lia. }
    assert (Hf0 : (0 < f)%nat). { destruct f; [|lia]. cbn in Hq. lia. }
    destruct (IH (n / b) (digit_char (n mod b) :: acc) Hq Hf0) as (ds & A & C & D & F). exists (ds ++ [n mod b]). rewrite A. split; [rewrite map_app, <- app_assoc; reflexivity|].
    split; [apply Forall_app; split; [exact C|constructor; [apply Z.mod_pos_bound; lia|constructor]]|].
    split; [rewrite positional_snoc, D; pose proof (Z.div_mod n b ltac:(lia)); lia|]. right.
    destruct F as [(_ & F)|(d & r & -> & F)]; [congruence|]. exists d, (r ++ [n mod b]). split; [reflexivity|exact F].
Qed.
Lemma upper_ok d : 0 <= d < 16 -> upper_digit (digit_char d) d.
Proof. intro H. unfold digit_char. destruct (d <? 10) eqn:K; [apply UD_09|apply UD_AF]; lia. Qed.
Lemma radix_unsigned b n : 2 <= b <= 16 -> 0 <= n < 2 ^ 64 -> unsigned_in b n (fmt_radix b n).
Proof.
  intros Hb Hn. unfold fmt_radix. assert (Hn' : 0 <= n < b ^ Z.of_nat 64) by (split; [lia|]; apply (Z.lt_le_trans _ (2 ^ 64)); [lia|]; apply Z.pow_le_mono_l; lia).
  destruct (digits_lead b 64 ltac:(lia) n [] Hn' ltac:(lia)) as (ds & A & C & D & F). rewrite A, app_nil_r. exists ds.
  split; [|split; [|split; [exact D|destruct F as [(F & _)|F]; auto]]].
  - clear - C Hb. induction C; cbn [map]; constructor; [apply upper_ok; lia|assumption].
  - eapply Forall_impl; [|exact C]. cbn. lia.
Qed.
Lemma fmt_dec_of n : is_cell n -> decimal_of n (fmt_dec n).
Proof.
  unfold is_cell, decimal_of, fmt_dec. intro H. change (2 ^ 63) with 9223372036854775808 in H. destruct (n <? 0) eqn:K.
  - right. split; [lia|]. eexists. split; [reflexivity|]. apply radix_unsigned; [lia|]. change (2 ^ 64) with 18446744073709551616. lia.
  - left. split; [lia|]. apply radix_unsigned; [lia|]. change (2 ^ 64) with 18446744073709551616. lia.
Qed.
Lemma to_u64_wraps n : is_cell n -> 0 <= to_u64 n < 2 ^ 64 /\ wraps_to (to_u64 n) n.
Proof.
  intro H. assert (HB : 0 <= to_u64 n < 2 ^ 64) by (unfold to_u64, two64; change (2 ^ 64) with 18446744073709551616; lia). split; [exact HB|]. split; [exact H|].
  unfold to_u64, two64 in *. exists (- (n / 18446744073709551616)). change (2 ^ 64) with 18446744073709551616. lia.
Qed.
Lemma printed_written b n : In b [2; 8; 10; 16] -> is_cell n -> written b n (LNum2.printed b n).
Proof.
  intros Hb Hn. unfold LNum2.printed. destruct (Z.eqb_spec b 10) as [->|N].
  - left. split; [reflexivity|]. apply fmt_dec_of. exact Hn.
  - right. split; [cbn [In] in *; lia|]. destruct (to_u64_wraps n Hn) as (A & B). exists (to_u64 n). split; [exact A|]. split; [exact B|].
    apply radix_unsigned; [cbn [In] in *; lia|exact A].
Qed.

Section C.
Context {E : Env}.
Implicit Types (v : vm) (w : word).

(** ** Status *)
Lemma reports_push p v x (Q : Z -> Prop) : (forall fuel ew, exec_prim fuel ew p v = s_push x v) -> Q x -> reports p v Q.
Proof.
  intros HE HQ. exists x. split; [exact HQ|]. intros d r f (HD & HR & HF) HL fuel. destruct (push1_has _ x _ HD HL) as (A & B & _).
  exists (set_s (push (t_s (cur v)) x) v). split; [intro ew; rewrite HE; reflexivity|].
  split; [split; [rewrite cur_set_s; exact A|split; rewrite cur_set_s; assumption]|].
  destruct (only_data_set_s _ _ B) as (C1 & C2 & C3 & C4 & C5 & C6 & C7).
  split; [exact C1|]. split; [exact C2|]. split; [exact C3|]. split; [exact C4|]. split; [exact C7|].
  rewrite C5, C6. split; (split; [reflexivity|]; intros; reflexivity).
Qed.
Lemma flag_truth (c : bool) : truth (flag c) (c = true).
Proof. destruct c; [left; split; reflexivity|right; split; [reflexivity|discriminate]]. Qed.
Lemma compiling_reports v : reports P_p_compiling v (fun x => truth x (st_compiling (st v) = true)).
Proof. eapply reports_push; [reflexivity|]. apply flag_truth. Qed.
Lemma token_empty_reports v : reports P_token_empty v (fun x => truth x (v_tkn v = None \/ v_tkn v = Some [])).
Proof.
  eapply reports_push; [reflexivity|]. destruct (v_tkn v) as [[|c t]|]; [left; auto|right; split; [reflexivity|intros [H|H]; discriminate]|left; auto].
Qed.
Lemma error_reports v : reports P_error v (fun x => v_err v = Some x \/ (v_err v = None /\ x = 0)).
Proof. eapply reports_push; [reflexivity|]. destruct (v_err v); auto. Qed.
Lemma max_n_reports v : reports P_max_n v (fun x => is_cell x /\ forall y, is_cell y -> y <= x).
Proof.
  eapply reports_push; [reflexivity|]. unfold imax, two63. split; [unfold is_cell; change (2 ^ 63) with 9223372036854775808; lia|].
  intro y. unfold is_cell. change (2 ^ 63) with 9223372036854775808. lia.
Qed.
Lemma max_u_reports v : reports P_max_u v (bits_are (fun _ => true)).
Proof.
  eapply reports_push; [reflexivity|]. change (to_i64 (two64 - 1)) with (-1). split; [unfold is_cell; lia|]. intros i Hi. apply Z.bits_m1. lia.
Qed.
Lemma i64_wraps n : wraps_to n (to_i64 n).
Proof.
  split; [|apply to_i64_mod]. pose proof (to_i64_range n) as H. unfold imin, imax, two63 in H. unfold is_cell. lia.
Qed.
Lemma mtime_reports v : reports P_mtime v (fun x => exists ms, ms * 1000000 <= v_now v < (ms + 1) * 1000000 /\ wraps_to ms x).
Proof. eapply reports_push; [reflexivity|]. exists (v_now v / 1000000). split; [lia|apply i64_wraps]. Qed.
Lemma utime_reports v : reports P_utime v (fun x => exists us, us * 1000 <= v_now v < (us + 1) * 1000 /\ wraps_to us x).
Proof. eapply reports_push; [reflexivity|]. exists (v_now v / 1000). split; [lia|apply i64_wraps]. Qed.
Lemma base_reports v : ds_ok (v_ds v) -> 16 <= limit (v_ds v) - start (v_ds v) -> reports P_base v (fun x => exists a, addr_of x a /\
  start (v_ds v) < a /\ a + 8 <= limit (v_ds v) /\
  forall u n, start (v_ds u) = start (v_ds v) -> limit (v_ds u) = limit (v_ds v) -> is_cell n -> cell_at (v_ds u) a n -> base_is u n).
Proof.
  intros (D1 & D2 & D3) HL. eapply reports_push; [reflexivity|]. unfold start, base_addr in *. change (2 ^ 63) with 9223372036854775808 in *.
  exists (ds_inner (v_ds v) + 8). split; [|split; [lia|split; [lia|]]].
  - split; [change (2 ^ 64) with 18446744073709551616; lia|]. exists 0. rewrite to_i64_id by (unfold imin, imax, two63; lia). lia.
  - intros u n HS HU HN HC. unfold base_is, base_addr. rewrite HS. apply get_isize_ok; [|exact HC|exact HN]. apply in_ds_true. unfold start. lia.
Qed.

(** ** Settings *)
Lemma handler_sets fuel v x l : stack_has (t_s (cur v)) (x :: l) ->
  exists v1, only_data_stack v v1 /\ stack_has (t_s (cur v1)) l /\ exists h, addr_of x h /\ quiet fuel P_handler_store v (set_v_handler h v1).
Proof.
  intro HS. destruct (pop_then v x l HS) as (s1 & EP & S1 & S2 & _). exists (set_s s1 v). split; [apply only_data_set_s; exact S2|].
  split; [rewrite cur_set_s; exact S1|]. exists (to_u64 x). split; [|intro ew; cbn [exec_prim]; unfold handler_store; rewrite EP; reflexivity].
  unfold addr_of, to_u64, two64. change (2 ^ 64) with 18446744073709551616. split; [lia|]. exists (x / 18446744073709551616). lia.
Qed.
Lemma clear_error_sets fuel v : quiet fuel P_clear_error v (set_v_err None v).
Proof. intro ew. reflexivity. Qed.
Lemma clear_labels_sets fuel v : quiet fuel P_imm_clear_labels v (set_v_res [] (set_v_fwd [] v)).
Proof. intro ew. reflexivity. Qed.
Lemma clear_stacks_sets fuel v : exists s f c, fresh_stack (t_s (cur v)) s /\ fresh_stack (t_f (cur v)) f /\ fresh_stack (t_c (cur v)) c /\
  quiet fuel P_clear_stacks v (set_c c (set_f f (set_s s v))).
Proof.
  exists (stack_reset (t_s (cur v))), (stack_reset (t_f (cur v))), (stack_reset (t_c (cur v))).
  split; [apply fresh_reset|]. split; [apply fresh_reset|]. split; [apply fresh_reset|]. intro ew. cbn [exec_prim]. unfold clear_stacks. rewrite !bind_modify. unfold modify.
  unfold f_stk, c_stk. rewrite !cur_set_f, !cur_set_s. reflexivity.
Qed.
Lemma flush_sets fuel v : quiet fuel P_flush_output v
  (match v_out v with Some (c :: s) => set_v_out (Some []) (set_v_stdout (v_stdout v ++ (c :: s) ++ [10]) v) | _ => v end).
Proof. intro ew. reflexivity. Qed.
Lemma flush_err_sets fuel v : quiet fuel P_flush_to_err v
  (match v_out v with Some s => set_v_out (Some []) (set_v_stderr (v_stderr v ++ s ++ [10]) v) | None => v end).
Proof. intro ew. cbn [exec_prim]. unfold flush_to_err, modify. destruct (v_out v); reflexivity. Qed.

(** ** Listings *)
Lemma out_printed s v : out_push s v = Ok (tt, match v_out v with Some o => set_v_out (Some (o ++ s)) v | None => v end).
Proof. reflexivity. Qed.
Definition say s v : vm := match v_out v with Some o => set_v_out (Some (o ++ s)) v | None => v end.
Lemma say_nil v : say [] v = v.
Proof. unfold say. destruct (v_out v) eqn:K; [|reflexivity]. rewrite app_nil_r. destruct v. cbn in *. subst. reflexivity. Qed.
Lemma say_app s t v : say t (say s v) = say (s ++ t) v.
Proof.
  unfold say. destruct (v_out v) as [o|] eqn:K; [|rewrite K; reflexivity]. cbn [v_out set_v_out]. rewrite <- app_assoc. reflexivity.
Qed.
Lemma dot_token_prints v t : v_tkn v = Some t -> prints P_dot_token v t.
Proof. intros H fuel. eexists. split; [intro ew; cbn [exec_prim]; unfold dot_token; rewrite bind_gets, H; apply out_printed|reflexivity]. Qed.
Lemma dot_input_prints v buf : input_text v buf -> prints P_dot_input v buf.
Proof.
  intros H fuel. eexists. split; [intro ew; cbn [exec_prim]; unfold dot_input; rewrite (bind_Ok get_inbuf _ v (Some buf) v) by (apply get_inbuf_ok; exact H); apply out_printed|reflexivity].
Qed.
Lemma when_out_some m v o : v_out v = Some o -> when_out m v = m v.
Proof. intro H. unfold when_out. rewrite bind_gets, H. reflexivity. Qed.
Lemma name_of_ok v i n : ds_ok (v_ds v) -> named v i n -> name_of (word_of v i) v = Ok (n, v).
Proof. intros HD HN. unfold name_of, ds_get. rewrite (name_field_str _ _ _ _ HD HN). reflexivity. Qed.
Lemma word_at_ok v i : 0 <= i < words v -> word_at i v = Ok (word_of v i, v).
Proof. intro H. unfold word_at. unfold words in H. replace ((0 <=? i) && (i <? wl_len (v_wl v))) with true by lia. reflexivity. Qed.
Lemma push_name_ok v i n : ds_ok (v_ds v) -> 0 <= i < words v -> named v i n -> push_name i v = Ok (tt, say (n ++ [32]) v).
Proof.
  intros HD HI HN. unfold push_name. rewrite (bind_Ok (word_at i) _ v (word_of v i) v) by (apply word_at_ok; exact HI).
  rewrite (bind_Ok (name_of (word_of v i)) _ v n v) by (apply name_of_ok; assumption). apply out_printed.
Qed.
Lemma say_ds s v : v_ds (say s v) = v_ds v.
Proof. unfold say. destruct (v_out v); reflexivity. Qed.
Lemma say_wl s v : v_wl (say s v) = v_wl v.
Proof. unfold say. destruct (v_out v); reflexivity. Qed.
Lemma say_cur s v : cur (say s v) = cur v.
Proof. unfold say. destruct (v_out v); reflexivity. Qed.
Lemma say_word s v i : word_of (say s v) i = word_of v i.
Proof. unfold word_of. rewrite say_wl. reflexivity. Qed.
Lemma say_words s v : words (say s v) = words v.
Proof. unfold words. rewrite say_wl. reflexivity. Qed.
Lemma say_named s v i n : named (say s v) i n <-> named v i n.
Proof. unfold named. rewrite say_ds, say_word. reflexivity. Qed.
Lemma rev_seq n : rev (map Z.of_nat (seq 1 (S n))) = Z.of_nat (S n) :: rev (map Z.of_nat (seq 1 n)).
Proof. rewrite seq_S, map_app, rev_app_distr. reflexivity. Qed.
Lemma words_loop n : forall v l, ds_ok (v_ds v) -> names_below v n l -> Z.of_nat n <= words v ->
  mapM_ (fun i => w <- word_at i ;; if w_hidden w then ret tt else push_name i) (rev (map Z.of_nat (seq 1 (n - 1)))) v = Ok (tt, say (spaced l) v).
Proof.
  intros v l HD H. revert v HD H. induction n as [|n IH] in l |- *; intros v HD H HW.
  - inversion H; subst. cbn. rewrite say_nil. reflexivity.
  - destruct n as [|n]; [inversion H; subst; cbn; rewrite say_nil; reflexivity|].
    replace (S (S n) - 1)%nat with (S n) by lia. rewrite rev_seq. cbn [mapM_]. replace (S n - 1)%nat with n in IH by lia. rewrite bind_bind.
    rewrite (bind_Ok (word_at (Z.of_nat (S n))) _ v (word_of v (Z.of_nat (S n))) v) by (apply word_at_ok; lia). inversion H as [| |? ? HH HR|? ? t HH HN HR]; subst; rewrite HH.
    + rewrite bind_ret. apply IH; [exact HD|exact HR|lia].
    + rewrite (bind_Ok (push_name (Z.of_nat (S n))) _ v tt (say (t ++ [32]) v)) by (apply push_name_ok; [exact HD|lia|exact HN]).
      rewrite (IH l0); [|rewrite say_ds; exact HD| |rewrite say_words; lia]; [rewrite say_app; reflexivity|].
      clear - HR. induction HR; [constructor|constructor|apply NB_hidden; [rewrite say_word|]; assumption|apply NB_shown; [rewrite say_word; assumption|apply say_named; assumption|assumption]].
Qed.
Lemma names_exist v : dict_ok v -> forall n, Z.of_nat n <= words v -> exists l, names_below v n l.
Proof.
  intros HD n. induction n as [|[|n] IH]; intro HW; [exists []; constructor|exists []; constructor|]. destruct IH as (l & IH); [lia|].
  pose proof HD as (_ & _ & _ & _ & H4 & _). destruct (H4 (Z.of_nat (S n)) ltac:(lia)) as (t & HN & _). destruct (w_hidden (word_of v (Z.of_nat (S n)))) eqn:K.
  - exists l. apply NB_hidden; assumption.
  - exists (t :: l). apply NB_shown; assumption.
Qed.
Lemma words_prints v : dict_ok v -> exists l, names_below v (Z.to_nat (words v)) l /\ prints P_words v (spaced l).
Proof.
  intro HD. pose proof HD as (D0 & D1 & _). destruct (names_exist v HD (Z.to_nat (words v)) ltac:(lia)) as (l & HL). exists l. split; [exact HL|].
  intro fuel. exists (say (spaced l) v). split; [|reflexivity]. intro ew. cbn [exec_prim]. unfold IoM.words. destruct (v_out v) eqn:EO.
  - rewrite (when_out_some _ v b EO). rewrite bind_gets. unfold words_rev. apply words_loop; [exact D0|exact HL|unfold words in *; lia].
  - unfold when_out. rewrite bind_gets, EO. unfold say. rewrite EO. reflexivity.
Qed.
Lemma dot_word_ok fuel v o x l i n : dict_ok v -> v_out v = Some o -> stack_has (t_s (cur v)) (x :: l) -> addr_of x i ->
  (i < words v /\ named v i n \/ words v <= i /\ n = b "unknown") ->
  exists v1 v', quiet fuel P_dot_word v v' /\ only_data_stack v v1 /\ stack_has (t_s (cur v1)) l /\ printed v1 (n ++ [32]) v'.
Proof.
  intros (HD & _) HO HS HA HN. destruct (pop_then v x l HS) as (s1 & EP & S1 & S2 & _). exists (set_s s1 v), (say (n ++ [32]) (set_s s1 v)).
  split; [|split; [apply only_data_set_s; exact S2|split; [rewrite cur_set_s; exact S1|reflexivity]]]. intro ew. cbn [exec_prim]. unfold dot_word.
  rewrite (when_out_some _ v o HO), EP. cbv zeta. rewrite bind_gets, (addr_of_to_u64 _ _ HA). change (wl_len (v_wl (set_s s1 v))) with (words v). destruct HA as (HA & _). destruct HN as [(H1 & H2)|(H1 & ->)].
  - replace (i <? words v) with true by lia. apply push_name_ok; [exact HD|change (words (set_s s1 v)) with (words v); lia|exact H2].
  - replace (i <? words v) with false by lia. rewrite out_printed. reflexivity.
Qed.
Lemma map_spaced {A} (f : A -> bytes) l : List.concat (map (fun x => f x ++ [32]) l) = spaced (map f l).
Proof. unfold spaced. rewrite map_map. reflexivity. Qed.
Lemma dot_s_ok v d f : stack_has (t_s (cur v)) d -> stack_has (t_f (cur v)) f -> Forall is_cell d ->
  exists ts, Forall2 decimal_of (rev d) ts /\
    prints P_dot_s v (spaced ts ++ (if (0 <? zlen d) && (0 <? zlen f) then [32] else []) ++
                      (if 0 <? zlen f then b "F: " ++ spaced (map (fmt_f64 7) (rev f)) else [])).
Proof.
  intros HS HF HC. exists (map fmt_dec (rev d)). split.
  - assert (HC' : Forall is_cell (rev d)) by (apply Forall_rev; exact HC). induction HC'; cbn [map]; constructor; [apply fmt_dec_of; assumption|assumption].
  - intro fuel. eexists. split; [|reflexivity]. intro ew. fold (say (spaced (map fmt_dec (rev d)) ++ (if (0 <? zlen d) && (0 <? zlen f) then [32] else []) ++
                      (if 0 <? zlen f then b "F: " ++ spaced (map (fmt_f64 7) (rev f)) else [])) v).
    cbn [exec_prim]. unfold dot_s. destruct (v_out v) as [o|] eqn:EO.
    2:{ unfold when_out. rewrite bind_gets, EO. unfold say. rewrite EO. reflexivity. }
    rewrite (when_out_some _ v o EO), bind_get. unfold s_stk, f_stk.
    rewrite (as_slice_has v O ew _ _ HS), (as_slice_has v O ew _ _ HF), (stack_has_len _ _ HS), (stack_has_len _ _ HF).
    rewrite (map_spaced fmt_dec), (map_spaced (fmt_f64 7)).
    destruct d as [|x d].
    + change (0 <? zlen []) with false. cbn [andb]. rewrite bind_ret. destruct (0 <? zlen f).
      * rewrite bind_ret. rewrite out_printed. reflexivity.
      * cbn. rewrite say_nil. reflexivity.
    + replace (0 <? zlen (x :: d)) with true by (rewrite zlen_cons; pose proof (zlen_nonneg d); lia). cbn [andb].
      rewrite (bind_Ok (out_push _) _ v tt _ (out_printed _ _)). fold (say (spaced (map fmt_dec (rev (x :: d)))) v).
      destruct (0 <? zlen f).
      * rewrite (bind_Ok (out_push [32]) _ _ tt _ (out_printed _ _)). fold (say [32] (say (spaced (map fmt_dec (rev (x :: d)))) v)). rewrite out_printed.
        match goal with |- context[match v_out ?u with Some o => set_v_out (Some (o ++ ?s)) ?u | None => ?u end] => fold (say s u) end. rewrite !say_app. rewrite <- ?app_assoc. reflexivity.
      * cbn [app]. rewrite app_nil_r. reflexivity.
Qed.

(** ** Backtrace *)
Lemma push_location_ok v a : dict_ok v -> 0 <= a < 2 ^ 64 -> exists t, location v a t /\ push_location a v = Ok (tt, say t v).
Proof.
  intros HD HA. unfold push_location. rewrite bind_gets. pose proof (find_xt_ok (v_wl v) a (dict_increasing v HD)) as H. pose proof HD as (D0 & _ & _ & _ & H4 & _).
  destruct (find_xt (v_wl v) a) as [i|].
  - destruct H as (H1 & H2 & H3). destruct (H4 i H1) as (n & HN & _). exists (n ++ [32]). split; [apply (Loc_word v a i n); [split; [exact H1|split; assumption]|exact HN]|].
    apply push_name_ok; [exact D0|exact H1|exact HN].
  - exists (b "unknown(" ++ fmt_radix 16 a ++ b ") "). split; [apply Loc_unknown; [exact H|apply radix_unsigned; [lia|exact HA]]|apply out_printed].
Qed.
Lemma owner_kept v v' a i : v_wl v' = v_wl v -> owner v a i -> owner v' a i.
Proof. intros HW (A & B & C). unfold owner, words, word_of in *. rewrite HW. auto. Qed.
Lemma location_say s v a t : location (say s v) a t -> location v a t.
Proof.
  intros [i n HO HN|n HU HR]; [apply (Loc_word v a i n); [apply (owner_kept (say s v)); [symmetry; apply say_wl|exact HO]|apply say_named in HN; exact HN]|].
  apply Loc_unknown; [|exact HR]. intros i Hi. rewrite <- (say_word s). apply HU. rewrite say_words. exact Hi.
Qed.
Lemma dict_say s v : dict_ok v -> dict_ok (say s v).
Proof. unfold say. destruct (v_out v); auto. Qed.
Lemma Forall2_impl {A B} (P Q : A -> B -> Prop) : (forall x y, P x y -> Q x y) -> forall l m, Forall2 P l m -> Forall2 Q l m.
Proof. intros H l m K. induction K; constructor; auto. Qed.
Lemma locations_ok : forall l v, dict_ok v -> Forall (fun x => 0 <= x < 2 ^ 64) (map to_u64 l) ->
  exists ts, Forall2 (location v) (map to_u64 l) ts /\ mapM_ (fun x => push_location (to_u64 x)) l v = Ok (tt, say (List.concat ts) v).
Proof.
  induction l as [|x l IH]; intros v HD HF.
  - exists []. split; [constructor|]. cbn. rewrite say_nil. reflexivity.
  - inversion HF as [|? ? HX HL]; subst. destruct (push_location_ok v (to_u64 x) HD HX) as (t & L1 & E1). destruct (IH (say t v) (dict_say t v HD) HL) as (ts & L2 & E2).
    exists (t :: ts). split; [constructor; [exact L1|]|].
    + eapply Forall2_impl; [|exact L2]. intros ? ? K. eapply location_say. exact K.
    + cbn [mapM_]. rewrite (bind_Ok _ _ _ _ _ E1), E2, say_app. reflexivity.
Qed.
Lemma u64_bound x : 0 <= to_u64 x < 2 ^ 64.
Proof. unfold to_u64, two64. change (2 ^ 64) with 18446744073709551616. lia. Qed.
Lemma say_st s v : st (say s v) = st v.
Proof. unfold st. rewrite say_cur. reflexivity. Qed.
Lemma dot_backtrace_ok v rs o : dict_ok v -> v_out v = Some o -> stack_has (t_r (cur v)) rs -> 0 <= st_awp (st v) < words v -> 0 <= st_ip (st v) < 2 ^ 64 ->
  exists ts n t, Forall2 (fun x t => exists a, addr_of x a /\ location v a t) (rev rs) ts /\
    (st_awp (st v) = 0 /\ n = [] \/ st_awp (st v) <> 0 /\ exists n', named v (st_awp (st v)) n' /\ n = n' ++ [32]) /\
    location v (st_ip (st v)) t /\
    prints P_dot_backtrace v (b "backtrace: " ++ List.concat ts ++ n ++ t).
Proof.
  intros HD HO HR HA HI. pose proof HD as (D0 & D1 & _ & _ & H4 & _). set (v1 := say (b "backtrace: ") v).
  assert (HD1 : dict_ok v1) by (apply dict_say; exact HD).
  assert (HF : Forall (fun x => 0 <= x < 2 ^ 64) (map to_u64 (rev rs))).
  { apply Forall_forall. intros x Hx. apply in_map_iff in Hx. destruct Hx as (y & <- & _). apply u64_bound. }
  destruct (locations_ok (rev rs) v1 HD1 HF) as (ts & L1 & E1). set (v2 := say (List.concat ts) v1) in *.
  destruct (H4 _ HA) as (n' & HN & _). set (n := if st_awp (st v) =? 0 then [] else n' ++ [32]). set (v3 := say n v2).
  assert (HD3 : dict_ok v3) by (apply dict_say, dict_say; exact HD1).
  destruct (push_location_ok v3 (st_ip (st v)) HD3 HI) as (t & L2 & E2). exists ts, n, t. split; [|split; [|split]].
  - clear - L1. assert (HG : forall l, Forall2 (location v1) (map to_u64 l) ts -> Forall2 (fun x t => exists a, addr_of x a /\ location v a t) l ts); [|apply HG; exact L1].
    intro l. revert ts L1. clear. intros ts _. revert ts. induction l as [|x l IH]; intros ts H; inversion H; subst; constructor; [|apply IH; assumption].
    exists (to_u64 x). split; [|eapply location_say; eassumption]. split; [apply u64_bound|]. unfold to_u64, two64. exists (x / 18446744073709551616). change (2 ^ 64) with 18446744073709551616. lia.
  - unfold n. destruct (Z.eqb_spec (st_awp (st v)) 0) as [K|K]; [left; auto|right; split; [exact K|]]. exists n'. auto.
  - eapply location_say, location_say, location_say. exact L2.
  - intro fuel. exists (say (b "backtrace: " ++ List.concat ts ++ n ++ t) v). split; [|reflexivity]. intro ew. cbn [exec_prim]. unfold dot_backtrace.
    rewrite (when_out_some _ v o HO). rewrite (bind_Ok (out_push _) _ v tt v1 (out_printed _ _)). rewrite bind_gets. unfold r_stk. replace (cur v1) with (cur v) by (symmetry; apply say_cur). rewrite (as_slice_has v O ew _ _ HR).
    rewrite (bind_Ok _ _ _ _ _ E1). rewrite bind_gets. assert (S2 : st v2 = st v) by (unfold v2, v1; rewrite !say_st; reflexivity). cbv beta. rewrite S2.
    rewrite (bind_Ok (if st_awp (st v) =? 0 then ret tt else push_name (st_awp (st v))) _ v2 tt v3).
    2:{ unfold v3, n. destruct (st_awp (st v) =? 0); [rewrite say_nil; reflexivity|]. apply push_name_ok; [unfold v2, v1; rewrite !say_ds; exact D0|unfold v2, v1; rewrite !say_words; exact HA|].
        unfold v2, v1. apply say_named, say_named. exact HN. }
    rewrite (bind_Ok get_ip _ v3 (st_ip (st v)) v3) by (unfold get_ip, gets, ip; unfold v3, v2, v1; rewrite !say_st; reflexivity). rewrite E2. unfold v3, v2, v1. rewrite !say_app, <- ?app_assoc. reflexivity.
Qed.

(** ** .MEMORY *)
Lemma dot_memory_ok v : ds_ok (v_ds v) -> exists cap used st lim he,
  decimal_of (limit (v_ds v) - start (v_ds v)) cap /\ decimal_of (here (v_ds v) - start (v_ds v)) used /\
  unsigned_in 16 (start (v_ds v)) st /\ unsigned_in 16 (limit (v_ds v)) lim /\ unsigned_in 16 (here (v_ds v)) he /\
  prints P_dot_memory v (b "data space capacity: " ++ cap ++ b ", used: " ++ used ++ b ", start: 0x" ++ st ++ b ", limit: 0x" ++ lim ++ b ", here: 0x" ++ he ++ [10]).
Proof.
  intros (D1 & D2 & D3). change (2 ^ 63) with 9223372036854775808 in D3.
  exists (fmt_dec (limit (v_ds v) - start (v_ds v))), (fmt_dec (here (v_ds v) - start (v_ds v))), (fmt_radix 16 (start (v_ds v))), (fmt_radix 16 (limit (v_ds v))), (fmt_radix 16 (here (v_ds v))).
  split; [apply fmt_dec_of; unfold is_cell; change (2 ^ 63) with 9223372036854775808; lia|].
  split; [apply fmt_dec_of; unfold is_cell; change (2 ^ 63) with 9223372036854775808; lia|].
  split; [apply radix_unsigned; change (2 ^ 64) with 18446744073709551616; lia|].
  split; [apply radix_unsigned; change (2 ^ 64) with 18446744073709551616; lia|].
  split; [apply radix_unsigned; change (2 ^ 64) with 18446744073709551616; lia|].
  intro fuel. eexists. split; [|reflexivity]. intro ew. reflexivity.
Qed.

(** ** Execution times *)
Lemma upd_word_ok v i f : 0 <= i < words v ->
  upd_word i f v = Ok (tt, set_v_wl (set_wl_tbl (tset (wl_tbl (v_wl v)) i (f (word_of v i))) (v_wl v)) v).
Proof. intro H. unfold upd_word. unfold words in H. replace ((0 <=? i) && (i <? wl_len (v_wl v))) with true by lia. reflexivity. Qed.
Lemma set_wl_same v : set_v_wl (v_wl v) v = v.
Proof. destruct v. reflexivity. Qed.
Lemma times_id w : set_w_maxt (w_maxt w) (set_w_mint (w_mint w) w) = w.
Proof. destruct w. reflexivity. Qed.
Lemma upd_word_times v i f lo hi : 0 <= i < words v -> (forall w, f w = set_w_maxt hi (set_w_mint lo w)) ->
  exists v', upd_word i f v = Ok (tt, v') /\
    retimed v (fun j => if j =? i then lo else w_mint (word_of v j)) (fun j => if j =? i then hi else w_maxt (word_of v j)) v'.
Proof.
  intros HI Hf. eexists. split; [apply upd_word_ok; exact HI|]. split; [reflexivity|]. split; [reflexivity|]. split; [reflexivity|]. split; [reflexivity|].
  intros j Hj. unfold word_of at 1, wl_get. cbn [v_wl set_v_wl wl_tbl set_wl_tbl]. destruct (Z.eqb_spec j i) as [->|N].
  - rewrite tget_tset_same. apply Hf.
  - rewrite tget_tset_other by lia. rewrite times_id. reflexivity.
Qed.
Lemma set_times_ok fuel v xt t0 l : stack_has (t_s (cur v)) (xt :: t0 :: l) -> 0 <= xt < words v -> words v < 2 ^ 63 -> 0 <= t0 <= v_now v / 1000 -> v_now v < 2 ^ 63 ->
  let t := v_now v / 1000 - t0 in let lo := w_mint (word_of v xt) in
  exists v1 v', quiet fuel P_set_execution_times v v' /\ only_data_stack v v1 /\ stack_has (t_s (cur v1)) l /\
    retimed v1 (fun j => if j =? xt then (if lo =? 0 then t else Z.min lo t) else w_mint (word_of v j))
               (fun j => if j =? xt then Z.max (w_maxt (word_of v xt)) t else w_maxt (word_of v j)) v'.
Proof.
  intros HS HX HW HT HN t lo. destruct (pop2_then v t0 xt l HS) as (s1 & EP & S1 & S2 & _).
  change (2 ^ 63) with 9223372036854775808 in *.
  pose (f := fun w => let w := set_w_mint (if w_mint w =? 0 then t else Z.min (w_mint w) t) w in set_w_maxt (Z.max (w_maxt w) t) w).
  assert (HU : exists v', upd_word xt f (set_s s1 v) = Ok (tt, v') /\ retimed (set_s s1 v) (fun j => if j =? xt then (if lo =? 0 then t else Z.min lo t) else w_mint (word_of v j))
               (fun j => if j =? xt then Z.max (w_maxt (word_of v xt)) t else w_maxt (word_of v j)) v').
  { destruct (upd_word_times (set_s s1 v) xt (fun w => set_w_maxt (Z.max (w_maxt (word_of v xt)) t) (set_w_mint (if lo =? 0 then t else Z.min lo t) w))
      (if lo =? 0 then t else Z.min lo t) (Z.max (w_maxt (word_of v xt)) t)) as (v' & E1 & R1); [exact HX|reflexivity|].
    exists v'. split; [|exact R1]. rewrite <- E1. rewrite !upd_word_ok by exact HX. reflexivity. }
  destruct HU as (v' & E1 & R1). exists (set_s s1 v), v'. split; [|split; [apply only_data_set_s; exact S2|split; [rewrite cur_set_s; exact S1|exact R1]]].
  intro ew. cbn [exec_prim]. unfold set_execution_times. rewrite EP. cbv beta iota. rewrite bind_gets. change (v_now (set_s s1 v)) with (v_now v).
  replace (to_u64 t0) with t0 by (unfold to_u64, two64; lia). fold t. rewrite (bind_Ok (chk_u64 t) _ _ t (set_s s1 v)).
  - replace (to_u64 xt) with xt by (unfold to_u64, two64; lia). exact E1.
  - unfold chk_u64. replace (in_u64 t) with true; [reflexivity|]. unfold in_u64, two64, t. symmetry. apply andb_true_intro. lia.
Qed.
Lemma times_say s v n l : times_below (say s v) n l -> times_below v n l.
Proof.
  intro H. induction H as [| |n l HH HR IH|n l t lo hi w HH HN Hlo Hhi HR IH]; [constructor|constructor|apply TB_none; [rewrite <- (say_word s); exact HH|exact IH]|].
  unfold w in *. rewrite say_word in *. apply say_named in HN. apply TB_some; assumption.
Qed.
Lemma dot_xtime_loop_ok n : forall v first, dict_ok v -> (forall i, 0 <= i < words v -> w_mint (word_of v i) < 2 ^ 64 /\ 0 <= w_maxt (word_of v i) < 2 ^ 64) -> Z.of_nat n <= words v ->
  exists l, times_below v n l /\
  dot_xtime_loop (rev (map Z.of_nat (seq 1 (n - 1)))) first v = Ok (tt, say (if first then barred l else List.concat (map (fun x => 124 :: x) l)) v).
Proof.
  induction n as [|n IH]; intros v first HD HB HW.
  - exists []. split; [constructor|]. cbn. destruct first; rewrite say_nil; reflexivity.
  - destruct n as [|n]; [exists []; split; [constructor|]; cbn; destruct first; rewrite say_nil; reflexivity|].
    replace (S (S n) - 1)%nat with (S n) by lia. rewrite rev_seq. cbn [dot_xtime_loop]. replace (S n - 1)%nat with n in IH by lia. set (i := Z.of_nat (S n)) in *.
    rewrite (bind_Ok (word_at i) _ v (word_of v i) v) by (apply word_at_ok; lia). destruct (Z.ltb_spec 0 (w_mint (word_of v i))) as [HM|HM].
    + pose proof HD as (D0 & _ & _ & _ & H4 & _). destruct (H4 i ltac:(lia)) as (t & HN & _). destruct (HB i ltac:(lia)) as (B1 & B2).
      set (e := t ++ b "|" ++ fmt_radix 10 (w_mint (word_of v i)) ++ b "," ++ fmt_radix 10 (w_maxt (word_of v i))).
      set (v1 := say (if first then [] else [124]) v).
      destruct (IH (say e v1) false) as (l & L1 & E1); [apply dict_say, dict_say; exact HD| |unfold v1; rewrite !say_words; lia|].
      { intros k Hk. unfold v1 in *. rewrite !say_word. rewrite !say_words in Hk. apply HB. exact Hk. }
      exists (e :: l). split.
      * apply TB_some; [exact HM|exact HN|apply radix_unsigned; lia|apply radix_unsigned; lia|]. eapply times_say, times_say. exact L1.
      * rewrite (bind_Ok (if first then ret tt else out_push (b "|")) _ v tt v1) by (unfold v1; destruct first; [rewrite say_nil; reflexivity|apply out_printed]).
        rewrite (bind_Ok (name_of (word_of v i)) _ v1 t v1).
        2:{ unfold v1. rewrite <- (say_word (if first then [] else [124]) v). apply name_of_ok; [rewrite say_ds; exact D0|apply say_named; exact HN]. }
        rewrite (bind_Ok (out_push _) _ v1 tt (say e v1)) by apply out_printed. rewrite E1. unfold v1. rewrite !say_app. destruct first; reflexivity.
    + destruct (IH v first HD HB ltac:(lia)) as (l & L1 & E1). exists l. split; [apply TB_none; assumption|exact E1].
Qed.
Lemma dot_xtime_ok v : dict_ok v -> (forall i, 0 <= i < words v -> w_mint (word_of v i) < 2 ^ 64 /\ 0 <= w_maxt (word_of v i) < 2 ^ 64) ->
  exists l, times_below v (Z.to_nat (words v)) l /\ prints P_dot_xtime v (barred l).
Proof.
  intros HD HB. pose proof HD as (D0 & D1 & _). destruct (dot_xtime_loop_ok (Z.to_nat (words v)) v true HD HB ltac:(lia)) as (l & L1 & E1). exists l. split; [exact L1|].
  intro fuel. exists (say (barred l) v). split; [|reflexivity]. intro ew. cbn [exec_prim]. unfold dot_xtime. destruct (v_out v) eqn:EO.
  - rewrite (when_out_some _ v b EO). rewrite bind_gets. unfold words_rev. exact E1.
  - unfold when_out. rewrite bind_gets, EO. unfold say. rewrite EO. reflexivity.
Qed.
Lemma clear_loop n : forall v, Z.of_nat n <= words v ->
  exists v', mapM_ (fun i => w <- word_at i ;; if 0 <? w_mint w then upd_word i (fun w => set_w_maxt 0 (set_w_mint 0 w)) else ret tt) (rev (map Z.of_nat (seq 1 (n - 1)))) v = Ok (tt, v') /\
    retimed v (fun j => if (1 <=? j) && (j <? Z.of_nat n) && (0 <? w_mint (word_of v j)) then 0 else w_mint (word_of v j))
              (fun j => if (1 <=? j) && (j <? Z.of_nat n) && (0 <? w_mint (word_of v j)) then 0 else w_maxt (word_of v j)) v'.
Proof.
  assert (HZ : forall v, retimed v (fun j => if (1 <=? j) && (j <? 1) && (0 <? w_mint (word_of v j)) then 0 else w_mint (word_of v j))
              (fun j => if (1 <=? j) && (j <? 1) && (0 <? w_mint (word_of v j)) then 0 else w_maxt (word_of v j)) v).
  { intro v. split; [symmetry; apply set_wl_same|]. repeat (split; [reflexivity|]). intros j Hj. replace ((1 <=? j) && (j <? 1)) with false by lia. cbn [andb]. symmetry. apply times_id. }
  induction n as [|n IH]; intros v HW.
  - exists v. split; [reflexivity|]. destruct (HZ v) as (A & B & C & D & F). split; [exact A|]. split; [exact B|]. split; [exact C|]. split; [exact D|]. intros j Hj.
    replace ((1 <=? j) && (j <? Z.of_nat 0)) with false by lia. cbn [andb]. symmetry. apply times_id.
  - destruct n as [|n]; [exists v; split; [reflexivity|exact (HZ v)]|].
    replace (S (S n) - 1)%nat with (S n) by lia. rewrite rev_seq. cbn [mapM_]. replace (S n - 1)%nat with n in IH by lia. set (i := Z.of_nat (S n)) in *.
    assert (HV : exists v1, (w <- word_at i ;; if 0 <? w_mint w then upd_word i (fun w => set_w_maxt 0 (set_w_mint 0 w)) else ret tt) v = Ok (tt, v1) /\
      retimed v (fun j => if (j =? i) && (0 <? w_mint (word_of v j)) then 0 else w_mint (word_of v j)) (fun j => if (j =? i) && (0 <? w_mint (word_of v j)) then 0 else w_maxt (word_of v j)) v1).
    { rewrite (bind_Ok (word_at i) _ v (word_of v i) v) by (apply word_at_ok; lia). destruct (0 <? w_mint (word_of v i)) eqn:K.
      - destruct (upd_word_times v i (fun w => set_w_maxt 0 (set_w_mint 0 w)) 0 0) as (v' & E1 & (R1 & R2 & R3 & R4 & R5)); [lia|reflexivity|]. exists v'. split; [exact E1|].
        split; [exact R1|]. split; [exact R2|]. split; [exact R3|]. split; [exact R4|]. intros j Hj. rewrite (R5 j Hj). destruct (Z.eqb_spec j i) as [->|N]; [rewrite K|]; reflexivity.
      - exists v. split; [reflexivity|]. split; [symmetry; apply set_wl_same|]. repeat (split; [reflexivity|]). intros j Hj.
        destruct (Z.eqb_spec j i) as [->|N]; [rewrite K|]; cbn [andb]; symmetry; apply times_id. }
    destruct HV as (v1 & E1 & (R1 & R2 & R3 & R4 & R5)). destruct (IH v1) as (v2 & E2 & (Q1 & Q2 & Q3 & Q4 & Q5)); [rewrite R2; lia|].
    exists v2. split; [rewrite (bind_Ok _ _ _ _ _ E1); exact E2|]. split; [rewrite Q1, R1; reflexivity|]. split; [congruence|]. split; [congruence|]. split; [congruence|].
    intros j Hj. rewrite (Q5 j) by (rewrite R2; exact Hj). rewrite (R5 j Hj).
    generalize (w_mint (word_of v j)) (w_maxt (word_of v j)). intros lo hi.
    assert (HM : forall a c, w_mint (set_w_maxt a (set_w_mint c (word_of v j))) = c) by reflexivity.
    assert (HX : forall a c, w_maxt (set_w_maxt a (set_w_mint c (word_of v j))) = a) by reflexivity. rewrite ?HM, ?HX.
    assert (HS : forall a c a' c', set_w_maxt a (set_w_mint c (set_w_maxt a' (set_w_mint c' (word_of v j)))) = set_w_maxt a (set_w_mint c (word_of v j))) by reflexivity. rewrite HS.
    destruct (Z.eqb_spec j i) as [->|N].
    + rewrite Z.ltb_irrefl. replace (i <? Z.of_nat (S (S n))) with true by lia. replace (1 <=? i) with true by lia. cbn [andb].
      destruct (0 <? lo); reflexivity.
    + replace (j <? Z.of_nat (S (S n))) with (j <? i) by lia. reflexivity.
Qed.
Lemma clear_xtime_ok fuel v : 1 <= words v -> (forall i, 0 <= i < words v -> 0 <= w_mint (word_of v i)) ->
  exists v', quiet fuel P_clear_xtime v v' /\
    retimed v (fun j => if j =? 0 then w_mint (word_of v 0) else 0) (fun j => if (j =? 0) || (w_mint (word_of v j) =? 0) then w_maxt (word_of v j) else 0) v'.
Proof.
  intros HW HP. destruct (clear_loop (Z.to_nat (words v)) v ltac:(lia)) as (v' & E1 & (R1 & R2 & R3 & R4 & R5)). exists v'. split; [intro ew; exact E1|].
  split; [exact R1|]. split; [exact R2|]. split; [exact R3|]. split; [exact R4|]. intros j Hj. rewrite (R5 j Hj). specialize (HP j Hj). f_equal; [|f_equal].
  - destruct (Z.eqb_spec j 0) as [->|N]; [reflexivity|]. replace (1 <=? j) with true by lia. replace (j <? Z.of_nat (Z.to_nat (words v))) with true by lia. cbn [andb orb]. destruct (Z.eqb_spec (w_mint (word_of v j)) 0) as [K|K], (Z.ltb_spec 0 (w_mint (word_of v j))); lia.
  - destruct (Z.eqb_spec j 0) as [->|N]; [reflexivity|]. replace (1 <=? j) with true by lia. replace (j <? Z.of_nat (Z.to_nat (words v))) with true by lia. cbn [andb]. destruct (Z.ltb_spec 0 (w_mint (word_of v j))); lia.
Qed.
End C.
