(** Machines used by the examples of the text properties. *)
From Coq Require Import ZArith List Bool Lia String.
From Verif Require Import Base Stack Mem Parser Flt State CoreM Exec Boot Std Spec Spec4 Spec9 Spec10 Spec11 LBase LStack LState LMem
  LMon LDict LParse LNum LNum2 LText LDec Ex Ex2 Ex5 Ex6.
Import ListNotations.
Open Scope list_scope.
Open Scope Z_scope.
Open Scope m_scope.

(** ** Words and delimited text: a fresh terminal task with a line of input *)
Definition line1 : bytes := b "  dup " ++ [206; 187; 120; 9] ++ b "1+ ".   (* the second word is a lambda and an x *)
Definition tx (s : bytes) : @vm env_d := state_of vm_d (set_source s vm_d).
Lemma tx1_rest : rest_of_input (tx line1) line1.
Proof.
  exists line1, []. split; [left; split|split; [reflexivity|split; [|reflexivity]]].
  - assert (H : st_sid (st (tx line1)) = 0) by (vm_cast_no_check (@eq_refl Z 0)). rewrite H. discriminate.
  - vm_cast_no_check (@eq_refl (option bytes) (Some line1)).
  - vm_cast_no_check (@eq_refl Z 0).
Qed.
Definition ascii_text (s : bytes) : bool := forallb (fun c => (0 <=? c) && (c <? 128)) s.
Lemma ascii_utf8 s : ascii_text s = true -> utf8_text s s.
Proof.
  unfold ascii_text. induction s as [|c s IH]; [constructor|]. cbn [forallb]. rewrite andb_true_iff. intros (H1 & H2). change (c :: s) with ([c] ++ s) at 1.
  constructor; [constructor; lia|apply IH; exact H2].
Qed.
Lemma utf8_app s s' cs cs' : utf8_text s cs -> utf8_text s' cs' -> utf8_text (s ++ s') (cs ++ cs').
Proof. intros H H'. induction H as [|bs c s cs Hc Hs IH]; [exact H'|]. rewrite <- app_assoc. cbn [app]. constructor; assumption. Qed.
Definition line1_cs : list Z := b "  dup " ++ [955] ++ [120; 9] ++ b "1+ ".
Lemma line1_utf8 : utf8_text line1 line1_cs.
Proof.
  change line1 with (b "  dup " ++ [206; 187] ++ ([120; 9] ++ b "1+ ")). unfold line1_cs. apply utf8_app; [apply ascii_utf8; reflexivity|].
  cbn [app]. change (206 :: 187 :: 120 :: 9 :: b "1+ ") with ([206; 187] ++ ([120; 9] ++ b "1+ ")). constructor; [|apply ascii_utf8; reflexivity].
  apply (U2 206 187); [lia|unfold tail_byte; lia].
Qed.
Definition words1 : list bytes := [b "dup"; [206; 187; 120]; b "1+"].
Definition blankb (c : Z) : bool := (c =? 9) || (c =? 10) || (c =? 13) || (c =? 32).
Lemma blankb_ok c : blankb c = true <-> blank c.
Proof. unfold blankb, blank. cbn [In]. lia. Qed.
Lemma blanks_ok s : forallb blankb s = true -> Forall blank s.
Proof. rewrite forallb_forall, Forall_forall. intros H x Hx. apply blankb_ok, H, Hx. Qed.
Lemma nonblanks_ok s : forallb (fun c => negb (blankb c)) s = true -> Forall (fun c => ~ blank c) s.
Proof. rewrite forallb_forall, Forall_forall. intros H x Hx K. apply blankb_ok in K. specialize (H x Hx). rewrite K in H. discriminate. Qed.
Lemma tok_step (w t r : bytes) l c r' : forallb blankb w = true -> t <> [] -> forallb (fun c => negb (blankb c)) t = true -> r = c :: r' -> blankb c = true -> tokens r l -> tokens (w ++ t ++ r) (t :: l).
Proof. intros H1 H2 H3 H4 H5 H6. constructor; [apply blanks_ok; exact H1|exact H2|apply nonblanks_ok; exact H3|right; exists c, r'; split; [exact H4|apply blankb_ok; exact H5]|exact H6]. Qed.
Lemma line1_tokens : tokens line1 words1.
Proof.
  change line1 with (b "  " ++ b "dup" ++ (b " " ++ [206; 187; 120] ++ ([9] ++ b "1+" ++ b " "))).
  eapply tok_step; [reflexivity|discriminate|reflexivity|reflexivity|reflexivity|]. eapply tok_step; [reflexivity|discriminate|reflexivity|reflexivity|reflexivity|].
  eapply tok_step; [reflexivity|discriminate|reflexivity|reflexivity|reflexivity|]. constructor. apply blanks_ok. reflexivity.
Qed.
Lemma tx_tkn s : v_tkn (tx s) <> None.
Proof.
  assert (H : match v_tkn (tx s) with Some _ => true | None => false end = true) by (vm_cast_no_check (@eq_refl bool true)).
  destruct (v_tkn (tx s)); [discriminate|discriminate H].
Qed.

(** ** Numbers: the booted machine with a token *)
Definition bt (s : bytes) : @vm env_d := set_v_tkn (Some s) booted_d.
Lemma bt_dict s : dict_ok (bt s). Proof. exact booted_dict. Qed.
Lemma bt_words s : words (bt s) < Z.of_nat 400.
Proof. assert (H : words booted_d = 325) by (vm_cast_no_check (@eq_refl Z 325)). unfold words in *. change (v_wl (bt s)) with (v_wl booted_d). rewrite H. reflexivity. Qed.
Lemma bt_base s : base_is (bt s) 10.
Proof. unfold base_is. vm_cast_no_check (@eq_refl (res Z) (Ok 10)). Qed.
Lemma bt_stack s : stack_has (t_s (cur (bt s))) [].
Proof. split; [vm_cast_no_check (@eq_refl Z 0)|]. split; [discriminate|]. intros k x H. destruct k; discriminate. Qed.
Lemma bt_fstack s : stack_has (t_f (cur (bt s))) [].
Proof. split; [vm_cast_no_check (@eq_refl Z 0)|]. split; [discriminate|]. intros k x H. destruct k; discriminate. Qed.
Lemma bt_interp s : st_compiling (st (bt s)) = false. Proof. vm_cast_no_check (@eq_refl bool false). Qed.
Definition not_found (s : bytes) : bool := match find 400 s booted_d with Ok (None, _) => true | _ => false end.
Definition found_as (s : bytes) (i : Z) : bool := match find 400 s booted_d with Ok (Some j, _) => i =? j | _ => false end.
Lemma bt_unknown s : not_found s = true -> newest (bt s) s None.
Proof.
  intro H. destruct (find_newest 400 s (bt s) (bt_dict s) (bt_words s)) as (r & E1 & N1).
  destruct r as [i|]; [|exact N1]. exfalso.
  assert (N2 : newest booted_d s (Some i)) by exact N1.
  pose proof (proj2 (find_iff 400 s booted_d (Some i) booted_dict (bt_words s)) N2) as E2. unfold not_found in H. rewrite E2 in H. discriminate.
Qed.
Lemma bt_found s i : found_as s i = true -> newest (bt s) s (Some i).
Proof.
  intro H. destruct (find_newest 400 s (bt s) (bt_dict s) (bt_words s)) as (r & E1 & N1).
  assert (N2 : newest booted_d s r) by exact N1.
  pose proof (proj2 (find_iff 400 s booted_d r booted_dict (bt_words s)) N2) as E2. unfold found_as in H. rewrite E2 in H. destruct r as [j|]; [|discriminate].
  apply Z.eqb_eq in H. subst. exact N1.
Qed.
Lemma un_hex : not_found (b "$-fF") = true. Proof. vm_cast_no_check (@eq_refl bool true). Qed.
Lemma un_dollar : not_found (b "$") = true. Proof. vm_cast_no_check (@eq_refl bool true). Qed.
Lemma un_word : not_found (b "12x") = true. Proof. vm_cast_no_check (@eq_refl bool true). Qed.
Lemma un_float : not_found (b "-1.25E1") = true. Proof. vm_cast_no_check (@eq_refl bool true). Qed.
Lemma un_huge : not_found (b "1e4294967296") = true. Proof. vm_cast_no_check (@eq_refl bool true). Qed.
Lemma found_if : found_as (b "IF") 69 = true. Proof. vm_cast_no_check (@eq_refl bool true). Qed.

Lemma ex_parse : exists v1 v', quiet 0 P_parse (set_s (push (t_s (cur (tx line1))) 120) (tx line1)) v' /\
    token_read v1 (b "  dup " ++ [206; 187]) 9 v' /\ rest_of_input v' ([9] ++ b "1+ ").
Proof.
  assert (HS : stack_has (t_s (cur (tx line1))) []) by (split; [vm_cast_no_check (@eq_refl Z 0)|]; split; [discriminate|]; intros k x H; destruct k; discriminate).
  destruct tx1_rest as (buf & pre & A & B & C & D).
  destruct (parse_text (set_s (push (t_s (cur (tx line1))) 120) (tx line1)) line1 line1_cs 120 [] ltac:(exists buf, pre; unfold input_text, st in *; rewrite cur_set_s; auto) line1_utf8 (tx_tkn line1)) with (fuel := 0%nat) as (t & r & v1 & v' & P1 & P2 & P3 & P4 & P5 & P6).
  { rewrite cur_set_s. apply push_has; [exact HS|reflexivity]. }
  assert (U : text_upto 120 line1 (b "  dup " ++ [206; 187]) ([9] ++ b "1+ ")).
  { change line1 with ((b "  dup " ++ [206; 187]) ++ [120] ++ ([9] ++ b "1+ ")). apply (Up_found 120 _ (b "  dup " ++ [955]) [120] _ ([9] ++ b "1+ ")).
    - apply utf8_app; [apply ascii_utf8; reflexivity|]. change [206; 187] with ([206; 187] ++ []). constructor; [apply (U2 206 187); [lia|unfold tail_byte; lia]|constructor].
    - cbn. lia.
    - constructor. lia.
    - apply ascii_utf8. reflexivity. }
  destruct (upto_unique _ _ _ _ _ _ P1 U) as (-> & ->). exists v1, v'. split; [exact P2|]. split; [|exact P6].
  assert (HI : st_idx (st (set_s (push (t_s (cur (tx line1))) 120) (tx line1))) = 0) by (vm_cast_no_check (@eq_refl Z 0)). rewrite HI in P5. exact P5.
Qed.

Lemma ex_hex : exists v', quiet 400 P_interpret_token (bt (b "$-fF")) v' /\ stack_has (t_s (cur v')) [-255] /\ only_data_stack (set_v_err None (bt (b "$-fF"))) v'.
Proof.
  apply (interpret_integer 400 (bt (b "$-fF")) (b "$-fF") (-255) [] (bt_dict _) (bt_words _) eq_refl (bt_unknown _ un_hex) (bt_interp _)); [|apply bt_stack|reflexivity].
  exists 10. split; [apply bt_base|]. left. exists (-1 * positional 16 [15; 15]). split.
  - apply (Numeral 10 [36] 16 [45] (-1) [102; 70] [15; 15]); [constructor|constructor|discriminate| |repeat constructor].
    constructor; [apply (Dg_af 15); lia|]. constructor; [apply (Dg_AF 15); lia|constructor].
  - split; [unfold is_cell; lia|]. exists 0. reflexivity.
Qed.
Lemma handler_bt s : v_handler (bt s) = 0. Proof. vm_cast_no_check (@eq_refl Z 0). Qed.
Lemma ex_refused : exists v1, raised (-13) (bt (b "12x")) v1 /\ forall ew, exec_prim 400 ew P_interpret_token (bt (b "12x")) = ew 0 v1.
Proof.
  destruct (token_refused 400 (bt (b "12x")) (b "12x") (bt_dict _) (bt_words _) eq_refl (bt_unknown _ un_word)) as (v1 & A & B).
  - exists 10. split; [apply bt_base|]. change (b "12x") with [49; 50; 120]. split; [|split].
    + intros n H. inversion H as [p b' g s t ds Hp Hs Ht H2 HF Etok En]. inversion Hp; subst; inversion Hs; subst; cbn [app] in Etok; try discriminate Etok. subst t.
      inversion H2 as [|? ? ? ? _ H3]; subst. inversion H3 as [|? ? ? ? _ H4]; subst. inversion H4 as [|? ? ? ? H5 _]; subst. apply digit_of_ok in H5. discriminate H5.
    + intro H. inversion H as [p b' g s Hp Hs Etok]. inversion Hp; subst; inversion Hs; subst; discriminate Etok.
    + intros (c & H). discriminate H.
  - intros s i f es x H. apply float_mark in H. change (b "12x") with [49; 50; 120] in H. cbn [In] in H. lia.
  - exists v1. split; [exact A|]. intro ew. destruct (B ew) as (B1 & _). rewrite <- (handler_bt (b "12x")). exact B1.
Qed.
Lemma ex_if : exists v1, raised (-14) (bt (b "IF")) v1 /\ forall ew, exec_prim 400 ew P_interpret_token (bt (b "IF")) = ew 0 v1.
Proof.
  assert (HC : w_co (word_of (bt (b "IF")) 69) = true) by (vm_cast_no_check (@eq_refl bool true)).
  destruct (compile_only_refused 400 (bt (b "IF")) (b "IF") 69 (bt_dict _) (bt_words _) eq_refl (bt_found _ _ found_if) HC) as (v1 & A & B).
  exists v1. split; [exact A|]. intro ew. rewrite <- (handler_bt (b "IF")). apply B.
Qed.
Definition dot_r_vm (w n : Z) : @vm env_d := set_v_out (Some []) (set_s (push_all (t_s (cur booted_d)) [w; n]) booted_d).
Lemma dot_r_stack w n : stack_has (t_s (cur (dot_r_vm w n))) [w; n].
Proof.
  unfold dot_r_vm. match goal with |- stack_has (t_s (cur (set_v_out _ ?x))) _ => change (stack_has (t_s (cur x)) [w; n]) end. rewrite cur_set_s.
  apply push_all_has; [exact (bt_stack [])|discriminate].
Qed.
Lemma dot_r_base w n : base_is (dot_r_vm w n) 10. Proof. exact (bt_base []). Qed.
Definition min64 : Z := - 9223372036854775808.
Definition dot_r_done : @vm env_d := state_of booted_d (exec_prim 400 ew_oof P_dot_r (dot_r_vm 25 min64)).
Lemma ex_dot_r : exists v', quiet 400 P_dot_r (dot_r_vm 25 (- 2 ^ 63)) v' /\ v_out v' = Some (b "     -9223372036854775808").
Proof.
  change (- 2 ^ 63) with min64. exists dot_r_done. split; [apply (quiet_run booted_d); vm_cast_no_check (@eq_refl bool true)|].
  vm_cast_no_check (@eq_refl (option bytes) (Some (b "     -9223372036854775808"))).
Qed.
Lemma ex_dot_r_refuted : exists (v : @vm env_d) n w, is_cell n /\ is_cell w /\ base_is v 10 /\ v_out v = Some [] /\ stack_has (t_s (cur v)) [w; n] /\
  forall fuel ew, exec_prim fuel ew P_dot_r v = Panic POverflow.
Proof.
  exists (dot_r_vm min64 7), 7, min64. split; [unfold is_cell; lia|]. split; [unfold is_cell, min64; lia|]. split; [apply dot_r_base|]. split; [reflexivity|]. split; [apply dot_r_stack|].
  intros fuel ew. assert (H : forall ew, exec_prim 0 ew P_dot_r (dot_r_vm min64 7) = Panic POverflow) by (intro e; vm_cast_no_check (@eq_refl (res (unit * @vm env_d)) (Panic POverflow))). exact (H ew).
Qed.
Lemma ex_no_digits : exists (v v' : @vm env_d) tok,
  v_tkn v = Some tok /\ no_digits tok /\ ~ quoted tok /\ newest v tok None /\ dict_ok v /\ stack_has (t_s (cur v)) [] /\
  quiet 400 P_interpret_token v v' /\ stack_has (t_s (cur v')) [0].
Proof.
  destruct (interpret_integer 400 (bt (b "$")) (b "$") 0 [] (bt_dict _) (bt_words _) eq_refl (bt_unknown _ un_dollar) (bt_interp _)) as (v' & A & B & _); [|apply bt_stack|reflexivity|].
  - exists 10. split; [apply bt_base|]. right. left. split; [|reflexivity]. apply (NoDigit 10 [36] 16 [] 1); constructor.
  - exists (bt (b "$")), v', (b "$"). split; [reflexivity|]. change (b "$") with [36]. split; [intros c d [<-|[]] Hd; apply digit_of_ok in Hd; discriminate Hd|]. split; [intros (c & K); discriminate K|].
    split; [exact (bt_unknown _ un_dollar)|]. split; [apply bt_dict|]. split; [apply bt_stack|]. split; [exact A|exact B].
Qed.
Lemma flit_bt s : idx_flit (v_refs (bt s)) <> 0.
Proof. assert (H : (idx_flit (v_refs (bt s)) =? 0) = false) by (vm_cast_no_check (@eq_refl bool false)). intro K. rewrite K in H. discriminate H. Qed.
(** not an integer: an E in the token, which is not hexadecimal *)
Lemma no_int_e s c : In c s -> c <> 37 -> c <> 35 -> c <> 36 -> c <> 43 -> c <> 45 -> (forall d, digit c d -> 10 <= d) -> (match s with c0 :: _ => c0 <> 36 /\ c0 <> 39 | [] => True end) -> no_integer (bt s) s.
Proof.
  intros HI N1 N2 N3 N4 N5 HD H0. exists 10. split; [apply bt_base|]. split; [|split].
  - intros n H. inversion H as [p b' g sg t ds Hp Hs Ht H2 HF Etok En]. subst s. assert (HIt : In c t).
    { apply in_app_or in HI. destruct HI as [HI|HI]; [exfalso; inversion Hp; subst; cbn [In] in HI; lia|]. apply in_app_or in HI. destruct HI as [HI|HI]; [exfalso; inversion Hs; subst; cbn [In] in HI; lia|exact HI]. }
    assert (Hb : b' <= 10) by (inversion Hp; subst; try lia; destruct H0; cbn [app] in *; congruence).
    clear - H2 HF HIt HD Hb. induction H2 as [|c0 d t ds Hd H2 IH]; [destruct HIt|]. inversion HF; subst. destruct HIt as [-> |HIt]; [specialize (HD d Hd); lia|apply IH; assumption].
  - intro H. inversion H as [p b' g sg Hp Hs Etok]. subst s. apply in_app_or in HI. destruct HI as [HI|HI]; [inversion Hp; subst; cbn [In] in HI; lia|inversion Hs; subst; cbn [In] in HI; lia].
  - intros (q & ->). destruct H0. congruence.
Qed.
Lemma digit_e d : digit 101 d -> 10 <= d. Proof. intro H. apply digit_of_ok in H. injection H as <-. lia. Qed.
Lemma digit_E d : digit 69 d -> 10 <= d. Proof. intro H. apply digit_of_ok in H. injection H as <-. lia. Qed.
Lemma dec_text t : forallb dec t = true -> positional 10 (map (fun c => c - 48) t) < 2 ^ 63 -> decimal t (map (fun c => c - 48) t).
Proof.
  intros H HV. split; [|split; [|exact HV]]; clear HV; induction t as [|c t IH]; cbn [forallb map] in *; try constructor; apply andb_prop in H as (H1 & H2); try (apply dec_digit; exact H1); auto.
Qed.
Lemma huge_text : float_text 1 [1] None 1 [4; 2; 9; 4; 9; 6; 7; 2; 9; 6] (b "1e4294967296").
Proof.
  change (b "1e4294967296") with ([] ++ [49] ++ [] ++ [101] ++ [] ++ b "4294967296").
  apply (FT 1 [1] None 1 [4; 2; 9; 4; 9; 6; 7; 2; 9; 6] [] [49] [] 101 [] (b "4294967296")); [constructor|exact (dec_text [49] eq_refl eq_refl)|discriminate|constructor|right; reflexivity|constructor|exact (dec_text (b "4294967296") eq_refl eq_refl)].
Qed.
Lemma float_text_ex : float_text (-1) [1] (Some [2; 5]) 1 [1] (b "-1.25E1").
Proof.
  change (b "-1.25E1") with ([45] ++ [49] ++ (46 :: [50; 53]) ++ [69] ++ [] ++ [49]).
  apply (FT (-1) [1] (Some [2; 5]) 1 [1] [45] [49] (46 :: [50; 53]) 69 [] [49]); [constructor|exact (dec_text [49] eq_refl eq_refl)|discriminate|constructor; exact (dec_text [50; 53] eq_refl eq_refl)|left; reflexivity|constructor|exact (dec_text [49] eq_refl eq_refl)].
Qed.
Lemma ex_huge : exists (v v' : @vm env_d) tok x,
  float_text 1 [1] None 1 x tok /\ positional 10 x = 2 ^ 32 /\ v_tkn v = Some tok /\ newest v tok None /\ dict_ok v /\ stack_has (t_f (cur v)) [] /\
  quiet 400 P_interpret_token v v' /\ stack_has (t_f (cur v')) [4607182418800017408].
Proof.
  destruct (interpret_float 400 (bt (b "1e4294967296")) (b "1e4294967296") 1 [1] None 1 [4; 2; 9; 4; 9; 6; 7; 2; 9; 6] [] (bt_dict _) (bt_words _) eq_refl (bt_unknown _ un_huge)) as (v' & A & B & _).
  - apply (no_int_e _ 101); [cbn; tauto|lia|lia|lia|lia|lia|exact digit_e|split; discriminate].
  - apply bt_interp.
  - apply flit_bt.
  - exact huge_text.
  - apply bt_fstack.
  - reflexivity.
  - exists (bt (b "1e4294967296")), v', (b "1e4294967296"), [4; 2; 9; 4; 9; 6; 7; 2; 9; 6]. split; [exact huge_text|]. split; [reflexivity|]. split; [reflexivity|]. split; [exact (bt_unknown _ un_huge)|].
    split; [apply bt_dict|]. split; [apply bt_fstack|]. split; [exact A|].
    assert (HV : @float_value env_d 1 [1] None 1 [4; 2; 9; 4; 9; 6; 7; 2; 9; 6] = 4607182418800017408) by (vm_cast_no_check (@eq_refl Z 4607182418800017408)). rewrite HV in B. exact B.
Qed.
Lemma ex_float : exists v', quiet 400 P_interpret_token (bt (b "-1.25E1")) v' /\ stack_has (t_f (cur v')) [13846598529327300608].
Proof.
  destruct (float_literal 400 (bt (b "-1.25E1")) (b "-1.25E1") (-1) [1] (Some [2; 5]) 1 [1] [] (bt_dict _) (bt_words _) eq_refl (bt_unknown _ un_float)) as (v' & A & B & _).
  - apply (no_int_e _ 69); [cbn; tauto|lia|lia|lia|lia|lia|exact digit_E|split; discriminate].
  - apply bt_interp.
  - apply flit_bt.
  - exact float_text_ex.
  - apply bt_fstack.
  - reflexivity.
  - cbn. lia.
  - exists v'. split; [exact A|]. rewrite <- (float_value_exact (-1) [1] (Some [2; 5]) 1 [1]) in B by (cbn; lia).
    assert (HV : @float_value env_d (-1) [1] (Some [2; 5]) 1 [1] = 13846598529327300608) by (vm_cast_no_check (@eq_refl Z 13846598529327300608)). rewrite HV in B. exact B.
Qed.
