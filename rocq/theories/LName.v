(** Proofs about the words that take a name from the input: CHAR, [CHAR], ', ['] and POSTPONE (C78, C79). *)
From Coq Require Import ZArith List Bool Lia ZifyBool ZifyNat String.
From Verif Require Import Base Stack Mem Parser Flt State CoreM IoM FloatM Exec LBase LStack Spec Spec2 Spec4 Spec5 Spec6 Spec9 Spec10 Spec11 Spec12 Spec14 Spec15 Spec16 Spec24
  LState LMem LMon LMemWords LFloat LTask LCode LComp LCtl LDict LDict2 LDict3 LDict4 LDict5 LParse LNum LNum2 LFile3 LNoInput LText LSame3 LLib LDefine LSys LSys2.
Import Spec14.
Import ListNotations.
Open Scope list_scope.
Open Scope Z_scope.
Open Scope m_scope.
Ltac Zify.zify_post_hook ::= Z.div_mod_to_equations.

Section C.
Context {E : Env}.
Implicit Types (v : vm).

Lemma next_taken fuel v t : next_is v t -> exists n v1, quiet fuel P_parse_word v v1 /\ token_read v t n v1 /\ t <> [] /\
  forall B (k : bytes -> M B), (parse_word ;;; tok <- take_token ;; k tok) v = k t (set_v_tkn None v1).
Proof.
  intros (HT & s & cs & ts & HR & HU & HK). destruct (next_word v s cs (t :: ts) HR HU HT HK fuel) as (n & r & cs' & v1 & Q1 & T1 & _). cbn [hd] in T1.
  assert (Tt : v_tkn v1 = Some t) by (destruct T1 as [->|[_ ->]]; reflexivity). exists n, v1. split; [exact Q1|]. split; [exact T1|].
  split; [inversion HK; subst; assumption|]. intros B k. rewrite (bind_Ok _ _ _ tt v1) by exact (Q1 (fun _ => ret tt)). rewrite (bind_Ok take_token _ v1 t (set_v_tkn None v1)) by (unfold take_token; rewrite Tt; reflexivity). reflexivity.
Qed.
Lemma read_dict v t n v1 : token_read v t n v1 -> v_wl v1 = v_wl v /\ v_ds v1 = v_ds v /\ v_refs v1 = v_refs v /\ v_cur v1 = v_cur v /\
  t_c (cur v1) = t_c (cur v) /\ t_s (cur v1) = t_s (cur v) /\ v_tkn v1 = Some t /\ v_handler v1 = v_handler v /\ v_err v1 = v_err v.
Proof.
  intros [->|[_ ->]]; [|repeat split]. change (cur (set_v_tkn (Some t) (set_idx n v))) with (cur (set_idx n v)). unfold set_idx, set_st. rewrite cur_upd. repeat split.
Qed.
Lemma read_newest v t n v1 name r : token_read v t n v1 -> newest v name r -> newest (set_v_tkn None v1) name r.
Proof. intros HR. destruct (read_dict _ _ _ _ HR) as (A & B & _). unfold newest, visible, named, words, word_of. cbn [v_wl v_ds set_v_tkn]. rewrite A, B. auto. Qed.
Lemma read_dict_ok v t n v1 : token_read v t n v1 -> dict_ok v -> dict_ok (set_v_tkn None v1).
Proof. intros HR. destruct (read_dict _ _ _ _ HR) as (A & B & _). unfold dict_ok, named, words, word_of. cbn [v_wl v_ds set_v_tkn]. rewrite A, B. auto. Qed.
Lemma read_find fuel v t n v1 r : token_read v t n v1 -> dict_ok v -> words v < Z.of_nat fuel -> newest v t r ->
  find fuel t (set_v_tkn None v1) = Ok (r, set_v_tkn None v1).
Proof.
  intros HR HD Hf HN. apply (find_iff fuel t (set_v_tkn None v1) r (read_dict_ok _ _ _ _ HR HD)); [|apply (read_newest _ _ _ _ _ _ HR HN)].
  destruct (read_dict _ _ _ _ HR) as (A & _). unfold words in *. cbn [v_wl set_v_tkn]. rewrite A. exact Hf.
Qed.
Lemma read_can v t n v1 l k : token_read v t n v1 -> can_compile l k v -> can_compile l k (set_v_tkn None v1).
Proof.
  intros HR. destruct (read_dict _ _ _ _ HR) as (A & B & C & _ & F & _). unfold can_compile, compiler_ready, word_is.
  change (cur (set_v_tkn None v1)) with (cur v1). cbn [v_wl v_ds v_refs set_v_tkn]. rewrite A, B, C, F. auto.
Qed.

(** ' and ['] *)
Lemma tick_form fuel k v t n v1 : token_read v t n v1 -> t <> [] ->
  (forall B (k : bytes -> M B), (parse_word ;;; tok <- take_token ;; k tok) v = k t (set_v_tkn None v1)) ->
  dict_ok v -> words v < Z.of_nat fuel -> forall r ew, newest v t r ->
  tick_with fuel ew k v = match r with Some i => (k (to_i64 i) ;;; set_token t) (set_v_tkn None v1) | None => abort_with ew (-13) (set_v_tkn (Some t) v1) end.
Proof.
  intros HR Ht HP HD Hf r ew HN. unfold tick_with. rewrite HP. destruct t as [|c t0] eqn:Et; [contradiction|]. rewrite <- Et in *. clear Et c t0.
  rewrite (bind_Ok (find fuel t) _ _ r (set_v_tkn None v1)) by (apply (read_find fuel v t n v1 r); assumption). destruct r; reflexivity.
Qed.
Lemma newest_id v t i : newest v t (Some i) -> words v <= 2 ^ 63 -> to_i64 i = i /\ is_cell i.
Proof. intros (H & _) HW. unfold is_cell. change (2 ^ 63) with 9223372036854775808 in *. split; [apply to_i64_id; unfold imin, imax, two63; lia|lia]. Qed.
Lemma tick_ok fuel v t i l : next_is v t -> dict_ok v -> words v < Z.of_nat fuel -> words v <= 2 ^ 63 -> newest v t (Some i) ->
  stack_has (t_s (cur v)) l -> zlen l < 255 ->
  exists n v1 v', token_read v t n v1 /\ quiet fuel P_tick v v' /\ stack_has (t_s (cur v')) (i :: l) /\ only_data_stack v1 v'.
Proof.
  intros HX HD Hf HW HN HS HL. destruct (next_taken fuel v t HX) as (n & v1 & _ & HR & Ht & HP). destruct (newest_id _ _ _ HN HW) as (EI & _).
  destruct (read_dict _ _ _ _ HR) as (_ & _ & _ & _ & _ & ES & ET & _). exists n, v1, (set_v_tkn (Some t) (set_s (push (t_s (cur v1)) i) v1)). split; [exact HR|].
  rewrite <- ES in HS. destruct (push1_has _ i l HS HL) as (A & B & _). split; [|split].
  - intro ew. cbn [exec_prim]. unfold tick. rewrite (tick_form fuel s_push v t n v1 HR Ht HP HD Hf (Some i) ew HN), EI. reflexivity.
  - change (cur (set_v_tkn (Some t) (set_s (push (t_s (cur v1)) i) v1))) with (cur (set_s (push (t_s (cur v1)) i) v1)). rewrite cur_set_s. exact A.
  - apply only_data_tkn; [|exact ET]. apply only_data_set_s. exact B.
Qed.
Lemma bracket_tick_ok fuel v t i l k : next_is v t -> dict_ok v -> words v < Z.of_nat fuel -> newest v t (Some i) ->
  can_compile l k v -> here (v_ds v) + 16 <= limit (v_ds v) ->
  exists n v1 v', token_read v t n v1 /\ quiet fuel P_bracket_tick v v' /\ compiled (Num i) v1 v' /\ v_tkn v' = Some t.
Proof.
  intros HX HD Hf HN HC HL. destruct (next_taken fuel v t HX) as (n & v1 & _ & HR & Ht & HP). destruct (newest_id _ _ _ HN (proj1 (proj1 (proj2 HC)))) as (EI & HI).
  destruct (read_dict _ _ _ _ HR) as (_ & ED & _). destruct (num_compiles l k i HI _ (read_can _ _ _ _ _ _ HR HC)) as (v' & C1 & C2); [cbn [v_ds set_v_tkn fin]; rewrite ED; exact HL|].
  exists n, v1, (set_v_tkn (Some t) v'). split; [exact HR|]. split; [|split; [exact C2|reflexivity]].
  intro ew. cbn [exec_prim]. unfold bracket_tick. rewrite (tick_form fuel _ v t n v1 HR Ht HP HD Hf (Some i) ew HN), EI. rewrite (bind_Ok _ _ _ _ _ C1). reflexivity.
Qed.
Lemma unknown_raises fuel p v t : In p [P_tick; P_bracket_tick; P_postpone] -> next_is v t -> dict_ok v -> words v < Z.of_nat fuel -> newest v t None ->
  raises fuel (-13) p v.
Proof.
  intros Hp HX HD Hf HN. destruct (next_taken fuel v t HX) as (n & v1 & _ & HR & Ht & HP).
  destruct (read_dict _ _ _ _ HR) as (_ & _ & _ & _ & _ & _ & _ & EH & _).
  apply (raises_code fuel _ p v (set_v_tkn (Some t) v1) (fun _ => ret tt)); [exact EH|]. intro ew. rewrite <- bind_ret_r.
  cbn [In] in Hp. destruct Hp as [<-|[<-|[<-|[]]]]; cbn [exec_prim].
  - apply (tick_form fuel _ v t n v1 HR Ht HP HD Hf None ew HN).
  - apply (tick_form fuel _ v t n v1 HR Ht HP HD Hf None ew HN).
  - unfold postpone. rewrite HP. destruct t as [|c t0] eqn:Et; [contradiction|]. rewrite <- Et in *. clear Et c t0.
    rewrite (bind_Ok (find fuel t) _ _ None (set_v_tkn None v1)) by (apply (read_find fuel v t n v1 None); assumption). reflexivity.
Qed.

(** CHAR and [CHAR] *)
Lemma first_char t c cs : utf8_text t (c :: cs) -> exists x r, chars_of t = (c, x) :: r.
Proof. intro H. destruct (chars_ok t _ H) as (_ & _ & HM). destruct (chars_of t) as [|(c0, x) r]; cbn in HM; [discriminate|]. injection HM as -> _. eauto. Qed.
Lemma char_form v t n v1 c cs ew : token_read v t n v1 ->
  (forall B (k : bytes -> M B), (parse_word ;;; tok <- take_token ;; k tok) v = k t (set_v_tkn None v1)) ->
  utf8_text t (c :: cs) -> p_char ew v = s_push c (set_v_tkn (Some t) v1).
Proof. intros HR HP HU. unfold p_char. rewrite HP. destruct (first_char t c cs HU) as (x & r & ->). reflexivity. Qed.
Lemma retkn v t : v_tkn v = Some t -> set_v_tkn (Some t) v = v.
Proof. intro H. rewrite <- H. destruct v; reflexivity. Qed.
Lemma char_ok fuel v t c cs l : next_is v t -> utf8_text t (c :: cs) -> stack_has (t_s (cur v)) l -> zlen l < 255 ->
  exists n v1 v', token_read v t n v1 /\ quiet fuel P_char v v' /\ stack_has (t_s (cur v')) (c :: l) /\ only_data_stack v1 v'.
Proof.
  intros HX HU HS HL. destruct (next_taken fuel v t HX) as (n & v1 & _ & HR & Ht & HP).
  destruct (read_dict _ _ _ _ HR) as (_ & _ & _ & _ & _ & ES & ET & _). exists n, v1, (set_s (push (t_s (cur v1)) c) v1). split; [exact HR|].
  rewrite <- ES in HS. destruct (push1_has _ c l HS HL) as (A & B & _). split; [|split; [rewrite cur_set_s; exact A|apply only_data_set_s; exact B]].
  intro ew. cbn [exec_prim]. rewrite (char_form v t n v1 c cs ew HR HP HU), (retkn v1 t ET). reflexivity.
Qed.
Lemma char_range bs c : utf8_char bs c -> 0 <= c < 2097152.
Proof. destruct 1; unfold tail_byte in *; lia. Qed.
Lemma bracket_char_ok fuel v t c cs l k d : next_is v t -> utf8_text t (c :: cs) -> v_err v = None -> stack_has (t_s (cur v)) d -> zlen d < 255 ->
  can_compile l k v -> here (v_ds v) + 16 <= limit (v_ds v) ->
  exists n v1 v2 v', token_read v t n v1 /\ quiet fuel P_bracket_char v v' /\ only_data_stack1 v1 v2 /\ compiled (Num c) v2 v' /\ v_tkn v' = Some t /\
    stack_has (t_s (cur v')) d.
Proof.
  intros HX HU HE HS HL HC HLim. destruct (next_taken fuel v t HX) as (n & v1 & _ & HR & Ht & HP).
  destruct (read_dict _ _ _ _ HR) as (EW & ED & ERf & _ & EC & ES & ET & _ & EE). rewrite <- ES in HS. destruct (push1_has _ c d HS HL) as (A & B & B').
  set (v1a := set_s (push (t_s (cur v1)) c) v1). assert (HSa : stack_has (t_s (cur v1a)) (c :: d)) by (unfold v1a; rewrite cur_set_s; exact A).
  destruct (pop_then v1a c d HSa) as (s1 & EP & S1 & S2 & _). set (v2 := set_s s1 v1a).
  assert (HC2 : can_compile l k v2).
  { revert HC. unfold can_compile, compiler_ready, word_is, v2, v1a. rewrite !cur_set_s. cbn [t_c set_t_s]. change (v_wl (set_s s1 (set_s (push (t_s (cur v1)) c) v1))) with (v_wl v1).
    change (v_ds (set_s s1 (set_s (push (t_s (cur v1)) c) v1))) with (v_ds v1). change (v_refs (set_s s1 (set_s (push (t_s (cur v1)) c) v1))) with (v_refs v1). rewrite EW, ED, EC, ERf. auto. }
  assert (HI : is_cell c).
  { inversion HU as [|bs ? ? ? HB _]; subst. apply char_range in HB. unfold is_cell. lia. }
  destruct (num_compiles l k c HI v2 HC2) as (v' & C1 & C2); [change (v_ds v2) with (v_ds v1); cbn [fin]; rewrite ED; exact HLim|].
  assert (EV : v_tkn v' = v_tkn v2 /\ t_s (cur v') = t_s (cur v2)).
  { split; [|apply C2]. destruct (integer_form _ _ _ C1) as (d1 & ->). reflexivity. }
  exists n, v1, v2, v'. split; [exact HR|]. split; [|split; [|split; [exact C2|split]]].
  - intro ew. cbn [exec_prim]. unfold bracket_char. rewrite (bind_Ok (p_char ew) _ v tt v1a) by (rewrite (char_form v t n v1 c cs ew HR HP HU), (retkn v1 t ET); reflexivity).
    rewrite bind_gets. change (v_err v1a) with (v_err v1). rewrite EE, HE. rewrite EP. exact C1.
  - exists v1a. split; [apply only_data_set_s; exact B|]. split; [unfold v1a; rewrite cur_set_s; exact B'|apply only_data_set_s; exact S2].
  - rewrite (proj1 EV). exact ET.
  - rewrite (proj2 EV). unfold v2. rewrite cur_set_s. exact S1.
Qed.

(** POSTPONE *)
Lemma cell_compiles l k i v : can_compile l k v -> 0 <= i < words v -> here (v_ds v) + 8 <= limit (v_ds v) ->
  exists d, compile_word i v = Ok (tt, set_v_ds d v) /\ compiled (Op i) v (set_v_ds d v).
Proof.
  intros HC Hi HF. destruct (can_J _ _ _ HC) as (open & HJ & Hn & Hl & HR).
  destruct (c_op v HR (fun _ => ret tt) i open (compile_word i) HJ Hi HF eq_refl) as (v' & E1 & D).
  destruct (ds_upd_form _ _ _ E1) as (d & ->). exists d. split; [exact E1|]. eapply done_compiled; eassumption.
Qed.
Lemma compiled_can l k p v v' : can_compile l k v -> 0 <= k -> compiled p v v' -> fin p (here (v_ds v)) <= limit (v_ds v) -> can_compile l k v'.
Proof.
  intros (D & R & C & open & HS & HO & HLp) Hk (A1 & A2 & A3 & A4 & A5 & A6 & A7 & A8 & A9) HF. destruct D as (D1 & D2 & D3). pose proof (fin_ge v p (here (v_ds v))).
  destruct A9 as (_ & _ & _ & EW & _ & _ & ER & _). split; [split; [lia|split; [lia|lia]]|]. split.
  - unfold compiler_ready, word_is in *. rewrite EW, ER. exact R.
  - split; [congruence|]. exists open. split; [apply A8; [lia|exact HS]|]. auto.
Qed.
Lemma postpone_ok fuel v t i l k : next_is v t -> dict_ok v -> words v < Z.of_nat fuel -> newest v t (Some i) ->
  can_compile l k v -> 0 <= k -> word_is v (idx__postpone (v_refs v)) P__postpone -> here (v_ds v) + 24 <= limit (v_ds v) ->
  exists n v1 v' j, token_read v t n v1 /\ quiet fuel P_postpone v v' /\ word_is v j P__postpone /\ compiled (Seq (Num i) (Op j)) v1 v' /\ v_tkn v' = Some t.
Proof.
  intros HX HD Hf HN HC Hk HW HL. destruct (next_taken fuel v t HX) as (n & v1 & _ & HR & Ht & HP). destruct (newest_id _ _ _ HN (proj1 (proj1 (proj2 HC)))) as (EI & HI).
  destruct (read_dict _ _ _ _ HR) as (EW & ED & ER & _ & _ & _ & ET & _). set (j := idx__postpone (v_refs v)) in *.
  assert (HC1 : can_compile l k v1) by exact (read_can _ _ _ _ _ _ HR HC).
  destruct (num_compiles l k i HI v1 HC1) as (v2 & C1 & C2); [cbn [fin]; rewrite ED; lia|]. destruct (integer_form _ _ _ C1) as (d2 & ->).
  assert (HC2 : can_compile l k (set_v_ds d2 v1)) by (apply (compiled_can l k (Num i) v1); auto; cbn [fin]; rewrite ED; lia).
  pose proof C2 as (H2 & _ & L2 & _). cbn [fin] in H2. rewrite ED in H2, L2.
  destruct (cell_compiles l k j (set_v_ds d2 v1) HC2) as (d3 & C3 & C4).
  { unfold words. cbn [v_wl set_v_ds]. rewrite EW. destruct HW as (W1 & _). exact W1. } { rewrite H2, L2. lia. }
  exists n, v1, (set_v_ds d3 (set_v_ds d2 v1)), j. split; [exact HR|]. split; [|split; [exact HW|split; [|exact ET]]].
  - intro ew. cbn [exec_prim]. unfold postpone. rewrite HP. destruct t as [|c t0] eqn:Et; [contradiction|]. rewrite <- Et in *. clear Et c t0.
    rewrite (bind_Ok (find fuel t) _ _ (Some i) (set_v_tkn None v1)) by (apply (read_find fuel v t n v1 (Some i)); assumption).
    rewrite (bind_Ok (set_token t) _ _ tt v1) by (unfold set_token, modify; change (set_v_tkn (Some t) (set_v_tkn None v1)) with (set_v_tkn (Some t) v1); rewrite (retkn v1 t ET); reflexivity).
    rewrite EI, (bind_Ok _ _ _ _ _ C1). unfold refs_get. rewrite bind_gets. cbn [v_refs set_v_ds]. rewrite ER. exact C3.
  - eapply compiled_seq; [exact C2|exact C4|apply HC1].
Qed.
(** what the compiled word does: what the text interpreter does with a word that is not immediate *)
Lemma postponed_ok fuel v i x l k d : can_compile l k v -> stack_has (t_s (cur v)) (x :: d) -> addr_of x i -> i < words v ->
  w_cs (word_of v i) <> CS_compile_leave -> here (v_ds v) + 8 <= limit (v_ds v) ->
  exists v1 v', quiet fuel P__postpone v v' /\ only_data_stack v v1 /\ stack_has (t_s (cur v')) d /\ compiled (Op i) v1 v'.
Proof.
  intros HC HS HA Hi HL HF. destruct (pop_then v x d HS) as (s1 & EP & S1 & S2 & _). exists (set_s s1 v).
  assert (HC1 : can_compile l k (set_s s1 v)).
  { revert HC. unfold can_compile, compiler_ready, word_is. rewrite !cur_set_s. auto. }
  destruct (cell_compiles l k i (set_s s1 v) HC1) as (d1 & C1 & C2); [change (words (set_s s1 v)) with (words v); destruct HA; lia|exact HF|].
  exists (set_v_ds d1 (set_s s1 v)). split; [|split; [apply only_data_set_s; exact S2|split; [|exact C2]]].
  - intro ew. cbn [exec_prim]. unfold _postpone. rewrite EP. cbv zeta. rewrite (addr_of_to_u64 _ _ HA).
    rewrite (bind_Ok (word_at i) _ (set_s s1 v) (word_of v i) (set_s s1 v)) by (apply (word_at_ok (set_s s1 v) i); change (words (set_s s1 v)) with (words v); destruct HA; lia).
    rewrite <- C1. destruct (w_cs (word_of v i)); try reflexivity. congruence.
  - change (cur (set_v_ds d1 (set_s s1 v))) with (cur (set_s s1 v)). rewrite cur_set_s. exact S1.
Qed.

(** FCONSTANT *)
Lemma align8_id a : a mod 8 = 0 -> align8 a = a.
Proof. intro H. destruct (align8_mult a) as [k Hk]. pose proof (align8_range a). lia. Qed.
Lemma fconstant_ok fuel v t x l : next_is v t -> dict_ok v -> words v < Z.of_nat fuel -> room_for v t 8 ->
  stack_has (t_f (cur v)) (x :: l) ->
  exists v', quiet fuel P_fconstant v v' /\ makes P_p_fconst t v v' /\ stack_has (t_f (cur v')) l /\
    t_s (cur v') = t_s (cur v) /\ t_r (cur v') = t_r (cur v) /\ fconstant_is v' (words v) x /\ here (v_ds v') = body v' (words v) + 8.
Proof.
  intros (HT & s & cs & ts & HR & HU & HK) HD Hf Hr HS. unfold room_for in Hr. destruct (pop1_has _ _ _ HS) as (f1 & EF & F1 & _). set (v0 := set_f f1 v).
  assert (EP : f_pop v = Ok (x, v0)) by (unfold f_pop, f_stk; rewrite EF; reflexivity).
  assert (HR0 : rest_of_input v0 s).
  { destruct HR as (buf & pre & HI & R1 & R2 & R3). exists buf, pre. unfold input_text, v0, st. rewrite cur_set_f. auto. }
  destruct (define_ok fuel P_p_fconst CS_compile_fconst v0 s cs t ts HR0 HU HT HK HD Hf ltac:(unfold room_for; cbn [v_ds]; change (v_ds v0) with (v_ds v); lia) ltac:(discriminate))
    as (v1 & A & B & SS & C & _).
  pose proof B as (B1 & B2 & B3 & B4 & B5 & _ & _ & B8 & B9 & B10 & _). change (words v0) with (words v) in *. change (v_ds v0) with (v_ds v) in *.
  pose proof B2 as (_ & S1 & S2 & _). change (v_ds v0) with (v_ds v) in *. change (body v1 (words v)) with (w_dfa (word_of v1 (words v))) in *.
  pose proof HD as ((D1 & D2 & D3) & D4 & _). pose proof (zlen_nonneg t) as Z0.
  set (d2 := moved (v_ds v1) (align8 (here (v_ds v1)))).
  assert (EA : align8 (here (v_ds v1)) = here (v_ds v1)) by (apply align8_id; rewrite C; exact B9).
  assert (E2 : ds_align chk (v_ds v1) = Ok d2).
  { unfold ds_align. change (2 ^ 63) with 9223372036854775808 in *. rewrite aligned8_ok by (unfold two64; rewrite C; lia). cbn [rbind]. rewrite set_here_ok by (rewrite EA, ?S1, ?S2, C; lia). reflexivity. }
  assert (H2 : here d2 = here (v_ds v1)) by (unfold d2; rewrite here_moved; exact EA).
  pose proof (align_grows chk (v_ds v1) d2 (proj1 B1) E2) as G2. pose proof G2 as (K1 & K2 & K3 & _).
  destruct (compile_cell_ok d2 x K1 ltac:(rewrite K3, S2, H2, C; lia)) as (d3 & E3 & C3 & S3 & H3 & _ & _).
  destruct (compile_cell_grows d2 x d3 K1 E3) as (G3 & _ & _). pose proof (grows_trans _ _ _ G2 G3) as G.
  exists (set_v_ds d3 (set_v_ds d2 v1)).
  assert (ME : makes P_p_fconst t v (set_v_ds d3 (set_v_ds d2 v1))).
  { apply (makes_from _ _ v v0); [unfold alike, v0, st; rewrite cur_set_f; repeat split|]. eapply makes_grows; [exact B| |exact G|..]; reflexivity. }
  change (cur (set_v_ds d3 (set_v_ds d2 v1))) with (cur v1). destruct SS as (SA & SB & SC). unfold v0 in SA, SB, SC. rewrite cur_set_f in SA, SB, SC. cbn [t_s t_r t_f set_t_f] in SA, SB, SC.
  split; [|split; [exact ME|split; [rewrite SC; exact F1|split; [exact SA|split; [exact SB|]]]]].
  - intro ew. cbn [exec_prim]. unfold fconstant. rewrite (bind_Ok _ _ _ _ _ EP), (bind_Ok _ _ _ _ _ (A ew)).
    rewrite (bind_Ok (ds_upd (ds_align chk)) _ v1 tt (set_v_ds d2 v1)) by (unfold ds_upd; rewrite E2; reflexivity). unfold ds_upd. cbn [v_ds set_v_ds]. rewrite E3. reflexivity.
  - unfold fconstant_is. change (body (set_v_ds d3 (set_v_ds d2 v1)) (words v)) with (w_dfa (word_of v1 (words v))). cbn [v_ds set_v_ds].
    destruct S3 as (X1 & X2 & _). split; [|lia]. split; [split; [|exact B5]|].
    + change (wl_len (v_wl (set_v_ds d3 (set_v_ds d2 v1)))) with (words v1). unfold words in *. lia.
    + split; [exact B9|]. split; [rewrite X1, K2, S1; lia|]. split; [rewrite X2, K3, S2; lia|]. rewrite <- C, <- H2. exact C3.
Qed.
Lemma fconstant_pushes v i x : ds_ok (v_ds v) -> fconstant_is v i x -> 0 <= x < 2 ^ 64 -> fpushes v i x.
Proof.
  intros (D1 & D2 & D3) (W & HB & H1 & H2 & H3) Hx K d rs fs HS Hd. eapply does_prim; [exact W|]. intros c fuel ew.
  pose proof (LLib.inv_at _ _ _ _ _ _ _ i c (LLib.inv_start v d rs fs HS)) as HI. pose proof (proj1 HI) as (HA & HR & HF).
  destruct (push1_has _ x fs HF Hd) as (A & B & _). set (u := set_f (push (t_f (cur (at_ i c v))) x) (at_ i c v)).
  assert (HU : LLib.inv v d rs (x :: fs) (v_ds v) (v_out v) u).
  { eapply LLib.inv_stacks; [exact HI| |apply drf_f; exact B]. unfold u, stacks_are. rewrite cur_set_f. cbn [t_s t_r t_f set_t_f]. auto. }
  exists u. split; [|split; [unfold u, st; rewrite cur_set_f; cbn [t_state set_t_f]; rewrite cur_at; reflexivity|split; [apply kept_eq; reflexivity|]]].
  - cbn [exec_prim]. unfold p_fconst. rewrite bind_gets, st_at. cbn [st_wp set_st_ip set_st_wp].
    rewrite (bind_Ok _ _ _ _ _ (word_at_eq (at_ i c v) i (proj1 W))). change (w_dfa (wl_get (v_wl (at_ i c v)) i)) with (body v i).
    change (2 ^ 63) with 9223372036854775808 in *. rewrite (bind_Ok _ _ _ (body v i) (at_ i c v)) by (apply lift_eq; rewrite aligned8_ok by (unfold two64; lia); rewrite (align8_id _ HB); reflexivity).
    rewrite (bind_Ok _ _ _ x (at_ i c v)); [reflexivity|]. unfold ds_get. change (v_ds (at_ i c v)) with (v_ds v). unfold get_f64.
    rewrite (get_usize_ok (v_ds v) (body v i) x); [reflexivity|apply in_ds_true; lia|exact H3|exact Hx].
  - destruct HU as (J1 & J2 & J3 & J4). auto.
Qed.
Lemma fconstant_forever fuel v v' i x : dict_ok v -> fconstant_is v i x -> body v i + 8 <= here (v_ds v) -> 0 <= x < 2 ^ 64 -> history fuel i 8 v v' ->
  fconstant_is v' i x /\ fpushes v' i x.
Proof.
  intros HD HC HB Hx HH. pose proof HC as (W & H0 & H1 & H2 & H3).
  destruct (history_untouched fuel i 8 v v' HD (proj1 W) ltac:(lia) HB HH) as (U & D & _).
  assert (C : fconstant_is v' i x).
  { destruct W as (W1 & W2). destruct U as (U1 & U2 & U3 & U4 & U5). unfold fconstant_is, word_is, body, word_of, words in *. rewrite U2, U3, U4.
    split; [split; [lia|exact W2]|]. split; [exact H0|]. split; [exact H1|]. split; [exact H2|]. intros k Hk. rewrite U5 by lia. apply H3. exact Hk. }
  split; [exact C|]. apply fconstant_pushes; [apply D|exact C|exact Hx].
Qed.

(** DOES> *)
Lemma push_comma v x d : ds_ok (v_ds v) -> here (v_ds v) + 8 <= limit (v_ds v) -> stack_has (t_s (cur v)) d -> zlen d < 255 ->
  exists v', (forall B (k : M B), (s_push x ;;; comma ;;; k) v = k v') /\ (s_push x ;;; comma) v = Ok (tt, v') /\ stack_has (t_s (cur v')) d /\
    cell_at (v_ds v') (here (v_ds v)) x /\ same_memory_but (v_ds v) (v_ds v') (here (v_ds v)) 8 /\ here (v_ds v') = here (v_ds v) + 8 /\
    v_wl v' = v_wl v /\ v_refs v' = v_refs v.
Proof.
  intros HD HL HS Hd. set (u := set_s (push (t_s (cur v)) x) v). assert (HU : stack_has (t_s (cur u)) (x :: d)) by (unfold u; rewrite cur_set_s; apply push1_has; assumption).
  destruct (comma_ok P_comma 0%nat (fun _ => ret tt) u x d ltac:(cbn; auto) HD HU HL) as (v' & E1 & A & B & C & D & (G & _)).
  exists v'. cbn [exec_prim] in E1. split; [intros B0 k; rewrite (bind_Ok (s_push x) _ v tt u) by reflexivity; rewrite (bind_Ok _ _ _ _ _ E1); reflexivity|].
  split; [rewrite (bind_Ok (s_push x) _ v tt u) by reflexivity; exact E1|]. split; [exact A|]. split; [exact B|]. split; [exact C|]. split; [exact D|].
  unfold same_globals in G. split; [apply (eq_trans (y := v_wl u)); [apply G|reflexivity]|apply (eq_trans (y := v_refs u)); [apply G|reflexivity]].
Qed.
Lemma does_ok fuel v d r : ds_ok (v_ds v) -> here (v_ds v) + 16 <= limit (v_ds v) ->
  word_is v (idx__does (v_refs v)) P__does -> word_is v (idx_exit (v_refs v)) P_exit -> words v <= 2 ^ 63 ->
  stack_has (t_s (cur v)) d -> zlen d < 255 -> r = here (v_ds v) ->
  exists i j v', quiet fuel P_does v v' /\ word_is v i P__does /\ word_is v j P_exit /\ cell_at (v_ds v') r i /\ cell_at (v_ds v') (r + 8) j /\
    same_memory_but (v_ds v) (v_ds v') r 16 /\ here (v_ds v') = r + 16 /\ stack_has (t_s (cur v')) d.
Proof.
  intros HD HL H1 H2 HW HS Hd ->. pose proof HD as (D1 & D2 & D3).
  assert (ID : forall i p, word_is v i p -> to_i64 i = i).
  { intros i p (W & _). unfold words in HW. change (2 ^ 63) with 9223372036854775808 in *. apply to_i64_id. unfold imin, imax, two63. lia. }
  destruct (push_comma v (idx__does (v_refs v)) d HD ltac:(lia) HS Hd) as (v1 & E1 & _ & S1 & C1 & M1 & L1 & W1 & R1). pose proof M1 as (X1 & X2 & X3).
  assert (HD1 : ds_ok (v_ds v1)) by (unfold ds_ok; rewrite X1, X2, L1; lia).
  destruct (push_comma v1 (idx_exit (v_refs v)) d HD1 ltac:(lia) S1 Hd) as (v2 & _ & E2 & S2 & C2 & M2 & L2 & _). pose proof M2 as (Y1 & Y2 & Y3). rewrite L1 in *.
  exists (idx__does (v_refs v)), (idx_exit (v_refs v)), v2. split; [|split; [exact H1|split; [exact H2|split; [|split; [exact C2|split; [|split; [lia|exact S2]]]]]]].
  - intro ew. cbn [exec_prim]. unfold CoreM.does, refs_get. rewrite bind_gets, (ID _ _ H1), E1, bind_gets, R1, (ID _ _ H2). exact E2.
  - intros k Hk. rewrite Y3 by lia. apply C1. exact Hk.
  - split; [congruence|]. split; [congruence|]. intros k K1 K2. rewrite Y3 by lia. apply X3; lia.
Qed.
End C.
