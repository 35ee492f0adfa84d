(** Interpreting a line and compiling it (C59): compiling the line. *)
From Coq Require Import ZArith List Bool Lia ZifyBool ZifyNat.
From Verif Require Import Base Stack Mem Parser Flt State CoreM IoM FloatM FileM Exec.
From Verif Require Import LBase LStack Spec Spec2 Spec4 Spec5 Spec6 Spec7 Spec9 Spec10 Spec11 Spec15 Spec16 Spec19 Spec20
  LState LMem LMon LStep LTask LHist LCheck LFuel LCode LComp LRun LCtl LDict LDict2 LDict3 LDict4 LDict5 LParse LNum LNum2 LText LLib LDefine LEval LSame LSame2.
Import ListNotations.
Open Scope Z_scope.
Open Scope m_scope.

Section A.
Context {E : Env}.
Implicit Types (v u w : vm).

Lemma plain_evals u s cs t ts base (Q : vm -> Prop) :
  rest_of_input u s -> utf8_text s cs -> v_tkn u <> None -> tokens s (t :: ts) -> dict_ok u -> base_is u base -> idx_flit (v_refs u) <> 0 ->
  (forall n u1 r cs', token_read u t n u1 -> rest_of_input u1 r -> utf8_text r cs' -> tokens r ts ->
     exists m u2, (forall m', (m <= m')%nat -> performs m' t u1 u2) /\ v_err u2 = None /\ idle u2 /\ stacks_intact u2 /\ evals u2 Q) ->
  evals u Q.
Proof.
  intros HR HU HT HK HD HB HF HX.
  destruct (next_word u s cs (t :: ts) HR HU HT HK 0%nat) as (n & r & cs' & u1 & A & B & _ & C & D & F). cbn [hd tl] in B, F.
  destruct (token_read_same u t n u1 B) as (B1 & B2 & B3 & B4 & B5 & B6 & B7 & B8 & B9 & B10 & B11 & B12 & B13 & B14 & B15).
  assert (T1 : v_tkn u1 = Some t) by (destruct B as [->|(_ & ->)]; reflexivity).
  assert (Hne : t <> []) by (inversion HK; subst; assumption).
  destruct (HX n u1 r cs' B C D F) as (m0 & u2 & P1 & P3 & P4 & P5 & P6).
  set (m := (m0 + Z.to_nat (words u) + 1)%nat).
  assert (AT : at_token m u1 t).
  { split; [exact T1|]. unfold dict_ok, words, named, word_of, base_is in *. rewrite B1, B2, B3. split; [exact HD|].
    split; [unfold m; lia|]. split; [exists base; exact HB|exact HF]. }
  assert (HRD : reads u t u1) by (split; [exact A|exact T1]).
  assert (RN : run m u2 = Ok (tt, u2)) by (replace m with (S (m0 + Z.to_nat (words u))) by (unfold m; lia); apply idle_run; exact P4).
  assert (K := round_token m u t u1 u2 HRD Hne AT (TR_done m t u1 u2 u2 u2 (P1 m ltac:(unfold m; lia)) P3 RN (intact_check m _ u2 P5))).
  rewrite P3 in K. exact (round_evals _ _ _ _ K P6).
Qed.

(** ** The colon *)
Definition opened v nm v' : Prop :=
  let w := word_of v' (words v) in
  dict_ok v' /\ older_kept v v' /\ words v' = words v + 1 /\ w_action w = P_nest /\ w_hidden w = true /\ w_co w = false /\
  w_dfa w = here (v_ds v') /\ here (v_ds v') < here (v_ds v) + 16 + zlen nm /\ (exists n, named v' (words v) n /\ same_text n nm) /\
  v_refs v' = v_refs v /\ v_err v' = None /\ v_fwd v' = v_fwd v /\ v_cur v' = v_cur v /\ v_out v' = v_out v /\
  t_s (cur v') = t_s (cur v) /\ t_r (cur v') = t_r (cur v) /\ t_c (cur v') = t_c (cur v) /\ t_f (cur v') = t_f (cur v) /\
  st_compiling (st v') = true /\ st_ip (st v') = st_ip (st v) /\ v_tkn v' <> None.

Lemma cur_compiling b v : cur (set_compiling b v) = set_t_state (set_st_compiling b (st v)) (cur v).
Proof. apply cur_upd. Qed.

Lemma colon_opens fuel v s cs nm ts : rest_of_input v s -> utf8_text s cs -> v_tkn v <> None -> tokens s (nm :: ts) ->
  dict_ok v -> words v < Z.of_nat fuel -> room_for v nm 0 -> newest v nm None -> v_err v = None ->
  exists v' r cs', quiet fuel P_colon v v' /\ opened v nm v' /\ rest_of_input v' r /\ utf8_text r cs' /\ tokens r ts.
Proof.
  intros HR HU HT HK HD Hf Hroom HN HE. pose proof HD as (_ & HD1 & _).
  destruct (define_ok fuel P_nest CS_compile_nest v s cs nm ts HR HU HT HK HD Hf Hroom ltac:(discriminate)) as (v2 & A & M & _ & HB & HI).
  destruct (next_word v s cs (nm :: ts) HR HU HT HK fuel) as (n & r & cs' & v1 & Q1 & T1 & _ & R1 & U1 & K1). cbn [hd tl] in T1, K1.
  destruct (token_read_same v nm n v1 T1) as (B1 & B2 & B3 & B4 & B5 & B6 & B7 & B8 & B9 & B10 & B11 & B12 & B13 & B14 & B15).
  assert (Tt : v_tkn v1 = Some nm) by (destruct T1 as [->|[_ ->]]; reflexivity).
  assert (F : exists wl' d', v2 = set_v_tkn (Some (map lower nm)) (set_v_wl wl' (set_v_ds d' v1))).
  { pose proof (A (fun _ => ret tt)) as HA. unfold define in HA. rewrite (bind_Ok _ _ _ tt v1) in HA by (exact (Q1 (fun _ => ret tt))).
    rewrite (bind_Ok _ _ _ nm (set_v_tkn None v1)) in HA by (unfold take_token; rewrite Tt; reflexivity). cbv zeta in HA.
    assert (HD2 : dict_ok (set_v_tkn None v1)) by (unfold dict_ok, words, named, word_of in *; cbn [v_wl v_ds set_v_tkn]; rewrite B1, B2; exact HD).
    assert (Hf2 : words (set_v_tkn None v1) < Z.of_nat fuel) by (unfold words in *; cbn [v_wl set_v_tkn]; rewrite B1; exact Hf).
    destruct (find_newest fuel (map lower nm) _ HD2 Hf2) as (f & EF & NF). rewrite (bind_Ok _ _ _ _ _ EF) in HA.
    assert (f = None) as ->.
    { destruct f as [i|]; [|reflexivity]. exfalso. destruct NF as (N1 & (N2 & k & N3 & N4) & _). unfold words, visible, named, word_of in *. cbn [v_wl v_ds set_v_tkn] in N1, N2, N3. rewrite B1, ?B2 in *.
      apply (HN i N1). split; [exact N2|]. exists k. split; [exact N3|]. eapply same_text_trans; [exact N4|apply same_text_lower]. }
    rewrite (bind_Ok _ _ _ tt (set_v_tkn None v1)) in HA by reflexivity.
    assert (Hne : nm <> []) by (inversion HK; subst; assumption).
    destruct (map lower nm) as [|b0 t0] eqn:Et; [destruct nm; [congruence|discriminate Et]|].
    apply bind_inv in HA as (nfa & w1 & H1 & HA). destruct (compile_str _ _) as [[p d1]| | |]; try discriminate H1. cbn [rbind fst snd] in H1.
    assert (w1 = set_v_ds d1 (set_v_tkn None v1)) as -> by congruence.
    apply bind_inv in HA as ([] & w2 & H2 & HA). unfold ds_upd in H2. destruct (ds_align _ _) as [d2| | |]; try discriminate H2. cbn [rbind] in H2.
    assert (w2 = set_v_ds d2 (set_v_ds d1 (set_v_tkn None v1))) as -> by congruence.
    rewrite bind_gets, bind_modify in HA. unfold set_token, modify in HA.
    eexists _, d2. match goal with H : Ok (tt, ?x) = Ok (tt, v2) |- _ => assert (EX : x = v2) by congruence; rewrite <- EX end. reflexivity. }
  destruct F as (wl' & d' & E2). destruct M as (M1 & M2 & M3 & M4 & M5 & M6 & M7 & M8 & M9 & M10 & M11 & M12 & M13).
  assert (L2 : wl_last (v_wl v2) = words v) by (destruct M1 as (_ & _ & L & _); lia).
  set (v3 := set_word_at (words v) (set_w_hidden true (word_of v2 (words v))) v2). exists (set_compiling true v3), r, cs'.
  assert (HW : word_of v3 (words v) = set_w_hidden true (word_of v2 (words v))) by (unfold v3; rewrite set_word_of by lia; rewrite Z.eqb_refl; reflexivity).
  assert (CV : cur v2 = cur v1) by (rewrite E2; reflexivity).
  split; [|split; [|split; [|split; [exact U1|exact K1]]]].
  - intro ew. cbn [exec_prim]. unfold colon. rewrite (bind_Ok _ _ _ tt v2 (A ew)). rewrite bind_gets, M10, HE, bind_gets, L2.
    rewrite (bind_Ok _ _ _ tt v3); [reflexivity|]. unfold upd_word, v3, set_word_at, word_of. unfold words in *.
    replace ((0 <=? _) && (_ <? _)) with true by lia. reflexivity.
  - unfold opened. cbv zeta. change (word_of (set_compiling true v3)) with (word_of v3). rewrite HW. rewrite (cur_compiling true v3).
    assert (C3 : cur v3 = cur v1) by exact CV.
    split. { change (dict_ok (set_compiling true v3)) with (dict_ok v3). apply set_word_dict; [exact M1|lia|]. repeat split. left. reflexivity. }
    split. { change (older_kept v (set_compiling true v3)) with (older_kept v v3). apply older_set_word; [exact M2|lia|lia]. }
    split; [exact M3|]. split; [exact M5|]. split; [reflexivity|]. split; [exact M7|]. split; [symmetry; exact HB|]. split; [change (here (v_ds (set_compiling true v3))) with (here (v_ds v2)); rewrite HB; apply M8|].
    split. { destruct (M4 nm) as (_ & (_ & k & N1 & N2) & _); [clear; induction nm; constructor; auto; left; reflexivity|]. exists k. split; [|exact N2].
      unfold named. change (word_of (set_compiling true v3)) with (word_of v3). rewrite HW. exact N1. }
    split; [change (v_refs (set_compiling true v3)) with (v_refs v2); rewrite E2; exact B3|].
    split; [change (v_err (set_compiling true v3)) with (v_err v2); congruence|].
    split; [change (v_fwd (set_compiling true v3)) with (v_fwd v2); rewrite E2; exact B5|].
    split; [exact M11|]. split; [change (v_out (set_compiling true v3)) with (v_out v2); rewrite E2; exact B7|].
    cbn [t_s t_r t_c t_f set_t_state]. rewrite C3. repeat (split; [assumption|]). unfold st. rewrite !cur_compiling. cbn. split; [reflexivity|].
    split; [unfold st; rewrite C3; exact B14|]. change (v_tkn (set_compiling true v3)) with (v_tkn v2). rewrite E2. discriminate.
  - assert (C3 : cur v3 = cur v1) by exact CV. apply (rest_kept v1); [exact R1|..]; unfold st; rewrite cur_compiling; cbn; unfold st; rewrite C3; reflexivity.
Qed.

(** ** Compiling one item *)
Lemma ds_upd_form f v v' : ds_upd f v = Ok (tt, v') -> exists d, v' = set_v_ds d v.
Proof. unfold ds_upd. destruct (f (v_ds v)) as [d| | |]; cbn [rbind]; try discriminate. intro H. exists d. congruence. Qed.
Lemma integer_form x v v' : compile_integer x v = Ok (tt, v') -> exists d, v' = set_v_ds d v.
Proof.
  intro H. unfold compile_integer in H. apply bind_inv in H as (i & v1 & H1 & H).
  assert (v1 = v) as -> by (unfold refs_get, gets in H1; repeat match type of H1 with context [match ?x with _ => _ end] => destruct x end; congruence).
  apply bind_inv in H as ([] & v2 & H2 & H). unfold compile_word in H2; apply ds_upd_form in H2 as (d1 & ->). apply ds_upd_form in H as (d2 & ->). exists d2. reflexivity.
Qed.
Lemma float_form x v v' : compile_float x v = Ok (tt, v') -> exists d, v' = set_v_ds d v.
Proof.
  intro H. unfold compile_float in H. apply bind_inv in H as (i & v1 & H1 & H).
  assert (v1 = v) as -> by (unfold refs_get, gets in H1; repeat match type of H1 with context [match ?x with _ => _ end] => destruct x end; congruence).
  apply bind_inv in H as ([] & v2 & H2 & H). unfold compile_word in H2; apply ds_upd_form in H2 as (d1 & ->). apply bind_inv in H as ([] & v3 & H3 & H). apply ds_upd_form in H3 as (d2 & ->).
  apply ds_upd_form in H as (d3 & ->). exists d3. reflexivity.
Qed.
Lemma op_compiles v i ew : can_compile false 0 v -> 0 <= i < words v -> w_cs (word_of v i) <> CS_compile_leave -> here (v_ds v) + 8 <= limit (v_ds v) ->
  exists d, run_cs ew (w_cs (word_of v i)) i v = Ok (tt, set_v_ds d v) /\ compiled (Op i) v (set_v_ds d v).
Proof.
  intros HC Hi HL HF. destruct (can_J _ _ _ HC) as (open & HJ & Hn & Hl & HR).
  assert (EQ : run_cs ew (w_cs (word_of v i)) i v = compile_word i v) by (destruct (w_cs (word_of v i)); try reflexivity; congruence).
  destruct (c_op v HR (fun _ => ret tt) i open (run_cs ew (w_cs (word_of v i)) i) HJ Hi HF EQ) as (v' & E1 & D).
  rewrite EQ in E1. destruct (ds_upd_form _ _ _ E1) as (d & ->). exists d. rewrite EQ. split; [exact E1|]. eapply done_compiled; eassumption.
Qed.
Lemma compiled_seq p q v v1 v2 : compiled p v v1 -> compiled q v1 v2 -> ds_ok (v_ds v) -> compiled (Seq p q) v v2.
Proof.
  intros (A1 & A2 & A3 & A4 & A5 & A6 & A7 & A8 & A9) (B1 & B2 & B3 & B4 & B5 & B6 & B7 & B8 & B9) (D1 & D2 & D3).
  pose proof (fin_ge v p (here (v_ds v))) as G1. pose proof (fin_ge v q (fin p (here (v_ds v)))) as G2. unfold compiled. cbv zeta. cbn [fin laid]. rewrite A1 in *.
  split; [exact B1|]. split; [congruence|]. split; [congruence|]. split; [intros i Hi; rewrite B4 by (rewrite ?A2; lia); apply A4; exact Hi|]. split; [split|].
  - apply (laid_mono (fun i => here (v_ds v) <= i < fin p (here (v_ds v)))); [intros; cbn beta in *; lia|]. eapply laid_move; [exact A5| |intros i Hi; exact Hi].
    apply kept_of; [congruence|congruence|apply B9|]. intros i Hi. apply B4. rewrite A2. lia.
  - eapply laid_mono; [|exact B5]. cbn beta. intros. lia.
  - split; [congruence|]. split; [congruence|]. split; [auto|]. eapply sbc_trans; eassumption.
Qed.
Lemma token_read_sbc u t n u1 : token_read u t n u1 -> same_but_code u u1.
Proof.
  intros [->|(_ & ->)]; [|repeat split; intros ? ? ? ?; reflexivity]. unfold same_but_code, st.
  change (cur (set_v_tkn (Some t) (set_idx n u))) with (cur (set_idx n u)). rewrite cur_set_idx. cbn.
  repeat match goal with |- _ /\ _ => split end; try reflexivity. apply (same_other_upd (fun t0 => set_t_state (set_st_idx n (t_state t0)) t0)).
Qed.
Lemma compiled_pre u t n u1 p u2 : token_read u t n u1 -> compiled p u1 u2 -> compiled p u u2.
Proof.
  intros B (A1 & A2 & A3 & A4 & A5 & A6 & A7 & A8 & A9). destruct (token_read_same u t n u1 B) as (B1 & B2 & _ & _ & _ & _ & _ & _ & _ & B10 & _).
  rewrite B2, ?B10 in *. unfold compiled. cbv zeta. repeat (split; [assumption|]). eapply sbc_trans; [exact (token_read_sbc _ _ _ _ B)|exact A9].
Qed.

(** ** Compiling the line *)
Definition cinv v u : Prop :=
  same_reading v u /\ v_err u = None /\ v_fwd u = [] /\ st_compiling (st u) = true /\ idle u /\ stack_has (t_c (cur u)) [] /\ stacks_intact u /\
  v_tkn u <> None /\ compiler_ready u /\ base_addr (v_ds u) + 8 <= here (v_ds u).
Lemma cinv_read v u t n u1 : cinv v u -> token_read u t n u1 -> cinv v u1.
Proof.
  intros (H1 & H2 & H3 & H4 & H5 & H6 & H7 & H8 & H9 & H10) B. pose proof (reading_read _ _ _ _ _ H1 B) as R.
  destruct (token_read_same u t n u1 B) as (B1 & B2 & B3 & B4 & B5 & B6 & B7 & B8 & B9 & B10 & B11 & B12 & B13 & B14 & B15).
  assert (T1 : v_tkn u1 <> None) by (destruct B as [->|(_ & ->)]; discriminate).
  unfold cinv, idle, stacks_intact, compiler_ready, word_is in *. rewrite B1, B2, B3, B4, B5, B8, B9, B10, B11, B13, B14. repeat (split; [assumption|]). assumption.
Qed.
Lemma cinv_can v u : cinv v u -> can_compile false 0 u.
Proof.
  intros ((D & _) & _ & _ & _ & _ & H6 & (_ & _ & (I1 & I2 & I3) & _) & _ & H9 & _). split; [apply D|]. split; [exact H9|]. split; [exact I3|].
  exists []. split; [exact H6|]. split; [cbn; lia|discriminate].
Qed.
Lemma cinv_compiled v u p d : cinv v u -> compiled p u (set_v_ds d u) -> fin p (here (v_ds u)) <= limit (v_ds u) -> cinv v (set_v_ds d u).
Proof.
  intros (H1 & H2 & H3 & H4 & H5 & H6 & H7 & H8 & H9 & H10) (A1 & A2 & A3 & A4 & A5 & _) HF. pose proof H1 as (D & D2 & D3 & D4 & D5 & D6).
  cbn [v_ds set_v_ds] in *. pose proof (fin_ge u p (here (v_ds u))) as G. pose proof D as ((O1 & O2 & O3) & _).
  assert (HG : goes_on u (set_v_ds d u)).
  { split; [repeat split|]. cbn [v_ds set_v_ds]. split; [unfold ds_ok; lia|]. split; [exact A2|]. split; [exact A3|]. split; [lia|].
    intros a Ha. apply A4. apply protected_below; assumption. }
  assert (BK : forall b, base_is u b -> base_is (set_v_ds d u) b).
  { apply base_kept; [exact A2|exact A3|]. intros a Ha. cbn [v_ds set_v_ds]. apply A4. unfold base_addr, start in *. lia. }
  split; [|split; [exact H2|split; [exact H3|split; [exact H4|split; [unfold idle in *; cbn [v_ds set_v_ds]; rewrite A2, A3; exact H5|split; [exact H6|split; [exact H7|split; [exact H8|split; [exact H9|]]]]]]]]].
  - split; [exact (goes_on_dict _ _ HG D)|]. split; [intros t r Ht; apply (goes_on_newest _ _ t r D HG); apply D2; exact Ht|]. split; [intros b Hb; apply BK, D3, Hb|].
    split; [exact D4|]. split; [exact D5|exact D6].
  - cbn [v_ds set_v_ds]. unfold base_addr, start in *. lia.
Qed.

Lemma seqs_bound (w : vm) l : forall a, fin (seqs l) a <= a + 24 * zlen l.
Proof.
  induction l as [|it l IH]; intro a; [cbn; lia|]. cbn [seqs fold_right fin]. fold (seqs l). rewrite zlen_cons. specialize (IH (fin (item_code it) a)).
  assert (fin (item_code it) a <= a + 24); [|lia]. destruct it; cbn [item_code fin]; [lia| |lia].
  assert (round8 (a + 8) < a + 16); [|lia]. change (round8 (a + 8)) with (align8 (a + 8)). pose proof (align8_range (a + 8)). lia.
Qed.

Lemma item_compiles v t it u : stands_for v t it -> cinv v u -> idx_flit (v_refs v) <> 0 -> fin (item_code it) (here (v_ds u)) <= limit (v_ds u) ->
  exists d, (forall m, performs m t u (set_v_ds d u)) /\ compiled (item_code it) u (set_v_ds d u).
Proof.
  intros HS HC HFL HF. pose proof (cinv_can _ _ HC) as CC. destruct HC as (HR & H2 & H3 & H4 & _). pose proof HR as (R1 & R2 & R3 & R4 & R5 & R6).
  destruct it as [x|x|i]; cbn [stands_for item_code] in *.
  - destruct HS as (S1 & S2 & S3). destruct (num_compiles false 0 x S3 u CC HF) as (u' & E1 & C1). destruct (integer_form _ _ _ E1) as (d & ->).
    exists d. split; [|exact C1]. intro m. apply (A_integer_compiled m t u _ x); [apply R2; exact S1|apply (integer_same v); assumption|exact H4|rewrite (set_err_none u H2); exact E1].
  - destruct HS as (S1 & S2 & (sg & si & sf & se & sx & S3 & S3') & S4). destruct (flo_compiles false 0 x S4 u CC HF) as (u' & E1 & C1). destruct (float_form _ _ _ E1) as (d & ->).
    exists d. split; [|exact C1]. intro m. apply (A_float_compiled m t u _ sg si sf se sx); [apply R2; exact S1|apply (no_integer_same v); assumption|exact S3|exact H4|rewrite (set_err_none u H2), <- S3'; exact E1].
  - destruct HS as (S1 & S2 & S3 & S4). assert (Hi : 0 <= i < words v) by (destruct S1 as (S1 & _); lia).
    destruct (op_compiles u i (fun _ => ret tt) CC ltac:(lia) ltac:(rewrite R6 by exact Hi; exact S4) HF) as (d & E1 & C1).
    exists d. split; [|exact C1]. intro m. apply (A_compiled m t u _ i); [apply R2; exact S1|exact H4|rewrite R6 by exact Hi; exact S2|].
    rewrite <- E1. destruct (w_cs (word_of u i)) eqn:EC; try reflexivity. exfalso. apply S4. rewrite <- R6 by exact Hi. exact EC.
Qed.

Lemma compile_chain v tl (Q : vm -> Prop) base : base_is v base -> idx_flit (v_refs v) <> 0 -> forall ts items, Forall2 (stands_for v) ts items -> forall u s cs,
  cinv v u -> rest_of_input u s -> utf8_text s cs -> tokens s (ts ++ tl) -> fin (seqs items) (here (v_ds u)) <= limit (v_ds u) ->
  (forall u' r cs', rest_of_input u' r -> utf8_text r cs' -> tokens r tl -> cinv v u' -> compiled (seqs items) u u' -> evals u' Q) -> evals u Q.
Proof.
  intros HB HFL. induction 1 as [|t it ts items HS HF IH]; intros u s cs HC HI HU HK HL HQ.
  - apply (HQ u s cs); try assumption. pose proof (cinv_can _ _ HC) as (D & _ & G & _). pose proof D as (D1 & D2 & D3). unfold compiled. cbv zeta. cbn [seqs fold_right fin laid].
    repeat (split; [solve [reflexivity|auto]|]). apply sbc_refl.
  - cbn [app] in HK. cbn [seqs fold_right] in *. fold (seqs items) in *. cbn [fin] in HL. pose proof HC as (HR & _ & _ & _ & _ & _ & _ & HT & _). pose proof HR as (R1 & R2 & R3 & R4 & R5 & R6).
    apply (plain_evals u s cs t (ts ++ tl) base Q HI HU HT HK R1 (R3 _ HB) ltac:(congruence)). intros n u1 r cs' B I1 U1 K1.
    pose proof (cinv_read _ _ _ _ _ HC B) as HC1. destruct (token_read_same u t n u1 B) as (_ & B2 & _).
    pose proof (fin_ge u (seqs items) (fin (item_code it) (here (v_ds u)))) as G.
    destruct (item_compiles v t it u1 HS HC1 HFL ltac:(rewrite B2; lia)) as (d & P & C1).
    pose proof (cinv_compiled _ _ _ _ HC1 C1 ltac:(rewrite B2; lia)) as HC2.
    exists 0%nat, (set_v_ds d u1). split; [intros m' _; apply P|]. split; [apply HC2|]. split; [apply HC2|]. split; [apply HC2|].
    pose proof (compiled_pre _ _ _ _ _ _ B C1) as C0. pose proof C0 as (E1 & E2 & E3 & _).
    apply (IH (set_v_ds d u1) r cs'); [exact HC2|apply (rest_kept u1); [exact I1|reflexivity..]|exact U1|exact K1|rewrite E1, E3; exact HL|].
    intros u' r' cs'' I2 U2 K2 HC' C2. apply (HQ u' r' cs''); try assumption. apply (compiled_seq _ _ _ _ _ C0 C2). apply R1.
Qed.

(** ** The semicolon *)
Lemma semicolon_closes fuel u : dict_ok u -> can_compile false 0 u -> v_fwd u = [] -> len (t_c (cur u)) = 0 -> 1 < words u ->
  w_cs (word_of u (idx_exit (v_refs u))) <> CS_compile_leave -> here (v_ds u) + 8 <= limit (v_ds u) ->
  exists d, compiled (Op (idx_exit (v_refs u))) u (set_v_ds d u) /\
    quiet fuel P_semicolon u (set_compiling false (set_word_at (words u - 1) (set_w_hidden false (word_of u (words u - 1))) (set_v_ds d u))).
Proof.
  intros HD HC HF HL HW HX HR. pose proof HC as (_ & (_ & CW) & _). assert (WX : word_is u (idx_exit (v_refs u)) P_exit) by (apply (CW idx_exit); unfold compiler_words; cbn [In]; tauto).
  destruct (op_compiles u (idx_exit (v_refs u)) (fun _ => ret tt) HC (proj1 WX) HX HR) as (d & E1 & C1). exists d. split; [exact C1|].
  intro ew. cbn [exec_prim]. unfold semicolon. unfold c_stk. rewrite !bind_gets, HL, HF. cbn [Z.eqb negb].
  pose proof HD as (_ & _ & LA & _).
  erewrite bind_Ok; [reflexivity|]. unfold refs_get. rewrite bind_gets. rewrite (bind_Ok _ _ u (word_of u (idx_exit (v_refs u))) u).
  2: { apply word_at_eq. exact (proj1 WX). }
  erewrite bind_Ok; [|replace (run_cs ew) with (run_cs ew) by reflexivity; rewrite <- E1; destruct (w_cs (word_of u (idx_exit (v_refs u)))); try reflexivity; congruence].
  rewrite bind_gets. cbn [v_wl set_v_ds]. rewrite LA. unfold upd_word. cbn [v_wl set_v_ds]. unfold words in *. replace ((0 <=? _) && (_ <? _)) with true by lia. reflexivity.
Qed.
End A.
