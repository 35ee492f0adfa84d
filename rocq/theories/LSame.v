(** Interpreting a line and compiling it (C59). *)
From Coq Require Import ZArith List Bool Lia ZifyBool ZifyNat.
From Verif Require Import Base Stack Mem Parser Flt State CoreM IoM FloatM FileM Exec.
From Verif Require Import LBase LStack Spec Spec2 Spec4 Spec5 Spec6 Spec7 Spec9 Spec10 Spec11 Spec15 Spec16 Spec19 Spec20
  LState LMem LMon LStep LTask LHist LCheck LFuel LCode LComp LRun LCtl LDict LDict2 LDict3 LDict4 LDict5 LParse LNum LNum2 LText LLib LDefine LEval.
Import ListNotations.
Open Scope Z_scope.
Open Scope m_scope.

Section A.
Context {E : Env}.
Implicit Types (v u w : vm).

(** ** The checks between tokens *)
Lemma intact_ok {T} (eqb : T -> T -> bool) (s : stack T) : (forall x, eqb x x = true) -> intact s -> overflow eqb s = false /\ underflow eqb s = false.
Proof.
  intros H (H1 & H2 & H3). unfold overflow, underflow. rewrite H2, H3, H. cbn [negb orb]. split; [|lia].
  destruct (64 <? len s) eqn:E1; [lia|reflexivity].
Qed.
Lemma intact_check fuel ew v : stacks_intact v -> exec_prim fuel ew P_check_stacks v = Ok (tt, v).
Proof.
  intros (H1 & H2 & H3 & H4). rewrite check_eq.
  destruct (intact_ok Z.eqb _ Z.eqb_refl H1) as (-> & ->). destruct (intact_ok Z.eqb _ Z.eqb_refl H2) as (-> & ->).
  destruct (intact_ok control_eqb _ control_eqb_refl H3) as (-> & ->). destruct (intact_ok Z.eqb _ Z.eqb_refl H4) as (-> & ->). reflexivity.
Qed.
Lemma idle_run n v : idle v -> run (S n) v = Ok (tt, v).
Proof.
  intros (H1 & H2). cbn [run]. unfold running, get_ip, ip. rewrite (bind_Ok _ _ v false v); [reflexivity|]. rewrite !bind_gets.
  destruct (Z.leb_spec (start (v_ds v)) (st_ip (st v))) as [L|L]; [|reflexivity].
  rewrite (bind_Ok _ _ _ _ _ (chk_u64_ok (st_ip (st v) + 8) v ltac:(unfold two64; lia))). unfold ret. repeat f_equal. lia.
Qed.
Lemma execute_set_ip f i v : execute_word f i (set_ip (st_ip (st v)) v) = execute_word f i v.
Proof.
  destruct f as [|f]; [reflexivity|]. cbn [execute_word]. rewrite !bind_modify.
  replace (set_wp i (set_ip (st_ip (st v)) v)) with (set_wp i v); [reflexivity|].
  unfold set_wp, set_ip, set_st. rewrite upd_upd. apply upd_ext. unfold st. rewrite !cur_upd. destruct (cur v) as [x [] ? ? ? ? ? ? ? ?]. reflexivity.
Qed.

(** ** Between tokens *)
Definition evals u (Q : vm -> Prop) : Prop := exists n u', evaluate_input n u = Ok (tt, u') /\ Q u'.
Lemma round_evals f u w (Q : vm -> Prop) : eval_round f u = Ok (true, w) -> evals w Q -> evals u Q.
Proof.
  intros H (n & u' & H1 & q). exists (S (n + f)), u'. split; [|exact q]. cbn [evaluate_input].
  rewrite (bind_Ok _ _ u true w); [|revert H; apply mle_ok, eval_round_mle; lia]. revert H1. apply mle_ok, evaluate_input_mle. lia.
Qed.
Lemma end_evals u s cs (Q : vm -> Prop) : rest_of_input u s -> utf8_text s cs -> v_tkn u <> None -> tokens s [] ->
  (forall n u', token_read u [] n u' -> Q u') -> evals u Q.
Proof.
  intros HR HU HT HK HQ. destruct (next_word u s cs [] HR HU HT HK 0%nat) as (n & r & cs' & u' & A & B & _). cbn [hd] in B.
  exists 1%nat, u'. split; [|apply (HQ n); exact B]. cbn [evaluate_input].
  assert (HRD : reads u [] u') by (split; [exact A|destruct B as [->|(_ & ->)]; reflexivity]).
  rewrite (bind_Ok _ _ u false u' (round_end 0 u u' HRD)). reflexivity.
Qed.

Lemma token_read_same u t n u1 : token_read u t n u1 ->
  v_wl u1 = v_wl u /\ v_ds u1 = v_ds u /\ v_refs u1 = v_refs u /\ v_err u1 = v_err u /\ v_fwd u1 = v_fwd u /\ v_cur u1 = v_cur u /\ v_out u1 = v_out u /\
  t_s (cur u1) = t_s (cur u) /\ t_r (cur u1) = t_r (cur u) /\ t_c (cur u1) = t_c (cur u) /\ t_f (cur u1) = t_f (cur u) /\
  t_inbuf (cur u1) = t_inbuf (cur u) /\ st_compiling (st u1) = st_compiling (st u) /\ st_ip (st u1) = st_ip (st u) /\ st_sid (st u1) = st_sid (st u).
Proof.
  intros [->|(_ & ->)]; [|repeat split]. unfold st. cbn [v_wl v_ds v_refs v_err v_fwd v_cur v_out set_v_tkn].
  change (cur (set_v_tkn (Some t) (set_idx n u))) with (cur (set_idx n u)). rewrite cur_set_idx. repeat split.
Qed.
Lemma rest_kept u u' s : rest_of_input u s -> st_idx (st u') = st_idx (st u) -> st_sid (st u') = st_sid (st u) -> t_inbuf (cur u') = t_inbuf (cur u) ->
  t_lines (cur u') = t_lines (cur u) -> rest_of_input u' s.
Proof.
  intros (buf & pre & A & B & C & D) E1 E2 E3 E4. exists buf, pre. split; [|rewrite E1; auto]. unfold input_text. rewrite E2, E3, E4. exact A.
Qed.

Lemma continues_calm u a w : continues u a w ->
  calm u w /\ t_s (cur w) = t_s (cur u) /\ t_r (cur w) = t_r (cur u) /\ t_f (cur w) = t_f (cur u) /\ v_ds w = v_ds u /\ v_out w = v_out u /\ st_ip (st w) = a.
Proof.
  intros (H0 & H). assert (C : v_cur w = v_cur u) by exact (f_equal v_cur H).
  assert (G : forall A (f : vm -> A), f (set_ip 0 (set_wp 0 w)) = f (set_ip 0 (set_wp 0 u))) by (intros A f; rewrite H; reflexivity).
  assert (GC : set_t_state (set_st_ip 0 (set_st_wp 0 (st w))) (cur w) = set_t_state (set_st_ip 0 (set_st_wp 0 (st u))) (cur u)).
  { specialize (G _ cur). rewrite !set_ip_wp_at, !cur_at in G. exact G. }
  assert (GT : forall A (f : task -> A), f (set_t_state (set_st_ip 0 (set_st_wp 0 (st w))) (cur w)) = f (set_t_state (set_st_ip 0 (set_st_wp 0 (st u))) (cur u))) by (intros A f; rewrite GC; reflexivity).
  split; [|split; [exact (GT _ t_s)|split; [exact (GT _ t_r)|split; [exact (GT _ t_f)|split; [exact (f_equal v_ds H)|split; [exact (f_equal v_out H)|exact H0]]]]]].
  unfold calm. pose proof (GT _ t_s) as ES. pose proof (GT _ t_r) as ER. cbn in ES, ER. rewrite ES, ER.
  repeat match goal with |- _ /\ _ => split end; try reflexivity.
  all: try exact (G _ v_err). all: try exact (G _ v_handler). all: try exact (G _ v_wl). all: try exact (G _ v_tkn). all: try exact (G _ v_refs). all: try exact (G _ v_now).
  all: try exact (G _ v_fwd). all: try exact (G _ v_res). all: try exact (G _ v_labels). all: try exact (G _ v_os). all: try exact (G _ v_stdout). all: try exact (G _ v_stderr).
  all: try exact C.
  all: try exact (GT _ t_awake). all: try exact (GT _ t_c). all: try exact (GT _ t_inbuf). all: try exact (GT _ t_files). all: try exact (GT _ t_sources). all: try exact (GT _ t_lines).
  all: try exact (GT _ (fun t => st_compiling (t_state t))). all: try exact (GT _ (fun t => st_awp (t_state t))).
  all: try exact (GT _ (fun t => st_idx (t_state t))). all: try exact (GT _ (fun t => st_sid (t_state t))).
  all: try exact (G _ (fun v => ds_inner (v_ds v))). all: try exact (G _ (fun v => ds_cap (v_ds v))).
  intros k Hk Hc Hn. specialize (G _ (fun v => task_at v k)). cbn beta in G.
  assert (T1 : forall x, v_cur x = v_cur u -> task_at (set_ip 0 (set_wp 0 x)) k = task_at x k).
  { intros x Hx. unfold set_ip, set_wp, set_st. rewrite upd_upd. apply task_at_upd; congruence. }
  rewrite !T1 in G by congruence. exact G.
Qed.

(** ** Executing one token *)
Lemma calm_rest u u' s : rest_of_input u s -> calm u u' -> rest_of_input u' s.
Proof.
  unfold calm. intros H C. repeat match goal with H : _ /\ _ |- _ => destruct H end. apply (rest_kept u); assumption.
Qed.
Lemma intact_same u w : stacks_intact u -> t_s (cur w) = t_s (cur u) -> t_r (cur w) = t_r (cur u) -> t_c (cur w) = t_c (cur u) -> t_f (cur w) = t_f (cur u) -> stacks_intact w.
Proof. unfold stacks_intact. intros H -> -> -> ->. exact H. Qed.
Lemma idle_same u w : idle u -> start (v_ds w) = start (v_ds u) -> limit (v_ds w) = limit (v_ds u) -> st_ip (st w) = st_ip (st u) -> idle w.
Proof. unfold idle. intros H -> -> ->. exact H. Qed.

Section U.
Variable U : Z -> Prop.

Lemma call_round u s cs t ts base i (Q : vm -> Prop) :
  rest_of_input u s -> utf8_text s cs -> v_tkn u <> None -> tokens s (t :: ts) -> v_err u = None -> st_compiling (st u) = false -> idle u ->
  dict_ok u -> base_is u base -> idx_flit (v_refs u) <> 0 -> newest u t (Some i) -> w_co (word_of u i) = false ->
  (forall n u1, token_read u t n u1 -> calls U u1 i (fun u' => Q u' /\ stacks_intact u' /\ calm u1 u')) ->
  exists f w u1 n u' r cs', eval_round f u = Ok (true, w) /\ token_read u t n u1 /\ calm u1 u' /\ continues u' (st_ip (st u)) w /\ kept (outside U u) u u' /\ Q u' /\ stacks_intact w /\
    rest_of_input w r /\ utf8_text r cs' /\ tokens r ts.
Proof.
  intros HR HU HT HK HE HC HI HD HB HF HN HO HX.
  destruct (next_word u s cs (t :: ts) HR HU HT HK 0%nat) as (n & r & cs' & u1 & A & B & _ & C & D & F). cbn [hd tl] in B, F.
  destruct (token_read_same u t n u1 B) as (B1 & B2 & B3 & B4 & B5 & B6 & B7 & B8 & B9 & B10 & B11 & B12 & B13 & B14 & B15).
  assert (T1 : v_tkn u1 = Some t) by (destruct B as [->|(_ & ->)]; reflexivity).
  destruct (HX n u1 B (st_ip (st u1)) ltac:(rewrite B14; apply HI)) as (f & w1 & u' & X1 & X2 & X3 & X4 & X5 & X6 & X7).
  rewrite execute_set_ip in X1. destruct (goes_run w1 _ u' _ w1 X3 (continues_self w1)) as (w & W1 & W2).
  destruct (continues_calm _ _ _ W1) as (CW & S1 & S2 & S3 & S4 & S5 & S6).
  assert (IW : idle w). { apply (idle_same u); [exact HI| | |congruence]; rewrite S4; destruct X4 as (K1 & K2 & _); congruence. }
  destruct (proj2 (W2 (Ok (tt, w)) ltac:(discriminate)) (ex_intro _ 1%nat (idle_run 0 w IW))) as (g & RG).
  assert (SI : stacks_intact w) by (apply (intact_same u'); [exact X6|exact S1|exact S2|apply CW|exact S3]).
  assert (HRD : reads u t u1) by (split; [exact A|exact T1]).
  assert (Hne : t <> []) by (inversion HK; subst; assumption).
  set (m := (f + g + Z.to_nat (words u) + 1)%nat).
  assert (AT : at_token m u1 t).
  { split; [exact T1|]. unfold dict_ok, words, named, word_of, base_is in *. rewrite B1, B2, B3. split; [exact HD|].
    split; [unfold m; lia|]. split; [exists base; exact HB|exact HF]. }
  assert (HN1 : newest u1 t (Some i)) by (unfold newest, visible, named, words, word_of in *; rewrite B1, B2; exact HN).
  assert (PF : performs m t u1 w1).
  { apply (A_executed m t u1 w1 i HN1); [rewrite B13, HC; unfold word_of in *; rewrite B1; exact HO|]. revert X1. apply mle_ok, execute_word_mle. unfold m. lia. }
  assert (EW : v_err w = None) by (destruct CW as (_ & -> & _); destruct X7 as (_ & -> & _); congruence).
  exists m, w, u1, n, u', r, cs'. split; [|split; [exact B|split; [exact X7|split; [rewrite <- B14; exact W1|split; [|split; [exact X5|split; [exact SI|split; [|split; [exact D|exact F]]]]]]]]].
  - assert (K := round_token m u t u1 w HRD Hne AT (TR_done m t u1 w w1 w PF ltac:(congruence) ltac:(revert RG; apply mle_ok, run_mle; unfold m; lia) (intact_check m _ w SI))).
    rewrite EW in K. exact K.
  - clear - X4 B2 B1. unfold kept, outside in *. rewrite B2 in X4. destruct X4 as (K1 & K2 & K3 & K4). split; [exact K1|]. split; [exact K2|]. split; [exact K3|].
    intros j p Hj W. apply (K4 j p Hj). unfold word_is in *. rewrite B1. exact W.
  - apply (calm_rest u'); [|exact CW]. apply (calm_rest u1); assumption.
Qed.

(** any other token: the state after it is given *)
Lemma plain_round u s cs t ts base (R : vm -> vm -> Prop) :
  rest_of_input u s -> utf8_text s cs -> v_tkn u <> None -> tokens s (t :: ts) -> idle u -> dict_ok u -> base_is u base -> idx_flit (v_refs u) <> 0 ->
  (forall n u1, token_read u t n u1 -> exists m u2, (forall m', (m <= m')%nat -> performs m' t u1 u2) /\ R u1 u2 /\ v_err u2 = None /\ idle u2 /\ stacks_intact u2 /\
     st_idx (st u2) = st_idx (st u1) /\ st_sid (st u2) = st_sid (st u1) /\ t_inbuf (cur u2) = t_inbuf (cur u1) /\ t_lines (cur u2) = t_lines (cur u1)) ->
  exists f n u1 u2 r cs', eval_round f u = Ok (true, u2) /\ token_read u t n u1 /\ R u1 u2 /\ rest_of_input u2 r /\ utf8_text r cs' /\ tokens r ts.
Proof.
  intros HR HU HT HK HI HD HB HF HX.
  destruct (next_word u s cs (t :: ts) HR HU HT HK 0%nat) as (n & r & cs' & u1 & A & B & _ & C & D & F). cbn [hd tl] in B, F.
  destruct (token_read_same u t n u1 B) as (B1 & B2 & B3 & B4 & B5 & B6 & B7 & B8 & B9 & B10 & B11 & B12 & B13 & B14 & B15).
  assert (T1 : v_tkn u1 = Some t) by (destruct B as [->|(_ & ->)]; reflexivity).
  assert (Hne : t <> []) by (inversion HK; subst; assumption).
  destruct (HX n u1 B) as (m0 & u2 & P1 & P2 & P3 & P4 & P5 & P6 & P7 & P8 & P9).
  set (m := (m0 + Z.to_nat (words u) + 1)%nat).
  assert (AT : at_token m u1 t).
  { split; [exact T1|]. unfold dict_ok, words, named, word_of, base_is in *. rewrite B1, B2, B3. split; [exact HD|].
    split; [unfold m; lia|]. split; [exists base; exact HB|exact HF]. }
  exists m, n, u1, u2, r, cs'. split; [|split; [exact B|split; [exact P2|split; [apply (rest_kept u1); assumption|split; [exact D|exact F]]]]].
  assert (HRD : reads u t u1) by (split; [exact A|exact T1]).
  assert (RN : run m u2 = Ok (tt, u2)) by (replace m with (S (m0 + Z.to_nat (words u))) by (unfold m; lia); apply idle_run; exact P4).
  assert (K := round_token m u t u1 u2 HRD Hne AT (TR_done m t u1 u2 u2 u2 (P1 m ltac:(unfold m; lia)) P3 RN (intact_check m _ u2 P5))).
  rewrite P3 in K. exact K.
Qed.

(** ** The words and numbers of [v] in a later state *)
Definition same_reading v u : Prop :=
  dict_ok u /\ (forall t r, newest v t r -> newest u t r) /\ (forall b, base_is v b -> base_is u b) /\ v_refs u = v_refs v /\
  words v <= words u /\ (forall i, 0 <= i < words v -> word_of u i = word_of v i).

Lemma base_kept v u : start (v_ds u) = start (v_ds v) -> limit (v_ds u) = limit (v_ds v) ->
  (forall a, base_addr (v_ds v) <= a < base_addr (v_ds v) + 8 -> byte_at (v_ds u) a = byte_at (v_ds v) a) -> forall b, base_is v b -> base_is u b.
Proof. clear U.
  intros H1 H2 H3 b. unfold base_is, get_isize, base_addr, in_ds, cell_bytes_val. unfold start in *. unfold base_addr in H3. rewrite H1, H2.
  rewrite !H3 by lia. auto.
Qed.
Lemma integer_same v u t x : (forall b, base_is v b -> base_is u b) -> integer_token v t x -> integer_token u t x.
Proof. intros H (b & HB & R). exists b. split; [apply H; exact HB|exact R]. Qed.
Lemma no_integer_same v u t : (forall b, base_is v b -> base_is u b) -> no_integer v t -> no_integer u t.
Proof. intros H (b & HB & R). exists b. split; [apply H; exact HB|exact R]. Qed.
Lemma reading_read v u t n u1 : same_reading v u -> token_read u t n u1 -> same_reading v u1.
Proof.
  intros H B. destruct (token_read_same u t n u1 B) as (B1 & B2 & B3 & _).
  unfold same_reading, dict_ok, newest, visible, named, words, word_of, base_is in *. rewrite B1, B2, B3. exact H.
Qed.

(** between the tokens of an interpreted line *)
Definition ready v (c : conf) (rs : list Z) u : Prop :=
  v_wl u = v_wl v /\ v_refs u = v_refs v /\
  start (v_ds u) = start (v_ds v) /\ limit (v_ds u) = limit (v_ds v) /\ here (v_ds u) = here (v_ds v) /\ (forall a, outside U v a -> byte_at (v_ds u) a = byte_at (v_ds v) a) /\
  v_err u = None /\ st_compiling (st u) = false /\ st_ip (st u) = st_ip (st v) /\ v_cur u = v_cur v /\ v_tkn u <> None /\
  shows U c u /\ stack_has (t_r (cur u)) rs /\ stacks_intact u.
Lemma ready_reading v c rs u : waiting U v -> ready v c rs u -> same_reading v u /\ idle u /\ later U v u /\ ds_ok (v_ds u).
Proof.
  intros (W1 & W2 & W2b & W3 & W4 & W5 & W6 & W7 & W8 & W9 & W10 & W11 & W12 & W13 & W14 & W15) (H1 & H2 & H3 & H4 & H5 & H6 & H7 & H8 & H9 & H10 & H11 & H12 & H13 & H14).
  pose proof W1 as ((D1 & D2 & D3) & _). assert (DO : ds_ok (v_ds u)) by (unfold ds_ok; rewrite H3, H4, H5; lia).
  assert (HB : forall a, start (v_ds v) <= a < here (v_ds v) -> ~ U a -> byte_at (v_ds u) a = byte_at (v_ds v) a) by (intros a Ha HU; apply H6; split; [lia|exact HU]).
  assert (HG : goes_on v u).
  { split; [unfold same_words, words, word_of; rewrite H1; repeat split|]. split; [exact DO|]. split; [exact H3|]. split; [exact H4|]. split; [lia|].
    intros a Ha. apply HB; [apply protected_below; assumption|]. intro K. apply W15 in K. apply K, Ha. }
  split; [|split; [|split; [|exact DO]]].
  - split; [exact (goes_on_dict _ _ HG W1)|]. split; [intros t r; apply (goes_on_newest _ _ t r W1 HG)|]. split.
    + apply base_kept; [exact H3|exact H4|]. intros a Ha. unfold base_addr in *. unfold start in *. apply HB; [lia|]. intro K. apply W15 in K. unfold base_addr in K. lia.
    + split; [exact H2|]. unfold words, word_of. rewrite H1. split; [lia|reflexivity].
  - unfold idle in *. rewrite H3, H4, H9. exact W9.
  - unfold later, words, word_of. rewrite H1. split; [lia|]. split; [reflexivity|]. split; [exact H2|]. split; [exact H3|]. split; [exact H4|]. split; [lia|]. split; [exact DO|exact HB].
Qed.
Lemma ready_read v c rs u t n u1 : ready v c rs u -> token_read u t n u1 -> ready v c rs u1.
Proof.
  intros H B. destruct (token_read_same u t n u1 B) as (B1 & B2 & B3 & B4 & B5 & B6 & B7 & B8 & B9 & B10 & B11 & B12 & B13 & B14 & B15).
  assert (T1 : v_tkn u1 <> None) by (destruct B as [->|(_ & ->)]; discriminate).
  unfold ready, shows, stacks_intact in *. rewrite B1, B2, B3, B4, B6, B7, B8, B9, B10, B11, B13, B14. intuition.
Qed.

Lemma intact_push {T} (s : stack T) x : intact s -> len s < 64 -> intact (push s x).
Proof.
  intros (H1 & H2 & H3) HL. rewrite add_item_push by lia. unfold intact, add_item. cbn [len set_len canary]. rewrite !sget_set_len, !sget_sset_other by lia.
  split; [lia|]. split; [exact H2|exact H3].
Qed.
Lemma set_err_none v : v_err v = None -> set_v_err None v = v.
Proof. destruct v. cbn. intros ->. reflexivity. Qed.

Lemma interpret_chain v n : waiting U v -> n <= 64 -> forall items c c', chain U v n items c c' -> forall ts u rs s cs,
  Forall2 (stands_for v) ts items -> ready v c rs u -> rest_of_input u s -> utf8_text s cs -> tokens s ts -> zlen rs <= n -> evals u (ready v c' rs).
Proof.
  intros HW Hn. destruct (proj1 (proj2 (proj2 (proj2 (proj2 HW))))) as (base & HB). assert (HFL : idx_flit (v_refs v) <> 0) by apply HW.
  induction 1 as [c|x l d f m o c' HL HC IH|x l d f m o c' HL HC IH|i l c c1 c' HT HC IH]; intros ts u rs s cs HF HR HI HU HK HZ.
  - inversion HF; subst. apply (end_evals u s cs); [exact HI|exact HU|apply HR|exact HK|]. intros k u' B. exact (ready_read _ _ _ _ _ _ _ HR B).
  - inversion HF as [|t it ts' l' HS HF' X Y]; subst. destruct HS as (S1 & S2 & S3). destruct (ready_reading _ _ _ _ HW HR) as (RD & ID & _ & _).
    pose proof RD as (R1 & R2 & R3 & R4 & _).
    destruct (plain_round u s cs t ts' base (fun u1 u2 => u2 = set_s (push (t_s (cur u1)) x) u1) HI HU ltac:(apply HR) HK ID R1 (R3 _ HB) ltac:(congruence)) as (g & k & u1 & u2 & r & cs' & E1 & B & -> & I2 & U2 & T2).
    { intros k u1 B. pose proof (ready_read _ _ _ _ _ _ _ HR B) as HR1. destruct (reading_read _ _ _ _ _ RD B) as (Q1 & Q2 & Q3 & Q4 & _).
      destruct (ready_reading _ _ _ _ HW HR1) as (_ & ID1 & _ & _). pose proof HR1 as (H1 & H2 & H3 & H4 & H5 & H6 & H7 & H8 & H9 & H10 & H11 & H12 & H13 & H14).
      exists 0%nat, (set_s (push (t_s (cur u1)) x) u1). assert (CU := cur_set_s (push (t_s (cur u1)) x) u1).
      split; [intros m' _; apply (A_integer m' t u1 _ x); [apply Q2; exact S1|apply (integer_same v); assumption|exact H8|rewrite (set_err_none u1 H7); reflexivity]|].
      split; [reflexivity|]. split; [exact H7|]. unfold idle, st, stacks_intact. rewrite CU. cbn. split; [exact ID1|]. split; [|auto].
      destruct H14 as (A1 & A2). split; [|exact A2]. apply intact_push; [exact A1|]. rewrite (stack_has_len _ _ (proj1 H12)). exact HL. }
    apply (round_evals g u _ _ E1). apply (IH ts' _ rs r cs' HF'); [|exact I2|exact U2|exact T2|exact HZ].
    pose proof (ready_read _ _ _ _ _ _ _ HR B) as (H1 & H2 & H3 & H4 & H5 & H6 & H7 & H8 & H9 & H10 & H11 & H12 & H13 & H14).
    assert (CU := cur_set_s (push (t_s (cur u1)) x) u1). unfold ready, shows, stacks_intact, st. rewrite CU. cbn. destruct H12 as (G1 & G2 & G3 & G4). cbn in G1, G2, G3, G4.
    destruct H14 as (A1 & A2 & A3 & A4). assert (A5 : intact (push (t_s (cur u1)) x)) by (apply intact_push; [exact A1|rewrite (stack_has_len _ _ G1); exact HL]).
    repeat match goal with |- _ /\ _ => split end; try assumption.
    apply push_has; [exact G1|lia].
  - inversion HF as [|t it ts' l' HS HF' X Y]; subst. destruct HS as (S1 & S2 & (sg & si & sf & se & sx & S3 & S3') & S4). destruct (ready_reading _ _ _ _ HW HR) as (RD & ID & _ & _).
    pose proof RD as (R1 & R2 & R3 & R4 & _).
    destruct (plain_round u s cs t ts' base (fun u1 u2 => u2 = set_f (push (t_f (cur u1)) x) u1) HI HU ltac:(apply HR) HK ID R1 (R3 _ HB) ltac:(congruence)) as (g & k & u1 & u2 & r & cs' & E1 & B & -> & I2 & U2 & T2).
    { intros k u1 B. pose proof (ready_read _ _ _ _ _ _ _ HR B) as HR1. destruct (reading_read _ _ _ _ _ RD B) as (Q1 & Q2 & Q3 & Q4 & _).
      destruct (ready_reading _ _ _ _ HW HR1) as (_ & ID1 & _ & _). pose proof HR1 as (H1 & H2 & H3 & H4 & H5 & H6 & H7 & H8 & H9 & H10 & H11 & H12 & H13 & H14).
      exists 0%nat, (set_f (push (t_f (cur u1)) x) u1). assert (CU := cur_set_f (push (t_f (cur u1)) x) u1).
      split; [intros m' _; apply (A_float m' t u1 _ sg si sf se sx); [apply Q2; exact S1|apply (no_integer_same v); assumption|exact S3|exact H8|rewrite (set_err_none u1 H7), S3'; reflexivity]|].
      split; [reflexivity|]. split; [exact H7|]. unfold idle, st, stacks_intact. rewrite CU. cbn. split; [exact ID1|]. split; [|auto].
      destruct H14 as (A1 & A2 & A3 & A4). split; [exact A1|]. split; [exact A2|]. split; [exact A3|]. apply intact_push; [exact A4|]. rewrite (stack_has_len _ _ (proj1 (proj2 H12))). exact HL. }
    apply (round_evals g u _ _ E1). apply (IH ts' _ rs r cs' HF'); [|exact I2|exact U2|exact T2|exact HZ].
    pose proof (ready_read _ _ _ _ _ _ _ HR B) as (H1 & H2 & H3 & H4 & H5 & H6 & H7 & H8 & H9 & H10 & H11 & H12 & H13 & H14).
    assert (CU := cur_set_f (push (t_f (cur u1)) x) u1). unfold ready, shows, stacks_intact, st. rewrite CU. cbn. destruct H12 as (G1 & G2 & G3 & G4). cbn in G1, G2, G3, G4.
    destruct H14 as (A1 & A2 & A3 & A4). assert (A5 : intact (push (t_f (cur u1)) x)) by (apply intact_push; [exact A4|rewrite (stack_has_len _ _ G2); exact HL]).
    repeat match goal with |- _ /\ _ => split end; try assumption.
    apply push_has; [exact G2|lia].
  - inversion HF as [|t it ts' l' HS HF' X Y]; subst. destruct HS as (S1 & S2 & S3 & S4). destruct (ready_reading _ _ _ _ HW HR) as (RD & ID & _ & _).
    pose proof RD as (R1 & R2 & R3 & R4 & R5 & R6). assert (Hi : 0 <= i < words v) by (destruct S1 as (S1 & _); lia).
    destruct (call_round u s cs t ts' base i (fun u' => shows U c1 u' /\ stack_has (t_r (cur u')) rs /\ here (v_ds u') = here (v_ds u)) HI HU ltac:(apply HR) HK ltac:(apply HR) ltac:(apply HR) ID R1 (R3 _ HB) ltac:(congruence) (R2 _ _ S1) ltac:(rewrite R6 by exact Hi; exact S3))
      as (g & w & u1 & k & u' & r & cs' & E1 & B & CA & CO & KP & (Q1 & Q2 & Q3) & SI & I2 & U2 & T2).
    { intros k u1 B. pose proof (ready_read _ _ _ _ _ _ _ HR B) as HR1. destruct (ready_reading _ _ _ _ HW HR1) as (_ & ID1 & LA & _).
      pose proof HR1 as (H1 & H2 & H3 & H4 & H5 & H6 & H7 & H8 & H9 & H10 & H11 & H12 & H13 & H14). destruct (token_read_same u t k u1 B) as (_ & B2 & _).
      intros r0 Hr0. destruct (HT u1 rs LA H12 H13 HZ H14 r0 Hr0) as (f0 & w1 & w2 & X1 & X2 & X3 & X4 & (X5 & X6 & X7 & X8 & X9)). exists f0, w1, w2.
      rewrite B2 in X7. auto 10. }
    apply (round_evals g u _ _ E1). apply (IH ts' _ rs r cs' HF'); [|exact I2|exact U2|exact T2|exact HZ].
    destruct (continues_calm _ _ _ CO) as (CW & Z1 & Z2 & Z3 & Z4 & Z5 & Z6).
    pose proof (ready_read _ _ _ _ _ _ _ HR B) as (H1 & H2 & H3 & H4 & H5 & H6 & H7 & H8 & H9 & H10 & H11 & H12 & H13 & H14).
    pose proof (calm_trans _ _ _ CA CW) as C2. unfold calm in C2. destruct HR as (G1 & G2 & G3 & G4 & G5 & G6 & G7 & G8 & G9 & G10 & _).
    repeat match goal with H : _ /\ _ |- _ => destruct H end. unfold ready.
    repeat match goal with |- _ /\ _ => split end; try congruence.
    + rewrite Z4. destruct KP as (-> & _). exact G3.
    + rewrite Z4. destruct KP as (_ & -> & _). exact G4.
    + intros a Ha. rewrite Z4. destruct KP as (_ & _ & KP & _). rewrite KP; [apply G6; exact Ha|]. unfold outside in *. rewrite G3, G4. exact Ha.
    + unfold shows in *. rewrite Z1, Z3, Z4, Z5. exact Q1.
Qed.
End U.
End A.
