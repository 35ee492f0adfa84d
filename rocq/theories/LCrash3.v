(** Lines of harmless words are interpreted without a crash (C40). *)
From Coq Require Import ZArith List Bool Lia ZifyBool ZifyNat.
From Verif Require Import Base Stack Mem Parser Flt State CoreM IoM FloatM FileM Exec.
From Verif Require Import LBase LStack Spec Spec4 Spec5 Spec6 Spec9 Spec10 Spec11 Spec19 Spec23 LState LMem LMon LStep LTask LCode LCtl LDict LDict2 LDict5
  LParse LNum LNum2 LText LFuel LEval LTame LCrash LCrash2.
Import ListNotations.
Open Scope Z_scope.
Open Scope m_scope.

Section T.
Context {E : Env}.
Implicit Types (v u : vm).

(** a search ends or runs out of fuel *)
Lemma find_any fuel name v : dict_ok v -> find fuel name v = OutOfFuel \/ exists r, find fuel name v = Ok (r, v) /\ newest v name r.
Proof.
  intro HD. set (F := Nat.max fuel (Z.to_nat (words v + 1))).
  destruct (find_newest F name v HD) as (r & EF & HN); [lia|].
  assert (Hle : (fuel <= F)%nat) by lia. pose proof (find_mle fuel F name Hle v) as HM. destruct (find fuel name v) as [x| | |] eqn:EX; auto; right; exists r; (split; [|exact HN]); rewrite <- EF; symmetry; apply HM; congruence.
Qed.

Lemma core_refl v : st_compiling (st v) = false -> core v v.
Proof. intro H. unfold core. repeat split; auto. Qed.

Section L.
Variables (H : Z -> Prop).
Definition fine v : Prop := good v /\ harmless v H /\ addressable v /\ dict_ok v /\ exists base, base_is v base.

Lemma fine_core v u : fine v -> core v u -> fine u.
Proof.
  intros (F1 & F2 & F3 & F4 & base & F5) HC. pose proof HC as (E1 & E2 & E3 & _). split; [exact (core_good v u F1 HC)|]. split.
  { intros i HI. unfold word_is, word_of. rewrite E2, E3.
    destruct (F2 i HI) as [A|[A|[A|(A & p & x & B1 & B2 & B3)]]]; [left; exact A|right; left; exact A|right; right; left; exact A|].
    right. right. right. split; [exact A|]. exists p, x. split; [exact B1|]. split.
    - clear - B2 E3. induction p; cbn [made_of] in *; unfold word_is in *; rewrite ?E3; tauto.
    - apply (kept_laid _ v); [apply kept_eq; assumption|exact B3]. }
  split; [unfold addressable; rewrite E2; exact F3|]. split; [unfold dict_ok, words, named, word_of in *; rewrite E2, E3; exact F4|].
  exists base. unfold base_is. rewrite E2. exact F5.
Qed.

Lemma token_okay f v t : fine v -> ip v = 0 -> v_tkn v = Some t -> (forall i, newest v t (Some i) -> H i \/ w_co (word_of v i) = true) ->
  okay v H (interpret_token f (execute_word f) v).
Proof.
  intros HF HI HT HN. pose proof HF as (F1 & F2 & F3 & F4 & base & F5). assert (EC : st_compiling (st v) = false) by apply F1.
  assert (HC := core_refl v EC).
  assert (GO : forall r, match r with Ok (_, w) => inv v w | OutOfFuel => True | _ => False end -> okay v H (r : res (unit * vm))).
  { intros [([], w)| | |] K; try exact K. cbn. split; [exact (core_inv v v w HC K)|]. left. destruct K as (_ & _ & _ & _ & _ & _ & _ & _ & _ & _ & _ & _ & [K|K]); congruence. }
  assert (HV : inv v v) by (apply inv_refl; exact EC).
  assert (AB : forall e w, inv v w -> okay v H (abort_with (execute_word f) e w)).
  { intros e w HW. apply GO. exact (tame_abort (execute_word f) (execute_handler f) e v w F1 HW). }
  unfold interpret_token, bind at 1, take_token. rewrite HT. unfold bind at 1.
  destruct (find_any f t (set_v_tkn None v) F4) as [EF|(r & EF & HR)]; rewrite EF; [exact I|].
  destruct r as [i|].
  - unfold bind at 1, set_token, modify. change (set_v_tkn (Some t) (set_v_tkn None v)) with (set_v_tkn (Some t) v). rewrite (tkn_same v t HT).
    assert (HW : 0 < i < wl_len (v_wl v)) by apply HR. unfold bind, word_at. replace (0 <=? i) with true by lia. replace (i <? wl_len (v_wl v)) with true by lia. cbn [andb].
    fold (word_of v i). destruct (HN i HR) as [HO|HO].
    + destruct (w_co (word_of v i)); [apply AB; exact HV|]. apply op_okay; try assumption. left. exact HI.
    + rewrite HO. apply AB. exact HV.
  - destruct (integer_dec v base t F5) as [(x & HX)|HX].
    + rewrite (integer_result _ t v x HT HX), EC. apply GO. apply inv_s, inv_err. exact HV.
    + rewrite (number_token_float _ t (set_v_tkn None v) HX). unfold bind at 1.
      destruct (eval_float_cases t (set_v_err None (set_v_tkn None v))) as [(e & ->)|(s & n & fr & es & x & _ & _ & ->)].
      * rewrite bind_gets. cbn [v_err set_v_err]. unfold bind at 1, set_token, modify. apply AB.
        change (inv v (set_v_tkn (Some t) (set_v_err (Some e) v))). pose proof (inv_err v v (Some e) HV) as K.
        unfold inv in *. cbn [v_tkn set_v_tkn set_v_err] in *. rewrite HT. rewrite HT in K. exact K.
      * unfold take_float, is_compiling. rewrite bind_gets. change (st_compiling (st (set_v_err None (set_v_tkn None v)))) with (st_compiling (st v)). rewrite EC.
        unfold f_push, modify. rewrite bind_gets. cbn [v_err]. 
        match goal with |- okay v H (_ ?w) => change (okay v H (Ok (tt, set_v_tkn (Some t) w))) end.
        apply GO. set (y := push _ _). change (inv v (set_f y (set_v_err None (set_v_tkn (Some t) v)))). rewrite (tkn_same v t HT). apply inv_f, inv_err. exact HV.
Qed.

Lemma rest_kept v u r : core v u -> rest_of_input v r -> rest_of_input u r.
Proof.
  intros (_ & _ & _ & _ & _ & _ & E1 & E2 & E3 & E4 & _) (buf & pre & A & B & C & D). exists buf, pre.
  split; [unfold input_text; rewrite E1, E2, E3; exact A|]. split; [exact B|]. split; [congruence|exact D].
Qed.

Definition settled v : Prop := fine v /\ ip v = 0 /\ v_tkn v <> None.
Definition through v (ts : list bytes) : Prop := exists s cs, rest_of_input v s /\ utf8_text s cs /\ tokens s ts /\ uses_only H v ts.

Definition words_kept v u : Prop := v_ds u = v_ds v /\ v_wl u = v_wl v /\ v_handler u = v_handler v.

Lemma newest_kept v u : v_ds u = v_ds v -> v_wl u = v_wl v -> forall t r, newest u t r <-> newest v t r.
Proof. intros E1 E2 t r. unfold newest, visible, words, named, word_of. rewrite E1, E2. reflexivity. Qed.

Lemma round_okay f v ts : settled v -> through v ts ->
  match eval_round f v with
  | Ok (c, w) => words_kept v w /\ (v_err w = None \/ ts = [] -> settled w /\ exists buf, input_text w buf) /\
     (if (c : bool) then settled w /\ ts <> [] /\ through w (tl ts) else v_err w <> None \/ ts = [])
  | OutOfFuel => True | _ => False end.
Proof.
  intros (HF & HI & HT) (s & cs & R1 & R2 & R3 & R4).
  destruct (next_word v s cs ts R1 R2 HT R3 0%nat) as (n & r & cs' & u & A & B & _ & C1 & C2 & C3).
  unfold eval_round. rewrite (bind_Ok parse_word _ v tt u) by exact (A (fun _ => ret tt)). rewrite bind_gets.
  assert (FACTS : fine u /\ ip u = 0 /\ v_tkn u = Some (hd [] ts) /\ v_ds u = v_ds v /\ v_wl u = v_wl v /\ v_handler u = v_handler v /\ st_compiling (st u) = false).
  { assert (EC : st_compiling (st v) = false) by apply HF.
    assert (CF : forall w, v_ds w = v_ds v -> v_wl w = v_wl v -> v_handler w = v_handler v -> st_compiling (st w) = false -> fine w).
    { intros w E1 E2 E3 E4. destruct HF as (F1 & F2 & F3 & F4 & base & F5). split; [|split; [|split; [|split]]].
      - destruct F1 as (G1 & G2 & G3). unfold good, word_is. rewrite E1, E2, E3. auto.
      - intros i HO. unfold word_is, word_of. rewrite E1, E2. destruct (F2 i HO) as [K|[K|[K|(K & p & x & B1 & B2 & B3)]]]; [left; exact K|right; left; exact K|right; right; left; exact K|].
        right. right. right. split; [exact K|]. exists p, x. split; [exact B1|]. split.
        + clear - B2 E2. induction p; cbn [made_of] in *; unfold word_is in *; rewrite ?E2; tauto.
        + apply (kept_laid _ v); [apply kept_eq; assumption|exact B3].
      - unfold addressable. rewrite E1. exact F3.
      - unfold dict_ok, words, named, word_of in *. rewrite E1, E2. exact F4.
      - exists base. unfold base_is. rewrite E1. exact F5. }
    destruct B as [->|(_ & ->)].
    - assert (K : st (set_v_tkn (Some (hd [] ts)) (set_idx n v)) = set_st_idx n (st v)) by (unfold st; change (cur (set_v_tkn (Some (hd [] ts)) (set_idx n v))) with (cur (set_idx n v)); rewrite cur_set_idx; reflexivity).
      split; [apply CF; try reflexivity; exact (eq_trans (f_equal st_compiling K) EC)|]. split; [exact (eq_trans (f_equal st_ip K) HI)|]. repeat split. exact (eq_trans (f_equal st_compiling K) EC).
    - split; [apply CF; try reflexivity; exact EC|]. repeat split; assumption. }
  destruct FACTS as (FU & IU & TU & DU & WU & HU & CU). rewrite TU.
  assert (IB : exists buf, input_text u buf) by (destruct C1 as (buf & pre & K & _); exists buf; exact K).
  assert (KU : forall w, core u w -> exists buf, input_text w buf).
  { intros w HC. destruct (rest_kept u w r HC C1) as (buf & pre & K & _). exists buf. exact K. }
  destruct ts as [|t ts]; cbn [hd] in *.
  { cbn. split; [repeat split; assumption|]. split; [intros _; split; [split; [exact FU|split; [exact IU|congruence]]|exact IB]|right; reflexivity]. }
  assert (NT : t <> []) by (inversion R3; assumption).
  assert (EX : forall (X Y : M bool), (match Some t with Some [] => X | _ => Y end) = Y) by (intros; destruct t; [congruence|reflexivity]). rewrite EX.
  unfold is_compiling. rewrite bind_gets, CU. unfold bind at 1.
  assert (TK := token_okay f u t FU IU TU). 
  assert (K : okay u H (interpret_token f (execute_word f) u)).
  { apply TK. intros i HN. unfold word_of. rewrite WU. apply (R4 t i); [left; reflexivity|]. apply (newest_kept v u DU WU). exact HN. }
  clear TK. destruct (interpret_token f (execute_word f) u) as [([], w)| | |]; try exact K. destruct K as (K1 & K2). rewrite bind_gets.
  assert (WK : forall x, core u x -> words_kept v x) by (intros x (X1 & X2 & X3 & X4 & X5 & _); unfold words_kept; repeat split; congruence).
  assert (TN : forall x, core u x -> v_tkn x <> None) by (intros x (X1 & X2 & X3 & X4 & X5 & X6 & _); congruence).
  destruct (v_err w) eqn:EW.
  { cbn. split; [apply WK; exact K1|]. split; [intros [KE|KE]; congruence|left; congruence]. }
  unfold bind at 1. destruct FU as (G1 & G2 & G3 & G4 & G5). assert (RK := run_okay u H G1 G2 G3 f w K1 K2).
  destruct (run f w) as [([], w2)| | |]; try exact RK. destruct RK as (RK1 & RK2). unfold bind at 1.
  assert (GW := core_good u w2 G1 RK1). assert (IW : inv w2 w2) by (apply inv_refl; apply GW).
  assert (CK := tame_plain (execute_word f) (execute_handler f) f P_check_stacks ltac:(unfold plain_words; cbn [In]; tauto) w2 w2 GW IW). cbn [exec_prim] in CK.
  destruct (check_stacks (execute_word f) w2) as [([], w3)| | |]; try exact CK. rewrite bind_gets.
  assert (C3K := core_inv u w2 w3 RK1 CK). assert (S3 : settled w3).
  { split; [exact (fine_core u w3 (conj G1 (conj G2 (conj G3 (conj G4 G5)))) C3K)|]. split; [|apply TN; exact C3K].
    destruct CK as (_ & _ & _ & _ & _ & _ & _ & _ & _ & _ & _ & _ & [CK|CK]); congruence. }
  cbn. split; [apply WK; exact C3K|]. split; [intros _; split; [exact S3|apply KU; exact C3K]|]. destruct (v_err w3) eqn:E3; [left; congruence|].
  split; [exact S3|]. split; [congruence|]. exists r, cs'. split; [exact (rest_kept u w3 r C3K C1)|]. split; [exact C2|]. split; [exact C3|].
  intros t' i HIN HNW. destruct (WK _ C3K) as (X1 & X2 & X3). unfold word_of. rewrite X2. apply (R4 t' i); [right; exact HIN|]. apply (newest_kept v w3 X1 X2). exact HNW.
Qed.

Lemma eval_okay : forall f v ts, settled v -> through v ts ->
  match evaluate_input f v with
  | Ok (_, w) => words_kept v w /\ (v_err w = None -> settled w /\ exists buf, input_text w buf)
  | OutOfFuel => True | _ => False end.
Proof.
  induction f as [|f IH]; intros v ts HS HT; [exact I|]. cbn [evaluate_input]. unfold bind. assert (K := round_okay f v ts HS HT).
  destruct (eval_round f v) as [(c, w)| | |]; try exact K. destruct K as (K1 & K2 & K3). destruct c.
  - destruct K3 as (K3 & _ & K4). specialize (IH w (tl ts) K3 K4). destruct (evaluate_input f w) as [([], x)| | |]; try exact IH.
    destruct IH as ((X1 & X2 & X3) & IH2). destruct K1 as (Y1 & Y2 & Y3). split; [repeat split; congruence|exact IH2].
  - cbn. split; [exact K1|]. intro KE. apply K2. left. exact KE.
Qed.
End L.

Theorem no_crash fuel v H s cs ts : at_rest v -> harmless v H -> utf8_text s cs -> zlen s < 2 ^ 63 -> tokens s ts -> uses_only H v ts ->
  crash_free (load_str fuel s v) /\
  forall v', load_str fuel s v = Ok (tt, v') -> v_err v' = None -> at_rest v' /\ harmless v' H.
Proof.
  intros (A1 & (base & A2) & A3 & A4 & A5 & A6 & buf & A7) HH HU HL HT HO.
  assert (ES : exists u, set_source s v = Ok (tt, u) /\ settled H u /\ rest_of_input u s /\ v_ds u = v_ds v /\ v_wl u = v_wl v /\ v_handler u = v_handler v).
  { unfold set_source, bind at 1, expect_inbuf, bind at 1. rewrite (get_inbuf_ok v buf A7). cbn [ret]. rewrite bind_modify. unfold put_inbuf.
    assert (E0 : st (set_idx 0 v) = set_st_idx 0 (st v)) by (unfold st; rewrite cur_set_idx; reflexivity).
    assert (CF : forall u, v_ds u = v_ds v -> v_wl u = v_wl v -> v_handler u = v_handler v -> v_tkn u = v_tkn v -> st u = set_st_idx 0 (st v) -> settled H u).
    { intros w E1 E2 E3 E4 E5. split; [|split; [unfold ip; rewrite E5; exact A4|congruence]]. split; [|split; [|split; [|split]]].
      - unfold good, word_is. rewrite E1, E2, E3, E5. split; [apply A1|]. split; [exact A6|exact A3].
      - intros i HI. unfold word_is, word_of. rewrite E1, E2. destruct (HH i HI) as [K|[K|[K|(K & p & x & B1 & B2 & B3)]]]; [left; exact K|right; left; exact K|right; right; left; exact K|].
        right. right. right. split; [exact K|]. exists p, x. split; [exact B1|]. split.
        + clear - B2 E2. induction p; cbn [made_of] in *; unfold word_is in *; rewrite ?E2; tauto.
        + apply (kept_laid _ v); [apply kept_eq; assumption|exact B3].
      - unfold addressable. rewrite E1. destruct A1 as ((D1 & D2 & D3) & _). split; assumption.
      - unfold dict_ok, words, named, word_of in *. rewrite E1, E2. exact A1.
      - exists base. unfold base_is. rewrite E1. exact A2. }
    assert (HP : forall u, st u = set_st_idx 0 (st v) -> input_text u s -> rest_of_input u s).
    { intros u E1 E2. exists s, []. split; [exact E2|]. split; [reflexivity|]. split; [rewrite E1; reflexivity|exact HL]. }
    rewrite E0. cbn [st_sid set_st_idx]. destruct A7 as [(B1 & B2)|(B1 & B2)].
    - replace (0 <? st_sid (st v)) with false by lia. eexists. split; [reflexivity|].
      match goal with |- settled H ?u /\ _ => assert (EU : cur u = set_t_inbuf (Some s) (cur (set_idx 0 v))) by apply cur_upd end.
      match goal with |- settled H ?u /\ _ => assert (SU : st u = set_st_idx 0 (st v)) by (rewrite <- E0; unfold st; rewrite EU; reflexivity) end.
      split; [apply CF; try reflexivity; exact SU|]. split; [|auto]. apply HP; [exact SU|]. left. rewrite SU, EU. split; [exact B1|reflexivity].
    - replace (0 <? st_sid (st v)) with true by lia. 
      assert (EN : nth_opt (t_lines (cur (set_idx 0 v))) (st_sid (st v) - 1) = Some (Some buf)).
      { unfold nth_opt. replace (0 <=? st_sid (st v) - 1) with true by lia. rewrite cur_set_idx. exact B2. }
      rewrite EN. eexists. split; [reflexivity|].
      match goal with |- settled H (upd_cur ?f ?w) /\ _ => assert (EU : cur (upd_cur f w) = f (cur w)) by apply cur_upd end.
      match goal with |- settled H ?u /\ _ => assert (SU : st u = set_st_idx 0 (st v)) by (exact (eq_trans (f_equal t_state EU) E0)) end.
      split; [apply CF; try reflexivity; exact SU|]. split; [|auto]. apply HP; [exact SU|]. right. rewrite SU, EU. split; [exact B1|].
      cbn [t_lines set_t_lines st_sid set_st_idx]. rewrite cur_set_idx. cbn [t_lines set_t_state].
      clear - B2. revert B2. generalize (Z.to_nat (st_sid (st v) - 1)) as k. generalize (t_lines (cur v)) as l.
      induction l as [|y l IH]; intros [|k] K; try discriminate K; [reflexivity|]. cbn in *. apply IH. exact K. }
  destruct ES as (u & EU & SU & RU & D1 & D2 & D3). unfold load_str, bind. rewrite EU.
  assert (TU : through H u ts).
  { exists s, cs. split; [exact RU|]. split; [exact HU|]. split; [exact HT|]. intros t i HIN HN. unfold word_of. rewrite D2. apply (HO t i HIN). apply (newest_kept v u D1 D2). exact HN. }
  assert (K := eval_okay H fuel u ts SU TU). destruct (evaluate_input fuel u) as [([], w)| | |]; try (destruct K; fail).
  - split; [exact I|]. intros v' EV KE. injection EV as <-. destruct K as (_ & K). destruct (K KE) as ((F & I0 & T0) & IB). split; [|apply F].
    destruct F as (F1 & F2 & F3 & F4 & F5). exact (conj F4 (conj F5 (conj (proj2 (proj2 F1)) (conj I0 (conj T0 (conj (proj1 (proj2 F1)) IB)))))).
  - split; [exact I|]. intros v' EV. discriminate EV.
Qed.
End T.
