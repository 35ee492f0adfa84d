(** The text interpreter: proofs about [line] (C38). *)
From Coq Require Import ZArith List Bool Lia ZifyBool ZifyNat.
From Verif Require Import Base Stack Mem Parser Flt State CoreM IoM FloatM FileM Exec.
From Verif Require Import LBase LStack Spec Spec4 Spec5 Spec6 Spec9 Spec10 Spec11 Spec19 LState LMem LMon LStep LTask LCode LCtl LDict LDict2 LDict5 LParse LNum LNum2 LText LFuel.
Import ListNotations.
Open Scope Z_scope.
Open Scope m_scope.

(** every token is an integer or not *)
Section I.
Context {E : Env}.
Implicit Types (v : vm).

Lemma numeral_dec b tok : (exists x, (exists n, numeral b tok n /\ wraps_to n x) \/ (digitless b tok /\ x = 0) \/ tok = [39; x; 39]) \/
  ((forall n, ~ numeral b tok n) /\ ~ digitless b tok /\ ~ quoted tok).
Proof.
  destruct (quoted_char_ok tok) as [(c & _ & ->)|(_ & HQ)]; [left; exists c; auto|].
  destruct (split_token b tok) as (p & b' & g & s & t & -> & HP & HG & EP & ES).
  destruct (uint_in_base_loop t b' 0) as [r x|e] eqn:EU.
  - destruct (uint_inv b' t 0 r x EU) as (-> & ds & HD & HF). destruct t as [|c t].
    + left. exists 0. right. left. split; [|reflexivity]. rewrite app_nil_r. econstructor; eassumption.
    + left. exists (to_i64 (s * positional b' ds)). left. exists (s * positional b' ds). split; [|apply to_i64_wraps]. econstructor; try eassumption. congruence.
  - right. split; [|split; [|exact HQ]].
    + intros n K. inversion K as [p1 b1 g1 s1 t1 ds HP1 HG1 HN HD HF Et Es].
      assert (EP1 : base_prefix (p1 ++ g1 ++ t1) b = (g1 ++ t1, b1)).
      { apply (prefix_ok b p1 b1 g1 s1 t1 HP1 HG1). left. destruct HD as [|c d t1 ds H1 H2]; [congruence|]. exists c, d, t1. auto. }
      assert (ES1 : sign (g1 ++ t1) = (t1, s1)).
      { apply (sign_ok g1 s1 t1 HG1). left. destruct HD as [|c d t1 ds H1 H2]; [congruence|]. exists c, d, t1. auto. }
      rewrite Et, EP in EP1. injection EP1 as EG EB. subst b1. rewrite <- EG, ES in ES1. injection ES1 as -> ->.
      destruct (uint_ok b' t1 ds HD HF 0) as (x & EX & _). rewrite EX in EU. discriminate.
    + intros K. inversion K as [p1 b1 g1 s1 HP1 HG1 Et].
      assert (EP1 : base_prefix (p1 ++ g1 ++ []) b = (g1 ++ [], b1)) by (apply (prefix_ok b p1 b1 g1 s1 [] HP1 HG1); auto).
      assert (ES1 : sign (g1 ++ []) = ([], s1)) by (apply (sign_ok g1 s1 [] HG1); auto).
      rewrite !app_nil_r in EP1. rewrite app_nil_r in ES1. rewrite Et, EP in EP1. injection EP1 as EG EB. rewrite <- EG, ES in ES1. injection ES1 as -> ->. discriminate EU.
Qed.
Lemma integer_dec v b tok : base_is v b -> (exists x, integer_token v tok x) \/ no_integer v tok.
Proof.
  intro HB. destruct (numeral_dec b tok) as [(x & H)|H]; [left; exists x, b; auto|right; exists b; auto].
Qed.
Lemma integer_not v tok x : integer_token v tok x -> no_integer v tok -> False.
Proof.
  intros (b & HB & H) (b' & HB' & H1 & H2 & H3). unfold base_is in HB, HB'. rewrite HB in HB'. injection HB' as <-.
  destruct H as [(n & K & _)|[(K & _)| ->]]; [exact (H1 n K)|exact (H2 K)|apply H3; exists x; reflexivity].
Qed.
End I.

Section T.
Context {E : Env}.
Implicit Types (v : vm).

Lemma tkn_same v t : v_tkn v = Some t -> set_v_tkn (Some t) v = v.
Proof. intro H. destruct v. cbn in *. subst. reflexivity. Qed.

(** appending to the data space does not depend on the current token *)
Definition blind (m : M unit) : Prop := forall v, (forall o, m (set_v_tkn o v) = match m v with Ok (a, v') => Ok (a, set_v_tkn o v') | Panic p => Panic p | UB => UB | OutOfFuel => OutOfFuel end) /\
  forall a v', m v = Ok (a, v') -> v_err v' = v_err v /\ v_tkn v' = v_tkn v.
Lemma blind_upd f : blind (ds_upd f).
Proof.
  intro v. split; [intro o|intros a v']; unfold ds_upd; cbn [v_ds set_v_tkn]; destruct (f (v_ds v)); cbn [rbind]; try reflexivity; try discriminate.
  intro H. injection H as _ <-. auto.
Qed.
Lemma blind_seq m1 m2 : blind m1 -> blind m2 -> blind (m1 ;;; m2).
Proof.
  intros H1 H2 v. destruct (H1 v) as (A1 & B1). split.
  - intro o. unfold bind at 1. rewrite A1. unfold bind. destruct (m1 v) as [(a, v1)| | |]; try reflexivity. apply (H2 v1).
  - intros a v'. unfold bind. destruct (m1 v) as [(a1, v1)| | |]; try discriminate. intro K. destruct (H2 v1) as (_ & B2). destruct (B2 a v' K), (B1 a1 v1 eq_refl). split; congruence.
Qed.
Lemma blind_refs f (k : Z -> M unit) : (forall i, blind (k i)) -> blind (i <- refs_get f ;; k i).
Proof.
  intros H v. unfold refs_get. split.
  - intro o. rewrite !bind_gets. apply (H _ v).
  - intros a v'. rewrite bind_gets. apply (H _ v).
Qed.
Lemma blind_integer x : blind (compile_integer x).
Proof. apply blind_refs. intro i. apply blind_seq; apply blind_upd. Qed.
Lemma blind_float x : blind (compile_float x).
Proof. apply blind_refs. intro i. apply blind_seq; [apply blind_upd|]. apply blind_seq; apply blind_upd. Qed.

(** what the evaluation of a number comes to *)
Definition num_result (m : M unit) (t : bytes) v : res (unit * vm) := m (set_v_err None v).
Lemma integer_result ew t v x : v_tkn v = Some t -> integer_token v t x ->
  number_token ew t (set_v_tkn None v) = if st_compiling (st v) then compile_integer x (set_v_err None v) else Ok (tt, set_s (push (t_s (cur v)) x) (set_v_err None v)).
Proof.
  intros HT HI. unfold number_token. rewrite (bind_Ok (set_error None) _ _ tt (set_v_err None (set_v_tkn None v))) by reflexivity.
  unfold bind at 1. rewrite (eval_integer_token t x (set_v_err None (set_v_tkn None v)) HI). unfold take_integer, is_compiling. rewrite bind_gets.
  change (st_compiling (st (set_v_err None (set_v_tkn None v)))) with (st_compiling (st v)). destruct (st_compiling (st v)).
  - destruct (blind_integer x (set_v_err None v)) as (A & B). change (set_v_err None (set_v_tkn None v)) with (set_v_tkn None (set_v_err None v)). rewrite A.
    destruct (compile_integer x (set_v_err None v)) as [(a, v1)| | |] eqn:EC; try reflexivity. destruct (B a v1 eq_refl) as (B1 & B2). rewrite bind_gets.
    cbn [v_err set_v_tkn]. rewrite B1. cbn [v_err set_v_err]. cbn [v_tkn set_v_err] in B2. rewrite HT in B2. destruct a.
    change (Ok (tt, set_v_tkn (Some t) v1) = Ok (tt, v1)). rewrite (tkn_same v1 t B2). reflexivity.
  - cbn [s_push]. change (s_push x (set_v_err None (set_v_tkn None v))) with (Ok (tt, set_v_tkn None (set_s (push (t_s (cur v)) x) (set_v_err None v)))). cbv iota beta. rewrite bind_gets.
    change (Ok (tt, set_v_tkn (Some t) (set_s (push (t_s (cur v)) x) (set_v_err None v))) = Ok (tt, set_s (push (t_s (cur v)) x) (set_v_err None v))).
    rewrite tkn_same; [reflexivity|exact HT].
Qed.
Lemma float_result ew t v s i f es x : v_tkn v = Some t -> no_integer v t -> idx_flit (v_refs v) <> 0 -> float_text s i f es x t ->
  number_token ew t (set_v_tkn None v) = if st_compiling (st v) then compile_float (float_value s i f es x) (set_v_err None v)
    else Ok (tt, set_f (push (t_f (cur v)) (float_value s i f es x)) (set_v_err None v)).
Proof.
  intros HT HI HL HX. rewrite (number_token_float ew t (set_v_tkn None v) HI). unfold bind at 1. rewrite (eval_float_ok t (set_v_err None (set_v_tkn None v)) s i f es x HX HL).
  set (y := float_value s i f es x). unfold take_float, is_compiling. rewrite bind_gets.
  change (st_compiling (st (set_v_err None (set_v_tkn None v)))) with (st_compiling (st v)). destruct (st_compiling (st v)).
  - destruct (blind_float y (set_v_err None v)) as (A & B). change (set_v_err None (set_v_tkn None v)) with (set_v_tkn None (set_v_err None v)). rewrite A.
    destruct (compile_float y (set_v_err None v)) as [(a, v1)| | |] eqn:EC; try reflexivity. destruct (B a v1 eq_refl) as (B1 & B2). rewrite bind_gets.
    cbn [v_err set_v_tkn]. rewrite B1. cbn [v_err set_v_err]. cbn [v_tkn set_v_err] in B2. rewrite HT in B2. destruct a.
    change (Ok (tt, set_v_tkn (Some t) v1) = Ok (tt, v1)). rewrite (tkn_same v1 t B2). reflexivity.
  - change (f_push y (set_v_err None (set_v_tkn None v))) with (Ok (tt, set_v_tkn None (set_f (push (t_f (cur v)) y) (set_v_err None v)))). cbv iota beta. rewrite bind_gets.
    change (Ok (tt, set_v_tkn (Some t) (set_f (push (t_f (cur v)) y) (set_v_err None v))) = Ok (tt, set_f (push (t_f (cur v)) y) (set_v_err None v))).
    rewrite tkn_same; [reflexivity|exact HT].
Qed.
Lemma unknown_result ew t v : v_tkn v = Some t -> no_integer v t -> (forall s i f es x, ~ float_text s i f es x t) ->
  number_token ew t (set_v_tkn None v) = abort_with ew (-13) v.
Proof.
  intros HT HI HX. destruct (eval_float_cases t (set_v_err None (set_v_tkn None v))) as [(e & EF)|(s & i & f & es & x & K & _)]; [|exfalso; exact (HX _ _ _ _ _ K)].
  rewrite (number_token_float ew t (set_v_tkn None v) HI). rewrite (bind_Ok (evaluate_float t) _ _ tt _ EF). rewrite bind_gets. cbn [v_err set_v_err].
  rewrite (bind_Ok (set_token t) _ _ tt (set_v_err (Some e) (set_v_tkn (Some t) v))) by reflexivity. rewrite (tkn_same v t HT). rewrite !abort_with_eq. reflexivity.
Qed.

Definition token_action (fuel : nat) v : res (unit * vm) :=
  if st_compiling (st v) then compile_token fuel (execute_word fuel) v else interpret_token fuel (execute_word fuel) v.

Lemma performs_iff fuel v t v' : at_token fuel v t ->
  (performs fuel t v v' <-> exec_prim fuel (execute_word fuel) (if st_compiling (st v) then P_compile_token else P_interpret_token) v = Ok (tt, v')).
Proof.
  intros (HT & HD & HF & (b & HB) & HL).
  assert (KF : forall i, newest v t (Some i) -> exec_prim fuel (execute_word fuel) (if st_compiling (st v) then P_compile_token else P_interpret_token) v =
    if st_compiling (st v) then (if w_imm (word_of v i) then execute_word fuel i v else run_cs (execute_word fuel) (w_cs (word_of v i)) i v)
    else if w_co (word_of v i) then abort_with (execute_word fuel) (-14) v else execute_word fuel i v).
  { intros i HN. destruct (token_found fuel v t i HD HF HT HN (execute_word fuel)) as (A & B). rewrite (tkn_same v t HT) in A, B.
    destruct (st_compiling (st v)); [rewrite B; destruct (w_imm _); reflexivity|rewrite A; destruct (w_co _); reflexivity]. }
  assert (KN : newest v t None -> exec_prim fuel (execute_word fuel) (if st_compiling (st v) then P_compile_token else P_interpret_token) v = number_token (execute_word fuel) t (set_v_tkn None v)).
  { intros HN. destruct (token_unknown fuel v t HD HF HT HN (execute_word fuel)) as (A & B). destruct (st_compiling (st v)); assumption. }
  split.
  - intros [i H1 H2 H3|i H1 H2 H3 H4|i H1 H2 H3 H4|x H1 H2 H3 H4|x H1 H2 H3 H4|s i f es x H1 H2 H3 H4 H5|s i f es x H1 H2 H3 H4 H5|H1 H2 H3 H4].
    + rewrite (KF i H1). destruct (st_compiling (st v)); rewrite H2; exact H3.
    + rewrite (KF i H1), H2, H3. exact H4.
    + rewrite (KF i H1), H2, H3. exact H4.
    + rewrite (KN H1), (integer_result _ t v x HT H2), H3, H4. reflexivity.
    + rewrite (KN H1), (integer_result _ t v x HT H2), H3, H4. reflexivity.
    + rewrite (KN H1), (float_result _ t v s i f es x HT H2 HL H3), H4, H5. reflexivity.
    + rewrite (KN H1), (float_result _ t v s i f es x HT H2 HL H3), H4, H5. reflexivity.
    + rewrite (KN H1), (unknown_result _ t v HT H2 H3). exact H4.
  - intro K. destruct (find_newest fuel t v HD HF) as (r & _ & HN). destruct r as [i|].
    + rewrite (KF i HN) in K. destruct (st_compiling (st v)) eqn:EC.
      * destruct (w_imm (word_of v i)) eqn:EI; [apply (A_executed fuel t v v' i HN); [rewrite EC; exact EI|exact K]|apply (A_compiled fuel t v v' i HN EC EI K)].
      * destruct (w_co (word_of v i)) eqn:EI; [apply (A_compile_only fuel t v v' i HN EC EI K)|apply (A_executed fuel t v v' i HN); [rewrite EC; exact EI|exact K]].
    + rewrite (KN HN) in K. destruct (integer_dec v b t HB) as [(x & HI)|HI].
      * rewrite (integer_result _ t v x HT HI) in K. destruct (st_compiling (st v)) eqn:EC; [exact (A_integer_compiled fuel t v v' x HN HI EC K)|].
        injection K as <-. exact (A_integer fuel t v _ x HN HI EC eq_refl).
      * destruct (eval_float_cases t (set_v_err None v)) as [(e & EE)|(s & i & f & es & x & HX & _)].
        -- assert (HX : forall s i f es x, ~ float_text s i f es x t).
           { intros s i f es x HX. rewrite (eval_float_ok t (set_v_err None v) s i f es x HX HL) in EE. unfold take_float, is_compiling in EE. rewrite bind_gets in EE.
             destruct (st_compiling (st (set_v_err None v))); [destruct (blind_float (float_value s i f es x) (set_v_err None v)) as (_ & B); destruct (B _ _ EE) as (B1 & _); discriminate B1|].
             discriminate EE. }
           rewrite (unknown_result _ t v HT HI HX) in K. exact (A_unknown fuel t v v' HN HI HX K).
        -- rewrite (float_result _ t v s i f es x HT HI HL HX) in K. destruct (st_compiling (st v)) eqn:EC; [exact (A_float_compiled fuel t v v' s i f es x HN HI HX EC K)|].
           injection K as <-. exact (A_float fuel t v _ s i f es x HN HI HX EC eq_refl).
Qed.
(** ** Lines *)
Lemma mle_ok {A} (m m' : M A) v r : mle m m' -> m v = Ok r -> m' v = Ok r.
Proof. intros H K. rewrite (H v); [exact K|]. congruence. Qed.

Lemma round_end fuel v v' : reads v [] v' -> eval_round fuel v = Ok (false, v').
Proof.
  intros (H & HT). unfold eval_round. rewrite (bind_Ok parse_word _ v tt v') by exact (H (fun _ => ret tt)). rewrite bind_gets, HT. reflexivity.
Qed.
Lemma round_token fuel v t v1 v' : reads v t v1 -> t <> [] -> at_token fuel v1 t -> token_run fuel t v1 v' ->
  eval_round fuel v = Ok (match v_err v' with None => true | Some _ => false end, v').
Proof.
  intros (H & HT) H0 HA HR. unfold eval_round. rewrite (bind_Ok parse_word _ v tt v1) by exact (H (fun _ => ret tt)). rewrite bind_gets, HT.
  destruct t as [|c t]; [congruence|]. unfold is_compiling. rewrite bind_gets.
  assert (G : forall u, performs fuel (c :: t) v1 u -> (if st_compiling (st v1) then compile_token fuel (execute_word fuel) else interpret_token fuel (execute_word fuel)) v1 = Ok (tt, u)).
  { intros u K. apply (performs_iff fuel v1 (c :: t) u HA) in K. destruct (st_compiling (st v1)); exact K. }
  destruct HR as [K1 K2|u1 u2 K1 K2 K3 K4].
  - rewrite (bind_Ok _ _ v1 tt v' (G v' K1)). rewrite bind_gets. destruct (v_err v'); [reflexivity|congruence].
  - rewrite (bind_Ok _ _ v1 tt u1 (G u1 K1)). rewrite bind_gets, K2. rewrite (bind_Ok (run fuel) _ u1 tt u2 K3).
    rewrite (bind_Ok (check_stacks (execute_word fuel)) _ u2 tt v' K4). rewrite bind_gets. reflexivity.
Qed.
Lemma line_evaluates fuel v l v' : line fuel v l v' -> evaluate_input (S (length l + fuel)) v = Ok (tt, v').
Proof.
  induction 1 as [v v' HE HR|v v1 t v' HE HR HN HA HT HX|v v1 t v2 l v' HE HR HN HA HT HX HL IH]; cbn [length evaluate_input].
  - rewrite (bind_Ok _ _ v false v' (round_end _ v v' HR)). reflexivity.
  - assert (K := round_token fuel v t v1 v' HR HN HA HT). destruct (v_err v') eqn:EV; [|congruence].
    rewrite (bind_Ok _ _ v false v'); [reflexivity|]. revert K. apply mle_ok, eval_round_mle. lia.
  - assert (K := round_token fuel v t v1 v2 HR HN HA HT). rewrite HX in K.
    rewrite (bind_Ok _ _ v true v2); [|revert K; apply mle_ok, eval_round_mle; lia]. exact IH.
Qed.
Lemma line_only fuel v l v' n v2 : line fuel v l v' -> evaluate_input n v = Ok (tt, v2) -> v2 = v'.
Proof.
  intros H K. apply line_evaluates in H. assert (A := mle_ok _ _ v _ (evaluate_input_mle n (n + S (length l + fuel)) ltac:(lia)) K).
  assert (B := mle_ok _ _ v _ (evaluate_input_mle (S (length l + fuel)) (n + S (length l + fuel)) ltac:(lia)) H). congruence.
Qed.
(** the tokens are the words of the line, in order *)
Lemma line_in_order fuel v l v' : line fuel v l v' -> forall s cs ts, rest_of_input v s -> utf8_text s cs -> v_tkn v <> None -> tokens s ts -> Forall input_kept l ->
  exists rest, ts = map token_of l ++ rest /\ (v_err v' = None -> rest = []) /\ (v_err v' <> None -> exists l1 x, l = l1 ++ [x] /\ left_error x /\ Forall (fun y => ~ left_error y) l1 /\ snd x = v').
Proof.
  assert (PK : forall v t v1 s cs ts, reads v t v1 -> rest_of_input v s -> utf8_text s cs -> v_tkn v <> None -> tokens s ts ->
    t = hd [] ts /\ exists r cs', rest_of_input v1 r /\ utf8_text r cs' /\ tokens r (tl ts)).
  { intros u t v1 s cs ts (HR & HT) HI HU HK HS. destruct (next_word u s cs ts HI HU HK HS 0%nat) as (n & r & cs' & u' & A & B & _ & C & D & F).
    assert (EU : u' = v1) by (specialize (A (fun _ => ret tt)); specialize (HR (fun _ => ret tt)); congruence). subst u'.
    split; [|exists r, cs'; auto]. destruct HI as (buf & pre & HI & _). destruct (token_read_input _ _ _ _ buf B HI) as (_ & _ & K). congruence. }
  induction 1 as [v v' HE HR|v v1 t v' HE HR HN HA HT HX|v v1 t v2 l v' HE HR HN HA HT HX HL IH]; intros s cs ts HI HU HK HS HF.
  - destruct (PK _ _ _ _ _ _ HR HI HU HK HS) as (H0 & _). exists ts. split; [reflexivity|].
    assert (HT0 : ts = []). { destruct HS as [|w t r l B1 B2]; [reflexivity|]. cbn [hd] in H0. congruence. }
    split; [intros _; exact HT0|]. intro K. exfalso. apply K. destruct HR as (HR & _). destruct (next_word v s cs ts HI HU HK HS 0%nat) as (n & r & cs' & u' & A & B & _).
    specialize (A (fun _ => ret tt)). specialize (HR (fun _ => ret tt)). assert (u' = v') by congruence. subst u'. destruct B as [->|(_ & ->)]; exact HE.
  - destruct (PK _ _ _ _ _ _ HR HI HU HK HS) as (H0 & r & cs' & A & B & C). destruct ts as [|t0 ts]; [cbn [hd] in H0; congruence|]. cbn [hd tl] in *. subst t0.
    exists ts. split; [reflexivity|]. split; [congruence|]. intros _. exists [], (t, v1, v'). split; [reflexivity|]. split; [exact HX|]. split; [constructor|reflexivity].
  - destruct (PK _ _ _ _ _ _ HR HI HU HK HS) as (H0 & r & cs' & A & B & C). destruct ts as [|t0 ts]; [cbn [hd] in H0; congruence|]. cbn [hd tl] in *. subst t0.
    inversion HF as [|? ? K0 HF']; subst. destruct K0 as (K1 & K2 & K3). destruct A as (buf & pre & A1 & A2 & A3 & A4).
    assert (HI2 : rest_of_input v2 r) by (exists buf, pre; repeat split; [apply K2; exact A1|exact A2|congruence|exact A4]).
    destruct (IH r cs' ts HI2 B K3 C HF') as (rest & -> & R1 & R2). exists rest. split; [reflexivity|]. split; [exact R1|]. intro KE. destruct (R2 KE) as (l1 & x & -> & L1 & L2 & L3).
    exists ((t, v1, v2) :: l1), x. split; [reflexivity|]. split; [exact L1|]. split; [|exact L3]. constructor; [|exact L2]. intro KK. apply KK. exact HX.
Qed.

(** every evaluation that returns is of this kind *)
Lemma line_complete n v : (forall u t u1, after_tokens n v u -> reads u t u1 -> t <> [] -> at_token n u1 t) ->
  forall m u v', (m <= n)%nat -> after_tokens n v u -> v_err u = None -> evaluate_input m u = Ok (tt, v') -> exists l, line n u l v'.
Proof.
  intro HS. induction m as [|m IH]; intros u v' Hm HA HE K; [discriminate K|]. cbn [evaluate_input] in K. unfold bind at 1 in K.
  destruct (eval_round m u) as [(c, u2)| | |] eqn:ER; try discriminate K.
  assert (RE := mle_ok _ _ u _ (eval_round_mle m n ltac:(lia)) ER). clear ER. unfold eval_round, bind at 1 in RE.
  destruct (parse_word u) as [([], u1)| | |] eqn:EP; try discriminate RE. rewrite bind_gets in RE.
  assert (HQ : quiet 0 P_parse_word u u1) by (intro ew; exact EP).
  assert (G : forall t, v_tkn u1 = Some t -> t <> [] -> (k <- is_compiling ;; (if (k : bool) then compile_token n (execute_word n) else interpret_token n (execute_word n)) ;;;
      e <- gets v_err ;; match e with Some _ => ret false | None => run n ;;; check_stacks (execute_word n) ;;; e <- gets v_err ;; ret (match e with Some _ => false | None => true end) end) u1 = Ok (c, u2) ->
      c = (match v_err u2 with None => true | Some _ => false end) /\ token_run n t u1 u2).
  { intros t HT HN KR. assert (AT := HS u t u1 HA (conj HQ HT) HN). unfold is_compiling in KR. rewrite bind_gets in KR. unfold bind at 1 in KR.
    destruct ((if st_compiling (st u1) then compile_token n (execute_word n) else interpret_token n (execute_word n)) u1) as [([], w)| | |] eqn:EA; try discriminate KR.
    assert (PF : performs n t u1 w) by (apply (performs_iff n u1 t w AT); destruct (st_compiling (st u1)); exact EA).
    rewrite bind_gets in KR. destruct (v_err w) eqn:EW.
    - injection KR as <- ->. rewrite EW. split; [reflexivity|]. apply TR_raised; [exact PF|congruence].
    - unfold bind at 1 in KR. destruct (run n w) as [([], w2)| | |] eqn:EN; try discriminate KR. unfold bind at 1 in KR.
      destruct (check_stacks (execute_word n) w2) as [([], w3)| | |] eqn:EK; try discriminate KR. rewrite bind_gets in KR.
      assert (EW3 : w3 = u2) by (unfold ret in KR; congruence). subst w3. split; [unfold ret in KR; congruence|]. exact (TR_done n t u1 u2 w w2 PF EW EN EK). }
  destruct (v_tkn u1) as [[|ch t]|] eqn:ET.
  - injection RE as <- <-. injection K as <-. exists []. apply L_end; [exact HE|]. split; assumption.
  - destruct (G (ch :: t) eq_refl ltac:(congruence) RE) as (Ec & TR). assert (AT := HS u (ch :: t) u1 HA (conj HQ ET) ltac:(congruence)).
    destruct (v_err u2) eqn:E2; subst c.
    + injection K as <-. exists [(ch :: t, u1, u2)]. apply L_raised; [exact HE|split; assumption|congruence|exact AT|exact TR|congruence].
    + destruct (IH u2 v' ltac:(lia) (AT_more n v u (ch :: t) u1 u2 HA (conj HQ ET) ltac:(congruence) TR E2) E2 K) as (l & HL).
      exists ((ch :: t, u1, u2) :: l). apply (L_next n u u1 (ch :: t) u2 l v'); [exact HE|split; assumption|congruence|exact AT|exact TR|exact E2|exact HL].
  - exfalso. unfold is_compiling in RE. rewrite bind_gets in RE. unfold bind at 1 in RE.
    assert (KP : forall ew, compile_token n ew u1 = Panic PExpect /\ interpret_token n ew u1 = Panic PExpect) by (intro ew; split; unfold compile_token, interpret_token, bind at 1, take_token; rewrite ET; reflexivity).
    destruct (st_compiling (st u1)); [rewrite (proj1 (KP _)) in RE|rewrite (proj2 (KP _)) in RE]; discriminate RE.
Qed.
Lemma evaluate_line n v v' : v_err v = None -> (forall u t u1, after_tokens n v u -> reads u t u1 -> t <> [] -> at_token n u1 t) ->
  evaluate_input n v = Ok (tt, v') -> exists l, line n v l v'.
Proof. intros HE HS K. exact (line_complete n v HS n v v' ltac:(lia) (AT_none n v) HE K). Qed.
End T.

Section D.
Context {E : Env}.
Lemma reads_det (u : vm) t u1 t' u1' : reads u t u1 -> reads u t' u1' -> t' = t /\ u1' = u1.
Proof. intros (A & B) (A' & B'). specialize (A (fun _ => ret tt)). specialize (A' (fun _ => ret tt)). assert (u1' = u1) by congruence. subst. split; congruence. Qed.
Lemma performs_det n t (v a c : vm) : at_token n v t -> performs n t v a -> performs n t v c -> c = a.
Proof. intros H A C. apply (performs_iff n v t a H) in A. apply (performs_iff n v t c H) in C. congruence. Qed.
Lemma token_run_det n t (v a c : vm) : at_token n v t -> token_run n t v a -> token_run n t v c -> c = a.
Proof.
  intros H [P1 E1|u1 u2 P1 E1 R1 C1] [P2 E2|w1 w2 P2 E2 R2 C2].
  - exact (performs_det n t v a c H P1 P2).
  - rewrite (performs_det n t v a w1 H P1 P2) in E2. congruence.
  - rewrite (performs_det n t v u1 c H P1 P2) in E2. congruence.
  - rewrite (performs_det n t v u1 w1 H P1 P2) in R2. rewrite R1 in R2. assert (w2 = u2) by congruence. subst w2. congruence.
Qed.
(** the states between the tokens of a line all have a searchable dictionary *)
Lemma line_covers n (v : vm) l v' : line n v l v' -> forall u t u1, after_tokens n v u -> reads u t u1 -> t <> [] -> at_token n u1 t.
Proof.
  intros HL. assert (G : forall u, after_tokens n v u -> exists l2, line n u l2 v').
  { induction 1 as [|u t u1 u2 HA (l2 & HL2) HR HN HT HE]; [exists l; exact HL|].
    inversion HL2 as [x y X1 X2|x x1 s y X1 X2 X3 X4 X5 X6|x x1 s y l3 z X1 X2 X3 X4 X5 X6 X7]; subst.
    - destruct (reads_det _ _ _ _ _ X2 HR). congruence.
    - destruct (reads_det _ _ _ _ _ X2 HR) as (-> & ->). pose proof (token_run_det _ _ _ _ _ X4 X5 HT). congruence.
    - destruct (reads_det _ _ _ _ _ X2 HR) as (-> & ->). rewrite (token_run_det _ _ _ _ _ X4 X5 HT). exists l3. exact X7. }
  intros u t u1 HA HR HN. destruct (G u HA) as (l2 & HL2).
  inversion HL2 as [x y X1 X2|x x1 s y X1 X2 X3 X4 X5 X6|x x1 s y l3 z X1 X2 X3 X4 X5 X6 X7]; subst.
  - destruct (reads_det _ _ _ _ _ X2 HR). congruence.
  - destruct (reads_det _ _ _ _ _ X2 HR) as (-> & ->). exact X4.
  - destruct (reads_det _ _ _ _ _ X2 HR) as (-> & ->). exact X4.
Qed.
End D.
