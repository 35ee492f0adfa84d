(** INCLUDED and a line that ends in an exception (C91). *)
From Coq Require Import ZArith List Bool Lia String ZifyBool ZifyNat.
From Verif Require Import Base Stack Mem Parser State CoreM IoM FileM Exec LBase LStack Spec Spec2 Spec4 Spec5 Spec6 Spec7 Spec9 Spec10 Spec11 Spec12 Spec14 Spec15 Spec16 Spec17 Spec19 Spec24 Spec25
  LState LMem LMon LMemWords LTask LFuel LCode LComp LRun LCtl LFloat LWords LSay LFile LFile2 LFile3 LFile5 LLib LLibWords LDefine LDefine2 LNoInput LSource LEval LNest LSys LPrint2 Spec27 LShell LShell2 LShell5 Spec28 Spec30 LTrim LTrim2 LInc LInc2.
Import ListNotations.
Open Scope list_scope.
Open Scope Z_scope.
Open Scope m_scope.

Section L.
Context {E : Env}.
Variable K : Z -> Prop.
Implicit Types (v w u : vm).
Ltac lp := clear; unfold lib_prims; cbn; tauto.

(** ** Code in which the handler is given control *)
Definition wpb (p : prog) (P : vm -> Prop) v : Prop := forall a, holds K v p a -> exists x, breaks v a x /\ P x.
Lemma wpb_first p q P v : wpb p P v -> wpb (Seq p q) P v.
Proof. intros W a HH. destruct (holds_seq _ _ _ _ _ HH) as [H1 _]. exact (W a H1). Qed.
Lemma wpb_seq p q P v : wp K p (wpb q P) v -> wpb (Seq p q) P v.
Proof.
  intros W a HH. destruct (holds_seq _ _ _ _ _ HH) as [H1 H2]. destruct (W a H1) as (v1 & P1 & W1).
  destruct (W1 _ (holds_kept K _ _ _ _ (proj2 P1) H2)) as (x & B & q2). exists x.
  split; [eapply breaks_goes; [apply P1|exact B]|exact q2].
Qed.
Lemma wpb_then p q y v0 d r f m o v P : tin v0 (y :: d) r f m o v -> zlen d < 64 -> y <> 0 -> (forall u, tin v0 d r f m o u -> wpb p P u) -> wpb (IfElse p q) P v.
Proof.
  intros [HI HTr] Hd Hy H a (HA & Ha & HL). cbn [laid] in HL; cbv zeta in HL. destruct HL as (W & C & L & W' & C' & L').
  pose proof (takes_has _ _ _ (proj1 (proj1 HI))) as T.
  pose proof (cell_top _ _ _ _ C) as Ct. pose proof (cell_top _ _ _ _ C') as Ct'.
  pose proof (laid_range K _ _ _ L ltac:(lia)) as R. pose proof (laid_range K _ _ _ L' ltac:(lia)) as R'.
  assert (HK : kept K v (drop_s 1 v)) by (apply kept_eq; reflexivity).
  assert (Hx : 0 <= fin p (a + 16) + 16 < 2 ^ 63) by (destruct HA; lia).
  pose proof (goes_zero K v a _ y _ HA W C Hx T) as G. replace (y =? 0) with false in G by lia.
  pose proof (inv_pop _ _ _ _ _ _ _ _ HI) as HI1.
  assert (J : tin v0 d r f m o (drop_s 1 v)) by (split; [exact HI1|eapply LTrim.trim_trans; [exact HTr|eapply (LTrim.trim_drop K v y d); [apply HI|exact Hd]]]).
  destruct (H _ J (a + 16)) as (x & B & q').
  - eapply holds_kept; [exact HK|]. split; [exact HA|]. split; [lia|exact L].
  - exists x. split; [|exact q']. eapply breaks_goes; [exact G|exact B].
Qed.
Lemma wpb_while p q P v : wp K p (fun u => exists v0 x d r f m o, tin v0 (x :: d) r f m o u /\ zlen d < 64 /\ x <> 0 /\
     (forall u', tin v0 d r f m o u' -> wpb q P u' \/ wp K q (wpb (While p q) P) u')) v -> wpb (While p q) P v.
Proof.
  intros H a HH.
  assert (HS : holds K v p a /\ holds K v q (fin p a + 16)).
  { destruct HH as (A & B & L). cbn [laid] in L; cbv zeta in L. destruct L as (L & W & C & L' & W' & C').
    pose proof (cell_top _ _ _ _ C) as Ct. pose proof (cell_top _ _ _ _ C') as Ct'. pose proof (laid_range K _ _ _ L ltac:(lia)) as R.
    split; (split; [exact A|split; [lia|assumption]]). }
  destruct HS as [HS1 HS2]. destruct (H a HS1) as (u & P1 & v0 & x & d & r & f & m & o & [HU HT] & Hd & Hx & HN).
  pose proof (takes_has _ _ _ (proj1 (proj1 HU))) as T. pose proof (inv_pop _ _ _ _ _ _ _ _ HU) as HU1.
  assert (J : tin v0 d r f m o (drop_s 1 u)) by (split; [exact HU1|eapply trim_trans; [exact HT|eapply (trim_drop K); [apply HU|exact Hd]]]).
  pose proof (while_round K p q v a u x _ HH P1 T) as P2. replace (x =? 0) with false in P2 by lia.
  destruct (HN _ J) as [HB|HB].
  - destruct (HB _ (holds_kept K _ _ _ _ (proj2 P2) HS2)) as (y & B & q2). exists y. split; [eapply breaks_goes; [apply P2|exact B]|exact q2].
  - destruct (HB _ (holds_kept K _ _ _ _ (proj2 P2) HS2)) as (v1 & P3 & HI1).
    pose proof (part_trans K _ _ _ _ _ _ P2 P3) as P4. pose proof (holds_kept K _ _ _ _ (proj2 P4) HH) as HH1.
    destruct (HI1 a HH1) as (y & B & q2). exists y. split; [|exact q2].
    eapply breaks_goes; [apply P4|]. eapply breaks_goes; [apply (while_back K p q); exact HH1|exact B].
Qed.
(** Entering a colon definition *)
Lemma colon_breaks v i p x P rs : colon_word K v i p x -> stack_has (t_r (cur v)) rs -> zlen rs < 255 ->
  (forall r, 0 <= r < 2 ^ 63 -> wpb p P (add_r r v)) -> fails_at v i P.
Proof.
  intros (W & X & HH) HR Hl H r Hr.
  destruct (nest_enter v i r rs W HR Hl Hr) as (u & E1 & G).
  assert (HK : kept K v (add_r r v)) by (apply kept_eq; reflexivity).
  destruct (holds_seq _ _ _ _ _ (holds_kept K _ _ _ _ HK HH)) as [H1 _].
  destruct (H r Hr _ H1) as (y & (w & z & G1 & B) & q). exists 1%nat, u, y. split; [exact E1|]. split; [|exact q].
  exists w, z. split; [apply G; exact G1|exact B].
Qed.
Lemma wpb_call v i P : fails_at v i P -> wpb (Op i) P v.
Proof.
  intros D a (HA & Ha & C & Hi). pose proof (code_range _ _ _ _ HA C) as RA.
  destruct (D (a + 8) ltac:(lia)) as (f & u & x & E1 & (w & z & G & B) & q). exists x. split; [|exact q]. exists w, z. split; [|exact B].
  intros y HC. destruct (step_cell K v a i y HA HC C Hi) as [R1 R2].
  destruct (G u (continues_self u)) as (w' & T1 & C1). exists w'. split; [|exact C1].
  econstructor; [split; [exact R1|]; exists f; rewrite R2; exact E1|exact T1].
Qed.
(** A line with a token that ends in an exception *)
Lemma fails_breaks_on sid n v t v1 fuel (x : vm) : steady_on sid v -> reads v t v1 -> t <> [] -> at_token fuel v1 t -> fails K n fuel t (noted v1) x -> shell K n v ->
  breaks v (w_dfa (word_of v (n_eval n))) x.
Proof.
  intros HS HR Ht HT HF HSh. destruct (token_reached K n v t v1 HS HR Ht HSh) as [P1 HH]. destruct (noted_facts K n _ _ _ HS HR) as (I0 & ER & EC).
  assert (AT : at_token fuel (noted v1) t) by exact HT. pose proof (shell_stays K _ _ _ I0 HSh) as Sh1.
  eapply breaks_goes; [apply P1|]. clear P1 HS HR HT ER EC I0 HSh. revert AT HF Sh1 HH. generalize (noted v1). clear v v1. intros v AT HF Sh1 HH.
  destruct (holds_seq _ _ _ _ _ HH) as [(HA & Hb & C & Hi) H2]. cbn [op fin] in H2.
  destruct HF as [HF|u PF (y & c & G & B)|v2 HA2 HC2].
  - exists v, (token_addr n v). split; [intros w HC; exists w; split; [constructor|exact HC]|]. intros w HC.
    destruct (step_cell K _ _ _ w HA HC C Hi) as [R1 R2]. split; [exact R1|]. destruct HF as (f & HF). exists f. intros u HU. specialize (HF u HU).
    exists (S fuel). rewrite R2. apply (token_run K n v t); assumption.
  - exists y, c. split; [|exact B]. intros w HC. destruct (step_cell K _ _ _ w HA HC C Hi) as [R1 R2].
    destruct (G u (continues_self u)) as (w' & S1 & C1). exists w'. split; [|exact C1].
    econstructor; [split; [exact R1|]; exists (S fuel)|exact S1]. rewrite R2. apply (token_run K n v t); assumption.
  - exists v2, (token_addr n v + 8). split.
    { apply (token_part K n v t fuel v2 _ AT Sh1 HA2 eq_refl). split; [exact HA|]. split; [exact Hb|]. split; [exact C|exact Hi]. }
    pose proof (holds_kept K _ _ _ _ (proj1 (proj1 HA2)) H2) as (HA' & _ & C' & Hi'). pose proof (shell_stays K _ _ _ (proj1 HA2) Sh1) as Sh2.
    intros w HC. destruct (step_cell K _ _ _ w HA' HC C' Hi') as [R1 R2]. split; [exact R1|].
    exists 0%nat. intros u HU. exists 2%nat. rewrite R2. rewrite (execute_word_eq 1 _ _ P_check_stacks), set_wp_ip by (apply (shell_prim K n); [exact Sh2|cbn; tauto]).
    replace (token_addr n v + 8 + 8) with (token_addr n v + 16) by lia. rewrite <- HU. apply HC2.
Qed.
Lemma wpb_evaluate n sid v rs P : shell K n v -> stack_has (t_r (cur v)) rs -> zlen rs < 255 ->
  (forall R, 0 <= R < 2 ^ 63 -> line_fails sid K n P (add_r R v)) -> wpb (Op (n_eval n)) P v.
Proof.
  intros HSh Rb HL H. apply wpb_call. intros r Hr. pose proof HSh as (_ & (WN & _) & _).
  destruct (nest_enter v (n_eval n) r rs WN Rb HL Hr) as (u & E1 & G).
  destruct (H r Hr) as (ts & v0 & t & v1 & fuel & x & HB & HR & Ht & HT & HF & q).
  pose proof (intact_add_r K _ _ _ r (intact_refl K n v)) as Ic. pose proof (shell_stays K _ _ _ Ic HSh) as Shc.
  destruct (obeyed_part K n _ ts v0 HB Shc) as (P2 & I2 & S2 & _). pose proof (shell_stays K _ _ _ I2 Shc) as Sh0.
  pose proof (fails_breaks_on sid n v0 t v1 fuel x S2 HR Ht HT HF Sh0) as B.
  pose proof Shc as (_ & (WE' & _) & _). rewrite (proj2 (proj2 I2 (n_eval n) ltac:(cbn; tauto) (proj1 WE'))) in B.
  destruct (breaks_goes _ _ _ _ _ (proj1 P2) B) as (w & z & G1 & B1).
  exists 1%nat, u, x. split; [exact E1|]. split; [|exact q]. exists w, z. split; [apply G; exact G1|exact B1].
Qed.
Notation loop n m := (While (block [op n P_p_source_id; op n P_p_load_line])
   (block [op n P_p_drop; Num 0; op n P_p_set_source_idx; Op (n_eval n); op n P_flush_output; Num 1; Op (n_line n); Op (l_plus m)])).
Lemma load_wpb R n m id s l P N : forall c, (List.length c < N)%nat -> forall v, collapses R K n m id s l P c v ->
  forall d r f u, shell K n v -> loader K n m v -> loading R n m id s l c v -> stacks_are v d r f -> zlen r <= 60 -> alike v u ->
  wpb (loop n m) P u.
Proof.
  induction N as [|N IH]; intros c HN v HF d r f u HSh HLo HLd HS Hr HA; [lia|].
  pose proof HLo as (L & _). pose proof HLd as (S1 & HL & Hc & HD & HSv & HSel & (f0 & Hf0) & (x & HX1' & HX2') & Hsid & (d1 & D1 & D2)).
  assert (Hd : zlen d <= 48) by (rewrite (stack_has_inj _ _ _ (proj1 HS) D1); exact D2). clear d1 D1 D2.
  pose proof (alike_tin _ _ _ _ _ HS HA) as I. apply wpb_while. cbn [block]. apply wp_seq.
  eapply (tp_part K _ _ (fun v => st_sid (st v))); [apply L; unfold lib_prims; cbn; tauto|reflexivity|intros y C; apply C|exact I|lia|]. intros u1 I1. cbv beta in I1. rewrite Hsid in I1.
  eapply (load_line_wp K); [exact L|exact S1|exact HL|exact Hc|exact I1|lia|].
  intros sr o' rd ln rr v' u2 HSr HFL HR Ev I2. eexists v', _, _, r, f, _, _. split; [exact I2|]. split; [wlen|].
  assert (Wd : intact K n v v') by (subst v'; apply intact_eq; reflexivity).
  pose proof (shell_stays K _ _ _ Wd HSh) as HSh'. destruct (loader_stays K _ _ _ _ Wd HSh HLo) as (HLo' & ES & EL). pose proof HLo' as (L' & _).
  assert (HSV : stacks_are v' d r f) by (subst v'; apply stacks_world; exact HS).
  assert (HLs : (Z.to_nat (id - 1) < List.length (t_lines (cur v)))%nat).
  { apply nth_error_Some. unfold line_of in HL. destruct (nth_error _ _) as [[]|]; congruence. }
  assert (HSs : (Z.to_nat (id - 1) < List.length (t_sources (cur v)))%nat).
  { apply nth_error_Some. destruct HSr as [_ HSr]. congruence. }
  assert (Hid : 1 <= id) by apply HSr.
  assert (SA : source_as v' id (mkSource rd (src_path sr))) by (subst v'; apply source_as_set; assumption).
  assert (Sel' : selectable v' (fst s)).
  { subst v'. destruct HSel as [->|(G0 & (y & G1) & (z & G2))]; [left; reflexivity|]. right. split; [exact G0|]. rewrite cur_world. cbn [t_sources t_lines set_t_lines set_t_sources set_t_files].
    destruct (Nat.eq_dec (Z.to_nat (fst s - 1)) (Z.to_nat (id - 1))) as [Eq|Ne].
    - rewrite Eq, !nth_set_nth by assumption. split; eexists; reflexivity.
    - rewrite !nth_set_other by assumption. split; eexists; eassumption. }
  assert (Esv : st_sid (st v') = id) by (subst v'; rewrite st_world; exact Hsid).
  assert (Edv : v_ds v' = v_ds v) by (subst v'; reflexivity). assert (Eov : v_out v' = v_out v) by (subst v'; reflexivity). rewrite <- Edv, <- Eov in *.
  assert (HX : exists t, c <> [] /\ stripped ln t /\ ((forall v1 ra, started R id t rr v v1 -> line_fails id K n P (add_r ra v1)) \/
    (forall v1 ra, started R id t rr v v1 -> exists ts v2, obeys_on id K n (add_r ra v1) ts v2 /\ loading R n m id s l rr v2 /\
         forall v3, tallied n (drop_r 1 v2) v3 -> collapses R K n m id s l P rr v3))).
  { inversion HF as [c0 ln0 r0 t v0 HNE HFL0 HST HOB E0 E1|c0 ln0 r0 t v0 HNE HFL0 HST HOB E0 E1]; subst v0 c0;
      destruct (first_line_fun _ _ _ _ _ HFL HFL0) as [<- <-]; exists t; (split; [exact HNE|split; [exact HST|]]); [left|right]; exact HOB. }
  destruct HX as (t & HNE & HST & HOB).
    pose proof (stripped_fun _ _ _ (strip_eol_spec ln) HST) as Et.
    assert (HZ : zlen ln =? 0 = false). { pose proof (first_line_nonempty _ _ _ HFL HNE). destruct ln as [|b0 ln]; [congruence|]. rewrite zlen_cons. pose proof (zlen_nonneg ln). lia. }
    rewrite HZ in *. split; [discriminate|]. intros u3 I3. destruct HOB as [HOB|HOB].
    { left. apply wpb_seq. eapply (tp_effect K _ _ [_] _ v' d _ _ _ _ _ _ (drop_effect _)); [apply L'; unfold lib_prims; cbn; tauto|exact I3|wlen|wlen|]. intros outs u4 <- I4. cbn [app] in I4.
    apply wpb_seq. eapply tp_num; [exact I4|lia|]. intros u5 I5.
    apply wpb_seq. eapply (tp_set_idx K); [apply L'; unfold lib_prims; cbn; tauto|exact I5|lia|]. intros u6 I6. change (to_u64 0) with 0 in I6.
    assert (HS6 : stacks_are (set_idx 0 v') d r f) by (unfold stacks_are in *; gnorm; exact HSV).
    assert (A6 : alike (set_idx 0 v') u6) by (eapply tin_alike; [exact HS6|exact I6]).
    assert (Int6 : intact K n v' u6) by (eapply intact_trans; [|apply alike_intact; exact A6]; apply intact_eq; reflexivity).
    pose proof (shell_stays K _ _ _ Int6 HSh') as HSh6. pose proof (proj1 (loader_stays K _ _ _ _ Int6 HSh' HLo')) as HLo6.
    assert (St6 : started R id t rr v u6).
    { exists v'. split; [|exact A6]. exists sr, o', rd. split; [exact HSr|]. split; [exact HR|]. subst v' t. apply alike_refl. }
    apply wpb_first. eapply (wpb_evaluate n id u6 r); [exact HSh6|apply (proj1 I6)|lia|]. intros ra Hra. exact (HOB u6 ra St6). }
    right. apply wp_seq. eapply (tp_effect K _ _ [_] _ v' d _ _ _ _ _ _ (drop_effect _)); [apply L'; unfold lib_prims; cbn; tauto|exact I3|wlen|wlen|]. intros outs u4 <- I4. cbn [app] in I4.
    apply wp_seq. eapply tp_num; [exact I4|lia|]. intros u5 I5.
    apply wp_seq. eapply (tp_set_idx K); [apply L'; unfold lib_prims; cbn; tauto|exact I5|lia|]. intros u6 I6. change (to_u64 0) with 0 in I6.
    assert (HS6 : stacks_are (set_idx 0 v') d r f) by (unfold stacks_are in *; gnorm; exact HSV).
    assert (A6 : alike (set_idx 0 v') u6) by (eapply tin_alike; [exact HS6|exact I6]).
    assert (Int6 : intact K n v' u6) by (eapply intact_trans; [|apply alike_intact; exact A6]; apply intact_eq; reflexivity).
    pose proof (shell_stays K _ _ _ Int6 HSh') as HSh6. pose proof (proj1 (loader_stays K _ _ _ _ Int6 HSh' HLo')) as HLo6.
    assert (St6 : started R id t rr v u6).
    { exists v'. split; [|exact A6]. exists sr, o', rd. split; [exact HSr|]. split; [exact HR|]. subst v' t. apply alike_refl. }
    apply wp_seq. eapply (wp_evaluate K n id u6 r); [exact HSh6|apply (proj1 I6)|lia|].
    intros ra Hra. destruct (HOB u6 ra St6) as (ts & v2 & HO & HLd2 & HFo). exists ts, v2. split; [exact HO|]. intros Int2 HSt2 R2.
    pose proof (shell_stays K _ _ _ Int2 HSh6) as HSh7. destruct (loader_stays K _ _ _ _ Int2 HSh6 HLo6) as (HLo7 & ES7 & EL7).
    destruct HLd2 as (T1 & T2 & T3 & T4 & T5 & T6 & (f2 & T7) & (x2 & T8 & T9) & T10 & (d2 & T11 & T12)).
    assert (S7 : stacks_are (drop_r 1 v2) d2 r f2).
    { unfold stacks_are, drop_r. rewrite cur_set_r. cbn [t_s t_r t_f set_t_r]. split; [exact T11|]. split; [apply (drop_has _ [ra]); exact R2|exact T7]. }
    pose proof HLo7 as (L7 & _). pose proof (tin_start _ _ _ _ S7) as I7. pose proof (zlen_nonneg d2).
    apply wp_seq. eapply (tp_flush K); [exact L7|exact I7|reflexivity|]. intros u8 I8.
    destruct (flushed_same (drop_r 1 v2)) as (F1 & F2 & F3).
    assert (Int8 : intact K n (drop_r 1 v2) (flushed (drop_r 1 v2))) by (apply intact_eq; assumption).
    pose proof (shell_stays K _ _ _ Int8 HSh7) as HSh8. destruct (loader_stays K _ _ _ _ Int8 HSh7 HLo7) as (HLo8 & ES8 & EL8).
    remember (flushed (drop_r 1 v2)) as v8 eqn:EV8. change (v_ds (drop_r 1 v2)) with (v_ds v2) in *.
    change (src_at m v2) with (src_at m (drop_r 1 v2)) in *. change (line_at n v2) with (line_at n (drop_r 1 v2)) in *.
    assert (EL9 : line_at n v8 = line_at n (drop_r 1 v2)) by exact EL8. rewrite <- EL9 in *.
    pose proof HLo8 as (L8 & _ & _ & _ & _ & _ & PS & _ & _ & _ & _ & _ & _ & FS & (FL1 & FL2 & FL3) & DJ & _).
    rewrite F1 in FL1, FL2, FL3. destruct FS as (FS1 & FS2 & _). rewrite F1 in FS1, FS2.
    assert (K8 : kept K v8 u8) by (apply kept_eq; [rewrite F1; apply (proj1 I8)|eapply tin_wl; exact I8]).
    pose proof T4 as (O1 & O2 & O3).
    apply wp_seq. eapply tp_num; [exact I8|lia|]. intros u9 I9.
    apply wp_seq. eapply (tp_var K); [apply HSh8|unfold line_at in *; lia|exact I9|wlen|]. intros u10 I10. change (body v8 (n_line n)) with (line_at n v8) in I10.
    eapply (plus_store_tp K); [exact L8|exact PS|apply kept_eq; [rewrite F1; apply (proj1 I10)|eapply tin_wl; exact I10]|exact I10|lia|lia|exact T4|lia|lia|exact FL3|exact T8|exact T9|].
    intros y mem u11 Wy Cy My Gy I11.
    set (v11 := set_v_ds mem v8).
    assert (S11 : stacks_are v11 d2 r f2) by (unfold stacks_are; change (cur v11) with (cur v8); rewrite F3; exact S7).
    assert (A11 : alike v11 u11).
    { apply (tin_alike v11 d2 r f2); [exact S11|]. destruct I11 as ((X1 & X2 & X3 & X4) & X5). split; [|exact X5]. split; [exact X1|]. split; [exact X2|]. split; [exact X3|].
      apply calm_memory; assumption. }
    assert (K11 : kept K v8 v11). { eapply kept_same; [rewrite F1; exact My|reflexivity|rewrite F1; exact FL3]. }
    assert (Int11 : intact K n v8 v11). { split; [exact K11|]. intros i _ Hi. split; [apply Hi|reflexivity]. }
    pose proof (shell_stays K _ _ _ Int11 HSh8) as HSh11. destruct (loader_stays K _ _ _ _ Int11 HSh8 HLo8) as (HLo11 & ES11 & EL11).
    assert (TL : tallied n (drop_r 1 v2) v11).
    { exists x2, y, mem. rewrite <- EL9. repeat (split; [assumption|]). rewrite <- EV8. apply alike_refl. }
    pose proof (HFo _ TL) as HF11.
    assert (CU : cur v11 = cur (drop_r 1 v2)) by exact F3.
    assert (ST11 : st v11 = st v2) by (unfold st; rewrite CU; unfold drop_r; rewrite cur_set_r; reflexivity).
    assert (SO : t_sources (cur v11) = t_sources (cur v2) /\ t_lines (cur v11) = t_lines (cur v2) /\ t_s (cur v11) = t_s (cur v2) /\ t_f (cur v11) = t_f (cur v2)) by (rewrite CU; unfold drop_r; rewrite cur_set_r; auto).
    destruct SO as (SO1 & SO2 & SO3 & SO4).
    assert (OS : v_os v11 = v_os v2) by (unfold v11; cbn; rewrite EV8; unfold flushed; change (v_out (drop_r 1 v2)) with (v_out v2); destruct (v_out v2) as [[|? ?]|]; reflexivity).
    assert (HLd11 : loading R n m id s l rr v11).
    { unfold loading, source_as, line_of, selectable in *. rewrite SO1, SO2, SO3, SO4, ST11, OS. split; [exact T1|]. split; [exact T2|]. split; [exact T3|].
      split; [change (v_ds v11) with mem; eapply same_ok; eassumption|]. split; [|split; [exact T6|]; split; [exists f2; exact T7|]; split; [|split; [exact T10|exists d2; auto]]].
      - rewrite ES11. change (v_ds v11) with mem. rewrite ES8. eapply (loading_saved K); [exact T5|exact My|unfold src_at in *; rewrite <- ES8; lia|].
        rewrite <- ES8. lia.
      - exists y. rewrite EL11. split; [exact Cy|apply Wy]. }
    assert (Int0 : intact K n v v11).
    { eapply intact_trans; [exact Wd|]. eapply intact_trans; [exact Int6|]. eapply intact_trans; [exact Int2|]. eapply intact_trans; [exact Int8|exact Int11]. }
    apply (IH rr) with (v := v11) (d := d2) (r := r) (f := f2); try assumption. pose proof (first_line_length K _ _ _ HFL HNE); lia.
Qed.
Lemma load_breaks R n m id s l P c v d r f : shell K n v -> loader K n m v -> loading R n m id s l c v -> stacks_are v d r f -> zlen r <= 59 ->
  (forall rb, 0 <= rb < 2 ^ 63 -> collapses R K n m id s l P c (add_r rb v)) -> fails_at v (l_load m) P.
Proof.
  intros HSh HLo HLd HS Hr HF. pose proof HLo as (_ & _ & _ & _ & _ & _ & _ & _ & _ & HC & _). pose proof (zlen_nonneg r).
  eapply colon_breaks; [exact HC|exact (proj1 (proj2 HS))|lia|]. intros rb Hrb.
  pose proof (intact_add_r K _ _ _ rb (intact_refl K n v)) as IA. pose proof (shell_stays K _ _ _ IA HSh) as HSh'. pose proof (loader_stays K _ _ _ _ IA HSh HLo) as (HLo' & _).
  assert (HS' : stacks_are (add_r rb v) d (rb :: r) f).
  { destruct HS as (A & B & C). unfold stacks_are. split; [unfold add_r; rewrite cur_set_r; exact A|]. split; [apply has_add_r; [exact B|lia]|unfold add_r; rewrite cur_set_r; exact C]. }
  assert (HLd' : loading R n m id s l c (add_r rb v)).
  { unfold loading, source_as, line_of, selectable, add_r, st, src_at, line_at, body, word_of in *. rewrite cur_set_r. exact HLd. }
  unfold d_load. apply wpb_first.
  apply (load_wpb R n m id s l P (S (List.length c)) c ltac:(lia) (add_r rb v) (HF rb Hrb) d (rb :: r) f (add_r rb v) HSh' HLo' HLd' HS' ltac:(wlen) (alike_refl _)).
Qed.
Lemma included_fails R n m path o h c l (P : vm -> Prop) v xa x a d r f : shell K n v -> loader K n m v -> at_home m l v -> spare K n m v -> can_open R path o h c a v ->
  stacks_are v (x :: xa :: d) r f -> addr_of xa a -> addr_of x (zlen path) -> zlen d <= 48 -> zlen r <= 56 ->
  (a + zlen path <= src_at m v \/ src_at m v + 272 <= a) ->
  (forall id v1, opened n m o h path l d r f v id v1 -> collapses R K n m id (source_of v) l P c v1) ->
  fails_at v (l_included m) P.
Proof.
  intros HSh HLo (HD & HSv & Hl & Hs & Hp & HSel & HLL & HZ & HNN) (Sp1 & Sp2 & Sp3 & Sp4 & Sp5 & Sp6 & Sp7) (Hb & Hpl & HO & HR) HS Ha Hx Hd Hr HDj HF.
  pose proof HLo as (L & _ & _ & _ & _ & _ & _ & _ & _ & _ & HC & (RO1 & RO2 & RO3 & RO4) & KR & FS & FL & DJ & _).
  pose proof (zlen_nonneg r). pose proof (zlen_nonneg d). pose proof (zlen_nonneg path). pose proof HD as (D1 & D2 & D3).
  pose proof Hb as (B0 & (B1 & B2 & B3) & B4).
  eapply colon_breaks; [exact HC|exact (proj1 (proj2 HS))|lia|].
  intros ra Hra. pose proof (tin_rpush K v ra _ _ _ _ _ _ (tin_start _ _ _ _ HS) ltac:(lia)) as I0.
  unfold d_included. change (op n ?p) with (wd (ix n) p). cbn [block].
  apply wpb_seq. eapply (tp_effect _ _ _ _ _ _ _ _ _ _ _ _ _ (two_dup_effect xa x)); [apply L; lp|cbn [app]; exact I0|wlen|intros ? <-; wlen|]. intros outs u0 <- I. cbn [app] in I.
  apply wpb_seq. eapply (tp_const K _ 0); [exact RO1|exact HD|exact RO2|exact RO3|exact RO4|red; lia|exact I|wlen|]. intros u1 I1.
  destruct (alloc_slot (t_files (cur v)) h) as [fid fl0] eqn:EA.
  destruct (alloc_slot_spec _ _ _ _ EA) as (F1 & F2 & F3 & F4).
  apply wpb_seq. eapply (tp_world K _ P_open_file v _ _ _ _ _ _ o fl0 (t_sources (cur v)) (t_lines (cur v)) (0 :: fid :: x :: xa :: d)); [apply L; lp|exact I1|wlen|wlen| |].
  { intros w J. destruct J as (JS & JD & _ & JC).
    assert (A1 : t_sources (cur w) = t_sources (cur v)) by apply JC. assert (A2 : t_lines (cur w) = t_lines (cur v)) by apply JC.
    assert (A3 : t_files (cur w) = t_files (cur v)) by apply JC. assert (A4 : v_os w = v_os v) by apply JC.
    destruct (open_file_run K w xa x a path (x :: xa :: d) o h (proj1 JS) Ha Hx ltac:(rewrite JD; exact Hb) Hpl ltac:(rewrite A4; exact HO) ltac:(unfold two64; lia)) as (s & S1 & S2 & S3).
    rewrite A3, EA in S1, S3. cbn [fst snd] in *. exists s. split; [exact S1|]. split; [exact S2|]. intros fuel ew. rewrite S3, A1, A2. reflexivity. }
  intros u2 I2. set (v2 := world o fl0 (t_sources (cur v)) (t_lines (cur v)) v) in *.
  assert (Int2 : intact K n v v2) by (apply intact_eq; reflexivity).
  pose proof (shell_stays K _ _ _ Int2 HSh) as HSh2. destruct (loader_stays K _ _ _ _ Int2 HSh HLo) as (HLo2 & ES2 & EL2). pose proof HLo2 as (L2 & HLo2').
  apply wpb_seq. eapply (tp_effect K _ _ [0] _ v2 _ _ _ _ _ _ _ (zero_equals_spec 0)); [exact Sp7|exact I2|wlen|intros ? (? & -> & _); wlen|]. intros outs u3 (y & -> & Ty) I3. cbn [app] in I3.
  assert (Hy : y <> 0) by (destruct (truth_case _ _ Ty) as [_ T2]; intro E0; apply (T2 E0); reflexivity).
  eapply wpb_then; [exact I3|wlen|exact Hy|]. intros u4 I4. cbn [block].
  assert (SW2 : source_words K (ix n) v2 (l_save m) (l_restore m) (src_at m v)).
  { destruct HLo2' as (X1 & X2 & X3 & X4 & X5 & X6 & X7 & X8 & _ & _ & _ & _ & X9 & _). split; [exact L2|]. exists (l_src m), (l_fetch2 m), (l_twice m), (l_store2 m), (l_pos m). rewrite <- ES2. repeat (split; [first [assumption|reflexivity]|]). exact X9. }
  assert (EW2 : st v2 = st v) by apply st_world.
  apply wpb_seq. eapply (save_tp K (ix n) _ (l_restore m) (src_at m v) l v2); [exact SW2|apply kept_eq; [apply (tin_ds _ _ _ _ _ _ _ I4)|eapply tin_wl; exact I4]|exact HSv|exact HD|exact I4|wlen|wlen|rewrite EW2; exact Hs|rewrite EW2; exact Hp|exact Hl|].
  intros m5 u5 SV5 SM5 HE5 K5 I5. replace (source_of v2) with (source_of v) in SV5 by (unfold source_of; rewrite EW2; reflexivity).
  destruct (alloc_slot (t_sources (cur v)) (mkSource (os_reader o h) path)) as [id ss] eqn:EA2.
  destruct (alloc_slot_spec _ _ _ _ EA2) as (G1 & G2 & G3 & G4).
  set (fl := set_nth fl0 (Z.to_nat (fid - 1)) None) in *.
  set (ls := match first_none (t_sources (cur v)) with Some _ => t_lines (cur v) | None => t_lines (cur v) ++ [Some []] end) in *.
  assert (HFi : (Z.to_nat (fid - 1) < List.length fl0)%nat) by (apply nth_error_Some; congruence).
  assert (Hb5 : bytes_at m5 a path).
  { split; [exact B0|]. split; [destruct SM5 as (P1 & P2 & _); unfold in_space; rewrite P1, P2; lia|]. intros k z Hk. rewrite (proj2 (proj2 SM5)); [apply B4; exact Hk|lia|].
    assert (k < List.length path)%nat by (apply nth_error_Some; congruence). unfold zlen in *. lia. }
  apply wpb_seq. eapply (tp_world K _ P_open_source v2 _ _ _ _ _ _ o fl ss ls (id :: d)); [apply L2; lp|exact I5|wlen|wlen| |].
  { intros w J. destruct J as (JS & JD & _ & JC).
    assert (A1 : t_sources (cur w) = t_sources (cur v)) by (replace (t_sources (cur w)) with (t_sources (cur v2)) by (symmetry; apply JC); unfold v2; rewrite cur_world; reflexivity).
    assert (A2 : t_lines (cur w) = t_lines (cur v)) by (replace (t_lines (cur w)) with (t_lines (cur v2)) by (symmetry; apply JC); unfold v2; rewrite cur_world; reflexivity).
    assert (A3 : t_files (cur w) = fl0) by (replace (t_files (cur w)) with (t_files (cur v2)) by (symmetry; apply JC); unfold v2; rewrite cur_world; reflexivity).
    assert (A4 : v_os w = o) by (replace (v_os w) with (v_os v2) by (symmetry; apply JC); reflexivity).
    destruct (open_source_run K w fid h x xa a path d id ss) as (s & S1 & S2 & S3);
      [split; [exact F1|rewrite A3; exact F3]|apply (proj1 JS)|exact Ha|exact Hx|rewrite JD; exact Hb5|rewrite A1, A4; exact EA2|].
    exists s. split; [exact S1|]. split; [exact S2|]. intros fuel ew. rewrite S3, A1, A2, A3, A4. reflexivity. }
  intros u6 I6. unfold v2 in I6. rewrite world_world in I6. set (v6 := world o fl ss ls v) in *.
  assert (Int6 : intact K n v v6) by (apply intact_eq; reflexivity).
  pose proof (shell_stays K _ _ _ Int6 HSh) as HSh6. destruct (loader_stays K _ _ _ _ Int6 HSh HLo) as (HLo6 & ES6 & EL6). pose proof HLo6 as (L6 & HLo6').
  assert (Hlid : exists t, nth_error ls (Z.to_nat (id - 1)) = Some (Some t)).
  { unfold alloc_slot in EA2. unfold ls. pose proof (first_none_spec (t_sources (cur v))) as FN. destruct (first_none (t_sources (cur v))) as [k|]; injection EA2 as E1 _.
    - replace (Z.to_nat (id - 1)) with k by lia. assert (k < List.length (t_lines (cur v)))%nat by (rewrite HLL; apply nth_error_Some; congruence).
      destruct (nth_error (t_lines (cur v)) k) as [[t|]|] eqn:En; [eauto|elim (HNN k); exact En|apply nth_error_None in En; lia].
    - unfold zlen in E1. exists []. rewrite nth_error_app2 by lia. replace (Z.to_nat (id - 1) - List.length (t_lines (cur v)))%nat with O by lia. reflexivity. }
  assert (Hlk : forall k t, nth_error (t_lines (cur v)) k = Some t -> nth_error ls k = Some t).
  { intros k t Hk. unfold ls. destruct (first_none _); [exact Hk|]. rewrite nth_error_app1; [exact Hk|]. apply nth_error_Some. congruence. }
  assert (Hfk : forall k z, nth_error fl k = Some (Some z) <-> nth_error (t_files (cur v)) k = Some (Some z)).
  { intros k z. unfold fl. destruct (Nat.eq_dec k (Z.to_nat (fid - 1))) as [->|N].
    - rewrite nth_set_nth by exact HFi. split; [discriminate|intro X; elim (F2 _ X)].
    - rewrite nth_set_other, F4 by exact N. reflexivity. }
  assert (Hidc : is_cell id).
  { unfold alloc_slot in EA2. pose proof (first_none_spec (t_sources (cur v))) as FN. unfold zlen, is_cell in *. destruct (first_none (t_sources (cur v))) as [k|]; injection EA2 as E1 _; [|lia].
    assert (k < List.length (t_sources (cur v)))%nat by (apply nth_error_Some; congruence). lia. }
  assert (Hns : ~ is_source v id) by (intros [z [_ Hz]]; exact (G2 _ Hz)).
  assert (Hne : st_sid (st v) <> id).
  { intro E1. destruct HSel as [E0|(E0 & (z & Hz) & _)]; [lia|]. rewrite E1 in Hz. exact (G2 _ Hz). }
  assert (Sel6 : selectable v6 id).
  { right. split; [lia|]. unfold v6. rewrite cur_world. cbn [t_sources t_lines set_t_lines set_t_sources set_t_files]. split; [eauto|exact Hlid]. }
  apply wpb_seq. eapply (tp_set_sid K); [apply L6; lp|exact I6|wlen|exact Sel6|]. intros u7 I7.
  set (v8 := set_sid id v6) in *.
  assert (Int8 : intact K n v v8) by (apply intact_eq; reflexivity).
  pose proof (shell_stays K _ _ _ Int8 HSh) as HSh8. destruct (loader_stays K _ _ _ _ Int8 HSh HLo) as (HLo8 & ES8 & EL8). pose proof HLo8 as (L8 & HLo8').
  pose proof (same_ok _ _ _ _ HD SM5 HE5) as HD5. pose proof SM5 as (M1 & M2 & M3). destruct FL as (FL1 & FL2 & FL3). destruct FS as (FS1 & FS2 & FS3).
  assert (WB : word_is v (ix n P_left_bracket) P_left_bracket) by (apply L; lp). pose proof (proj1 WB) as WI. fold (words v) in WI.
  apply wpb_seq. eapply tp_num; [exact I7|wlen|]. intros u8 I8.
  apply wpb_seq. eapply (tp_postponed K (ix n P__postpone) (ix n P_left_bracket) v8); [apply L8; lp|exact I8|wlen|exact WI|clear - WI Sp6; lia|exact Sp5|exact HD5|rewrite HE5, M2; exact Sp4|intros k Hk; specialize (FL3 k Hk); specialize (Sp1 k Hk); rewrite HE5; clear - FL3 Sp1 M1; lia|].
  intros u8' m8 S8 C8 E8 I8'. rewrite HE5 in S8, C8, E8. pose proof S8 as (P1 & P2 & P3).
  assert (HD8 : ds_ok m8) by (destruct HD5 as (X1 & X2 & X3); unfold ds_ok; rewrite P1, P2, E8; clear - X1 X2 X3 Sp4 M2 HE5; lia).
  apply wpb_seq. eapply tp_num; [exact I8'|wlen|]. intros u9 I9.
  apply wpb_seq. eapply (tp_var K _ v8); [apply HSh8|change (body v8 (n_line n)) with (line_at n v); clear - FL1 FL2 D1 D3; lia|exact I9|wlen|]. intros u10 I10. change (body v8 (n_line n)) with (line_at n v) in I10.
  apply wpb_seq. eapply (tp_store K); [apply L8; lp|exact I10|wlen|exact HD8|clear - FL1 M1 P1; lia|clear - FL2 M2 P2; lia|intros k Hk; specialize (FL3 k Hk); clear - FL3 M1 P1; lia|]. intros u11 m11 S11 C11 E11 I11.
  pose proof (same_ok _ _ _ _ HD8 S11 E11) as HD11. pose proof S11 as (N1 & N2 & N3).
  assert (K11 : kept K v u11).
  { eapply (kept_then K v u8' u11 m8 m11); [|apply (tin_ds _ _ _ _ _ _ _ I8')|exact S11|intros k Hk; specialize (FL3 k Hk); clear - FL3 M1 P1; lia|apply (tin_ds _ _ _ _ _ _ _ I11)|rewrite (tin_wl _ _ _ _ _ _ _ I11), (tin_wl _ _ _ _ _ _ _ I8'); reflexivity].
    eapply (kept_then K v u5 u8' m5 m8); [eapply kept_trans; [apply Int2|exact K5]|apply (tin_ds _ _ _ _ _ _ _ I5)|exact S8|intros k Hk; specialize (FL3 k Hk); specialize (Sp1 k Hk); clear - FL3 M1 Sp1; lia|apply (tin_ds _ _ _ _ _ _ _ I8')|].
    rewrite (tin_wl _ _ _ _ _ _ _ I8'), (tin_wl _ _ _ _ _ _ _ I5). reflexivity. }
  assert (Int11 : intact K n v u11).
  { split; [exact K11|]. intros i _ Hi. unfold words, word_of in *. rewrite (tin_wl _ _ _ _ _ _ _ I11). split; [apply Hi|reflexivity]. }
  pose proof (shell_stays K _ _ _ Int11 HSh) as HSh11. destruct (loader_stays K _ _ _ _ Int11 HSh HLo) as (HLo11 & ES11 & EL11).
  assert (SV11 : saved m11 (src_at m v) (source_of v :: l)) by (eapply (loading_saved K); [eapply (loading_saved K); [exact SV5|exact S8|clear - FS1 M1; lia|clear - Sp2; lia]|exact S11|clear - FS1 M1 P1; lia|clear - DJ; lia]).
  assert (CA8 : calm v8 u11) by apply (proj1 I11). assert (Ed11 : v_ds u11 = m11) by apply (proj1 I11).
  assert (T11 : trim v u11). { destruct I11 as [_ T]. eapply trim_both; [exact T|..]; unfold v8, v6; gnorm; rewrite ?cur_world; reflexivity. }
  assert (O11 : v_out u11 = v_out v) by apply (proj1 I11). assert (S11' : stacks_are u11 d (ra :: r) f) by apply (proj1 I11).
  assert (CS : t_sources (cur u11) = ss) by (replace (t_sources (cur u11)) with (t_sources (cur v8)) by (symmetry; apply CA8); unfold v8, v6; gnorm; rewrite cur_world; reflexivity).
  assert (CL : t_lines (cur u11) = ls) by (replace (t_lines (cur u11)) with (t_lines (cur v8)) by (symmetry; apply CA8); unfold v8, v6; gnorm; rewrite cur_world; reflexivity).
  assert (CO : v_os u11 = o) by (replace (v_os u11) with (v_os v8) by (symmetry; apply CA8); reflexivity).
  assert (CI : st_sid (st u11) = id) by (replace (st_sid (st u11)) with (st_sid (st v8)) by (symmetry; apply CA8); unfold v8; gnorm; reflexivity).
  assert (HLd : loading R n m id (source_of v) l c u11).
  { unfold loading, source_as, line_of, selectable. rewrite CS, CL, CO, CI, Ed11, ES11, EL11. destruct Hlid as [t Ht].
    split; [eexists; split; [split; [exact G1|exact G3]|exact HR]|]. split; [rewrite Ht; discriminate|]. split; [exact Hidc|]. split; [exact HD11|].
    split; [exact SV11|]. split.
    { cbn [fst source_of]. destruct HSel as [E0|(E0 & (z1 & Hz1) & (z2 & Hz2))]; [left; exact E0|]. right. split; [exact E0|]. split.
      - exists z1. rewrite G4; [exact Hz1|]. intro X. rewrite X in Hz1. exact (G2 _ Hz1).
      - exists z2. apply Hlk. exact Hz2. }
    split; [exists f; apply S11'|]. split; [exists 1; split; [exact C11|red; lia]|]. split; [reflexivity|]. exists d. split; [apply S11'|lia]. }
  apply wpb_first. apply wpb_call. eapply (load_breaks R n m id (source_of v) l P c u11 d (ra :: r) f); [exact HSh11|exact HLo11|exact HLd|exact S11'|wlen|].
  intros rb Hrb. apply HF. exists fl, ss, ls, ra, rb. split; [exact G1|]. split; [exact Hns|]. split; [exact G3|]. split; [exact G4|]. split; [exact Hlid|]. split; [exact Hlk|]. split; [exact Hfk|].
       change (v_ds (add_r rb u11)) with (v_ds u11). rewrite Ed11. split; [exact HD11|]. split; [exact SV11|]. split; [exact C11|]. split; [congruence|]. split; [eapply cell_keep; [exact S11|clear - D2 M1 P1; lia|clear - Sp3; lia|exact C8]|]. split; [congruence|]. split; [congruence|].
       split; [intros k Q1 Q2 Q3 Q4; rewrite N3; [|clear - Q1 M1 P1; lia|exact Q3]; rewrite P3; [|clear - Q1 M1; lia|exact Q4]; apply M3; [exact Q1|exact Q2]|].
       pose proof (tin_rpush K v8 rb _ _ _ _ _ _ I11 ltac:(wlen)) as [(X1 & _ & X3 & X4) X5]. split; [exact X1|]. split; [exact X3|]. split; [exact X4|].
       eapply trim_both; [exact X5|..]; unfold v8, v6; gnorm; rewrite ?cur_world; reflexivity.
Qed.
End L.
