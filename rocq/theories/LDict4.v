(** Executing a marker. *)
From Coq Require Import ZArith List Bool Lia ZifyBool ZifyNat.
From Verif Require Import Base Stack Mem Parser Flt State CoreM IoM FloatM FileM Exec.
From Verif Require Import LBase LStack Spec Spec4 Spec9 Spec10 LState LMem LMon LStep LTask LCode LDict LDict2 LDict3.
Import ListNotations.
Open Scope Z_scope.
Open Scope m_scope.
Ltac Zify.zify_post_hook ::= Z.div_mod_to_equations.

Section D.
Context {E : Env}.
Implicit Types (v : vm).

Lemma nfa_bound v i : dict_ok v -> 0 <= i < words v -> start (v_ds v) + 8 * i <= w_nfa (word_of v i).
Proof.
  intros (H0 & H1 & H2 & H3 & H4 & H5) Hi. destruct Hi as (Hi & Hi'). revert Hi'. pattern i. apply natlike_ind; [| |exact Hi]; clear i Hi.
  - intro Hi. destruct (H4 0 ltac:(lia)) as (n & (N & _) & _). lia.
  - intros i Hi IH Hi'. destruct (H4 i ltac:(lia)) as (n & _ & _ & N). specialize (N ltac:(lia)). specialize (IH ltac:(lia)).
    pose proof (zlen_nonneg n). unfold Z.succ. lia.
Qed.
Lemma words_bound v : dict_ok v -> words v < 2 ^ 60.
Proof.
  intro HD. pose proof HD as ((O1 & O2 & O3) & H1 & _ & _ & H4 & _). pose proof (nfa_bound v (words v - 1) HD ltac:(lia)) as HB.
  destruct (H4 (words v - 1) ltac:(lia)) as (n & (N1 & N2 & _) & _). pose proof (zlen_nonneg n).
  change (2 ^ 63) with 9223372036854775808 in *. change (2 ^ 60) with 1152921504606846976. lia.
Qed.
Lemma bucket_range v k : dict_ok v -> 0 <= k < 64 -> 0 <= tget 0 (wl_buckets (v_wl v)) k < words v.
Proof.
  intros (_ & H1 & _ & (_ & H3) & _) Hk. destruct (H3 k Hk) as [(-> & _)|(A & _)]; unfold words in *; lia.
Qed.

Definition with_buckets bk v : vm := set_v_wl (set_wl_buckets bk (v_wl v)) v.
Lemma unmark_loop_ok n : forall i dfa (B : Z -> Z) v, 0 <= i -> start (v_ds v) <= dfa -> 0 < start (v_ds v) ->
  dfa + 8 + 8 * Z.of_nat n <= limit (v_ds v) -> limit (v_ds v) < 2 ^ 63 ->
  (forall k, 0 <= k < Z.of_nat n -> cell_at (v_ds v) (dfa + 8 + 8 * k) (B (i + k)) /\ 0 <= B (i + k) < 2 ^ 60) ->
  exists bk, unmark_loop n i dfa v = Ok (tt, with_buckets bk v) /\
    forall j, 0 <= j -> tget 0 bk j = if (i <=? j) && (j <? i + Z.of_nat n) then B j else tget 0 (wl_buckets (v_wl v)) j.
Proof.
  change (2 ^ 63) with 9223372036854775808. change (2 ^ 60) with 1152921504606846976.
  induction n as [|n IH]; intros i dfa B v Hi Hd Hs Hl HL HC.
  - exists (wl_buckets (v_wl v)). split; [cbn [unmark_loop]; unfold ret; do 2 f_equal; unfold with_buckets; destruct v as [? ? ? ? [] ? ? ? ? ? ? ? ? ? ? ? ?]; reflexivity|].
    intros j Hj. replace (_ && _) with false by lia. reflexivity.
  - cbn [unmark_loop]. rewrite (bind_Ok _ _ _ (dfa + 8) v) by (apply chk_u64_ok; unfold two64; lia).
    destruct (HC 0 ltac:(lia)) as (C0 & R0). rewrite Z.mul_0_r, !Z.add_0_r in *.
    rewrite (bind_Ok _ _ _ (B i) v) by (apply ds_get_eq; apply get_usize_ok; [apply in_ds_true; unfold limit in *; lia|exact C0|unfold two64; lia]).
    rewrite bind_modify.
    destruct (IH (i + 1) (dfa + 8) B (with_buckets (tset (wl_buckets (v_wl v)) i (B i)) v)) as (bk & H1 & H2); cbn [with_buckets v_ds v_wl wl_buckets set_v_wl set_wl_buckets]; try lia.
    { intros k Hk. specialize (HC (k + 1) ltac:(lia)). replace (dfa + 8 + 8 + 8 * k) with (dfa + 8 + 8 * (k + 1)) by lia. replace (i + 1 + k) with (i + (k + 1)) by lia. exact HC. }
    exists bk. split; [exact H1|]. intros j Hj. rewrite H2 by exact Hj. cbn [with_buckets v_wl set_v_wl set_wl_buckets wl_buckets].
    destruct (Z.eq_dec i j) as [<-|N].
    + replace ((i + 1 <=? i) && _) with false by lia. replace ((i <=? i) && _) with true by lia. apply tget_tset_same.
    + rewrite tget_tset_other by lia. destruct ((i + 1 <=? j) && (j <? i + 1 + Z.of_nat n)) eqn:B1; destruct ((i <=? j) && (j <? i + Z.of_nat (S n))) eqn:B2; try reflexivity; lia.
Qed.

(** What stays true from the creation of a marker (in [v0]) on, as long as the
    word created by it is in the dictionary *)
Definition since v0 v : Prop :=
  let m := words v0 in
  dict_ok v /\ m < words v /\ start (v_ds v) = start (v_ds v0) /\ limit (v_ds v) = limit (v_ds v0) /\ here (v_ds v0) <= here (v_ds v) /\
  (forall i, 0 <= i < m -> word_of v i = word_of v0 i) /\ w_nfa (word_of v m) = here (v_ds v0) /\
  (forall a, protected v0 a -> byte_at (v_ds v) a = byte_at (v_ds v0) a) /\
  (w_action (word_of v m) = P_unmark -> marker_data v0 (v_ds v) (w_dfa (word_of v m))).
Lemma since_protected v0 v a : since v0 v -> protected v0 a -> protected v a.
Proof.
  intros (HD & Hm & HS & HL & HH & HW & HN & HP & HM) (i & Hi & [(n & A & Ha)|(HA & Ha)]); exists i; (split; [lia|]); rewrite (HW i Hi).
  - left. exists n. split; [|exact Ha]. unfold named. rewrite (HW i Hi). eapply name_field_kept; [exact A|exact HS|exact HH|].
    intros b Hb. apply HP. eapply named_protected; eassumption.
  - right. auto.
Qed.
Lemma since_step v0 v v' : 0 <= words v0 -> step v v' -> since v0 v -> since v0 v'.
Proof.
  intros H0 (S1 & S2 & S3 & S4 & S5 & S6 & S7 & S8) HX. pose proof HX as (HD & Hm & HS & HL & HH & HW & HN & HP & HM).
  assert (HK : wkeep (word_of v (words v0)) (word_of v' (words v0))).
  { destruct (Z.eq_dec (words v0) (words v - 1)) as [->|N]; [exact S7|]. rewrite S6 by lia. apply wkeep_refl. }
  destruct HK as (K1 & K2 & K3 & K4 & K5).
  split; [exact S1|]. split; [lia|]. split; [congruence|]. split; [congruence|]. split; [lia|]. split; [intros i Hi; rewrite S6 by lia; apply HW; exact Hi|].
  split; [congruence|]. split; [intros a Ha; rewrite S8 by (eapply since_protected; eassumption); apply HP; exact Ha|].
  intro HA. assert (HA' : w_action (word_of v (words v0)) = P_unmark) by (destruct K5; congruence). destruct (HM HA') as (M1 & M2). rewrite K4.
  assert (HB : forall a, w_dfa (word_of v (words v0)) <= a < w_dfa (word_of v (words v0)) + 520 -> byte_at (v_ds v') a = byte_at (v_ds v) a).
  { intros a Ha. apply S8. exists (words v0). split; [lia|]. right. auto. }
  split; [intros j Hj; rewrite HB by lia; apply M1; exact Hj|]. intros k Hk j Hj. rewrite HB by lia. apply M2; [exact Hk|exact Hj].
Qed.
Lemma unmark_ok v0 v : dict_ok v0 -> since v0 v -> w_action (word_of v (words v0)) = P_unmark -> st_wp (st v) = words v0 ->
  exists v', unmark v = Ok (tt, v') /\ goes_on v0 v' /\ here (v_ds v') = here (v_ds v0) /\
    v_err v' = v_err v /\ v_cur v' = v_cur v /\ v_tasks v' = v_tasks v.
Proof.
  intros HD0 (HD & Hm & HS & HL & HH & HW & HN & HP & HM) HA Hwp. destruct (HM HA) as (M1 & M2).
  pose proof HD0 as (O0 & H1 & H2 & H3 & H4 & H5). pose proof (words_bound v0 HD0) as HB. destruct O0 as (O1 & O2 & O3).
  pose proof HD as (_ & _ & _ & _ & _ & K5). destruct (K5 (words v0) ltac:(lia) HA) as (R1 & R2). pose proof HD as ((P1 & P2 & P3) & _).
  set (w := word_of v (words v0)) in *.
  unfold unmark. rewrite bind_gets, Hwp.
  rewrite (bind_Ok _ _ _ w v) by (unfold word_at; replace (_ && _) with true by (unfold words in *; lia); reflexivity).
  rewrite (bind_Ok _ _ _ (wl_last (v_wl v0)) v).
  2:{ apply ds_get_eq. apply get_usize_ok; [apply in_ds_true; unfold limit in *; lia|exact M1|]. unfold two64. change (2 ^ 60) with 1152921504606846976 in *. lia. }
  rewrite bind_modify. set (v1 := set_v_wl (set_wl_last (wl_last (v_wl v0)) (v_wl v)) v).
  destruct (unmark_loop_ok BUCKET_COUNT 0 (w_dfa w) (fun j => tget 0 (wl_buckets (v_wl v0)) j) v1) as (bk & U1 & U2);
    change (v_ds v1) with (v_ds v); change (Z.of_nat BUCKET_COUNT) with 64; try lia.
  { intros k Hk. rewrite Z.add_0_l. split; [apply M2; exact Hk|]. pose proof (bucket_range v0 k HD0 Hk). lia. }
  rewrite (bind_Ok _ _ _ tt (with_buckets bk v1)) by exact U1. rewrite bind_modify. unfold wl_truncate. rewrite bind_modify, bind_gets.
  change (v_wl (with_buckets bk v1)) with (set_wl_buckets bk (set_wl_last (wl_last (v_wl v0)) (v_wl v))). change (v_ds (with_buckets bk v1)) with (v_ds v).
  assert (HT : ds_truncate (v_ds v) (w_nfa w) = moved (v_ds v) (here (v_ds v0))).
  { rewrite HN. unfold ds_truncate, set_here. replace (_ && _) with true by lia. reflexivity. }
  rewrite HT. cbn [v_wl set_v_wl set_v_ds wl_len set_wl_len set_wl_buckets set_wl_last].
  change (wl_len (v_wl (with_buckets bk v1))) with (words v). rewrite (Z.min_l (words v0)) by lia.
  erewrite bind_Ok by (apply chk_u64_ok; unfold two64; change (2 ^ 60) with 1152921504606846976 in *; lia).
  eexists. split; [reflexivity|]. split; [|split; [cbn [v_ds set_v_wl]; apply here_moved|auto]].
  split; [|cbn [v_ds set_v_wl]; change (v_ds (set_v_wl ?x ?y)) with (v_ds y); change (v_ds (set_v_ds ?x ?y)) with x; split; [|split; [exact HS|split; [exact HL|split; [rewrite here_moved; lia|exact HP]]]]].
  - split; [reflexivity|]. split; [change (words v0 - 1 = wl_last (v_wl v0)); lia|]. split; [intros i Hi; exact (HW i Hi)|]. intros k Hk. change (tget 0 bk k = tget 0 (wl_buckets (v_wl v0)) k).
    rewrite U2 by lia. change (Z.of_nat BUCKET_COUNT) with 64. replace ((0 <=? k) && (k <? 0 + 64)) with true by lia. reflexivity.
  - unfold ds_ok. rewrite here_moved. change (start (moved (v_ds v) (here (v_ds v0)))) with (start (v_ds v)). change (limit (moved (v_ds v) (here (v_ds v0)))) with (limit (v_ds v)). lia.
Qed.
Lemma marker_since fuel v0 v1 : dict_ok v0 -> exec_prim fuel eub P_marker v0 = Ok (tt, v1) -> since v0 v1.
Proof.
  intros HD H. destruct (marker_ub fuel v0 v1 HD H) as (t & (N1 & (A1 & A2 & A3 & A4 & A5 & A6) & N3 & N4 & N5 & N6 & N7) & B & C & D).
  split; [exact N1|]. split; [lia|]. repeat (split; [assumption|]). split; [|intros _; exact D].
  intros a Ha. apply A6. apply protected_below; assumption.
Qed.
Lemma marker_forgets fuel f v0 v1 v2 : dict_ok v0 -> quiet fuel P_marker v0 v1 -> definitions fuel v1 v2 ->
  w_action (word_of v2 (words v0)) = P_unmark ->
  exists v3, execute_word (S f) (words v0) v2 = Ok (tt, v3) /\ goes_on v0 v3 /\ here (v_ds v3) = here (v_ds v0).
Proof.
  intros HD Hq Hs HA. apply quiet_ub in Hq. pose proof (marker_since _ _ _ HD Hq) as HX.
  assert (HX2 : since v0 v2).
  { apply (definitions_ind_step fuel v1 (since v0)); [apply HX|exact HX| |exact Hs]. intros va vb _ Hst. apply since_step; [|exact Hst]. destruct HD as (_ & K & _). lia. }
  destruct (unmark_ok v0 (set_wp (words v0) v2) HD) as (v3 & U & G & Hh & _); [exact HX2|exact HA|unfold st; gnorm; reflexivity|].
  exists v3. split; [|split; [exact G|exact Hh]]. cbn [execute_word]. rewrite bind_modify, bind_gets. destruct HX2 as (_ & Hm & _). pose proof HD as (_ & K & _).
  change (wl_len (v_wl (set_wp (words v0) v2))) with (words v2). replace (words v0 <? words v2) with true by lia.
  rewrite (bind_Ok _ _ _ (word_of v2 (words v0)) (set_wp (words v0) v2)).
  2:{ unfold word_at. change (wl_len (v_wl (set_wp (words v0) v2))) with (words v2). replace (_ && _) with true by lia. reflexivity. }
  rewrite HA. exact U.
Qed.
Lemma goes_on_newest v v' name r : dict_ok v -> goes_on v v' -> (newest v name r <-> newest v' name r).
Proof.
  intros HD HG. pose proof HG as ((W1 & W2 & W3 & W4) & _). pose proof (goes_on_dict _ _ HG HD) as HD'.
  assert (HV : forall i, 0 <= i < words v -> (visible v i name <-> visible v' i name)).
  { intros i Hi. destruct (dict_named v i HD Hi) as (n & N & _). rewrite (visible_iff v i n name HD N).
    rewrite (visible_iff v' i n name HD' (goes_on_named _ _ _ _ HG Hi N)). rewrite (W3 i Hi). reflexivity. }
  destruct r as [i|]; cbn [newest]; rewrite W1.
  - split; intros (A & B & C); (split; [exact A|]); (split; [apply HV; [lia|exact B]|]); intros j Hj HX; apply (C j Hj); apply HV; [lia|exact HX|lia|exact HX].
  - split; intros A j Hj HX; apply (A j Hj); apply HV; [lia|exact HX|lia|exact HX].
Qed.
End D.
