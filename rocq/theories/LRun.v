(** Running compiled control structures. *)
From Coq Require Import ZArith List Bool Lia ZifyBool ZifyNat.
From Verif Require Import Base Stack Mem State CoreM Exec LBase LStack Spec Spec2 Spec4 Spec5 Spec6 Spec7
  LState LMem LMon LMemWords LTask LFuel LCode LComp.
Import ListNotations.
Open Scope Z_scope.
Open Scope m_scope.
Ltac Zify.zify_post_hook ::= Z.div_mod_to_equations.

Section C.
Context {E : Env}.
Implicit Types (v w : vm).

(** ** The interpreter loop *)
Lemma step_run v v' : machine_step v v' -> forall r, r <> OutOfFuel ->
  (exists f, run f v = r) <-> (exists f, run f v' = r).
Proof.
  intros [R [f1 H1]] r Hr. split.
  - intros [[|f] HF]; [exfalso; apply Hr; rewrite <- HF; reflexivity|]. cbn [run] in HF.
    rewrite (bind_Ok _ _ _ _ _ R) in HF. exists f.
    unfold bind in HF.
    assert (HS : run_step f v <> OutOfFuel) by (intro Q; rewrite Q in HF; congruence).
    pose proof (run_step_mle f (f + f1) ltac:(lia) v HS) as M1.
    pose proof (run_step_mle f1 (f + f1) ltac:(lia) v ltac:(rewrite H1; discriminate)) as M2.
    rewrite <- M1, M2, H1 in HF. exact HF.
  - intros [f HF]. exists (S (f + f1)). cbn [run]. rewrite (bind_Ok _ _ _ _ _ R). unfold bind.
    rewrite (run_step_mle f1 (f + f1) ltac:(lia) v ltac:(rewrite H1; discriminate)), H1.
    rewrite (run_mle f (f + f1) ltac:(lia) v' ltac:(congruence)). exact HF.
Qed.
Lemma steps_run v v' : machine_steps v v' -> forall r, r <> OutOfFuel ->
  (exists f, run f v = r) <-> (exists f, run f v' = r).
Proof.
  induction 1; intros r Hr; [tauto|]. rewrite (step_run _ _ H r Hr). apply IHmachine_steps; assumption.
Qed.
Lemma goes_run v a v' a' w : goes v a v' a' -> continues v a w ->
  exists w', continues v' a' w' /\
    forall r, r <> OutOfFuel -> (exists f, run f w = r) <-> (exists f, run f w' = r).
Proof.
  intros H HC. destruct (H w HC) as (w' & S1 & C1). exists w'. split; [exact C1|]. apply steps_run. exact S1.
Qed.

(** ** Single words *)
Lemma goes_refl v a : goes v a v a.
Proof. intros w HC. exists w. split; [constructor|exact HC]. Qed.
Lemma goes_trans v1 a1 v2 a2 v3 a3 : goes v1 a1 v2 a2 -> goes v2 a2 v3 a3 -> goes v1 a1 v3 a3.
Proof.
  intros H1 H2 w HC. destruct (H1 w HC) as (w1 & S1 & C1). destruct (H2 w1 C1) as (w2 & S2 & C2).
  exists w2. split; [eapply steps_trans; eassumption|exact C2].
Qed.

Variable K : Z -> Prop.
Lemma goes_word v a p e v' : addressable v -> code_word K v a p ->
  (forall ew f i, exec_prim f ew p (at_ i (a + 8) v) = Ok (tt, at_ i e v')) -> goes v a v' e.
Proof. intros HA HW H w HC. eapply do_word; eassumption. Qed.

Lemma goes_branch v a x : addressable v -> code_word K v a P_branch -> code_cell K v (a + 8) x -> 0 <= x < 2 ^ 63 ->
  goes v a v x.
Proof.
  intros HA HW C Hx. eapply goes_word; [exact HA|exact HW|]. intros ew f i. cbn [exec_prim].
  apply (branch_eq K v (a + 8) x i HA C Hx).
Qed.
Lemma goes_zero v a x y v1 : addressable v -> code_word K v a P_zero_branch -> code_cell K v (a + 8) x -> 0 <= x < 2 ^ 63 ->
  takes v y v1 -> goes v a v1 (if y =? 0 then x else a + 16).
Proof.
  intros HA HW C Hx HT. eapply goes_word; [exact HA|exact HW|]. intros ew f i. cbn [exec_prim].
  rewrite (zero_branch_eq K v (a + 8) x i y v1 HA C Hx HT). destruct (y =? 0); do 3 f_equal; lia.
Qed.

Lemma holds_kept v v' p a : kept K v v' -> holds K v p a -> holds K v' p a.
Proof.
  intros HK (H1 & H2 & H3). split; [eapply kept_addressable; eassumption|]. split; [|eapply kept_laid; eassumption].
  destruct HK as (-> & -> & _). exact H2.
Qed.
Lemma holds_fin v p a : holds K v p a -> a <= fin p a <= limit (v_ds v).
Proof. intros (H1 & H2 & H3). apply (laid_range K); [exact H3|lia]. Qed.
Lemma part_trans v1 a1 v2 a2 v3 a3 : part K v1 a1 v2 a2 -> part K v2 a2 v3 a3 -> part K v1 a1 v3 a3.
Proof. intros [A B] [C D]. split; [eapply goes_trans; eassumption|eapply kept_trans; eassumption]. Qed.

(** ** If *)
Ltac rg HA := destruct HA as [? ?]; lia.
Lemma if_else_run p q v a x v1 v2 : holds K v (IfElse p q) a -> takes v x v1 ->
  (x <> 0 -> part K v1 (a + 16) v2 (fin p (a + 16))) ->
  (x = 0 -> part K v1 (fin p (a + 16) + 16) v2 (fin q (fin p (a + 16) + 16))) ->
  part K v a v2 (fin (IfElse p q) a).
Proof.
  intros (HA & Ha & HL) HT H1 H2. cbn [laid] in HL; cbv zeta in HL. destruct HL as (W & C & L & W' & C' & L').
  pose proof (cell_top _ _ _ _ C) as Ct. pose proof (cell_top _ _ _ _ C') as Ct'.
  pose proof (laid_range K _ _ _ L ltac:(lia)) as R. pose proof (laid_range K _ _ _ L' ltac:(lia)) as R'.
  assert (HK1 : kept K v v1) by (eapply kept_takes; exact HT).
  pose proof (goes_zero v a _ x v1 HA W C ltac:(rg HA) HT) as G.
  assert (HP : part K v a v1 (if x =? 0 then fin p (a + 16) + 16 else a + 16)) by (split; assumption).
  destruct (x =? 0) eqn:Hx.
  - eapply part_trans; [exact HP|]. apply H2. lia.
  - eapply part_trans; [exact HP|]. assert (x <> 0) as Hx' by lia. specialize (H1 Hx').
    eapply part_trans; [exact H1|]. assert (HK2 : kept K v v2) by (eapply kept_trans; [exact HK1|apply H1]).
    split; [|apply kept_refl]. apply goes_branch.
    + eapply kept_addressable; eassumption.
    + eapply kept_word; [cbn; tauto|exact HK2|exact W'].
    + eapply kept_cell; [exact HK2|exact C'].
    + cbn [fin]; rg HA.
Qed.
Lemma if_then_run p v a x v1 v2 : holds K v (IfThen p) a -> takes v x v1 ->
  (x <> 0 -> part K v1 (a + 16) v2 (fin p (a + 16))) -> (x = 0 -> v2 = v1) ->
  part K v a v2 (fin (IfThen p) a).
Proof.
  intros (HA & Ha & HL) HT H1 H2. cbn [laid] in HL. destruct HL as (W & C & L). cbn [fin].
  pose proof (cell_top _ _ _ _ C) as Ct. pose proof (laid_range K _ _ _ L ltac:(lia)) as R.
  assert (HK1 : kept K v v1) by (eapply kept_takes; exact HT).
  pose proof (goes_zero v a _ x v1 HA W C ltac:(rg HA) HT) as G.
  destruct (x =? 0) eqn:Hx.
  - rewrite H2 by lia. split; assumption.
  - eapply part_trans; [split; eassumption|]. apply H1. lia.
Qed.

(** ** Begin loops.  [vs k] is the state at the beginning of round [k], [us k]
    the state before the test. *)
Lemma until_round p v a u x v1 : holds K v (Until p) a -> part K v a u (fin p a) -> takes u x v1 ->
  part K v a v1 (if x =? 0 then a else fin (Until p) a).
Proof.
  intros (HA & Ha & HL) HB HT. cbn [laid] in HL; cbv zeta in HL. destruct HL as (L & W & C). cbn [fin].
  pose proof (cell_top _ _ _ _ C) as Ct. pose proof (laid_range K _ _ _ L ltac:(lia)) as R.
  destruct HB as [G HK]. eapply part_trans; [split; eassumption|]. split; [|eapply kept_takes; exact HT].
  eapply goes_zero; [eapply kept_addressable; eassumption|eapply kept_word; [cbn; tauto|exact HK|exact W]|
    eapply kept_cell; [exact HK|exact C]|rg HA|exact HT].
Qed.
Lemma until_run p a n (vs us : nat -> vm) x v' : holds K (vs O) (Until p) a ->
  (forall k, (k <= n)%nat -> part K (vs k) a (us k) (fin p a)) ->
  (forall k, (k < n)%nat -> takes (us k) 0 (vs (S k))) -> takes (us n) x v' -> x <> 0 ->
  part K (vs O) a v' (fin (Until p) a).
Proof.
  intros HH HB HT HE Hx.
  assert (Q : forall k, (k <= n)%nat -> part K (vs O) a (vs k) a).
  { induction k as [|k IH]; intro Hk; [split; [apply goes_refl|apply kept_refl]|].
    pose proof (IH ltac:(lia)) as P. eapply part_trans; [exact P|].
    pose proof (until_round p (vs k) a (us k) 0 (vs (S k)) (holds_kept _ _ _ _ (proj2 P) HH) (HB k ltac:(lia)) (HT k ltac:(lia))) as S1.
    exact S1. }
  pose proof (Q n ltac:(lia)) as P. eapply part_trans; [exact P|].
  pose proof (until_round p (vs n) a (us n) x v' (holds_kept _ _ _ _ (proj2 P) HH) (HB n ltac:(lia)) HE) as S1.
  replace (x =? 0) with false in S1 by lia. exact S1.
Qed.

Lemma while_round p q v a u x v1 : holds K v (While p q) a -> part K v a u (fin p a) -> takes u x v1 ->
  part K v a v1 (if x =? 0 then fin (While p q) a else fin p a + 16).
Proof.
  intros (HA & Ha & HL) HB HT. cbn [laid] in HL; cbv zeta in HL. destruct HL as (L & W & C & L' & W' & C'). cbn [fin].
  pose proof (cell_top _ _ _ _ C) as Ct. pose proof (cell_top _ _ _ _ C') as Ct'. pose proof (laid_range K _ _ _ L ltac:(lia)) as R.
  pose proof (laid_range K _ _ _ L' ltac:(lia)) as R'.
  destruct HB as [G HK]. eapply part_trans; [split; eassumption|]. split; [|eapply kept_takes; exact HT].
  eapply goes_zero; [eapply kept_addressable; eassumption|eapply kept_word; [cbn; tauto|exact HK|exact W]|
    eapply kept_cell; [exact HK|exact C]|rg HA|exact HT].
Qed.
Lemma while_back p q v a : holds K v (While p q) a -> part K v (fin q (fin p a + 16)) v a.
Proof.
  intros (HA & Ha & HL). cbn [laid] in HL; cbv zeta in HL. destruct HL as (L & W & C & L' & W' & C').
  split; [|apply kept_refl]. apply goes_branch; [exact HA|exact W'|exact C'|rg HA].
Qed.
Lemma while_run p q a n (vs us ts : nat -> vm) (xs : nat -> Z) v' : holds K (vs O) (While p q) a ->
  (forall k, (k <= n)%nat -> part K (vs k) a (us k) (fin p a)) ->
  (forall k, (k < n)%nat -> takes (us k) (xs k) (ts k) /\ xs k <> 0 /\
     part K (ts k) (fin p a + 16) (vs (S k)) (fin q (fin p a + 16))) ->
  takes (us n) 0 v' -> part K (vs O) a v' (fin (While p q) a).
Proof.
  intros HH HB HT HE.
  assert (Q : forall k, (k <= n)%nat -> part K (vs O) a (vs k) a).
  { induction k as [|k IH]; intro Hk; [split; [apply goes_refl|apply kept_refl]|].
    pose proof (IH ltac:(lia)) as P. eapply part_trans; [exact P|]. destruct (HT k ltac:(lia)) as (T1 & T2 & T3).
    pose proof (while_round p q (vs k) a (us k) _ _ (holds_kept _ _ _ _ (proj2 P) HH) (HB k ltac:(lia)) T1) as S1.
    replace (xs k =? 0) with false in S1 by lia. eapply part_trans; [exact S1|]. eapply part_trans; [exact T3|].
    apply while_back. eapply holds_kept; [|exact HH]. eapply kept_trans; [apply P|]. eapply kept_trans; [apply S1|apply T3]. }
  pose proof (Q n ltac:(lia)) as P. eapply part_trans; [exact P|].
  exact (while_round p q (vs n) a (us n) 0 v' (holds_kept _ _ _ _ (proj2 P) HH) (HB n ltac:(lia)) HE).
Qed.

Lemma again_run p a n (vs : nat -> vm) : holds K (vs O) (Again p) a ->
  (forall k, (k < n)%nat -> part K (vs k) a (vs (S k)) (fin p a)) -> part K (vs O) a (vs n) a.
Proof.
  intros HH HB. induction n as [|n IH]; [split; [apply goes_refl|apply kept_refl]|].
  pose proof (IH (fun k Hk => HB k ltac:(lia))) as P. eapply part_trans; [exact P|].
  pose proof (HB n ltac:(lia)) as P1. eapply part_trans; [exact P1|]. split; [|apply kept_refl].
  assert (HK : kept K (vs O) (vs (S n))) by (eapply kept_trans; [apply P|apply P1]).
  destruct (holds_kept _ _ _ _ HK HH) as (HA & Ha & HL). cbn [laid] in HL; cbv zeta in HL. destruct HL as (L & W & C).
  apply goes_branch; [exact HA|exact W|exact C|rg HA].
Qed.

(** ** Do loops *)
Lemma enter_run skip step p v a lim first rest : holds K v (Do skip step p) a ->
  stack_has (t_s (cur v)) (first :: lim :: rest) -> 0 <= len (t_r (cur v)) <= 252 -> (skip = true -> lim <> first) ->
  part K v a (enter_loop (a + 8) lim first v) (a + 16).
Proof.
  intros (HA & Ha & HL) HS HR Hs. cbn [laid] in HL; cbv zeta in HL. destruct HL as (W & C & L & W' & C').
  pose proof (cell_top _ _ _ _ C) as Ct. pose proof (cell_top _ _ _ _ C') as Ct'. pose proof (laid_range K _ _ _ L ltac:(lia)) as R.
  split; [|apply kept_eq; reflexivity]. eapply goes_word; [exact HA|exact W|]. intros ew f i.
  unfold enter_loop. destruct skip; cbn [exec_prim].
  - rewrite (qdo_eq K v (a + 8) _ i lim first rest HA C ltac:(rg HA) HS HR (Hs eq_refl)). do 3 f_equal. lia.
  - rewrite (do_eq K v (a + 8) _ i lim first rest HA C HS HR). do 3 f_equal. lia.
Qed.
Lemma skip_run step p v a x rest : holds K v (Do true step p) a ->
  stack_has (t_s (cur v)) (x :: x :: rest) -> part K v a (drop_s 2 v) (fin (Do true step p) a).
Proof.
  intros (HA & Ha & HL) HS. cbn [laid] in HL; cbv zeta in HL. destruct HL as (W & C & L & W' & C').
  pose proof (cell_top _ _ _ _ C) as Ct. pose proof (cell_top _ _ _ _ C') as Ct'. pose proof (laid_range K _ _ _ L ltac:(lia)) as R.
  split; [|apply kept_eq; reflexivity]. eapply goes_word; [exact HA|exact W|]. intros ew f i. cbn [exec_prim fin].
  apply (qdo_skip_eq K v (a + 8) _ i x rest HA C ltac:(rg HA) HS).
Qed.
Lemma loop_round skip step p v a n v2 z lim idx rest : holds K v (Do skip step p) a ->
  step_by step v n v2 -> in_frame v2 z lim idx rest ->
  (crosses lim idx n -> part K v (fin p (a + 16)) (drop_r 3 v2) (fin (Do skip step p) a)) /\
  (~ crosses lim idx n -> part K v (fin p (a + 16)) (with_index lim (to_i64 (idx + n)) v2) (a + 16)).
Proof.
  intros (HA & Ha & HL) HS HF. cbn [laid] in HL; cbv zeta in HL. destruct HL as (W & C & L & W' & C').
  pose proof (cell_top _ _ _ _ C) as Ct. pose proof (cell_top _ _ _ _ C') as Ct'. pose proof (laid_range K _ _ _ L ltac:(lia)) as R.
  assert (HK : kept K v v2) by (eapply kept_step; exact HS). cbn [fin].
  set (b := fin p (a + 16)) in *.
  assert (KD : forall f, kept K v2 (set_r f v2)) by (intro; apply kept_eq; reflexivity).
  destruct step; cbn [step_by] in HS.
  - destruct (plus_loop_eq K v (b + 8) (a + 16) 0 n v2 z lim idx rest HA C' ltac:(rg HA) HS HF) as [_ _].
    split; intro Hc; (split; [|eapply kept_trans; [exact HK|apply KD]]); (eapply goes_word; [exact HA|exact W'|]); intros ew f i; cbn [exec_prim];
      destruct (plus_loop_eq K v (b + 8) (a + 16) i n v2 z lim idx rest HA C' ltac:(rg HA) HS HF) as [P1 P2].
    + rewrite (P1 Hc). do 3 f_equal. lia.
    + rewrite (P2 Hc _ eq_refl). reflexivity.
  - destruct HS as [-> ->].
    split; intro Hc; (split; [|eapply kept_trans; [exact HK|apply KD]]); (eapply goes_word; [exact HA|exact W'|]); intros ew f i; cbn [exec_prim];
      destruct (loop_eq K v (b + 8) (a + 16) i z lim idx rest HA C' ltac:(rg HA) HF) as [P1 P2].
    + rewrite (P1 Hc). do 3 f_equal. lia.
    + rewrite (P2 Hc _ eq_refl). reflexivity.
Qed.

Lemma crosses_count lim first k : is_cell lim -> is_cell first -> 0 <= k < loop_count lim first ->
  (crosses lim (index_at first k) 1 <-> k = loop_count lim first - 1).
Proof. clear K.
  unfold crosses, index_at, loop_count, is_cell. intros Hl Hf Hk. cbv zeta in *.
  destruct (to_i64_mod (first + k)) as [j Hj].
  assert (Q : (to_i64 (first + k) - lim) mod 2 ^ 64 = (first + k - lim) mod 2 ^ 64).
  { replace (to_i64 (first + k) - lim) with (first + k - lim + (- j) * 2 ^ 64) by lia.
    apply Z_mod_plus_full. }
  rewrite Q. clear Q Hj. destruct ((lim - first) mod 2 ^ 64 =? 0) eqn:H0; lia.
Qed.

Lemma drop_has {A} (s : stack A) l r : stack_has s (l ++ r) -> stack_has (drop_items (zlen l) s) r.
Proof. clear K.
  intros (H1 & H2 & H3). rewrite zlen_app in *. pose proof (zlen_nonneg l). pose proof (zlen_nonneg r).
  split; [cbn; lia|]. split; [lia|]. intros k x Hk. unfold drop_items. rewrite len_set_len, sget_set_len.
  assert (Q : nth_error (l ++ r) (length l + k) = Some x).
  { rewrite nth_error_app2 by lia. replace (length l + k - length l)%nat with k by lia. exact Hk. }
  specialize (H3 _ _ Q). unfold zlen in *. rewrite <- H3. f_equal. lia.
Qed.

Lemma do_run skip p v a lim first rest rs (us : Z -> vm) :
  holds K v (Do skip false p) a -> is_cell lim -> is_cell first ->
  stack_has (t_s (cur v)) (first :: lim :: rest) -> stack_has (t_r (cur v)) rs -> zlen rs <= 252 ->
  (skip = true -> lim <> first) ->
  let N := loop_count lim first in
  let start_of k := if k =? 0 then enter_loop (a + 8) lim first v else with_index lim (index_at first k) (us (k - 1)) in
  (forall k, 0 <= k < N ->
     part K (start_of k) (a + 16) (us k) (fin p (a + 16)) /\
     in_frame (us k) (a + 8) lim (index_at first k) rs) ->
  part K v a (drop_r 3 (us (N - 1))) (fin (Do skip false p) a) /\
  stack_has (t_r (cur (drop_r 3 (us (N - 1))))) rs.
Proof.
  intros HH Hl Hf HS HR Hr Hs N start_of HB.
  assert (HN : 1 <= N).
  { unfold N, loop_count. cbv zeta. destruct ((lim - first) mod 2 ^ 64 =? 0) eqn:Q; lia. }
  pose proof (stack_has_len _ _ HR) as HRl. pose proof (zlen_nonneg rs).
  pose proof (enter_run skip false p v a lim first rest HH HS ltac:(lia) Hs) as P0.
  assert (Q : forall n, 0 <= n -> n < N -> part K v a (start_of n) (a + 16)).
  { apply (natlike_ind (fun n => n < N -> part K v a (start_of n) (a + 16))).
    - intros _. exact P0.
    - intros n Hn IH Hn1. specialize (IH ltac:(lia)). destruct (HB n ltac:(lia)) as [P1 F1].
      assert (HK : kept K v (us n)) by (eapply kept_trans; [apply IH|apply P1]).
      destruct (loop_round skip false p (us n) a 1 (us n) (a + 8) lim _ rs (holds_kept _ _ _ _ HK HH) (conj eq_refl eq_refl) F1) as [_ L2].
      eapply part_trans; [exact IH|]. eapply part_trans; [exact P1|].
      unfold start_of. replace (Z.succ n =? 0) with false by lia. replace (Z.succ n - 1) with n by lia.
      assert (EI : index_at first (Z.succ n) = to_i64 (index_at first n + 1)).
      { unfold index_at. destruct (to_i64_mod (first + n)) as [j Hj]. apply (to_i64_congr _ _ j). lia. }
      rewrite EI. apply L2. rewrite crosses_count by assumption || lia. fold N. lia. }
  pose proof (Q (N - 1) ltac:(lia) ltac:(lia)) as P. destruct (HB (N - 1) ltac:(lia)) as [P1 F1].
  assert (HK : kept K v (us (N - 1))) by (eapply kept_trans; [apply P|apply P1]).
  destruct (loop_round skip false p (us (N - 1)) a 1 (us (N - 1)) (a + 8) lim _ rs (holds_kept _ _ _ _ HK HH) (conj eq_refl eq_refl) F1) as [L1 _].
  split.
  - eapply part_trans; [exact P|]. eapply part_trans; [exact P1|]. apply L1. rewrite crosses_count by assumption || lia. reflexivity.
  - unfold drop_r. rewrite cur_set_r. cbn [t_r set_t_r]. apply (drop_has _ (frame (a + 8) lim (index_at first (N - 1)))). exact F1.
Qed.

(** The words used in loops *)
Lemma leave_run skip step p v0 v i a b x y rest : holds K v0 (Do skip step p) a -> kept K v0 v ->
  code_cell K v b i -> i < 2 ^ 63 -> word_is v i P_leave -> 
  stack_has (t_r (cur v)) (x :: y :: a + 8 :: rest) -> zlen rest <= 128 -> sget (t_r (cur v)) 255 = canary (t_r (cur v)) ->
  part K v b (drop_r 3 v) (fin (Do skip step p) a) /\ stack_has (t_r (cur (drop_r 3 v))) rest.
Proof.
  intros HH HK C Hi HW HS Hr Hcan. destruct (holds_kept _ _ _ _ HK HH) as (HA & Ha & HL).
  cbn [laid] in HL; cbv zeta in HL. destruct HL as (W & C1 & L & W' & C'). cbn [fin].
  pose proof (cell_top _ _ _ _ C1) as Ct. pose proof (cell_top _ _ _ _ C') as Ct'. pose proof (laid_range K _ _ _ L ltac:(lia)) as R.
  split; [split; [|apply kept_eq; reflexivity]|].
  - eapply goes_word; [exact HA|exists i; split; [exact C|split; [exact HW|exact Hi]]|].
    intros ew f j. cbn [exec_prim]. apply (leave_eq K v ew j (b + 8) x y (a + 8) _ rest HA C1); [rg HA|exact HS|exact Hr|exact Hcan].
  - unfold drop_r. rewrite cur_set_r. cbn [t_r set_t_r]. apply (drop_has _ [x; y; a + 8]). exact HS.
Qed.
Lemma unloop_ok f ew v z lim idx rest : in_frame v z lim idx rest ->
  exec_prim f ew P_unloop v = Ok (tt, drop_r 3 v) /\ stack_has (t_r (cur (drop_r 3 v))) rest.
Proof. clear K.
  intro H. cbn [exec_prim]. split.
  - unfold unloop. unfold in_frame, frame in H. rewrite (bind_Ok _ _ _ _ _ (r_pop3_eq _ _ _ (pop3_items _ _ _ _ _ H))). reflexivity.
  - unfold drop_r. rewrite cur_set_r. cbn [t_r set_t_r]. apply (drop_has _ (frame z lim idx)). exact H.
Qed.

Lemma chk_u8_ok z v : 0 <= z < 256 -> chk_u8 z v = Ok (z, v).
Proof. clear K. intro H. unfold chk_u8. replace (in_u8 z) with true by (unfold in_u8; lia). reflexivity. Qed.
Lemma index_sum lim idx : is_cell idx -> to_i64 (to_i64 (idx - lim - 2 ^ 63) + to_i64 (lim - 2 ^ 63)) = idx.
Proof. clear K.
  intro H. destruct (to_i64_mod (idx - lim - 2 ^ 63)) as [j Hj]. destruct (to_i64_mod (lim - 2 ^ 63)) as [k Hk].
  rewrite (to_i64_congr _ idx (- j - k - 1)) by lia. apply to_i64_id. unfold is_cell, imin, imax, two63 in *. lia.
Qed.
Lemma i_ok f ew v z lim idx rest : in_frame v z lim idx rest -> is_cell idx -> 0 <= len (t_s (cur v)) < 255 ->
  exec_prim f ew P_p_i v = Ok (tt, add_s idx v).
Proof. clear K.
  intros H Hi HL. unfold in_frame, frame in H. cbn [exec_prim]. unfold p_i.
  pose proof (stack_has_len _ _ H) as HN. pose proof (stack_has_bound _ _ H) as HB.
  pose proof (stack_has_nth _ _ 0 _ H eq_refl) as N0. pose proof (stack_has_nth _ _ 1 _ H eq_refl) as N1.
  cbn [app] in *. rewrite !zlen_cons in *. pose proof (zlen_nonneg rest).
  unfold gets. unfold bind at 1 2. unfold r_stk. rewrite (bind_Ok _ _ _ _ _ (chk_u8_ok (len (t_r (cur v)) - 2) v ltac:(lia))).
  unfold bind, last. rewrite w8sub_ok by lia.
  replace (len (t_r (cur v)) - 1) with (len (t_r (cur v)) - 1 - Z.of_nat 0) by lia. rewrite N0.
  replace (len (t_r (cur v)) - 2) with (len (t_r (cur v)) - 1 - Z.of_nat 1) by lia. rewrite N1.
  rewrite index_sum by exact Hi. unfold s_push, modify, s_stk. rewrite add_item_push by lia. reflexivity.
Qed.
Lemma j_ok f ew v z lim idx z' lim' idx' rest : in_frame v z lim idx (frame z' lim' idx' ++ rest) -> is_cell idx' ->
  0 <= len (t_s (cur v)) < 255 -> exec_prim f ew P_p_j v = Ok (tt, add_s idx' v).
Proof. clear K.
  intros H Hi HL. unfold in_frame, frame in H. cbn [exec_prim]. unfold p_j.
  pose proof (stack_has_len _ _ H) as HN. pose proof (stack_has_bound _ _ H) as HB.
  pose proof (stack_has_nth _ _ 3 _ H eq_refl) as N0. pose proof (stack_has_nth _ _ 4 _ H eq_refl) as N1.
  cbn [app] in *. rewrite !zlen_cons in *. pose proof (zlen_nonneg rest).
  unfold gets. unfold bind at 1. unfold r_stk. rewrite (bind_Ok _ _ _ _ _ (chk_u8_ok (len (t_r (cur v)) - 4) v ltac:(lia))).
  unfold bind at 1. rewrite (bind_Ok _ _ _ _ _ (chk_u8_ok (len (t_r (cur v)) - 4 - 1) v ltac:(lia))). unfold bind.
  replace (len (t_r (cur v)) - 4 - 1) with (len (t_r (cur v)) - 1 - Z.of_nat 4) by lia. rewrite N1.
  replace (len (t_r (cur v)) - 4) with (len (t_r (cur v)) - 1 - Z.of_nat 3) by lia. rewrite N0.
  rewrite index_sum by exact Hi. unfold s_push, modify, s_stk. rewrite add_item_push by lia. reflexivity.
Qed.

(** ** Calls *)
Lemma call_run v i a : addressable v -> code_cell K v a i -> i < 2 ^ 63 -> word_is v i P_nest -> 0 <= len (t_r (cur v)) < 255 ->
  part K v a (add_r (a + 8) v) (w_dfa (wl_get (v_wl v) i)).
Proof.
  intros HA C Hi HW HR. split; [|apply kept_eq; reflexivity]. intros w HC.
  destruct (step_cell K v a i w HA HC C ltac:(destruct HW; lia)) as [R1 R2].
  exists (at_ i (w_dfa (wl_get (v_wl v) i)) (add_r (a + 8) v)). split; [|apply continues_at].
  apply one_step. split; [exact R1|]. exists 1%nat. rewrite R2.
  rewrite (execute_word_eq O i (set_ip (a + 8) v) P_nest HW), set_wp_ip. cbn [exec_prim].
  pose proof (code_range _ _ _ _ HA C) as RA.
  unfold nest. rewrite (bind_Ok _ _ _ tt (at_ i (a + 8) (add_r (a + 8) v))).
  - unfold gets. unfold bind at 1. rewrite st_at. cbn [st_wp set_st_ip set_st_wp].
    rewrite (bind_Ok _ _ _ _ _ (word_at_eq (at_ i (a + 8) (add_r (a + 8) v)) i (proj1 HW))).
    unfold put_ip, modify. rewrite set_ip_at. reflexivity.
  - unfold modify. cbv zeta. rewrite ip_at, to_i64_id by (unfold imin, imax, two63; lia).
    unfold r_stk. rewrite r_at, set_r_at. do 3 f_equal. unfold add_r. f_equal.
    change (push (t_r (cur v)) (a + 8) = add_item (t_r (cur v)) (a + 8)). apply add_item_push. lia.
Qed.
Lemma exit_run v i a ra rest : addressable v -> code_cell K v a i -> i < 2 ^ 63 -> word_is v i P_exit ->
  stack_has (t_r (cur v)) (ra :: rest) -> part K v a (drop_r 1 v) (to_u64 ra) /\ stack_has (t_r (cur (drop_r 1 v))) rest.
Proof.
  intros HA C Hi HW HS. split; [split; [|apply kept_eq; reflexivity]|].
  - eapply goes_word; [exact HA|exists i; split; [exact C|split; [exact HW|exact Hi]]|].
    intros ew f j. cbn [exec_prim]. eapply exit_eq. exact HS.
  - unfold drop_r. rewrite cur_set_r. cbn [t_r set_t_r]. apply (drop_has _ [ra]). exact HS.
Qed.
Lemma call_and_return v i a v2 b j rest :
  addressable v -> code_cell K v a i -> i < 2 ^ 63 -> word_is v i P_nest -> 0 <= len (t_r (cur v)) < 255 ->
  part K (add_r (a + 8) v) (w_dfa (wl_get (v_wl v) i)) v2 b ->
  code_cell K v2 b j -> j < 2 ^ 63 -> word_is v2 j P_exit -> stack_has (t_r (cur v2)) (a + 8 :: rest) ->
  part K v a (drop_r 1 v2) (a + 8) /\ stack_has (t_r (cur (drop_r 1 v2))) rest.
Proof.
  intros HA C Hi HW HR HB C2 Hj HW2 HS. pose proof (code_range _ _ _ _ HA C) as RA.
  pose proof (call_run v i a HA C Hi HW HR) as P1.
  assert (HK : kept K v v2) by (eapply kept_trans; [apply P1|apply HB]).
  destruct (exit_run v2 j b (a + 8) rest (kept_addressable K _ _ HK HA) C2 Hj HW2 HS) as [P2 S2].
  rewrite to_u64_id in P2 by (unfold two64; lia).
  split; [|exact S2]. eapply part_trans; [exact P1|]. eapply part_trans; [exact HB|exact P2].
Qed.

(** ** Literals *)
Lemma num_run n v a : holds K v (Num n) a -> 0 <= len (t_s (cur v)) < 255 -> part K v a (add_s n v) (fin (Num n) a).
Proof.
  intros (HA & Ha & W & C & Hn) HL. split; [|apply kept_eq; reflexivity]. eapply goes_word; [exact HA|exact W|].
  intros ew f i. cbn [exec_prim fin]. rewrite (lit_eq K v (a + 8) n i HA C Hn HL). do 3 f_equal. lia.
Qed.
Lemma flo_run x v a : holds K v (Flo x) a -> 0 <= len (t_f (cur v)) < 255 -> part K v a (add_f x v) (fin (Flo x) a).
Proof.
  intros (HA & Ha & W & C & Hn) HL. split; [|apply kept_eq; reflexivity]. eapply goes_word; [exact HA|exact W|].
  intros ew f i. cbn [exec_prim fin]. apply (flit_eq K v (a + 8) x i HA C); [rg HA|exact Hn|exact HL].
Qed.
Lemma str_run s v a : holds K v (Str s) a -> 0 <= len (t_s (cur v)) < 254 ->
  part K v a (add_s (zlen s) (add_s (a + 16) v)) (fin (Str s) a).
Proof.
  intros (HA & Ha & W & C & CT & _) HL. split; [|apply kept_eq; reflexivity]. eapply goes_word; [exact HA|exact W|].
  intros ew f i. cbn [exec_prim fin].
  rewrite (s_quote_eq K v (a + 8) s i HA C); [|replace (a + 8 + 8) with (a + 16) by lia; exact CT|exact HL].
  replace (a + 8 + 8) with (a + 16) by lia. reflexivity.
Qed.

(** ** Case *)
Lemma takes_has v x rest : stack_has (t_s (cur v)) (x :: rest) -> takes v x (drop_s 1 v).
Proof. clear K. intro H. exists rest. auto. Qed.
Lemma over_equal_run o e v a y sel r : addressable v -> code_cell K v a o -> code_cell K v (a + 8) e -> o < 2 ^ 63 -> e < 2 ^ 63 ->
  word_is v o P_over -> word_is v e P_equals -> stack_has (t_s (cur v)) (y :: sel :: r) -> zlen r < 253 ->
  exists u, part K v a u (a + 16) /\ takes u (if y =? sel then -1 else 0) (compared y sel v) /\
    stack_has (t_s (cur (compared y sel v))) (sel :: r).
Proof.
  intros HA C1 C2 Ho He W1 W2 HS Hr.
  pose proof (stack_has_len _ _ HS) as HN. rewrite !zlen_cons in HN. pose proof (zlen_nonneg r).
  pose proof (stack_has_nth _ _ 1 _ HS eq_refl) as N1. pose proof (stack_has_nth _ _ 0 _ HS eq_refl) as N0.
  set (s := t_s (cur v)) in *. set (n := len s) in *.
  set (u := set_s (set_len (sset (sset s n sel) (n - 1) (if y =? sel then -1 else 0)) n) v).
  exists u. split.
  - split; [|apply kept_eq; reflexivity].
    eapply goes_trans with (v2 := add_s sel v) (a2 := a + 8).
    + eapply goes_word; [exact HA|exists o; split; [exact C1|split; [exact W1|exact Ho]]|].
      intros ew f i. cbn [exec_prim]. unfold on_s, modify, s_stk. rewrite s_at, set_s_at. do 3 f_equal.
      unfold add_s. f_equal. fold s. unfold over_, add_item. fold n.
      rewrite (w8add_ok n 1) by lia. cbv zeta. rewrite !w8sub_ok by lia. rewrite sget_set_len.
      replace (n + 1 - 3) with (n - 1 - Z.of_nat 1) by lia. rewrite N1. unfold sset, set_len. cbn. do 2 f_equal. lia.
    + assert (HS2 : stack_has (t_s (cur (add_s sel v))) (sel :: y :: sel :: r)).
      { unfold add_s. rewrite cur_set_s. cbn [t_s set_t_s]. fold s. rewrite <- add_item_push by lia. apply push_has; [exact HS|rewrite !zlen_cons; lia]. }
      replace (a + 16) with (a + 8 + 8) by lia.
      eapply goes_word; [exact HA|exists e; split; [exact C2|split; [exact W2|exact He]]|].
      intros ew f i. cbn [exec_prim]. unfold on_s, modify, s_stk. rewrite s_at, set_s_at. do 3 f_equal.
      unfold equals_, bin2_. rewrite (pop2_items _ _ _ _ HS2). cbn [fst snd].
      unfold add_s. rewrite cur_set_s. cbn [t_s set_t_s]. rewrite set_s_set_s. unfold u. f_equal. fold s.
      rewrite add_item_push by (unfold drop_items, add_item; cbn [len set_len sset]; lia).
      unfold drop_items, add_item, flag, TRUE, FALSE. cbn [len set_len sset inner canary]. fold n.
      rewrite (Z.eqb_sym sel y). replace (n + 1 - 2) with (n - 1) by lia. replace (n - 1 + 1) with n by lia.
      unfold sset, set_len. cbn. reflexivity.
  - assert (HU : stack_has (t_s (cur u)) ((if y =? sel then -1 else 0) :: sel :: r)).
    { unfold u. rewrite cur_set_s. cbn [t_s set_t_s]. split; [cbn [len set_len]; rewrite !zlen_cons; lia|].
      split; [rewrite !zlen_cons; lia|]. intros [|[|k]] x Hk; cbn [len set_len]; rewrite sget_set_len.
      - injection Hk as <-. replace (n - 1 - Z.of_nat 0) with (n - 1) by lia. apply sget_sset_same.
      - injection Hk as <-. rewrite !sget_sset_other by lia. exact N1.
      - assert (k < length r)%nat by (apply nth_error_Some; cbn in Hk; congruence). unfold zlen in *.
        rewrite !sget_sset_other by lia. apply (stack_has_nth _ _ (S (S k)) _ HS). exact Hk. }
    replace (compared y sel v) with (drop_s 1 u); [split; [eapply takes_has; exact HU|]|].
    { unfold drop_s. rewrite cur_set_s. cbn [t_s set_t_s]. apply (drop_has _ [if y =? sel then -1 else 0]). exact HU. }
    unfold drop_s, u, compared. rewrite cur_set_s. cbn [t_s set_t_s]. rewrite set_s_set_s. f_equal.
Qed.

Lemma case_run cs d : forall o e dr a v v' sel,
  holds K v (Case o e dr cs d) a ->
  word_is v o P_over -> word_is v e P_equals -> word_is v dr P_p_drop ->
  selects K cs d a v v' sel -> part K v a v' (fin (Case o e dr cs d) a).
Proof.
  assert (Q : forall o e dr a v v' sel,
    holds K v (Case o e dr cs d) a ->
    (forall w, kept K v w -> word_is w o P_over /\ word_is w e P_equals /\ word_is w dr P_p_drop) ->
    selects K cs d a v v' sel -> part K v a v' (fin (Case o e dr cs d) a)).
  2:{ intros o e dr a v v' sel HH W1 W2 W3 HS. apply (Q _ _ _ _ _ _ sel HH); [|exact HS].
      intros w (_ & _ & _ & HK). split; [|split]; apply HK; auto; cbn; tauto. }
  induction cs as [|[x p] cs IH]; intros o e dr a v v' sel HH HW HS.
  - cbn [Case selects fin] in *. destruct HS as (v1 & r & P1 & S1 & Hr & ->).
    destruct HH as (HA & Ha & HL). cbn [laid] in HL. destruct HL as (L & C & Hd).
    eapply part_trans; [exact P1|]. split; [|apply kept_eq; reflexivity].
    destruct (HW v1 (proj2 P1)) as (_ & _ & W).
    eapply goes_word; [eapply kept_addressable; [apply P1|exact HA]|exists dr; split; [eapply kept_cell; [apply P1|exact C]|split; [exact W|lia]]|].
    intros ew f i. cbn [exec_prim]. destruct r as [|y r]; [congruence|].
    unfold on_s, modify, s_stk. rewrite s_at, set_s_at. do 3 f_equal. unfold drop_s. f_equal.
    unfold drop_, drop_items. rewrite w8sub_ok; [reflexivity|]. pose proof (stack_has_len _ _ S1). pose proof (stack_has_bound _ _ S1).
    rewrite zlen_cons in *. pose proof (zlen_nonneg r). lia.
  - cbn [Case selects fin] in *; cbv zeta in HS. set (m := fin x a) in *. destruct HS as (u & y & r & P1 & S1 & Hr & HS).
    pose proof HH as (HA & Ha & HL). cbn [laid fin] in HL; cbv zeta in HL.
    destruct HL as (L & (Co & Ho) & (Ce & He) & W & C & ((Cd & Hd) & L') & W' & C' & L'').
    fold m in Co, Ce, W, C, Cd, L', W', C', L''.
    replace (m + 8 + 8 + 16 + 8) with (m + 40) in * by lia. replace (m + 8 + 8 + 16) with (m + 32) in * by lia.
    replace (m + 8 + 8 + 8) with (m + 24) in * by lia. replace (m + 8 + 8) with (m + 16) in * by lia.
    set (n := fin p (m + 40)) in *.
    pose proof (proj2 P1) as K1. destruct (HW u K1) as (Wo & We & _).
    pose proof (cell_top _ _ _ _ C') as Ct'. pose proof (laid_range K _ _ _ L ltac:(lia)) as R. fold m in R.
    pose proof (cell_top _ _ _ _ Cd) as Ct. pose proof (laid_range K _ _ _ L' ltac:(lia)) as R'. fold n in R'.
    pose proof (laid_range K _ _ _ L'' ltac:(lia)) as R''.
    destruct (over_equal_run o e u m y sel r (kept_addressable K _ _ K1 HA)) as (t & P2 & T2 & SC);
      [eapply kept_cell; [exact K1|exact Co]|eapply kept_cell; [exact K1|exact Ce]|lia|lia|exact Wo|exact We|exact S1|exact Hr|].
    assert (K2 : kept K v t) by (eapply kept_trans; [exact K1|apply P2]).
    assert (P3 : part K t (m + 16) (compared y sel u) (if (if y =? sel then -1 else 0) =? 0 then n + 16 else m + 32)).
    { split; [|eapply kept_takes; exact T2]. replace (m + 32) with (m + 16 + 16) by lia.
      eapply goes_zero; [eapply kept_addressable; [exact K2|exact HA]|eapply kept_word; [cbn; tauto|exact K2|exact W]|
        eapply kept_cell; [exact K2|replace (m + 16 + 8) with (m + 24) by lia; exact C]|destruct HA; lia|exact T2]. }
    eapply part_trans; [exact P1|]. eapply part_trans; [exact P2|]. eapply part_trans; [exact P3|].
    assert (K3 : kept K v (compared y sel u)) by (eapply kept_trans; [exact K2|apply P3]).
    destruct HS as [[-> PB]|[Hne HS]].
    + rewrite Z.eqb_refl. change (-1 =? 0) with false. cbv iota.
      destruct (HW _ K3) as (_ & _ & Wd).
      assert (P4 : part K (compared sel sel u) (m + 32) (drop_s 1 (compared sel sel u)) (m + 40)).
      { split; [|apply kept_eq; reflexivity]. replace (m + 40) with (m + 32 + 8) by lia.
        eapply goes_word; [eapply kept_addressable; [exact K3|exact HA]|exists dr; split; [eapply kept_cell; [exact K3|exact Cd]|split; [exact Wd|lia]]|].
        intros ew f i. cbn [exec_prim]. unfold on_s, modify, s_stk. rewrite s_at, set_s_at. do 3 f_equal. unfold drop_s. f_equal.
        unfold drop_, drop_items. rewrite w8sub_ok; [reflexivity|]. pose proof (stack_has_len _ _ SC). pose proof (zlen_nonneg r).
        rewrite zlen_cons in *. lia. }
      eapply part_trans; [exact P4|]. eapply part_trans; [exact PB|]. split; [|apply kept_refl].
      assert (K5 : kept K v v') by (eapply kept_trans; [exact K3|]; eapply kept_trans; [apply P4|apply PB]).
      eapply goes_branch; [eapply kept_addressable; [exact K5|exact HA]|eapply kept_word; [cbn; tauto|exact K5|exact W']|
        eapply kept_cell; [exact K5|exact C']|destruct HA; lia].
    + replace (y =? sel) with false by lia. change (0 =? 0) with true. cbv iota.
      eapply IH; [|intros w Kw; apply HW; eapply kept_trans; [exact K3|exact Kw]|exact HS].
      split; [eapply kept_addressable; [exact K3|exact HA]|]. split; [|eapply kept_laid; [exact K3|exact L'']].
      destruct K3 as (-> & -> & _). lia.
Qed.
End C.
