(** INCLUDED when the file cannot be opened, or when too many sources are saved (C91). *)
From Coq Require Import ZArith List Bool Lia String ZifyBool ZifyNat.
From Verif Require Import Base Stack Mem Parser State CoreM IoM FileM Exec LBase LStack Spec Spec2 Spec4 Spec5 Spec6 Spec7 Spec9 Spec10 Spec11 Spec12 Spec14 Spec15 Spec16 Spec17 Spec19 Spec24 Spec25
  LState LMem LMon LMemWords LTask LFuel LCode LComp LRun LCtl LFloat LWords LSay LFile LFile2 LFile3 LFile5 LLib LLibWords LDefine LDefine2 LNoInput LSource LEval LNest LSys LPrint2 Spec27 LShell LShell2 Spec28 Spec30 LTrim LTrim2 LInc LInc2.
Import ListNotations.
Open Scope list_scope.
Open Scope Z_scope.
Open Scope m_scope.

Section L.
Context {E : Env}.
Variable K : Z -> Prop.
Implicit Types (v w u : vm).
Ltac lp := clear; unfold lib_prims; cbn; tauto.

(** ** Code that ends with an exception *)
Lemma wpx_then p q y v0 d r f m o v (Q : Z -> vm -> Prop) : inv v0 (y :: d) r f m o v -> y <> 0 -> (forall u, inv v0 d r f m o u -> wpx K p Q u) -> wpx K (IfElse p q) Q v.
Proof.
  intros HI Hy H a (HA & Ha & HL). cbn [laid] in HL; cbv zeta in HL. destruct HL as (W & C & L & W' & C' & L').
  pose proof (takes_has _ _ _ (proj1 (proj1 HI))) as T.
  pose proof (cell_top _ _ _ _ C) as Ct. pose proof (cell_top _ _ _ _ C') as Ct'.
  pose proof (laid_range K _ _ _ L ltac:(lia)) as R. pose proof (laid_range K _ _ _ L' ltac:(lia)) as R'.
  assert (HK : kept K v (drop_s 1 v)) by (apply kept_eq; reflexivity).
  assert (Hx : 0 <= fin p (a + 16) + 16 < 2 ^ 63) by (destruct HA; lia).
  pose proof (goes_zero K v a _ y _ HA W C Hx T) as G. replace (y =? 0) with false in G by lia.
  destruct (H _ (inv_pop _ _ _ _ _ _ _ _ HI) (a + 16)) as (w & z & P & q').
  - eapply holds_kept; [exact HK|]. split; [exact HA|]. split; [lia|exact L].
  - exists w, z. split; [|exact q']. eapply part_trans; [split; [exact G|exact HK]|exact P].
Qed.
Lemma wpx_call v i e (Q : vm -> Prop) : throws K v i e Q -> wpx K (Op i) (stops K e Q) v.
Proof.
  intros D a (HA & Ha & C & Hi). pose proof (code_range _ _ _ _ HA C) as RA.
  destruct (D (a + 8) ltac:(lia)) as (f & u & w & z & k & p & E1 & G & KK & S1 & S2 & S3 & S4). exists w, z. split.
  - split; [|exact KK]. intros x HC. destruct (step_cell K v a i x HA HC C Hi) as [R1 R2].
    destruct (G u (continues_self u)) as (w' & T1 & C1). exists w'. split; [|exact C1].
    econstructor; [split; [exact R1|]; exists f; rewrite R2; exact E1|exact T1].
  - exists k, p. auto.
Qed.

Lemma throws_conseq v i e (Q Q' : vm -> Prop) : (forall u, Q u -> Q' u) -> throws K v i e Q -> throws K v i e Q'.
Proof. intros H D r Hr. destruct (D r Hr) as (f & u & w & z & k & p & E1 & G & KK & S1 & S2 & S3 & S4). exists f, u, w, z, k, p. auto 10. Qed.

Lemma open_file_fails v xa (u : Z) a path l o : stack_has (t_s (cur v)) (0 :: u :: xa :: l) -> addr_of xa a -> addr_of u (zlen path) -> ds_ok (v_ds v) ->
  cannot_open path o a v ->
  exists s, stack_has s ((if 256 <? zlen path then -24 else -37) :: -1 :: l) /\ high_slots_kept (t_s (cur v)) s /\ forall fuel ew, exec_prim fuel ew P_open_file v =
    Ok (tt, after2 v s o (t_files (cur v)) (t_sources (cur v)) (t_lines (cur v))).
Proof.
  intros Hs Ha Hu HD (Hb & HO). pose proof (stack_has_bound _ _ Hs) as Hbd. pose proof (stack_has_len _ _ Hs) as HL. rewrite !zlen_cons in HL.
  apply addr_of_to_u64 in Ha. apply addr_of_to_u64 in Hu. destruct HD as (D1 & D2 & D3).
  destruct (opening_run P_open_file v xa u 0 l ltac:(cbn; tauto) Hs) as (s & Hp & Hr). cbn [opts_of Z.eqb] in Hr.
  pose proof (zlen_nonneg path). pose proof Hb as (B0 & (B1 & B2 & B3) & _).
  destruct HO as [[HO ->]|[Hl HO]].
  - destruct (push2_popped _ _ _ _ (-1) (-24) Hp ltac:(lia) ltac:(lia)) as [A B].
    replace (256 <? zlen path) with true by lia. eexists. split; [exact A|]. split; [exact B|]. intros fuel ew. rewrite Hr, Hu. replace (256 <? zlen path) with true by lia.
    rewrite after_is2. reflexivity.
  - destruct (push2_popped _ _ _ _ (-1) (-37) Hp ltac:(lia) ltac:(lia)) as [A B].
    replace (256 <? zlen path) with false by lia. eexists. split; [exact A|]. split; [exact B|]. intros fuel ew. rewrite Hr, Hu. replace (256 <? zlen path) with false by lia.
    rewrite open_common_run by (first [rewrite Ha|idtac]; unfold two64 in *; lia). rewrite Ha, fits_small by (unfold two64; lia).
    replace (in_ds (v_ds v) a (zlen path)) with true by (symmetry; apply in_ds_true; lia).
    rewrite (bytes_at_read _ _ _ Hb). cbv zeta. rewrite HO. cbn [fst snd]. rewrite after_is2. reflexivity.
Qed.

Lemma included_missing n m path o v xa x a d r f : shell K n v -> loader K n m v -> ds_ok (v_ds v) -> word_is v (l_zero m) P_zero_equals -> cannot_open path o a v ->
  stacks_are v (x :: xa :: d) r f -> addr_of xa a -> addr_of x (zlen path) -> zlen d <= 48 -> zlen r <= 56 ->
  throws K v (l_included m) (-1) (fun w => exists ra, stacks_are w (-1 :: x :: xa :: d) (ra :: r) f /\ v_ds w = v_ds v /\ v_out w = v_out v /\
    calm (world o (t_files (cur v)) (t_sources (cur v)) (t_lines (cur v)) v) w).
Proof.
  intros HSh HLo HD Sp7 HC0 HS Ha Hx Hd Hr.
  pose proof HLo as (L & _ & _ & _ & _ & _ & _ & _ & _ & _ & HC & (RO1 & RO2 & RO3 & RO4) & _).
  pose proof (zlen_nonneg r). pose proof (zlen_nonneg d).
  eapply (colon_throws K); [exact HC|exact (proj1 (proj2 HS))|lia|].
  intros ra Hra. pose proof (tin_rpush K v ra _ _ _ _ _ _ (tin_start _ _ _ _ HS) ltac:(lia)) as I0.
  unfold d_included. change (op n ?p) with (wd (ix n) p). cbn [block].
  apply wpx_seq. eapply (tp_effect _ _ _ _ _ _ _ _ _ _ _ _ _ (two_dup_effect xa x)); [apply L; lp|cbn [app]; exact I0|wlen|intros ? <-; wlen|]. intros outs u0 <- I. cbn [app] in I.
  apply wpx_seq. eapply (tp_const K _ 0); [exact RO1|exact HD|exact RO2|exact RO3|exact RO4|red; lia|exact I|wlen|]. intros u1 I1.
  assert (HN : (if 256 <? zlen path then -24 else -37) <> 0) by (destruct (256 <? zlen path); lia).
  pose proof (fun w => open_file_fails w xa x a path (x :: xa :: d) o) as OF. set (y := if 256 <? zlen path then -24 else -37) in *.
  apply wpx_seq. eapply (tp_world K _ P_open_file v _ _ _ _ _ _ o (t_files (cur v)) (t_sources (cur v)) (t_lines (cur v)) (y :: -1 :: x :: xa :: d)); [apply L; lp|exact I1|wlen|wlen| |].
  { intros w J. destruct J as (JS & JD & _ & JC).
    assert (A1 : t_sources (cur w) = t_sources (cur v)) by apply JC. assert (A2 : t_lines (cur w) = t_lines (cur v)) by apply JC.
    assert (A3 : t_files (cur w) = t_files (cur v)) by apply JC. assert (A4 : v_os w = v_os v) by apply JC.
    rewrite <- A1, <- A2, <- A3. apply OF; [apply JS|exact Ha|exact Hx|rewrite JD; exact HD|]. unfold cannot_open in *. rewrite JD, A4. exact HC0. }
  intros u2 I2. set (v2 := world o (t_files (cur v)) (t_sources (cur v)) (t_lines (cur v)) v) in *.
  apply wpx_seq. eapply (tp_effect K _ _ [y] _ v2 _ _ _ _ _ _ _ (zero_equals_spec y)); [exact Sp7|exact I2|wlen|intros ? (? & -> & _); wlen|]. intros outs u3 (z & -> & Tz) I3. cbn [app] in I3.
  destruct (truth_case _ _ Tz) as [T1 _]. destruct (Z.eq_dec z 0) as [->|Hz]; [|elim HN; exact (T1 Hz)].
  eapply wpx_else; [exact (proj1 I3)|]. intros w J. eapply (inv_aborts K v2 (ix n)); [exact L|exact J|reflexivity|].
  exists ra. destruct J as (J1 & J2 & J3 & J4). split; [exact J1|]. split; [exact J2|]. split; [exact J3|exact J4].
Qed.

(** The sixteen places for sources are taken *)
Lemma included_full R n m path o h c l v xa x a d r f : shell K n v -> loader K n m v -> ds_ok (v_ds v) -> word_is v (l_zero m) P_zero_equals -> can_open R path o h c a v ->
  saved (v_ds v) (src_at m v) l -> zlen l = 16 ->
  stacks_are v (x :: xa :: d) r f -> addr_of xa a -> addr_of x (zlen path) -> zlen d <= 48 -> zlen r <= 56 ->
  throws K v (l_included m) (-1) (fun w => v_ds w = v_ds v /\ source_of w = source_of v /\
    exists fl, one_more v h fl /\ calm (world o fl (t_sources (cur v)) (t_lines (cur v)) v) w).
Proof.
  intros HSh HLo HD Sp7 (Hb & Hpl & HO & _) HSv Hl HS Ha Hx Hd Hr.
  pose proof HLo as (L & _ & _ & _ & _ & _ & _ & _ & _ & _ & HC & (RO1 & RO2 & RO3 & RO4) & _).
  pose proof (zlen_nonneg r). pose proof (zlen_nonneg d). pose proof (zlen_nonneg path). pose proof HD as (D1 & D2 & D3). pose proof Hb as (B0 & (B1 & B2 & B3) & B4).
  eapply (colon_throws K); [exact HC|exact (proj1 (proj2 HS))|lia|].
  intros ra Hra. pose proof (tin_rpush K v ra _ _ _ _ _ _ (tin_start _ _ _ _ HS) ltac:(lia)) as I0.
  unfold d_included. change (op n ?p) with (wd (ix n) p). cbn [block].
  apply wpx_seq. eapply (tp_effect _ _ _ _ _ _ _ _ _ _ _ _ _ (two_dup_effect xa x)); [apply L; lp|cbn [app]; exact I0|wlen|intros ? <-; wlen|]. intros outs u0 <- I. cbn [app] in I.
  apply wpx_seq. eapply (tp_const K _ 0); [exact RO1|exact HD|exact RO2|exact RO3|exact RO4|red; lia|exact I|wlen|]. intros u1 I1.
  destruct (alloc_slot (t_files (cur v)) h) as [fid fl0] eqn:EA.
  destruct (alloc_slot_spec _ _ _ _ EA) as (F1 & F2 & F3 & F4).
  apply wpx_seq. eapply (tp_world K _ P_open_file v _ _ _ _ _ _ o fl0 (t_sources (cur v)) (t_lines (cur v)) (0 :: fid :: x :: xa :: d)); [apply L; lp|exact I1|wlen|wlen| |].
  { intros w J. destruct J as (JS & JD & _ & JC).
    assert (A1 : t_sources (cur w) = t_sources (cur v)) by apply JC. assert (A2 : t_lines (cur w) = t_lines (cur v)) by apply JC.
    assert (A3 : t_files (cur w) = t_files (cur v)) by apply JC. assert (A4 : v_os w = v_os v) by apply JC.
    destruct (open_file_run K w xa x a path (x :: xa :: d) o h (proj1 JS) Ha Hx ltac:(rewrite JD; exact Hb) Hpl ltac:(rewrite A4; exact HO) ltac:(unfold two64; lia)) as (s & S1 & S2 & S3).
    rewrite A3, EA in S1, S3. cbn [fst snd] in *. exists s. split; [exact S1|]. split; [exact S2|]. intros fuel ew. rewrite S3, A1, A2. reflexivity. }
  intros u2 I2. set (v2 := world o fl0 (t_sources (cur v)) (t_lines (cur v)) v) in *.
  apply wpx_seq. eapply (tp_effect K _ _ [0] _ v2 _ _ _ _ _ _ _ (zero_equals_spec 0)); [exact Sp7|exact I2|wlen|intros ? (? & -> & _); wlen|]. intros outs u3 (y & -> & Ty) I3. cbn [app] in I3.
  assert (Hy : y <> 0) by (destruct (truth_case _ _ Ty) as [_ T2]; intro E0; apply (T2 E0); reflexivity).
  eapply wpx_then; [exact (proj1 I3)|exact Hy|]. intros u4 J. destruct J as (J1 & J2 & J3 & J4). cbn [block].
  assert (Int4 : intact K n v u4) by (apply intact_eq; [exact J2|apply J4]).
  destruct (loader_stays K _ _ _ _ Int4 HSh HLo) as ((L4 & X1 & X2 & X3 & X4 & X5 & X6 & X7 & X8 & _ & _ & _ & _ & X9 & _) & ES & _).
  apply wpx_first. apply wpx_call.
  eapply (throws_conseq).
  2:{ eapply (save_full K (ix n) (l_save m) (l_restore m) (src_at m v) l u4 (fid :: x :: xa :: d) (ra :: r) f); [|rewrite J2; exact HSv|rewrite J2; exact HD|exact J1|wlen|wlen|exact Hl].
      split; [exact L4|]. exists (l_src m), (l_fetch2 m), (l_twice m), (l_store2 m), (l_pos m). rewrite <- ES. repeat (split; [first [assumption|reflexivity]|]). exact X9. }
  intros w (W1 & W2 & W3). split; [congruence|]. split.
  - rewrite W2. unfold source_of. replace (st_sid (st u4)) with (st_sid (st v2)) by (symmetry; apply J4). replace (st_idx (st u4)) with (st_idx (st v2)) by (symmetry; apply J4). unfold v2. rewrite st_world. reflexivity.
  - exists fl0. split; [|eapply calm_trans; [exact J4|exact W3]]. exists (Z.to_nat (fid - 1)). split; [exact F3|]. split; [exact F2|exact F4].
Qed.
End L.
