(** INCLUDED (C90). *)
From Coq Require Import ZArith List Bool Lia String ZifyBool ZifyNat.
From Verif Require Import Base Stack Mem Parser State CoreM IoM FileM Exec LBase LStack Spec Spec2 Spec4 Spec5 Spec6 Spec7 Spec9 Spec10 Spec11 Spec12 Spec14 Spec15 Spec16 Spec17 Spec19 Spec24 Spec25
  LState LMem LMon LMemWords LTask LFuel LCode LComp LRun LCtl LFloat LWords LSay LFile LFile2 LFile3 LFile5 LLib LLibWords LDefine LDefine2 LNoInput LSource LEval LNest LSys LPrint2 Spec27 LShell LShell2 Spec28 LTrim LTrim2 LInc.
Import ListNotations.
Open Scope list_scope.
Open Scope Z_scope.
Open Scope m_scope.

Section L.
Context {E : Env}.
Variable K : Z -> Prop.
Implicit Types (v w u : vm).
Ltac lp := clear; unfold lib_prims; cbn; tauto.

(** ** Exact results *)
Lemma open_source_run v fid h (u : Z) xa a n l id ss : open_as v fid h -> stack_has (t_s (cur v)) (fid :: u :: xa :: l) -> addr_of xa a -> addr_of u (zlen n) ->
  bytes_at (v_ds v) a n -> alloc_slot (t_sources (cur v)) (mkSource (os_reader (v_os v) h) n) = (id, ss) ->
  exists s, stack_has s (id :: l) /\ high_slots_kept (t_s (cur v)) s /\ forall fuel ew, exec_prim fuel ew P_open_source v =
    Ok (tt, after2 v s (v_os v) (set_nth (t_files (cur v)) (Z.to_nat (fid - 1)) None) ss
            (match first_none (t_sources (cur v)) with Some _ => t_lines (cur v) | None => t_lines (cur v) ++ [Some []] end)).
Proof.
  intros Ho Hs Ha Hu Hb Ea. apply addr_of_to_u64 in Ha. apply addr_of_to_u64 in Hu.
  pose proof (stack_has_bound _ _ Hs) as Hbd. pose proof (stack_has_len _ _ Hs) as Hl. rewrite !zlen_cons in Hl.
  destruct (pop3_then v xa u fid l Hs) as (s & E1 & H1 & H2 & H3).
  assert (Hp : popped v s 3 l) by (repeat (split; [assumption|]); assumption).
  destruct Ho as [Ho1 Ho2]. assert (Hfl : (Z.to_nat (fid - 1) < List.length (t_files (cur v)))%nat) by (apply nth_error_Some; congruence).
  destruct (push1_popped _ _ _ _ id Hp ltac:(lia) ltac:(lia)) as [P1 P2].
  exists (push s id). split; [exact P1|]. split; [exact P2|]. intros fuel ew.
  cbn [exec_prim]. unfold open_source. rewrite E1, set_s_is2, bind_gets, files_after2.
  replace ((0 <? fid) && (fid - 1 <? zlen (t_files (cur v)))) with true by (unfold zlen; lia).
  unfold nth_opt. replace (0 <=? fid - 1) with true by lia. rewrite Ho2, bind_modify, files_after2, set_files_after2.
  match goal with |- bind (ds_get ?f) _ ?w = _ => rewrite (bind_Ok (ds_get f) _ w n w) end.
  2:{ apply ds_get_eq. change (v_ds (after2 v ?a ?b ?c ?d ?e)) with (v_ds v). rewrite Ha, Hu. apply bytes_at_read. exact Hb. }
  rewrite bind_gets, bind_gets, sources_after2. change (v_os (after2 v s (v_os v) ?c ?d ?e)) with (v_os v). cbv zeta. rewrite Ea. cbn [fst snd].
  rewrite bind_modify, set_sources_after2. rewrite (bind_Ok _ _ _ _ _ (push_after2 id v s _ _ _ _)).
  destruct (first_none (t_sources (cur v))); [reflexivity|]. unfold modify. rewrite lines_after2, set_lines_after2. reflexivity.
Qed.
Lemma close_source_run v id sr l : source_as v id sr -> st_sid (st v) <> id -> stack_has (t_s (cur v)) (id :: l) ->
  exists s, stack_has s l /\ high_slots_kept (t_s (cur v)) s /\ forall fuel ew, exec_prim fuel ew P_close_source v =
    Ok (tt, after2 v s (os_close_reader (v_os v) (src_reader sr)) (t_files (cur v)) (set_nth (t_sources (cur v)) (Z.to_nat (id - 1)) None) (t_lines (cur v))).
Proof.
  intros Hs Hn Hk. destruct (pop_then v id l Hk) as (s & E1 & H1 & H2 & H3). destruct (source_index v id sr Hs) as [Hb Hi].
  exists s. split; [exact H1|]. split; [exact H2|]. intros fuel ew. cbn [exec_prim]. unfold close_source. rewrite E1, set_s_is2, bind_gets.
  replace (st_sid (st (after2 v s (v_os v) (t_files (cur v)) (t_sources (cur v)) (t_lines (cur v)))) =? id) with false
    by (unfold st in *; rewrite cur_after2; cbn [t_state set_t_lines set_t_sources set_t_files set_t_s]; lia).
  rewrite bind_gets, sources_after2, Hb, Hi, bind_modify, sources_after2, set_sources_after2. reflexivity.
Qed.
Lemma open_file_run v xa (u : Z) a path l o h : stack_has (t_s (cur v)) (0 :: u :: xa :: l) -> addr_of xa a -> addr_of u (zlen path) -> bytes_at (v_ds v) a path -> zlen path <= 256 ->
  os_open (v_os v) path (mkOpts true false false false) = (o, Some h) -> a + zlen path < two64 ->
  exists s, stack_has s (0 :: fst (alloc_slot (t_files (cur v)) h) :: l) /\ high_slots_kept (t_s (cur v)) s /\ forall fuel ew, exec_prim fuel ew P_open_file v =
    Ok (tt, after2 v s o (snd (alloc_slot (t_files (cur v)) h)) (t_sources (cur v)) (t_lines (cur v))).
Proof.
  intros Hs Ha Hu Hb Hl HO Ho. pose proof (stack_has_bound _ _ Hs) as Hbd. pose proof (stack_has_len _ _ Hs) as HL. rewrite !zlen_cons in HL.
  apply addr_of_to_u64 in Ha. apply addr_of_to_u64 in Hu.
  destruct (opening_run P_open_file v xa u 0 l ltac:(cbn; tauto) Hs) as (s & Hp & Hr). cbn [opts_of Z.eqb] in Hr.
  destruct (push2_popped _ _ _ _ (fst (alloc_slot (t_files (cur v)) h)) 0 Hp ltac:(lia) ltac:(lia)) as [A B].
  eexists. split; [exact A|]. split; [exact B|]. intros fuel ew. rewrite Hr, Hu. replace (256 <? zlen path) with false by lia.
  pose proof (zlen_nonneg path). pose proof Hb as (B0 & (B1 & B2 & B3) & _).
  rewrite open_common_run by (first [rewrite Ha|idtac]; unfold two64 in *; lia). rewrite Ha, fits_small by exact Ho.
  replace (in_ds (v_ds v) a (zlen path)) with true by (symmetry; apply in_ds_true; lia).
  rewrite (bytes_at_read _ _ _ Hb). cbv zeta. rewrite HO. cbn [fst snd]. rewrite after_is2. reflexivity.
Qed.

(** ** More steps *)
Lemma world_world o fl ss ls o' fl' ss' ls' v : world o' fl' ss' ls' (world o fl ss ls v) = world o' fl' ss' ls' v.
Proof. unfold world, upd_cur, put_task, cur, task_at. cbn. rewrite tget_tset_same, tset_tset. reflexivity. Qed.
Lemma tp_postponed i j v0 d r f m o v (Q : vm -> Prop) : word_is v0 i P__postpone -> tin v0 (j :: d) r f m o v -> zlen d < 64 -> 0 <= j < words v0 -> j < 2 ^ 63 ->
  w_cs (word_of v0 j) <> CS_compile_leave -> ds_ok m -> here m + 8 <= limit m -> (forall k, K k -> start m <= k < here m) ->
  (forall u m', same_memory_but m m' (here m) 8 -> cell_at m' (here m) j -> here m' = here m + 8 -> tin v0 d r f m' o u -> Q u) -> wp K (Op i) Q v.
Proof.
  intros W HI Hd Hj Hj2 HC HD HL HK HQ.
  eapply (tp_memory K i P__postpone v0 _ d r f m o v (here m) 8 (fun m' => cell_at m' (here m) j /\ here m' = here m + 8)); [exact W|exact HI|wlen|lia| | |].
  - intros k Hk. specialize (HK k Hk). lia.
  - intros fuel ew u J. assert (EM : v_ds u = m) by apply J. pose proof (inv_wl _ _ _ _ _ _ _ J) as EW.
    destruct (pop_then u j d (proj1 (proj1 J))) as (s1 & EP & S1 & S2 & _).
    destruct (compile_cell_ok m j HD HL) as (d1 & E1 & C1 & M1 & H1 & HI1 & HC1).
    exists (set_v_ds d1 (set_s s1 u)). split; [|split; [|split; [exact M1|split; [auto|]]]].
    + cbn [exec_prim]. unfold _postpone. rewrite EP. cbv zeta. change (2 ^ 63) with 9223372036854775808 in *. rewrite to_u64_id by (unfold two64; lia).
      rewrite (bind_Ok (word_at j) _ (set_s s1 u) (word_of v0 j) (set_s s1 u)).
      2:{ unfold word_of. rewrite <- EW. apply (word_at_ok (set_s s1 u) j). unfold words in *. change (v_wl (set_s s1 u)) with (v_wl u). rewrite EW. exact Hj. }
      assert (EC : compile_word j (set_s s1 u) = Ok (tt, set_v_ds d1 (set_s s1 u))).
      { unfold compile_word, ds_upd. change (v_ds (set_s s1 u)) with (v_ds u). rewrite EM, E1. reflexivity. }
      rewrite <- EC. destruct (w_cs (word_of v0 j)); try reflexivity. congruence.
    + change (cur (set_v_ds d1 (set_s s1 u))) with (cur (set_s s1 u)). rewrite cur_set_s. exact S1.
    + apply only_data_memory_set; [exact S2|cbn; congruence|cbn; congruence].
  - intros u m' S1 [C1 G1] I1. eapply HQ; eassumption.
Qed.

Lemma load_call R n m id s l (Q : vm -> Prop) c v d r f : shell K n v -> loader K n m v -> loading R n m id s l c v -> stacks_are v d r f -> zlen r <= 59 ->
  (forall rb, 0 <= rb < 2 ^ 63 -> follows R K n m id s l Q c (add_r rb v)) ->
  wp K (Op (l_load m)) (fun u => exists w rb, Q w /\ u = drop_r 1 w /\ loaded K n m id s l (rb :: r) v w) v.
Proof.
  intros HSh HLo HLd HS Hr HF. pose proof HLo as (_ & _ & _ & _ & _ & _ & _ & _ & _ & HC & _). apply wp_call. pose proof (zlen_nonneg r).
  apply (colon_does_z K v _ _ _ (fun _ u => exists w rb, Q w /\ u = drop_r 1 w /\ loaded K n m id s l (rb :: r) v w) r HC (proj1 (proj2 HS)) ltac:(lia)).
  intros rb Hrb. apply wpz_wp.
  pose proof (intact_add_r K _ _ _ rb (intact_refl K n v)) as IA. pose proof (shell_stays K _ _ _ IA HSh) as HSh'. pose proof (loader_stays K _ _ _ _ IA HSh HLo) as (HLo' & _).
  assert (HS' : stacks_are (add_r rb v) d (rb :: r) f).
  { destruct HS as (A & B & C). unfold stacks_are. split; [unfold add_r; rewrite cur_set_r; exact A|]. split; [apply has_add_r; [exact B|lia]|unfold add_r; rewrite cur_set_r; exact C]. }
  assert (HLd' : loading R n m id s l c (add_r rb v)).
  { unfold loading, source_as, line_of, selectable, add_r, st, src_at, line_at, body, word_of in *. rewrite cur_set_r. exact HLd. }
  unfold d_load. apply wp_seq. eapply wp_conseq; [|eapply (load_wp K R n m id s l Q (S (List.length c)) c ltac:(lia) (add_r rb v) (HF rb Hrb) d (rb :: r) f (add_r rb v) HSh' HLo' HLd' HS' ltac:(wlen) (alike_refl _))].
  intros u1 H1. eapply wp_conseq; [|exact H1]. intros w (q & HLd2). pose proof HLd2 as (I2 & _ & _ & _ & _ & _ & d2 & f2 & S2 & D2).
  pose proof (proj1 (loader_stays K _ _ _ _ I2 HSh' HLo')) as (L2 & _).
  split; [apply L2; lp|]. exists r. split; [apply S2|]. exists w, rb. split; [exact q|]. split; [reflexivity|].
  eapply loaded_after; [exact IA|exact HLd2].
Qed.

Lemma calm_unr s v u : calm (set_r s v) u -> canary s = canary (t_r (cur v)) -> sget s 255 = sget (t_r (cur v)) 255 -> calm v u.
Proof.
  unfold calm, st. rewrite cur_set_r. cbn [t_awake t_c t_inbuf t_files t_sources t_lines t_state t_s t_r set_t_r]. intros H A B.
  rewrite A, B in H. repeat match goal with H : _ /\ _ |- _ => destruct H end. repeat (split; [assumption|]).
  split; [|repeat split; assumption]. intros i J1 J2 J3. match goal with H : same_other_tasks _ _ |- _ => specialize (H i J1) end.
  unfold set_r, upd_cur, task_at, put_task in *. cbn in *. rewrite tget_tset_other in * by congruence. auto.
Qed.
Lemma world_r o fl ss ls s t v : world o fl ss ls (with_source (set_r s v) t) = set_r s (world o fl ss ls (with_source v t)).
Proof.
  unfold world, with_source, set_sid, set_idx, set_st, set_r, upd_cur, put_task, cur, task_at, st, cur, task_at. cbn. rewrite !tget_tset_same, !tset_tset. cbn. reflexivity.
Qed.
Lemma included_wp R n m path o h c l (Q : vm -> Prop) v xa x a d r f : shell K n v -> loader K n m v -> at_home m l v -> spare K n m v -> can_open R path o h c a v ->
  stacks_are v (x :: xa :: d) r f -> addr_of xa a -> addr_of x (zlen path) -> zlen d <= 48 -> zlen r <= 56 ->
  (a + zlen path <= src_at m v \/ src_at m v + 272 <= a) ->
  (forall id v1, opened n m o h path l d r f v id v1 -> follows R K n m id (source_of v) l Q c v1) ->
  does K v (l_included m) (fun v' => exists id w, ~ is_source v id /\ Q w /\ closed_again m id (source_of v) l w v').
Proof.
  intros HSh HLo (HD & HSv & Hl & Hs & Hp & HSel & HLL & HZ & HNN) (Sp1 & Sp2 & Sp3 & Sp4 & Sp5 & Sp6 & Sp7) (Hb & Hpl & HO & HR) HS Ha Hx Hd Hr HDj HF.
  pose proof HLo as (L & _ & _ & _ & _ & _ & _ & _ & _ & _ & HC & (RO1 & RO2 & RO3 & RO4) & KR & FS & FL & DJ & _).
  pose proof (zlen_nonneg r). pose proof (zlen_nonneg d). pose proof (zlen_nonneg path). pose proof HD as (D1 & D2 & D3).
  pose proof Hb as (B0 & (B1 & B2 & B3) & B4).
  apply (colon_does_z K v _ _ _ (fun _ v' => exists id w, ~ is_source v id /\ Q w /\ closed_again m id (source_of v) l w v') r HC (proj1 (proj2 HS)) ltac:(lia)).
  intros ra Hra. apply wpz_wp. pose proof (tin_rpush K v ra _ _ _ _ _ _ (tin_start _ _ _ _ HS) ltac:(lia)) as I0.
  unfold d_included. change (op n ?p) with (wd (ix n) p).
  t_is (two_dup_effect xa x).
  seqs. eapply (tp_const K _ 0); [exact RO1|exact HD|exact RO2|exact RO3|exact RO4|red; lia|eassumption|wlen|]. intros u1 I1.
  destruct (alloc_slot (t_files (cur v)) h) as [fid fl0] eqn:EA.
  destruct (alloc_slot_spec _ _ _ _ EA) as (F1 & F2 & F3 & F4).
  seqs. eapply (tp_world K _ P_open_file v _ _ _ _ _ _ o fl0 (t_sources (cur v)) (t_lines (cur v)) (0 :: fid :: x :: xa :: d)); [apply L; lp|exact I1|wlen|wlen| |].
  { intros w J. destruct J as (JS & JD & _ & JC).
    assert (A1 : t_sources (cur w) = t_sources (cur v)) by apply JC. assert (A2 : t_lines (cur w) = t_lines (cur v)) by apply JC.
    assert (A3 : t_files (cur w) = t_files (cur v)) by apply JC. assert (A4 : v_os w = v_os v) by apply JC.
    destruct (open_file_run w xa x a path (x :: xa :: d) o h (proj1 JS) Ha Hx ltac:(rewrite JD; exact Hb) Hpl ltac:(rewrite A4; exact HO) ltac:(unfold two64; lia)) as (s & S1 & S2 & S3).
    rewrite A3, EA in S1, S3. cbn [fst snd] in *. exists s. split; [exact S1|]. split; [exact S2|]. intros fuel ew. rewrite S3, A1, A2. reflexivity. }
  intros u2 I2. set (v2 := world o fl0 (t_sources (cur v)) (t_lines (cur v)) v) in *.
  assert (Int2 : intact K n v v2) by (apply intact_eq; reflexivity).
  pose proof (shell_stays K _ _ _ Int2 HSh) as HSh2. destruct (loader_stays K _ _ _ _ Int2 HSh HLo) as (HLo2 & ES2 & EL2). pose proof HLo2 as (L2 & HLo2').
  eapply wp_seq. eapply (tp_effect K _ _ [0] _ v2 _ _ _ _ _ _ _ (zero_equals_spec 0)); [exact Sp7|exact I2|wlen|intros ? (? & -> & _); wlen|]. intros outs u3 (y & -> & Ty) I3. cbn [app] in I3.
  assert (Hy : y <> 0) by (destruct (truth_case _ _ Ty) as [_ T2]; intro E0; apply (T2 E0); reflexivity).
  eapply tp_if_else; [exact I3|wlen| |intro E0; congruence]. intros _ u4 I4. cbn [block].
  assert (SW2 : source_words K (ix n) v2 (l_save m) (l_restore m) (src_at m v)).
  { destruct HLo2' as (X1 & X2 & X3 & X4 & X5 & X6 & X7 & X8 & _ & _ & _ & _ & X9 & _). split; [exact L2|]. exists (l_src m), (l_fetch2 m), (l_twice m), (l_store2 m), (l_pos m). rewrite <- ES2. repeat (split; [first [assumption|reflexivity]|]). exact X9. }
  assert (EW2 : st v2 = st v) by apply st_world.
  apply wp_seq. eapply (save_tp K (ix n) _ (l_restore m) (src_at m v) l v2); [exact SW2|apply kept_eq; [apply (tin_ds _ _ _ _ _ _ _ I4)|eapply tin_wl; exact I4]|exact HSv|exact HD|exact I4|wlen|wlen|rewrite EW2; exact Hs|rewrite EW2; exact Hp|exact Hl|].
  intros m5 u5 SV5 SM5 HE5 K5 I5. replace (source_of v2) with (source_of v) in SV5 by (unfold source_of; rewrite EW2; reflexivity).
  destruct (alloc_slot (t_sources (cur v)) (mkSource (os_reader o h) path)) as [id ss] eqn:EA2.
  destruct (alloc_slot_spec _ _ _ _ EA2) as (G1 & G2 & G3 & G4).
  set (fl := set_nth fl0 (Z.to_nat (fid - 1)) None) in *.
  set (ls := match first_none (t_sources (cur v)) with Some _ => t_lines (cur v) | None => t_lines (cur v) ++ [Some []] end) in *.
  assert (HFi : (Z.to_nat (fid - 1) < List.length fl0)%nat) by (apply nth_error_Some; congruence).
  assert (Hb5 : bytes_at m5 a path).
  { split; [exact B0|]. split; [destruct SM5 as (P1 & P2 & _); unfold in_space; rewrite P1, P2; lia|]. intros k z Hk. rewrite (proj2 (proj2 SM5)); [apply B4; exact Hk|lia|].
    assert (k < List.length path)%nat by (apply nth_error_Some; congruence). unfold zlen in *. lia. }
  apply wp_seq. eapply (tp_world K _ P_open_source v2 _ _ _ _ _ _ o fl ss ls (id :: d)); [apply L2; lp|exact I5|wlen|wlen| |].
  { intros w J. destruct J as (JS & JD & _ & JC).
    assert (A1 : t_sources (cur w) = t_sources (cur v)) by (replace (t_sources (cur w)) with (t_sources (cur v2)) by (symmetry; apply JC); unfold v2; rewrite cur_world; reflexivity).
    assert (A2 : t_lines (cur w) = t_lines (cur v)) by (replace (t_lines (cur w)) with (t_lines (cur v2)) by (symmetry; apply JC); unfold v2; rewrite cur_world; reflexivity).
    assert (A3 : t_files (cur w) = fl0) by (replace (t_files (cur w)) with (t_files (cur v2)) by (symmetry; apply JC); unfold v2; rewrite cur_world; reflexivity).
    assert (A4 : v_os w = o) by (replace (v_os w) with (v_os v2) by (symmetry; apply JC); reflexivity).
    destruct (open_source_run w fid h x xa a path d id ss) as (s & S1 & S2 & S3);
      [split; [exact F1|rewrite A3; exact F3]|apply (proj1 JS)|exact Ha|exact Hx|rewrite JD; exact Hb5|rewrite A1, A4; exact EA2|].
    exists s. split; [exact S1|]. split; [exact S2|]. intros fuel ew. rewrite S3, A1, A2, A3, A4. reflexivity. }
  intros u6 I6. unfold v2 in I6. rewrite world_world in I6. set (v6 := world o fl ss ls v) in *.
  assert (Int6 : intact K n v v6) by (apply intact_eq; reflexivity).
  pose proof (shell_stays K _ _ _ Int6 HSh) as HSh6. destruct (loader_stays K _ _ _ _ Int6 HSh HLo) as (HLo6 & ES6 & EL6). pose proof HLo6 as (L6 & HLo6').
  assert (Hlid : exists t, nth_error ls (Z.to_nat (id - 1)) = Some (Some t)).
  { unfold alloc_slot in EA2. unfold ls. pose proof (first_none_spec (t_sources (cur v))) as FN. destruct (first_none (t_sources (cur v))) as [k|]; injection EA2 as E1 _.
    - replace (Z.to_nat (id - 1)) with k by lia. assert (k < List.length (t_lines (cur v)))%nat by (rewrite HLL; apply nth_error_Some; congruence).
      destruct (nth_error (t_lines (cur v)) k) as [[t|]|] eqn:En; [eauto|elim (HNN k); exact En|apply nth_error_None in En; lia].
    - unfold zlen in E1. exists []. rewrite nth_error_app2 by lia. replace (Z.to_nat (id - 1) - List.length (t_lines (cur v)))%nat with O by lia. reflexivity. }
  assert (Hlk : forall k t, nth_error (t_lines (cur v)) k = Some t -> nth_error ls k = Some t).
  { intros k t Hk. unfold ls. destruct (first_none _); [exact Hk|]. rewrite nth_error_app1; [exact Hk|]. apply nth_error_Some. congruence. }
  assert (Hfk : forall k z, nth_error fl k = Some (Some z) <-> nth_error (t_files (cur v)) k = Some (Some z)).
  { intros k z. unfold fl. destruct (Nat.eq_dec k (Z.to_nat (fid - 1))) as [->|N].
    - rewrite nth_set_nth by exact HFi. split; [discriminate|intro X; elim (F2 _ X)].
    - rewrite nth_set_other, F4 by exact N. reflexivity. }
  assert (Hidc : is_cell id).
  { unfold alloc_slot in EA2. pose proof (first_none_spec (t_sources (cur v))) as FN. unfold zlen, is_cell in *. destruct (first_none (t_sources (cur v))) as [k|]; injection EA2 as E1 _; [|lia].
    assert (k < List.length (t_sources (cur v)))%nat by (apply nth_error_Some; congruence). lia. }
  assert (Hns : ~ is_source v id) by (intros [z [_ Hz]]; exact (G2 _ Hz)).
  assert (Hne : st_sid (st v) <> id).
  { intro E1. destruct HSel as [E0|(E0 & (z & Hz) & _)]; [lia|]. rewrite E1 in Hz. exact (G2 _ Hz). }
  assert (Sel6 : selectable v6 id).
  { right. split; [lia|]. unfold v6. rewrite cur_world. cbn [t_sources t_lines set_t_lines set_t_sources set_t_files]. split; [eauto|exact Hlid]. }
  apply wp_seq. eapply tp_set_sid; [apply L6; lp|exact I6|wlen|exact Sel6|]. intros u7 I7.
  set (v8 := set_sid id v6) in *.
  assert (Int8 : intact K n v v8) by (apply intact_eq; reflexivity).
  pose proof (shell_stays K _ _ _ Int8 HSh) as HSh8. destruct (loader_stays K _ _ _ _ Int8 HSh HLo) as (HLo8 & ES8 & EL8). pose proof HLo8 as (L8 & HLo8').
  pose proof (same_ok _ _ _ _ HD SM5 HE5) as HD5. pose proof SM5 as (M1 & M2 & M3). destruct FL as (FL1 & FL2 & FL3). destruct FS as (FS1 & FS2 & FS3).
  assert (WB : word_is v (ix n P_left_bracket) P_left_bracket) by (apply L; lp). pose proof (proj1 WB) as WI. fold (words v) in WI.
  apply wp_seq. eapply tp_num; [exact I7|wlen|]. intros u8 I8.
  apply wp_seq. eapply (tp_postponed (ix n P__postpone) (ix n P_left_bracket) v8); [apply L8; lp|exact I8|wlen|exact WI|clear - WI Sp6; lia|exact Sp5|exact HD5|rewrite HE5, M2; exact Sp4|intros k Hk; specialize (FL3 k Hk); specialize (Sp1 k Hk); rewrite HE5; clear - FL3 Sp1 M1; lia|].
  intros u8' m8 S8 C8 E8 I8'. rewrite HE5 in S8, C8, E8. pose proof S8 as (P1 & P2 & P3).
  assert (HD8 : ds_ok m8) by (destruct HD5 as (X1 & X2 & X3); unfold ds_ok; rewrite P1, P2, E8; clear - X1 X2 X3 Sp4 M2 HE5; lia).
  apply wp_seq. eapply tp_num; [exact I8'|wlen|]. intros u9 I9.
  apply wp_seq. eapply (tp_var K _ v8); [apply HSh8|change (body v8 (n_line n)) with (line_at n v); clear - FL1 FL2 D1 D3; lia|exact I9|wlen|]. intros u10 I10. change (body v8 (n_line n)) with (line_at n v) in I10.
  apply wp_seq. eapply (tp_store K); [apply L8; lp|exact I10|wlen|exact HD8|clear - FL1 M1 P1; lia|clear - FL2 M2 P2; lia|intros k Hk; specialize (FL3 k Hk); clear - FL3 M1 P1; lia|]. intros u11 m11 S11 C11 E11 I11.
  pose proof (same_ok _ _ _ _ HD8 S11 E11) as HD11. pose proof S11 as (N1 & N2 & N3).
  assert (K11 : kept K v u11).
  { eapply (kept_then K v u8' u11 m8 m11); [|apply (tin_ds _ _ _ _ _ _ _ I8')|exact S11|intros k Hk; specialize (FL3 k Hk); clear - FL3 M1 P1; lia|apply (tin_ds _ _ _ _ _ _ _ I11)|rewrite (tin_wl _ _ _ _ _ _ _ I11), (tin_wl _ _ _ _ _ _ _ I8'); reflexivity].
    eapply (kept_then K v u5 u8' m5 m8); [eapply kept_trans; [apply Int2|exact K5]|apply (tin_ds _ _ _ _ _ _ _ I5)|exact S8|intros k Hk; specialize (FL3 k Hk); specialize (Sp1 k Hk); clear - FL3 M1 Sp1; lia|apply (tin_ds _ _ _ _ _ _ _ I8')|].
    rewrite (tin_wl _ _ _ _ _ _ _ I8'), (tin_wl _ _ _ _ _ _ _ I5). reflexivity. }
  assert (Int11 : intact K n v u11).
  { split; [exact K11|]. intros i _ Hi. unfold words, word_of in *. rewrite (tin_wl _ _ _ _ _ _ _ I11). split; [apply Hi|reflexivity]. }
  pose proof (shell_stays K _ _ _ Int11 HSh) as HSh11. destruct (loader_stays K _ _ _ _ Int11 HSh HLo) as (HLo11 & ES11 & EL11).
  assert (SV11 : saved m11 (src_at m v) (source_of v :: l)) by (eapply (loading_saved K); [eapply (loading_saved K); [exact SV5|exact S8|clear - FS1 M1; lia|clear - Sp2; lia]|exact S11|clear - FS1 M1 P1; lia|clear - DJ; lia]).
  assert (CA8 : calm v8 u11) by apply (proj1 I11). assert (Ed11 : v_ds u11 = m11) by apply (proj1 I11).
  assert (T11 : trim v u11). { destruct I11 as [_ T]. eapply trim_both; [exact T|..]; unfold v8, v6; gnorm; rewrite ?cur_world; reflexivity. }
  assert (O11 : v_out u11 = v_out v) by apply (proj1 I11). assert (S11' : stacks_are u11 d (ra :: r) f) by apply (proj1 I11).
  assert (CS : t_sources (cur u11) = ss) by (replace (t_sources (cur u11)) with (t_sources (cur v8)) by (symmetry; apply CA8); unfold v8, v6; gnorm; rewrite cur_world; reflexivity).
  assert (CL : t_lines (cur u11) = ls) by (replace (t_lines (cur u11)) with (t_lines (cur v8)) by (symmetry; apply CA8); unfold v8, v6; gnorm; rewrite cur_world; reflexivity).
  assert (CO : v_os u11 = o) by (replace (v_os u11) with (v_os v8) by (symmetry; apply CA8); reflexivity).
  assert (CI : st_sid (st u11) = id) by (replace (st_sid (st u11)) with (st_sid (st v8)) by (symmetry; apply CA8); unfold v8; gnorm; reflexivity).
  assert (HLd : loading R n m id (source_of v) l c u11).
  { unfold loading, source_as, line_of, selectable. rewrite CS, CL, CO, CI, Ed11, ES11, EL11. destruct Hlid as [t Ht].
    split; [eexists; split; [split; [exact G1|exact G3]|exact HR]|]. split; [rewrite Ht; discriminate|]. split; [exact Hidc|]. split; [exact HD11|].
    split; [exact SV11|]. split.
    { cbn [fst source_of]. destruct HSel as [E0|(E0 & (z1 & Hz1) & (z2 & Hz2))]; [left; exact E0|]. right. split; [exact E0|]. split.
      - exists z1. rewrite G4; [exact Hz1|]. intro X. rewrite X in Hz1. exact (G2 _ Hz1).
      - exists z2. apply Hlk. exact Hz2. }
    split; [exists f; apply S11'|]. split; [exists 1; split; [exact C11|red; lia]|]. split; [reflexivity|]. exists d. split; [apply S11'|lia]. }
  apply wp_seq. eapply wp_conseq; [|eapply (load_call R n m id (source_of v) l Q c u11 d (ra :: r) f); [exact HSh11|exact HLo11|exact HLd|exact S11'|wlen|]].
  2: { intros rb Hrb. apply HF. exists fl, ss, ls, ra, rb. split; [exact G1|]. split; [exact Hns|]. split; [exact G3|]. split; [exact G4|]. split; [exact Hlid|]. split; [exact Hlk|]. split; [exact Hfk|].
       change (v_ds (add_r rb u11)) with (v_ds u11). rewrite Ed11. split; [exact HD11|]. split; [exact SV11|]. split; [exact C11|]. split; [congruence|]. split; [eapply cell_keep; [exact S11|clear - D2 M1 P1; lia|clear - Sp3; lia|exact C8]|]. split; [congruence|]. split; [congruence|].
       split; [intros k Q1 Q2 Q3 Q4; rewrite N3; [|clear - Q1 M1 P1; lia|exact Q3]; rewrite P3; [|clear - Q1 M1; lia|exact Q4]; apply M3; [exact Q1|exact Q2]|].
       pose proof (tin_rpush K v8 rb _ _ _ _ _ _ I11 ltac:(wlen)) as [(X1 & _ & X3 & X4) X5]. split; [exact X1|]. split; [exact X3|]. split; [exact X4|].
       eapply trim_both; [exact X5|..]; unfold v8, v6; gnorm; rewrite ?cur_world; reflexivity. }
  intros u12 (w & rb & q & -> & I12 & Hw1 & (sr & Hw2) & Hw3 & Hw4 & Hw5 & d2 & f2 & Hw6 & Hw7).
  assert (IntW : intact K n v w) by (eapply intact_trans; [exact Int11|exact I12]).
  assert (IntX : intact K n v (drop_r 1 w)) by (apply intact_drop_r; exact IntW).
  pose proof (loader_stays K _ _ _ _ IntX HSh HLo) as (HLo12 & ES12 & EL12). pose proof HLo12 as (L12 & HLo12').
  change (src_at m w) with (src_at m (drop_r 1 w)) in Hw4. rewrite ES12 in Hw4.
  set (x0 := drop_r 1 w) in *. change (v_ds w) with (v_ds x0) in Hw3, Hw4.
  assert (CX : cur x0 = set_t_r (drop_items 1 (t_r (cur w))) (cur w)) by (unfold x0, drop_r; rewrite cur_set_r; reflexivity).
  assert (SX : stacks_are x0 d2 (ra :: r) f2). { destruct Hw6 as (X1 & X2 & X3). unfold stacks_are. rewrite CX. cbn [t_s t_r t_f set_t_r]. split; [exact X1|]. split; [apply (drop_has _ [rb]); exact X2|exact X3]. }
  assert (STX : st x0 = st w) by (unfold st; rewrite CX; reflexivity).
  assert (SelX : selectable x0 (fst (source_of v))) by (unfold selectable in *; rewrite CX; exact Hw5).
  assert (SrX : source_as x0 id sr) by (unfold source_as in *; rewrite CX; exact Hw2).
  pose proof (tin_start _ _ _ _ SX) as J0. pose proof (zlen_nonneg d2).
  apply wp_seq. eapply (tp_part K _ _ (fun v => st_sid (st v)) x0); [apply L12; lp|reflexivity|intros z C; apply C|exact J0|lia|]. intros u13 J1. cbv beta in J1. rewrite STX, Hw1 in J1.
  assert (SWX : source_words K (ix n) x0 (l_save m) (l_restore m) (src_at m v)).
  { destruct HLo12' as (X1 & X2 & X3 & X4 & X5 & X6 & X7 & X8 & _ & _ & _ & _ & X9 & _). split; [exact L12|]. exists (l_src m), (l_fetch2 m), (l_twice m), (l_store2 m), (l_pos m). rewrite <- ES12. repeat (split; [first [assumption|reflexivity]|]). exact X9. }
  destruct (source_of v) as [sid0 idx0] eqn:ESO. cbn [fst] in *.
  apply wp_seq. eapply (restore_tp K (ix n) (l_save m) _ (src_at m v) sid0 idx0 l x0); [exact SWX|apply kept_eq; [apply (tin_ds _ _ _ _ _ _ _ J1)|eapply tin_wl; exact J1]|exact Hw4|exact Hw3|exact J1|wlen|wlen|exact SelX|].
  intros m14 u14 SV14 SM14 HE14 K14 J2. set (y0 := with_source x0 (sid0, idx0)) in *.
  assert (SrY : source_as y0 id sr) by (unfold source_as, y0, with_source in *; gnorm; exact SrX).
  assert (SidY : st_sid (st y0) <> id). { unfold y0, with_source. gnorm. cbn [fst]. unfold source_of in ESO. injection ESO as <- _. exact Hne. }
  assert (CYs : t_sources (cur y0) = t_sources (cur w) /\ t_lines (cur y0) = t_lines (cur w) /\ t_files (cur y0) = t_files (cur w) /\ v_os y0 = v_os w).
  { unfold y0, with_source. gnorm. rewrite CX. auto. }
  destruct CYs as (CY1 & CY2 & CY3 & CY4).
  eapply (tp_world K _ P_close_source y0 _ _ _ _ _ _ (os_close_reader (v_os w) (src_reader sr)) (t_files (cur w)) (set_nth (t_sources (cur w)) (Z.to_nat (id - 1)) None) (t_lines (cur w)) d2); [apply L12; lp|exact J2|wlen|wlen| |].
  { intros z J. destruct J as (JS & JD & _ & JC).
    assert (A1 : t_sources (cur z) = t_sources (cur w)) by (rewrite <- CY1; apply JC). assert (A2 : t_lines (cur z) = t_lines (cur w)) by (rewrite <- CY2; apply JC).
    assert (A3 : t_files (cur z) = t_files (cur w)) by (rewrite <- CY3; apply JC). assert (A4 : v_os z = v_os w) by (rewrite <- CY4; apply JC).
    destruct (close_source_run z id sr d2) as (s & S1 & S2 & S3).
    - split; [apply SrY|]. rewrite A1, <- CY1. apply SrY.
    - replace (st_sid (st z)) with (st_sid (st y0)) by (symmetry; apply JC). exact SidY.
    - apply (proj1 JS).
    - exists s. split; [exact S1|]. split; [exact S2|]. intros fuel ew. rewrite S3, A1, A2, A3, A4. reflexivity. }
  intros u15 J3. split; [unfold word_is; rewrite (tin_wl _ _ _ _ _ _ _ J3); apply L12; lp|]. exists r. split; [apply (proj1 J3)|].
  exists id, w. split; [exact Hns|]. split; [exact q|].
  exists sr, d2, ra, rb, r, f2. split; [exact Hw2|]. split; [exact Hw6|].
  pose proof (tin_rdrop _ _ _ _ _ _ _ _ J3 ltac:(lia)) as [(Z1 & Z2 & Z3 & Z4) Z5]. rewrite Z2. split; [exact Z1|].
  change (src_at m w) with (src_at m x0). rewrite ES12. split; [exact SV14|]. split; [exact SM14|]. split; [exact HE14|]. split; [exact Z3|].
  unfold y0, x0, drop_r in Z4, Z5. rewrite world_r in Z4, Z5. split.
  - eapply calm_unr; [exact Z4|..]; unfold with_source; rewrite cur_world; cbn [t_r set_t_lines set_t_sources set_t_files]; gnorm; reflexivity.
  - assert (G0 : cur (set_r (drop_items 1 (t_r (cur w))) (world (os_close_reader (v_os w) (src_reader sr)) (t_files (cur w)) (set_nth (t_sources (cur w)) (Z.to_nat (id - 1)) None) (t_lines (cur w)) (with_source w (sid0, idx0))))
      = set_t_r (drop_items 1 (t_r (cur w))) (cur (world (os_close_reader (v_os w) (src_reader sr)) (t_files (cur w)) (set_nth (t_sources (cur w)) (Z.to_nat (id - 1)) None) (t_lines (cur w)) (with_source w (sid0, idx0))))) by apply cur_set_r.
    unfold trim in Z5 |- *. rewrite G0, cur_world in Z5. cbn [t_s t_r t_f set_t_r set_t_lines set_t_sources set_t_files] in Z5.
    assert (G1' : t_s (cur (with_source w (sid0, idx0))) = t_s (cur w) /\ t_f (cur (with_source w (sid0, idx0))) = t_f (cur w)) by (unfold with_source; gnorm; auto).
    destruct G1' as [G1' G2']. rewrite G1', G2' in Z5. exact Z5.
Qed.
End L.
