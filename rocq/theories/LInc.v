(** Loading source files (C90). *)
From Coq Require Import ZArith List Bool Lia String ZifyBool ZifyNat.
From Verif Require Import Base Stack Mem Parser State CoreM IoM FileM Exec LBase LStack Spec Spec2 Spec4 Spec5 Spec6 Spec7 Spec9 Spec10 Spec11 Spec12 Spec14 Spec15 Spec16 Spec17 Spec19 Spec24 Spec25
  LState LMem LMon LMemWords LTask LFuel LCode LComp LRun LCtl LFloat LWords LSay LFile LFile2 LFile5 LLib LLibWords LDefine LDefine2 LNoInput LSource LEval LNest Spec27 LShell LShell2 Spec28 LTrim.
Import ListNotations.
Open Scope list_scope.
Open Scope Z_scope.
Open Scope m_scope.

Section L.
Context {E : Env}.
Variable K : Z -> Prop.
Implicit Types (v w u : vm).

(** ** States up to the cells above the stacks *)
Lemma alike_refl v : alike v v.
Proof. split; [auto|]. split; [reflexivity|]. split; [reflexivity|]. split; [apply calm_refl|apply trim_refl]. Qed.
Lemma stacks_inj v d r f d' r' f' : stacks_are v d r f -> stacks_are v d' r' f' -> d' = d /\ r' = r /\ f' = f.
Proof. intros (A & B & C) (A' & B' & C'). split; [eapply stack_has_inj; eassumption|]. split; eapply stack_has_inj; eassumption. Qed.
Lemma tin_alike v0 d r f u : stacks_are v0 d r f -> tin v0 d r f (v_ds v0) (v_out v0) u -> alike v0 u.
Proof.
  intros S ((S' & D & O & C) & T). split; [|split; [exact D|split; [exact O|split; [exact C|exact T]]]].
  intros d' r' f' S2. destruct (stacks_inj _ _ _ _ _ _ _ S S2) as (-> & -> & ->). exact S'.
Qed.
Lemma alike_tin v0 d r f u : stacks_are v0 d r f -> alike v0 u -> tin v0 d r f (v_ds v0) (v_out v0) u.
Proof. intros S (A & B & C & D & T). split; [split; [apply A; exact S|auto]|exact T]. Qed.

(** ** The outside world *)
Lemma cur_world o fl ss ls v : cur (world o fl ss ls v) = set_t_lines ls (set_t_sources ss (set_t_files fl (cur v))).
Proof. unfold world, upd_cur, cur at 1, task_at, put_task. cbn. apply tget_tset_same. Qed.
Lemma st_world o fl ss ls v : st (world o fl ss ls v) = st v.
Proof. unfold st. rewrite cur_world. reflexivity. Qed.
Lemma stacks_world o fl ss ls v d r f : stacks_are v d r f -> stacks_are (world o fl ss ls v) d r f.
Proof. unfold stacks_are. rewrite cur_world. exact (fun H => H). Qed.
Lemma kept_world o fl ss ls v : kept K v (world o fl ss ls v). Proof. apply kept_eq; reflexivity. Qed.
Lemma inv_world v0 d r f m o u o' fl ss ls s d' : inv v0 d r f m o u -> stack_has s d' -> high_slots_kept (t_s (cur u)) s ->
  inv (world o' fl ss ls v0) d' r f m o (after2 u s o' fl ss ls).
Proof.
  intros (S & D & O & C) HS HH. destruct S as (S & R & F).
  split; [unfold stacks_are; rewrite cur_after2; exact (conj HS (conj R F))|]. split; [exact D|]. split; [exact O|].
  pose proof (stack_has_len _ _ S). pose proof (stack_has_bound _ _ S). pose proof (stack_has_len _ _ HS). pose proof (stack_has_bound _ _ HS).
  pose proof (slot255 _ _ HH ltac:(lia) ltac:(lia)) as SL. pose proof (proj1 HH) as CA.
  unfold calm in *. unfold st in *. rewrite cur_after2, cur_world. cbn [t_awake t_c t_inbuf t_files t_sources t_lines t_state t_s t_r set_t_lines set_t_sources set_t_files set_t_s].
  repeat match goal with H : _ /\ _ |- _ => destruct H end. repeat split; try assumption; try congruence.
  intros i Hi N1 N2. unfold after2, world, upd_cur, task_at, put_task in *. cbn in *. rewrite !tget_tset_other by congruence. match goal with H : same_other_tasks _ _ |- _ => apply H; auto end.
Qed.
Lemma after_is2 v s o fl : after v s o fl (v_ds v) = after2 v s o fl (t_sources (cur v)) (t_lines (cur v)).
Proof. unfold after, after2, put_task. destruct v. cbn. destruct (cur _). reflexivity. Qed.

(** One primitive that touches the outside world *)
Lemma tp_world i p v0 d r f m o u o' fl ss ls d' (Q : vm -> Prop) : word_is v0 i p -> tin v0 d r f m o u -> zlen d <= 64 -> zlen d' <= 64 ->
  (forall w, inv v0 d r f m o w -> exists s, stack_has s d' /\ high_slots_kept (t_s (cur w)) s /\
     forall fuel ew, exec_prim fuel ew p w = Ok (tt, after2 w s o' fl ss ls)) ->
  (forall u', tin (world o' fl ss ls v0) d' r f m o u' -> Q u') -> wp K (Op i) Q u.
Proof.
  intros W HI Hd Hd' H HQ. eapply wp_prim; [eapply tin_word; eassumption|]. intros ew fuel j c. pose proof (tin_at _ _ _ _ _ _ _ j c HI) as [HI' HT].
  destruct (H _ HI') as (s & H1 & H2 & H3). exists (after2 (at_ j c u) s o' fl ss ls). split; [apply H3|].
  split; [unfold st; rewrite cur_after2, cur_at; reflexivity|]. split; [apply kept_eq; reflexivity|]. apply HQ. split; [eapply inv_world; eassumption|].
  assert (T2 : trim (at_ j c u) (after2 (at_ j c u) s o' fl ss ls)).
  { eapply (trim_data K); rewrite ?cur_after2; cbn [t_s t_r t_f set_t_lines set_t_sources set_t_files set_t_s]; [apply HI'|exact H1|exact Hd|exact Hd'|exact H2|reflexivity|reflexivity]. }
  pose proof (trim_trans _ _ _ HT T2) as T3. eapply trim_both; [exact T3|..]; rewrite ?cur_world; reflexivity.
Qed.

(** ** Calling EVALUATE-INPUT *)
Lemma wp_evaluate n sid v rs (Q : vm -> Prop) : shell K n v -> stack_has (t_r (cur v)) rs -> zlen rs < 255 ->
  (forall R, 0 <= R < 2 ^ 63 -> exists ts v1, obeys_on sid K n (add_r R v) ts v1 /\
     (intact K n v (drop_r 1 v1) -> steady_on sid v1 -> stack_has (t_r (cur v1)) (R :: rs) -> Q (drop_r 1 v1))) ->
  wp K (Op (n_eval n)) Q v.
Proof.
  intros HSh Rb HL H a HC. pose proof HC as (HA & Ha & HCC & Hi). pose proof (code_range _ _ _ _ HA HCC) as RA.
  destruct (H (a + 8) ltac:(lia)) as (ts & v1 & HB & HQ).
  pose proof (intact_add_r K _ _ _ (a + 8) (intact_refl K n v)) as Ic. pose proof (shell_stays K _ _ _ Ic HSh) as Shc.
  pose proof HSh as (_ & (WN & _) & _). pose proof Shc as (_ & (_ & _ & HE) & _).
  destruct (holds_seq _ _ _ _ _ HE) as [HE1 HE2].
  destruct (evaluate_part K n _ ts v1 HB Shc) as (PE & IE & S1 & RE).
  pose proof (intact_trans K _ _ _ _ Ic IE) as I1. pose proof (shell_stays K _ _ _ I1 HSh) as Sh1.
  pose proof (RE _ (has_add_r (a + 8) v rs Rb ltac:(lia))) as R1.
  exists (drop_r 1 v1). split; [|apply HQ; [apply intact_drop_r; exact I1|exact S1|exact R1]].
  destruct HE2 as (_ & _ & HE2).
  destruct (call_and_return K v (n_eval n) a v1 (fin (d_evaluate n) (w_dfa (word_of (add_r (a + 8) v) (n_eval n)))) (ix n P_exit) rs) as [PP _].
  - exact HA.
  - exact HCC.
  - lia.
  - exact WN.
  - rewrite (stack_has_len _ _ Rb). pose proof (zlen_nonneg rs); lia.
  - exact PE.
  - eapply kept_cell; [apply IE|apply HE2].
  - apply HE2.
  - apply (shell_prim K n); [exact Sh1|cbn; tauto].
  - exact R1.
  - exact PP.
Qed.
(** ** The words stay *)
Lemma loader_stays n m v v' : intact K n v v' -> shell K n v -> loader K n m v -> loader K n m v' /\ src_at m v' = src_at m v /\ line_at n v' = line_at n v.
Proof.
  intros HI HSh (A & B1 & B2 & C1 & C2 & C3 & C4 & C5 & C6 & C7 & C8 & (R1 & R2 & R3 & R4) & KR & F1 & F2 & DJ & IN).
  assert (ON : forall i, In i (n_others n) -> In i (numbers n)) by (intros i Hi; apply in_or_app; right; apply in_or_app; right; exact Hi).
  assert (IL : forall i, In i (loader_numbers m) -> In i (numbers n)) by (intros i Hi; apply ON, IN, in_or_app; left; exact Hi).
  assert (IP : forall p, In p lib_prims -> In (ix n p) (numbers n)) by (intros p Hp; apply ON, IN, in_or_app; right; apply in_map; exact Hp).
  assert (BD : forall i p, In i (numbers n) -> word_is v i p -> body v' i = body v i).
  { intros i p Hi [W _]. unfold body. destruct (proj2 HI i Hi W) as [_ ->]. reflexivity. }
  assert (E1 : body v' (l_src m) = body v (l_src m)) by (eapply BD; [apply IL; cbn; tauto|exact B1]).
  assert (E2 : body v' (n_line n) = body v (n_line n)) by (eapply BD; [cbn; tauto|apply HSh]).
  assert (E3 : body v' (l_ro m) = body v (l_ro m)) by (eapply BD; [apply IL; cbn; tauto|exact R1]).
  pose proof HI as [(K1 & K2 & K3 & K4) _].
  split; [|split; [exact E1|exact E2]]. unfold loader, src_at, line_at, constant_is, free_of. rewrite E1, E2, E3, K1, K2.
  split; [intros p Hp; eapply word_stays; [exact HI|apply IP; exact Hp|apply A; exact Hp]|].
  do 2 (split; [eapply word_stays; [exact HI|apply IL; cbn; tauto|eassumption]|]).
  do 8 (split; [eapply colon_stays; [exact HI|apply IL; cbn; tauto|eassumption]|]).
  split; [|split; [exact KR|split; [exact F1|split; [exact F2|split; [exact DJ|exact IN]]]]].
  split; [eapply word_stays; [exact HI|apply IL; cbn; tauto|exact R1]|]. split; [exact R2|]. split; [exact R3|].
  intros k Hk. rewrite K3 by (apply KR; lia). apply R4. exact Hk.
Qed.
Lemma inv_intact n v0 d r f m o u : inv v0 d r f m o u -> kept K v0 u -> intact K n v0 u.
Proof. intros HI HK. split; [exact HK|]. intros i _ H. unfold words, word_of in *. rewrite (inv_wl _ _ _ _ _ _ _ HI). split; [lia|reflexivity]. Qed.
Lemma alike_intact n v u : alike v u -> intact K n v u.
Proof. intros (_ & B & _ & C & _). apply intact_eq; [exact B|apply C]. Qed.
Lemma loader_line n m v : loader K n m v -> free_of K v (line_at n v) 8. Proof. intro H. apply H. Qed.

(** The calm relation, with another data space on the left *)
Lemma calm_ds mem v u : calm v u -> ds_inner mem = ds_inner (v_ds v) -> ds_cap mem = ds_cap (v_ds v) -> calm (set_v_ds mem v) u.
Proof.
  unfold calm. intros H A B. repeat match goal with H : _ /\ _ |- _ => destruct H end. repeat split; try assumption; cbn; try congruence.
Qed.

(** ** Loading *)
Lemma load_line_wp R n id c v d r f mm o u (Q : vm -> Prop) : library (ix n) v -> (exists sr, source_as v id sr /\ rest R (v_os v) (src_reader sr) = Some c) -> line_of v id <> None -> is_cell id ->
  tin v (id :: d) r f mm o u -> zlen d <= 62 ->
  (forall sr o' rd ln rr v' u', source_as v id sr -> first_line c ln rr -> rest R o' rd = Some rr ->
     v' = world o' (t_files (cur v)) (set_nth (t_sources (cur v)) (Z.to_nat (id - 1)) (Some (mkSource rd (src_path sr)))) (set_nth (t_lines (cur v)) (Z.to_nat (id - 1)) (Some (strip_eol ln))) v ->
     tin v' ((if zlen ln =? 0 then 0 else -1) :: zlen (strip_eol ln) :: d) r f mm o u' -> Q u') ->
  wp K (op n P_p_load_line) Q u.
Proof.
  intros L (sr & S1 & S2) HL Hc HI Hd HQ. destruct (lr_line R _ _ _ S2) as (o' & rd & ln & rr & E1 & E2 & E3).
  destruct (line_of v id) as [t0|] eqn:El; [|congruence].
  eapply (tp_world (ix n P_p_load_line) P_p_load_line v); [apply L; unfold lib_prims; cbn; tauto|exact HI|wlen| | |intros u' I; eapply HQ; [exact S1|exact E2|exact E3|reflexivity|exact I]]; [wlen|].
  intros w J. destruct J as (JS & _ & _ & JC).
  assert (A1 : t_sources (cur w) = t_sources (cur v)) by apply JC. assert (A2 : t_lines (cur w) = t_lines (cur v)) by apply JC.
  assert (A3 : t_files (cur w) = t_files (cur v)) by apply JC. assert (A4 : v_os w = v_os v) by apply JC.
  destruct (load_line_run w id sr t0 d o' rd (Some ln) Hc ltac:(unfold source_as in *; rewrite A1; exact S1) ltac:(unfold line_of in *; rewrite A2; exact El) (proj1 JS) ltac:(rewrite A4; exact E1)) as (s1 & HP & HX).
  destruct (push2_popped _ _ _ _ (zlen (strip_eol ln)) (if zlen ln =? 0 then 0 else -1) HP ltac:(lia) ltac:(lia)) as [P1 P2].
  eexists. split; [exact P1|]. split; [exact P2|]. intros fuel ew. rewrite HX. cbv zeta. rewrite A1, A2, A3. reflexivity.
Qed.

Lemma first_line_length c ln r : first_line c ln r -> c <> [] -> (List.length r < List.length c)%nat.
Proof. intros H N. inversion H; subst; [rewrite app_length; cbn; lia|destruct ln; [congruence|cbn; lia]]. Qed.
Lemma source_as_set v ss id sr ls o fl : (Z.to_nat (id - 1) < List.length ss)%nat -> 1 <= id ->
  source_as (world o fl (set_nth ss (Z.to_nat (id - 1)) (Some sr)) ls v) id sr.
Proof. intros H1 H2. split; [exact H2|]. rewrite cur_world. cbn [t_sources set_t_lines set_t_sources]. apply nth_set_nth. exact H1. Qed.
Lemma loading_saved m mem a l c k : saved m a l -> same_memory_but m mem c k -> start m <= a -> c + k <= a \/ a + 272 <= c -> saved mem a l.
Proof.
  intros (A & B & C & D) HS Ha Hd. pose proof (zlen_nonneg l). split; [eapply cell_keep; [exact HS|lia|lia|exact A]|]. split; [eapply cell_keep; [exact HS|lia|lia|exact B]|].
  split; [exact C|]. eapply (entries_keep K); [exact HS|exact Ha|lia|exact D].
Qed.
Lemma tp_flush n v d r f m o u (Q : vm -> Prop) : library (ix n) v -> tin v d r f m o u -> v_out v = o -> (forall u', tin (flushed v) d r f m (v_out (flushed v)) u' -> Q u') -> wp K (op n P_flush_output) Q u.
Proof.
  intros L HI HO HQ. eapply (wp_prim K _ P_flush_output); [eapply tin_word; [exact HI|apply L; unfold lib_prims; cbn; tauto]|]. intros ew fuel j c.
  pose proof (tin_at _ _ _ _ _ _ _ j c HI) as [HI' HT]. rewrite flush_at. eexists. split; [reflexivity|]. destruct (flushed_same u) as (F1 & F2 & F3). destruct (flushed_same v) as (G1 & G2 & G3).
  split; [rewrite st_at; reflexivity|]. split; [apply kept_eq; [exact F1|exact F2]|]. apply HQ.
  destruct HI as [(S & D & O & C) T]. assert (OO : v_out u = v_out v) by congruence.
  assert (J : tin (flushed v) d r f m (v_out (flushed v)) (flushed u)); [|apply tin_at; exact J].
  unfold calm in C. repeat match goal with H : _ /\ _ |- _ => destruct H end.
  split; [split; [unfold stacks_are; rewrite F3; exact S|split; [congruence|split]]|unfold trim; rewrite F3, G3; exact T].
  - unfold flushed. rewrite OO. destruct (v_out v) as [[|? ?]|] eqn:Ov; cbn; congruence.
  - unfold calm, st in *. rewrite F1, F2, F3, G1, G2, G3. unfold same_other_tasks, flushed in *. rewrite OO. destruct (v_out v) as [[|? ?]|] eqn:Ov; cbn; repeat split; try assumption; try congruence.
Qed.
Lemma calm_memory mem v u : calm v u -> v_ds u = mem -> calm (set_v_ds mem v) u.
Proof. intros C <-. apply calm_ds; [exact C|apply C|apply C]. Qed.

(** What holds of the machine when a file has been read to its end *)
Definition loaded (n : names) (m : loader_names) id s l r v0 u : Prop :=
  intact K n v0 u /\ st_sid (st u) = id /\ (exists sr, source_as u id sr) /\ ds_ok (v_ds u) /\ saved (v_ds u) (src_at m u) (s :: l) /\ selectable u (fst s) /\
  (exists d f, stacks_are u d r f /\ zlen d <= 48).
Lemma loaded_after n m id s l r v0 v1 u : intact K n v0 v1 -> loaded n m id s l r v1 u -> loaded n m id s l r v0 u.
Proof. intros I (A & B). split; [eapply intact_trans; eassumption|exact B]. Qed.

Notation loop n m := (While (block [op n P_p_source_id; op n P_p_load_line])
   (block [op n P_p_drop; Num 0; op n P_p_set_source_idx; Op (n_eval n); op n P_flush_output; Num 1; Op (n_line n); Op (l_plus m)])).
Lemma load_wp R n m id s l Q N : forall c, (List.length c < N)%nat -> forall v, follows R K n m id s l Q c v ->
  forall d r f u, shell K n v -> loader K n m v -> loading R n m id s l c v -> stacks_are v d r f -> zlen r <= 60 -> alike v u ->
  wp K (loop n m) (wp K (op n P_p_drop) (fun u' => Q u' /\ loaded n m id s l r v u')) u.
Proof.
  induction N as [|N IH]; intros c HN v HF d r f u HSh HLo HLd HS Hr HA; [lia|].
  pose proof HLo as (L & _). pose proof HLd as (S1 & HL & Hc & HD & HSv & HSel & (f0 & Hf0) & (x & HX1 & HX2) & Hsid & (d1 & D1 & D2)).
  assert (Hd : zlen d <= 48) by (rewrite (stack_has_inj _ _ _ (proj1 HS) D1); exact D2). clear d1 D1 D2.
  pose proof (alike_tin _ _ _ _ _ HS HA) as I. apply tp_while_round. cbn [block]. apply wp_seq.
  eapply (tp_part K _ _ (fun v => st_sid (st v))); [apply L; unfold lib_prims; cbn; tauto|reflexivity|intros y C; apply C|exact I|lia|]. intros u1 I1. cbv beta in I1. rewrite Hsid in I1.
  eapply load_line_wp; [exact L|exact S1|exact HL|exact Hc|exact I1|lia|].
  intros sr o' rd ln rr v' u2 HSr HFL HR Ev I2. eexists v', _, _, r, f, _, _. split; [exact I2|]. split; [wlen|].
  assert (Wd : intact K n v v') by (subst v'; apply intact_eq; reflexivity).
  pose proof (shell_stays K _ _ _ Wd HSh) as HSh'. destruct (loader_stays _ _ _ _ Wd HSh HLo) as (HLo' & ES & EL). pose proof HLo' as (L' & _).
  assert (HSV : stacks_are v' d r f) by (subst v'; apply stacks_world; exact HS).
  assert (HLs : (Z.to_nat (id - 1) < List.length (t_lines (cur v)))%nat).
  { apply nth_error_Some. unfold line_of in HL. destruct (nth_error _ _) as [[]|]; congruence. }
  assert (HSs : (Z.to_nat (id - 1) < List.length (t_sources (cur v)))%nat).
  { apply nth_error_Some. destruct HSr as [_ HSr]. congruence. }
  assert (Hid : 1 <= id) by apply HSr.
  assert (SA : source_as v' id (mkSource rd (src_path sr))) by (subst v'; apply source_as_set; assumption).
  assert (Sel' : selectable v' (fst s)).
  { subst v'. destruct HSel as [->|(G0 & (y & G1) & (z & G2))]; [left; reflexivity|]. right. split; [exact G0|]. rewrite cur_world. cbn [t_sources t_lines set_t_lines set_t_sources set_t_files].
    destruct (Nat.eq_dec (Z.to_nat (fst s - 1)) (Z.to_nat (id - 1))) as [Eq|Ne].
    - rewrite Eq, !nth_set_nth by assumption. split; eexists; reflexivity.
    - rewrite !nth_set_other by assumption. split; eexists; eassumption. }
  assert (Esv : st_sid (st v') = id) by (subst v'; rewrite st_world; exact Hsid).
  assert (Edv : v_ds v' = v_ds v) by (subst v'; reflexivity). assert (Eov : v_out v' = v_out v) by (subst v'; reflexivity). rewrite <- Edv, <- Eov in *.
  inversion HF as [v0 HQ E0 E1|c0 ln0 r0 t v0 HNE HFL0 HST HOB E0 E1]; subst v0; [subst c|subst c0].
  - destruct (first_line_empty _ _ HFL) as [-> ->]. split; [intros _|cbn; congruence]. intros u3 I3. cbn in I3.
    eapply (tp_effect K _ _ [0] _ v' d _ _ _ _ _ _ (drop_effect 0)); [apply L'; unfold lib_prims; cbn; tauto|exact I3|wlen|wlen|]. intros outs u4 <- I4. cbn [app] in I4.
    assert (A4 : alike v' u4) by (eapply tin_alike; eassumption). split.
    + apply HQ. exists sr, o', rd. split; [exact HSr|]. split; [exact HR|]. subst v'. exact A4.
    + pose proof (intact_trans K _ _ _ _ Wd (alike_intact n _ _ A4)) as I5. destruct (loader_stays _ _ _ _ I5 HSh HLo) as (_ & ES5 & _).
      assert (Ed4 : v_ds u4 = v_ds v') by apply (proj1 I4). destruct I4 as ((S4 & _ & _ & C4) & _).
      split; [exact I5|]. split; [rewrite <- Esv; apply C4|split; [|split; [rewrite Ed4; exact HD|split; [rewrite Ed4, ES5; exact HSv|split; [eapply selectable_calm; eassumption|exists d, f; split; [exact S4|exact Hd]]]]]].
      eexists. destruct SA as [SA1 SA2]. split; [exact SA1|]. replace (t_sources (cur u4)) with (t_sources (cur v')) by (symmetry; apply C4). exact SA2.
  - destruct (first_line_fun _ _ _ _ _ HFL HFL0) as [<- <-].
    pose proof (stripped_fun _ _ _ (strip_eol_spec ln) HST) as Et.
    assert (HZ : zlen ln =? 0 = false). { pose proof (first_line_nonempty _ _ _ HFL HNE). destruct ln as [|b0 ln]; [congruence|]. rewrite zlen_cons. pose proof (zlen_nonneg ln). lia. }
    rewrite HZ in *. split; [discriminate|intros _]. intros u3 I3.
    apply wp_seq. eapply (tp_effect K _ _ [_] _ v' d _ _ _ _ _ _ (drop_effect _)); [apply L'; unfold lib_prims; cbn; tauto|exact I3|wlen|wlen|]. intros outs u4 <- I4. cbn [app] in I4.
    apply wp_seq. eapply tp_num; [exact I4|lia|]. intros u5 I5.
    apply wp_seq. eapply tp_set_idx; [apply L'; unfold lib_prims; cbn; tauto|exact I5|lia|]. intros u6 I6. change (to_u64 0) with 0 in I6.
    assert (HS6 : stacks_are (set_idx 0 v') d r f) by (unfold stacks_are in *; gnorm; exact HSV).
    assert (A6 : alike (set_idx 0 v') u6) by (eapply tin_alike; [exact HS6|exact I6]).
    assert (Int6 : intact K n v' u6) by (eapply intact_trans; [|apply alike_intact; exact A6]; apply intact_eq; reflexivity).
    pose proof (shell_stays K _ _ _ Int6 HSh') as HSh6. pose proof (proj1 (loader_stays _ _ _ _ Int6 HSh' HLo')) as HLo6.
    assert (St6 : started R id t rr v u6).
    { exists v'. split; [|exact A6]. exists sr, o', rd. split; [exact HSr|]. split; [exact HR|]. subst v' t. apply alike_refl. }
    apply wp_seq. eapply (wp_evaluate n id u6 r); [exact HSh6|apply (proj1 I6)|lia|].
    intros ra Hra. destruct (HOB u6 ra St6) as (ts & v2 & HO & HLd2 & HFo). exists ts, v2. split; [exact HO|]. intros Int2 HSt2 R2.
    pose proof (shell_stays K _ _ _ Int2 HSh6) as HSh7. destruct (loader_stays _ _ _ _ Int2 HSh6 HLo6) as (HLo7 & ES7 & EL7).
    destruct HLd2 as (T1 & T2 & T3 & T4 & T5 & T6 & (f2 & T7) & (x2 & T8 & T9) & T10 & (d2 & T11 & T12)).
    assert (S7 : stacks_are (drop_r 1 v2) d2 r f2).
    { unfold stacks_are, drop_r. rewrite cur_set_r. cbn [t_s t_r t_f set_t_r]. split; [exact T11|]. split; [apply (drop_has _ [ra]); exact R2|exact T7]. }
    pose proof HLo7 as (L7 & _). pose proof (tin_start _ _ _ _ S7) as I7. pose proof (zlen_nonneg d2).
    apply wp_seq. eapply tp_flush; [exact L7|exact I7|reflexivity|]. intros u8 I8.
    destruct (flushed_same (drop_r 1 v2)) as (F1 & F2 & F3).
    assert (Int8 : intact K n (drop_r 1 v2) (flushed (drop_r 1 v2))) by (apply intact_eq; assumption).
    pose proof (shell_stays K _ _ _ Int8 HSh7) as HSh8. destruct (loader_stays _ _ _ _ Int8 HSh7 HLo7) as (HLo8 & ES8 & EL8).
    remember (flushed (drop_r 1 v2)) as v8 eqn:EV8. change (v_ds (drop_r 1 v2)) with (v_ds v2) in *.
    change (src_at m v2) with (src_at m (drop_r 1 v2)) in *. change (line_at n v2) with (line_at n (drop_r 1 v2)) in *.
    assert (EL9 : line_at n v8 = line_at n (drop_r 1 v2)) by exact EL8. rewrite <- EL9 in *.
    pose proof HLo8 as (L8 & _ & _ & _ & _ & _ & PS & _ & _ & _ & _ & _ & _ & FS & (FL1 & FL2 & FL3) & DJ & _).
    rewrite F1 in FL1, FL2, FL3. destruct FS as (FS1 & FS2 & _). rewrite F1 in FS1, FS2.
    assert (K8 : kept K v8 u8) by (apply kept_eq; [rewrite F1; apply (proj1 I8)|eapply tin_wl; exact I8]).
    pose proof T4 as (O1 & O2 & O3).
    apply wp_seq. eapply tp_num; [exact I8|lia|]. intros u9 I9.
    apply wp_seq. eapply tp_var; [apply HSh8|unfold line_at in *; lia|exact I9|wlen|]. intros u10 I10. change (body v8 (n_line n)) with (line_at n v8) in I10.
    eapply plus_store_tp; [exact L8|exact PS|apply kept_eq; [rewrite F1; apply (proj1 I10)|eapply tin_wl; exact I10]|exact I10|lia|lia|exact T4|lia|lia|exact FL3|exact T8|exact T9|].
    intros y mem u11 Wy Cy My Gy I11.
    set (v11 := set_v_ds mem v8).
    assert (S11 : stacks_are v11 d2 r f2) by (unfold stacks_are; change (cur v11) with (cur v8); rewrite F3; exact S7).
    assert (A11 : alike v11 u11).
    { apply (tin_alike v11 d2 r f2); [exact S11|]. destruct I11 as ((X1 & X2 & X3 & X4) & X5). split; [|exact X5]. split; [exact X1|]. split; [exact X2|]. split; [exact X3|].
      apply calm_memory; assumption. }
    assert (K11 : kept K v8 v11). { eapply kept_same; [rewrite F1; exact My|reflexivity|rewrite F1; exact FL3]. }
    assert (Int11 : intact K n v8 v11). { split; [exact K11|]. intros i _ Hi. split; [apply Hi|reflexivity]. }
    pose proof (shell_stays K _ _ _ Int11 HSh8) as HSh11. destruct (loader_stays _ _ _ _ Int11 HSh8 HLo8) as (HLo11 & ES11 & EL11).
    assert (TL : tallied n (drop_r 1 v2) v11).
    { exists x2, y, mem. rewrite <- EL9. repeat (split; [assumption|]). rewrite <- EV8. apply alike_refl. }
    pose proof (HFo _ TL) as HF11.
    assert (CU : cur v11 = cur (drop_r 1 v2)) by exact F3.
    assert (ST11 : st v11 = st v2) by (unfold st; rewrite CU; unfold drop_r; rewrite cur_set_r; reflexivity).
    assert (SO : t_sources (cur v11) = t_sources (cur v2) /\ t_lines (cur v11) = t_lines (cur v2) /\ t_s (cur v11) = t_s (cur v2) /\ t_f (cur v11) = t_f (cur v2)) by (rewrite CU; unfold drop_r; rewrite cur_set_r; auto).
    destruct SO as (SO1 & SO2 & SO3 & SO4).
    assert (OS : v_os v11 = v_os v2) by (unfold v11; cbn; rewrite EV8; unfold flushed; change (v_out (drop_r 1 v2)) with (v_out v2); destruct (v_out v2) as [[|? ?]|]; reflexivity).
    assert (HLd11 : loading R n m id s l rr v11).
    { unfold loading, source_as, line_of, selectable in *. rewrite SO1, SO2, SO3, SO4, ST11, OS. split; [exact T1|]. split; [exact T2|]. split; [exact T3|].
      split; [change (v_ds v11) with mem; eapply same_ok; eassumption|]. split; [|split; [exact T6|]; split; [exists f2; exact T7|]; split; [|split; [exact T10|exists d2; auto]]].
      - rewrite ES11. change (v_ds v11) with mem. rewrite ES8. eapply loading_saved; [exact T5|exact My|unfold src_at in *; rewrite <- ES8; lia|].
        rewrite <- ES8. lia.
      - exists y. rewrite EL11. split; [exact Cy|apply Wy]. }
    assert (Int0 : intact K n v v11).
    { eapply intact_trans; [exact Wd|]. eapply intact_trans; [exact Int6|]. eapply intact_trans; [exact Int2|]. eapply intact_trans; [exact Int8|exact Int11]. }
    eapply wp_conseq; [|apply (IH rr) with (v := v11) (d := d2) (r := r) (f := f2); try assumption; pose proof (first_line_length _ _ _ HFL HNE); lia].
    intros w Hw. eapply wp_conseq; [|exact Hw]. intros w' [Hq Hl]. split; [exact Hq|]. eapply loaded_after; eassumption.
Qed.
End L.
