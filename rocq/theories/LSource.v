(** SAVE-SOURCE and RESTORE-SOURCE. *)
From Coq Require Import ZArith List Bool Lia ZifyBool ZifyNat.
From Verif Require Import Base Stack Mem State CoreM Exec LBase LStack Spec Spec2 Spec4 Spec5 Spec6 Spec7 Spec9 Spec10 Spec14 Spec15 Spec16 Spec17
  LState LMem LMon LMemWords LTask LFuel LCode LComp LRun LCtl LFloat LWords LSay LLib LLibWords LDefine LDefine2 LNoInput.
Import ListNotations.
Open Scope Z_scope.
Open Scope m_scope.

Section L.
Context {E : Env}.
Implicit Types (v w u : vm).

(** Entering a colon definition *)
Lemma nest_enter v i r rs : word_is v i P_nest -> stack_has (t_r (cur v)) rs -> zlen rs < 255 -> 0 <= r < 2 ^ 63 ->
  exists u, execute_word 1 i (set_ip r v) = Ok (tt, u) /\
    forall w z, goes (add_r r v) (w_dfa (word_of v i)) w z -> goes u (st_ip (st u)) w z.
Proof.
  intros W HR Hl Hr. exists (at_ i (w_dfa (word_of v i)) (add_r r v)). split.
  - pose proof (stack_has_len _ _ HR) as HN. pose proof (zlen_nonneg rs).
    rewrite (execute_word_eq O i (set_ip r v) P_nest W), set_wp_ip. cbn [exec_prim].
    unfold nest. rewrite (bind_Ok _ _ _ tt (at_ i r (add_r r v))).
    + unfold gets. unfold bind at 1. rewrite st_at. cbn [st_wp set_st_ip set_st_wp].
      rewrite (bind_Ok _ _ _ _ _ (word_at_eq (at_ i r (add_r r v)) i (proj1 W))).
      unfold put_ip, modify. rewrite set_ip_at. reflexivity.
    + unfold modify. cbv zeta. rewrite ip_at, to_i64_id by (unfold imin, imax, two63; lia).
      unfold r_stk. rewrite r_at, set_r_at. do 3 f_equal. unfold add_r. f_equal.
      change (push (t_r (cur v)) r = add_item (t_r (cur v)) r). apply add_item_push. lia.
  - intros w z G w0 HC. rewrite st_at in HC. cbn [st_ip set_st_ip] in HC. apply G.
    destruct HC as [C1 C2]. split; [exact C1|]. rewrite C2. rewrite !set_ip_wp_at. apply at_at.
Qed.

(** ** Code that ends with an exception *)
Section K.
Variable K : Z -> Prop.
(** control leaves [p] at some address *)
Definition wpx (p : prog) (Q : Z -> vm -> Prop) v : Prop :=
  forall a, holds K v p a -> exists w z, part K v a w z /\ Q z w.
Lemma wpx_first p q (Q : Z -> vm -> Prop) v : wpx p Q v -> wpx (Seq p q) Q v.
Proof. intros W a HH. destruct (holds_seq _ _ _ _ _ HH) as [H1 _]. exact (W a H1). Qed.
Lemma wpx_seq p q (Q : Z -> vm -> Prop) v : wp K p (wpx q Q) v -> wpx (Seq p q) Q v.
Proof.
  intros W a HH. destruct (holds_seq _ _ _ _ _ HH) as [H1 H2]. destruct (W a H1) as (v1 & P1 & W1).
  destruct (W1 _ (holds_kept K _ _ _ _ (proj2 P1) H2)) as (v2 & z & P2 & q2). exists v2, z.
  split; [eapply part_trans; eassumption|exact q2].
Qed.
Lemma wpx_op i p (Q : Z -> vm -> Prop) v : word_is v i p -> (forall a, code_cell K v a i -> Q a v) -> wpx (Op i) Q v.
Proof.
  intros W H a (HA & Ha & C & Hi). exists v, a. split; [split; [apply goes_refl|apply kept_refl]|]. apply H. exact C.
Qed.
Lemma wpx_else p q v0 d r f m o v (Q : Z -> vm -> Prop) : inv v0 (0 :: d) r f m o v -> (forall u, inv v0 d r f m o u -> wpx q Q u) -> wpx (IfElse p q) Q v.
Proof.
  intros HI H a (HA & Ha & HL). cbn [laid] in HL; cbv zeta in HL. destruct HL as (W & C & L & W' & C' & L').
  pose proof (takes_has _ _ _ (proj1 (proj1 HI))) as T.
  pose proof (cell_top _ _ _ _ C) as Ct. pose proof (cell_top _ _ _ _ C') as Ct'.
  pose proof (laid_range K _ _ _ L ltac:(lia)) as R. pose proof (laid_range K _ _ _ L' ltac:(lia)) as R'.
  assert (HK : kept K v (drop_s 1 v)) by (apply kept_eq; reflexivity).
  assert (Hx : 0 <= fin p (a + 16) + 16 < 2 ^ 63) by (destruct HA; lia).
  pose proof (goes_zero K v a _ 0 _ HA W C Hx T) as G. cbn [Z.eqb] in G.
  destruct (H _ (inv_pop _ _ _ _ _ _ _ _ HI) (fin p (a + 16) + 16)) as (w & z & P & q').
  - eapply holds_kept; [exact HK|]. split; [exact HA|]. split; [lia|exact L'].
  - exists w, z. split; [|exact q']. eapply part_trans; [split; [exact G|exact HK]|exact P].
Qed.
Definition stops (e : Z) (Q : vm -> Prop) (a : Z) w : Prop :=
  exists k p, code_cell K w a k /\ word_is w k p /\ (forall fuel, raises fuel e p (set_wp k (set_ip (a + 8) w))) /\ Q w.
Lemma colon_throws v i p x e (Q : vm -> Prop) rs : colon_word K v i p x -> stack_has (t_r (cur v)) rs -> zlen rs < 255 ->
  (forall r, 0 <= r < 2 ^ 63 -> wpx p (stops e Q) (add_r r v)) -> throws K v i e Q.
Proof.
  intros (W & X & HH) HR Hl H r Hr.
  destruct (nest_enter v i r rs W HR Hl Hr) as (u & E1 & G).
  assert (HK : kept K v (add_r r v)) by (apply kept_eq; reflexivity).
  destruct (holds_seq _ _ _ _ _ (holds_kept K _ _ _ _ HK HH)) as [H1 _].
  destruct (H r Hr _ H1) as (w & z & P1 & k & p0 & C & W0 & R0 & Q0).
  exists 1%nat, u, w, z, k, p0. split; [exact E1|]. split; [apply G; apply P1|].
  split; [eapply kept_trans; [exact HK|apply P1]|]. auto.
Qed.
Lemma wpx_abort ix (Q : vm -> Prop) v : word_is v (ix P_abort) P_abort -> Q v -> wpx (wd ix P_abort) (stops (-1) Q) v.
Proof.
  intros W q. eapply wpx_op; [exact W|]. intros a C. exists (ix P_abort), P_abort. split; [exact C|]. split; [exact W|]. split; [|exact q].
  intro fuel. set (u := set_wp (ix P_abort) (set_ip (a + 8) v)).
  exists u, (aborted (-1) u), (fun _ => ret tt). split; [apply aborted_raised|]. split; [reflexivity|]. intro ew.
  rewrite <- ew_ret. apply abort_with_eq.
Qed.

(** ** Calling library words *)
Lemma inv_kept v0 d r f m o u a n : inv v0 d r f m o u -> same_memory_but (v_ds v0) m a n -> free_of K v0 a n -> kept K v0 u.
Proof.
  intros HI HS (_ & _ & HF). eapply kept_same; [|eapply inv_wl; exact HI|exact HF]. replace (v_ds u) with m by (symmetry; apply HI). exact HS.
Qed.
Lemma same_refl m a n : same_memory_but m m a n. Proof. repeat split. Qed.
Lemma wp_action dd ins P Q0 ix v0 i rest rs fs m o u (Q : vm -> Prop) : lib_action dd ins P Q0 -> library ix v0 -> colon_word K v0 i (dd ix) (ix P_exit) ->
  kept K v0 u -> inv v0 (ins ++ rest) rs fs m o u -> zlen rest <= 245 -> zlen rs <= 245 -> ds_ok m -> P K u ->
  (forall outs text u', Q0 u outs (v_ds u') text -> inv v0 (outs ++ rest) rs fs (v_ds u') (said o text) u' -> Q u') -> wp K (Op i) Q u.
Proof.
  intros HL L HC HK HI H1 H2 HD HP HQ. pose proof (inv_wl _ _ _ _ _ _ _ HI) as Ew. assert (Ed : v_ds u = m) by apply HI. apply wp_call.
  pose proof (HL K ix u i rest rs fs (library_eq _ _ _ Ew L) (colon_eq K _ _ _ _ _ Ew HK HC) (proj1 HI) H1 H2 ltac:(rewrite Ed; exact HD) HP) as D.
  eapply does_conseq; [|exact D]. intros u' (outs & text & q & S & O & C). eapply HQ; [exact q|].
  eapply inv_after; [exact HI|exact S| |exact C]. rewrite O. replace (v_out u) with o by (symmetry; apply HI). reflexivity.
Qed.
Lemma wp_stacks dd ins Q0 ix v0 i rest rs fs m o u (Q : vm -> Prop) : lib_effect dd ins Q0 -> library ix v0 -> colon_word K v0 i (dd ix) (ix P_exit) ->
  kept K v0 u -> inv v0 (ins ++ rest) rs fs m o u -> zlen rest <= 245 -> zlen rs <= 245 ->
  (forall outs u', Q0 outs -> inv v0 (outs ++ rest) rs fs m o u' -> Q u') -> wp K (Op i) Q u.
Proof.
  intros HL L HC HK HI H1 H2 HQ. pose proof (inv_wl _ _ _ _ _ _ _ HI) as Ew. assert (Ed : v_ds u = m) by apply HI. apply wp_call.
  pose proof (HL K ix u i rest rs fs (library_eq _ _ _ Ew L) (colon_eq K _ _ _ _ _ Ew HK HC) (proj1 HI) H1 H2) as D.
  eapply does_conseq; [|exact D]. intros u' (outs & q & S & M & O & C). eapply HQ; [exact q|].
  rewrite <- Ed, <- M. eapply inv_after; [exact HI|exact S| |exact C]. rewrite O. apply HI.
Qed.
Lemma wp_var i v0 d r f m o u (Q : vm -> Prop) : word_is v0 i P_p_var -> 0 <= body v0 i < 2 ^ 63 -> inv v0 d r f m o u -> zlen d < 255 ->
  (forall u', inv v0 (body v0 i :: d) r f m o u' -> Q u') -> wp K (Op i) Q u.
Proof.
  intros W HB HI Hd HQ. pose proof (inv_wl _ _ _ _ _ _ _ HI) as Ew. assert (Ed : v_ds u = m) by apply HI. apply wp_call.
  assert (EB : body u i = body v0 i) by (unfold body, word_of; rewrite Ew; reflexivity).
  pose proof (created_pushes u i ltac:(unfold word_is; rewrite Ew; exact W) ltac:(rewrite EB; exact HB) K d r f (proj1 HI) Hd) as D. rewrite EB in D.
  eapply does_conseq; [|exact D]. intros u' (S & M & O & C). apply HQ.
  rewrite <- Ed, <- M. eapply inv_after; [exact HI|exact S| |exact C]. rewrite O. apply HI.
Qed.
(** Words that push a part of the state *)
Lemma wp_part i p g v0 d r f m o v (Q : vm -> Prop) : word_is v0 i p ->
  (forall fuel ew, exec_prim fuel ew p = (x <- gets g ;; s_push x)) -> (forall u, calm v0 u -> g u = g v0) -> inv v0 d r f m o v ->
  zlen d < 255 -> (forall u, inv v0 (g v0 :: d) r f m o u -> Q u) -> wp K (Op i) Q v.
Proof.
  intros W Hp Hg HI H1 HQ. eapply wp_quiet; [exact W|exact HI| |exact HQ]. intros fuel ew u J. rewrite Hp, bind_gets, (Hg u) by apply J.
  assert (HS : stack_has (t_s (cur u)) d) by apply J. pose proof (stack_has_len _ _ HS). pose proof (zlen_nonneg d).
  unfold s_push, modify, s_stk. eexists. split; [reflexivity|].
  rewrite cur_set_s. cbn [t_s set_t_s]. split; [apply push_has; assumption|]. apply only_data_set_s. apply push_high. lia.
Qed.

(** ** The stack of sources *)
Lemma entries_keep m m' a l c n : same_memory_but m m' c n -> start m <= a -> c + n <= a + 16 \/ a + 16 * zlen l + 16 <= c -> entries m a l -> entries m' a l.
Proof.
  intros HS Ha. revert l. fix IH 1. intros [|[id pos] l] H; [exact id|]. cbn [entries]. rewrite zlen_cons in *. pose proof (zlen_nonneg l).
  intros (C1 & C2 & C3 & C4 & C5). split; [eapply cell_keep; [exact HS|lia|lia|exact C1]|].
  split; [eapply cell_keep; [exact HS|lia|lia|exact C2]|]. split; [exact C3|]. split; [exact C4|]. apply IH; [lia|exact C5].
Qed.
Lemma to_i64_cell x : is_cell (to_i64 x).
Proof. unfold is_cell. pose proof (to_i64_range x) as H. unfold imin, imax, two63 in H. lia. Qed.
Lemma pos_back p : 0 <= p < 2 ^ 64 -> to_u64 (to_i64 p) = p.
Proof. intro H. rewrite to_u64_to_i64. apply to_u64_id. unfold two64. lia. Qed.

Ltac room := match goal with H : ds_ok _ |- _ => pose proof (proj1 H); pose proof (proj1 (proj2 H)); pose proof (proj2 (proj2 H)) end.
Ltac wraps := match goal with H : wraps_to ?e ?y |- _ => let Hc := fresh in let q := fresh in let Hq := fresh in
  destruct H as [Hc [q Hq]]; unfold is_cell in Hc; replace y with e in * by lia; clear Hc Hq end.
Ltac var_ := seqs; eapply wp_var; [eassumption|lia|eassumption|wlen|]; let u := fresh "u" in let I := fresh "I" in intros u I.

Lemma save_does ix sv rs a l v d r f : source_words K ix v sv rs a -> saved (v_ds v) a l -> ds_ok (v_ds v) -> stacks_are v d r f ->
  zlen d <= 240 -> zlen r <= 240 -> is_cell (st_sid (st v)) -> 0 <= st_idx (st v) < 2 ^ 64 -> zlen l < 16 ->
  does K v sv (fun v' => saved (v_ds v') a (source_of v :: l) /\ same_memory_but (v_ds v) (v_ds v') a 272 /\
    here (v_ds v') = here (v_ds v) /\ stacks_are v' d r f /\ v_out v' = v_out v /\ calm v v').
Proof.
  intros (L & src & f2 & tw & s2 & pos & W1 & HB & W2 & C1 & C2 & C3 & C4 & _ & HF) (V1 & V2 & V3 & V4) HD HS Hd Hr Hs Hp Hl.
  destruct HF as (F1 & F2 & F3). pose proof (zlen_nonneg d). pose proof (zlen_nonneg r). pose proof (zlen_nonneg l). room.
  eapply does_conseq; [|eapply (lib_does K v sv _ _ d r f (fun d' m o => d' = d /\ saved m a (source_of v :: l) /\ same_memory_but (v_ds v) m a 272 /\
    here m = here (v_ds v) /\ o = v_out v)); [exact C4|exact HS|lia|]].
  { intros u (d' & m & o & (-> & Q1 & Q2 & Q3 & ->) & HI). assert (Ed : v_ds u = m) by apply HI. rewrite Ed.
    split; [exact Q1|]. split; [exact Q2|]. split; [exact Q3|]. split; [apply HI|]. split; apply HI. }
  intros ra u I. unfold d_save_source.
  seqs. eapply (wp_part _ _ (fun v => st_sid (st v))); [known_word|reflexivity|intros x C; apply C|eassumption|wlen|]. intros ?u ?I.
  seqs. eapply (wp_part _ _ (fun v => to_i64 (st_idx (st v)))); [exact W2| |intros x C; f_equal; apply C|eassumption|wlen|].
  { intros fuel ew. reflexivity. }
  intros ?u ?I. cbv beta in *.
  var_. rewrite HB in *.
  seqs. eapply (wp_action _ _ _ _ _ _ _ _ _ _ _ _ _ _ (two_fetch_lib a 16 (zlen l)) L C1); [eapply inv_kept; [eassumption|apply same_refl|split; [exact F1|split; [exact F2|exact F3]]]|cbn [app]; eassumption|wlen|wlen|assumption| |].
  { replace (v_ds u2) with (v_ds v) by (symmetry; apply I2). repeat split; try assumption; unfold is_cell; lia. }
  intros outs text w0 (-> & M0 & ->) I3. rewrite said_nil in I3. replace (v_ds u2) with (v_ds v) in M0 by (symmetry; apply I2). rewrite M0 in I3. cbn [app] in I3.
  by_is (over_effect (zlen l) 16). by_effect (greater_than_spec 16 (zlen l)).
  match goal with T : truth _ _ |- _ => destruct (truth_case _ _ T) as [T1 T2] end. seqs. eapply wp_if_else; [eassumption| |]; intros Hy w J; [|exfalso; apply T2; [exact Hy|lia]].
  by_effect (one_plus_spec (zlen l)). wraps.
  by_is (dup_effect (zlen l + 1)). var_. rewrite HB in *.
  seqs. eapply wp_cell_plus; [known_word|eassumption|red; lia|]. intros ?u ?I.
  seqs. eapply wp_store; [known_word|eassumption|assumption|lia|lia|intros k Hk; specialize (F3 k Hk); lia|]. intros w1 m1 S1 D1 G1 J1.
  assert (SB1 : same_memory_but (v_ds v) m1 a 272) by (eapply (same_join (v_ds v) (v_ds v) m1 a 0 (a + 8) 8 a 272); [apply same_refl|exact S1|lia..]).
  pose proof (same_ok _ _ _ _ HD S1 G1) as HD1.
  seqs. eapply (wp_stacks _ _ _ _ _ _ _ _ _ _ _ _ _ (two_star_lib (zlen l + 1)) L C2); [eapply inv_kept; [eassumption|exact SB1|split; [exact F1|split; [exact F2|exact F3]]]|cbn [app]; eassumption|wlen|wlen|].
  intros outs w2 (y2 & -> & Y2) J2. cbn [app] in J2. wraps.
  seqs. eapply wp_cells; [known_word|eassumption|red; lia|]. intros ?u ?I.
  var_. rewrite HB in *.
  by_effect (plus_spec (2 * (zlen l + 1) * 8) a). wraps.
  match goal with J : inv v (?x :: to_i64 _ :: _) _ _ m1 _ _ |- _ => replace x with (a + 16 * (zlen l + 1)) in J by lia; rename J into J3 end.
  assert (SS1 : start m1 = start (v_ds v) /\ limit m1 = limit (v_ds v)) by (split; apply S1).
  eapply (wp_action _ _ _ _ _ _ _ _ _ _ _ _ _ _ (two_store_lib (a + 16 * (zlen l + 1)) (to_i64 (st_idx (st v))) (st_sid (st v))) L C3);
    [eapply inv_kept; [eassumption|exact SB1|split; [exact F1|split; [exact F2|exact F3]]]|cbn [app]; eassumption|wlen|wlen|exact HD1| |].
  { match goal with |- free_of _ ?x _ _ => assert (Ed : v_ds x = m1) by apply J3 end. unfold free_of. rewrite Ed. destruct SS1 as [-> ->].
    split; [lia|]. split; [lia|]. intros k Hk. specialize (F3 k Hk). lia. }
  intros outs text w5 (-> & X1 & X2 & X3 & X4 & ->) J5. rewrite said_nil in J5. cbn [app] in J5.
  match goal with J : same_memory_but (v_ds ?x) _ _ 16 |- _ => assert (Ed : v_ds x = m1) by apply J3; rewrite Ed in * end.
  exists d, (v_ds w5), (v_out v). split; [|exact J5]. split; [reflexivity|].
  split; [|split; [eapply (same_join (v_ds v) m1 (v_ds w5) a 272); [exact SB1|exact X3|lia..]|split; [congruence|reflexivity]]].
  unfold saved. rewrite zlen_cons. split; [eapply cell_keep; [exact X3|lia|lia|]; eapply cell_keep; [exact S1|lia|lia|exact V1]|].
  split; [eapply cell_keep; [exact X3|lia|lia|]; replace (1 + zlen l) with (zlen l + 1) by lia; exact D1|]. split; [lia|].
  unfold source_of. cbn [entries]. rewrite zlen_cons. replace (1 + zlen l) with (zlen l + 1) by lia.
  split; [exact X1|]. split; [exact X2|]. split; [exact Hs|]. split; [exact Hp|].
  eapply entries_keep; [exact X3|lia|lia|]. eapply entries_keep; [exact S1|lia|lia|exact V4].
Qed.

(** The exception when the stack of sources is full *)
Lemma inv_aborts v0 ix d r f o u a m (Q : vm -> Prop) : library ix v0 -> inv v0 d r f m o u -> m = a ->
  Q u -> wpx (wd ix P_abort) (stops (-1) Q) u.
Proof. intros L I _ q. apply wpx_abort; [|exact q]. eapply inv_word; [exact I|]. apply L. unfold lib_prims. cbn. tauto. Qed.
Lemma wpx_more p (Q Q' : Z -> vm -> Prop) u : (forall z w, Q z w -> Q' z w) -> wpx p Q u -> wpx p Q' u.
Proof. intros H W a HH. destruct (W a HH) as (w & z & P & q). exists w, z. auto. Qed.

Lemma save_full ix sv rs a l v d r f : source_words K ix v sv rs a -> saved (v_ds v) a l -> ds_ok (v_ds v) -> stacks_are v d r f ->
  zlen d <= 240 -> zlen r <= 240 -> zlen l = 16 ->
  throws K v sv (-1) (fun w => v_ds w = v_ds v /\ source_of w = source_of v /\ calm v w).
Proof.
  intros (L & src & f2 & tw & s2 & pos & W1 & HB & W2 & C1 & C2 & C3 & C4 & _ & HF) (V1 & V2 & V3 & V4) HD HS Hd Hr Hl.
  destruct HF as (F1 & F2 & F3). pose proof (zlen_nonneg d). pose proof (zlen_nonneg r). room.
  eapply colon_throws; [exact C4|apply HS|lia|]. intros ra Hra.
  assert (I : inv v d (ra :: r) f (v_ds v) (v_out v) (add_r ra v)) by (apply inv_rpush; [apply inv_start; exact HS|lia]).
  unfold d_save_source. cbn [block].
  apply wpx_seq. eapply (wp_part _ _ (fun v => st_sid (st v))); [known_word|reflexivity|intros x C; apply C|eassumption|wlen|]. intros ?u ?I.
  apply wpx_seq. eapply (wp_part _ _ (fun v => to_i64 (st_idx (st v)))); [exact W2| |intros x C; f_equal; apply C|eassumption|wlen|].
  { intros fuel ew. reflexivity. }
  intros ?u ?I. cbv beta in *.
  apply wpx_seq. var_. rewrite HB in *.
  apply wpx_seq. eapply (wp_action _ _ _ _ _ _ _ _ _ _ _ _ _ _ (two_fetch_lib a 16 (zlen l)) L C1); [eapply inv_kept; [eassumption|apply same_refl|split; [exact F1|split; [exact F2|exact F3]]]|cbn [app]; eassumption|wlen|wlen|assumption| |].
  { replace (v_ds u1) with (v_ds v) by (symmetry; apply I2). repeat split; try assumption; unfold is_cell; lia. }
  intros outs text w0 (-> & M0 & ->) I3. rewrite said_nil in I3. replace (v_ds u1) with (v_ds v) in M0 by (symmetry; apply I2). rewrite M0 in I3. cbn [app] in I3.
  apply wpx_seq. by_is (over_effect (zlen l) 16). apply wpx_seq. by_effect (greater_than_spec 16 (zlen l)).
  match goal with T : truth _ _ |- _ => destruct (truth_case _ _ T) as [T1 T2] end.
  destruct (Z.eq_dec y 0) as [->|Hy]; [|exfalso; specialize (T1 Hy); lia].
  eapply wpx_else; [eassumption|]. intros w J. eapply inv_aborts; [exact L|exact J|reflexivity|].
  split; [apply J|]. split; [|apply J]. destruct J as (_ & _ & _ & C). unfold source_of. f_equal; apply C.
Qed.
Lemma restore_empty ix sv rs a v d r f : source_words K ix v sv rs a -> saved (v_ds v) a [] -> ds_ok (v_ds v) -> stacks_are v d r f ->
  zlen d <= 240 -> zlen r <= 240 ->
  throws K v rs (-1) (fun w => v_ds w = v_ds v /\ source_of w = source_of v /\ calm v w).
Proof.
  intros (L & src & f2 & tw & s2 & pos & W1 & HB & W2 & C1 & C2 & C3 & _ & C4 & HF) (V1 & V2 & V3 & V4) HD HS Hd Hr.
  destruct HF as (F1 & F2 & F3). pose proof (zlen_nonneg d). pose proof (zlen_nonneg r). room. rewrite zlen_nil in V2.
  eapply colon_throws; [exact C4|apply HS|lia|]. intros ra Hra.
  assert (I : inv v d (ra :: r) f (v_ds v) (v_out v) (add_r ra v)) by (apply inv_rpush; [apply inv_start; exact HS|lia]).
  unfold d_restore_source. cbn [block].
  apply wpx_seq. var_. rewrite HB in *.
  apply wpx_seq. eapply (wp_action _ _ _ _ _ _ _ _ _ _ _ _ _ _ (two_fetch_lib a 16 0) L C1); [eapply inv_kept; [eassumption|apply same_refl|split; [exact F1|split; [exact F2|exact F3]]]|cbn [app]; eassumption|wlen|wlen|assumption| |].
  { replace (v_ds u) with (v_ds v) by (symmetry; apply I0). repeat split; try assumption; unfold is_cell; lia. }
  intros outs text w0 (-> & M0 & ->) I3. rewrite said_nil in I3. replace (v_ds u) with (v_ds v) in M0 by (symmetry; apply I0). rewrite M0 in I3. cbn [app] in I3.
  apply wpx_seq. by_is (drop_effect 16). apply wpx_seq. by_is (dup_effect 0). apply wpx_seq. by_num. apply wpx_seq. by_effect (greater_than_spec 0 0).
  match goal with T : truth _ _ |- _ => destruct (truth_case _ _ T) as [T1 T2] end.
  destruct (Z.eq_dec y 0) as [->|Hy]; [|exfalso; specialize (T1 Hy); lia].
  eapply wpx_else; [eassumption|]. intros w J. eapply inv_aborts; [exact L|exact J|reflexivity|].
  split; [apply J|]. split; [|apply J]. destruct J as (_ & _ & _ & C). unfold source_of. f_equal; apply C.
Qed.

(** Selecting a source *)
Lemma other_upd2 f g v u : v_cur u = v_cur v -> same_other_tasks v u -> same_other_tasks (upd_cur f v) (upd_cur g u).
Proof.
  intros Ec H i Hi Hc Hn. change (v_cur (upd_cur f v)) with (v_cur v) in *. rewrite !task_at_upd by (rewrite ?Ec; assumption). apply H; assumption.
Qed.
Lemma calm_idx p v0 u : calm v0 u -> calm (set_idx p v0) (set_idx p u).
Proof.
  unfold calm. intro H. repeat match goal with H : _ /\ _ |- _ => destruct H end. gnorm. repeat split; try assumption; try congruence.
  apply other_upd2; assumption.
Qed.
Lemma calm_sid p v0 u : calm v0 u -> calm (set_sid p v0) (set_sid p u).
Proof.
  unfold calm. intro H. repeat match goal with H : _ /\ _ |- _ => destruct H end. gnorm. repeat split; try assumption; try congruence.
  apply other_upd2; assumption.
Qed.
Lemma inv_idx p v0 d r f m o u : inv v0 d r f m o u -> inv (set_idx p v0) d r f m o (set_idx p u).
Proof.
  intros (S & D & O & C). split; [unfold stacks_are in *; gnorm; exact S|]. split; [exact D|]. split; [exact O|apply calm_idx; exact C].
Qed.
Lemma inv_sid p v0 d r f m o u : inv v0 d r f m o u -> inv (set_sid p v0) d r f m o (set_sid p u).
Proof.
  intros (S & D & O & C). split; [unfold stacks_are in *; gnorm; exact S|]. split; [exact D|]. split; [exact O|apply calm_sid; exact C].
Qed.
Lemma wp_set_idx i v0 x d r f m o u (Q : vm -> Prop) : word_is v0 i P_p_set_source_idx -> inv v0 (x :: d) r f m o u ->
  (forall u', inv (set_idx (to_u64 x) v0) d r f m o u' -> Q u') -> wp K (Op i) Q u.
Proof.
  intros W HI HQ. eapply wp_prim; [eapply inv_word; eassumption|]. intros ew fuel j c.
  pose proof (inv_at _ _ _ _ _ _ _ j c HI) as HI'. cbn [exec_prim]. unfold p_set_source_idx.
  destruct (pop_then _ x d (proj1 (proj1 HI'))) as (s1 & EP & S1 & S2 & HL). rewrite EP. unfold modify. eexists. split; [reflexivity|].
  split; [gnorm; rewrite cur_at; reflexivity|]. split; [apply kept_eq; reflexivity|]. apply HQ. apply inv_idx.
  assert (J : inv v0 d r f m o (set_s s1 (at_ j c u))); [|exact J]. eapply inv_data; [exact HI'|rewrite cur_set_s; exact S1|]. apply only_data_set_s. exact S2.
Qed.
Lemma select_ok ew v id : selectable v id -> set_source_id ew id v = Ok (tt, set_sid id v).
Proof.
  intros [->|(H0 & (s & H1) & (s' & H2))]; [reflexivity|]. unfold set_source_id. replace (0 <? id) with true by lia. rewrite !bind_gets.
  assert (HL : (Z.to_nat (id - 1) < length (t_sources (cur v)))%nat) by (apply nth_error_Some; rewrite H1; discriminate).
  replace (id - 1 <? zlen (t_sources (cur v))) with true by (unfold zlen; lia).
  unfold index_list, nth_opt. replace (0 <=? id - 1) with true by lia. rewrite H1, H2. reflexivity.
Qed.
Lemma selectable_calm v0 u id : calm v0 u -> selectable v0 id -> selectable u id.
Proof.
  intro H. assert (A : t_sources (cur u) = t_sources (cur v0)) by apply H. assert (B : t_lines (cur u) = t_lines (cur v0)) by apply H.
  unfold selectable. rewrite A, B. auto.
Qed.
Lemma wp_set_sid i v0 x d r f m o u (Q : vm -> Prop) : word_is v0 i P_p_set_source_id -> inv v0 (x :: d) r f m o u -> selectable v0 x ->
  (forall u', inv (set_sid x v0) d r f m o u' -> Q u') -> wp K (Op i) Q u.
Proof.
  intros W HI HX HQ. eapply wp_prim; [eapply inv_word; eassumption|]. intros ew fuel j c.
  pose proof (inv_at _ _ _ _ _ _ _ j c HI) as HI'. cbn [exec_prim]. unfold p_set_source_id.
  destruct (pop_then _ x d (proj1 (proj1 HI'))) as (s1 & EP & S1 & S2 & HL). rewrite EP.
  assert (J : inv v0 d r f m o (set_s s1 (at_ j c u))). { eapply inv_data; [exact HI'|rewrite cur_set_s; exact S1|]. apply only_data_set_s. exact S2. }
  rewrite select_ok by (eapply selectable_calm; [apply J|exact HX]). eexists. split; [reflexivity|].
  split; [gnorm; rewrite cur_at; reflexivity|]. split; [apply kept_eq; reflexivity|]. apply HQ. apply inv_sid. exact J.
Qed.
Lemma lib_does2 v i p x d rs fs (R : list Z -> dspace -> option bytes -> vm -> Prop) : colon_word K v i p x -> stacks_are v d rs fs -> zlen rs < 255 ->
  (forall r u, inv v d (r :: rs) fs (v_ds v) (v_out v) u ->
     wp K p (fun v' => exists d' m o v1, R d' m o v1 /\ v_wl v1 = v_wl v /\ inv v1 d' (r :: rs) fs m o v') u) ->
  does K v i (fun v' => exists d' m o v1, R d' m o v1 /\ inv v1 d' rs fs m o v').
Proof.
  intros HC HS Hl H. eapply colon_does; [exact HC|apply HS|exact Hl|]. intros r Hr.
  eapply wp_conseq; [|apply (H r); apply inv_rpush; [apply inv_start; exact HS|exact Hl]].
  intros u (d' & m & o & v1 & HR & Ew & HI). split; [rewrite <- Ew; eapply inv_wl; exact HI|]. exists rs. split; [apply HI|].
  exists d', m, o, v1. split; [exact HR|]. apply (inv_rdrop v1 [r]). exact HI.
Qed.

Lemma restore_does ix sv rs a id pos0 l v d r f : source_words K ix v sv rs a -> saved (v_ds v) a ((id, pos0) :: l) -> ds_ok (v_ds v) -> stacks_are v d r f ->
  zlen d <= 240 -> zlen r <= 240 -> selectable v id ->
  does K v rs (fun v' => source_of v' = (id, pos0) /\ saved (v_ds v') a l /\ same_memory_but (v_ds v) (v_ds v') a 272 /\
    here (v_ds v') = here (v_ds v) /\ stacks_are v' d r f /\ v_out v' = v_out v /\ calm (with_source v (id, pos0)) v').
Proof.
  intros (L & src & f2 & tw & s2 & pos & W1 & HB & W2 & C1 & C2 & C3 & _ & C4 & HF) (V1 & V2 & V3 & V4) HD HS Hd Hr HX.
  destruct HF as (F1 & F2 & F3). pose proof (zlen_nonneg d). pose proof (zlen_nonneg r). pose proof (zlen_nonneg l). room.
  destruct V4 as (E1 & E2 & E3 & E4 & E5). rewrite zlen_cons in *. replace (1 + zlen l) with (zlen l + 1) in * by lia.
  eapply does_conseq; [|eapply (lib_does2 v rs _ _ d r f (fun d' m o v1 => d' = d /\ saved m a l /\ same_memory_but (v_ds v) m a 272 /\
    here m = here (v_ds v) /\ o = v_out v /\ v1 = with_source v (id, pos0))); [exact C4|exact HS|lia|]].
  { intros u (d' & m & o & v1 & (-> & Q1 & Q2 & Q3 & -> & ->) & HI). assert (Ed : v_ds u = m) by apply HI. rewrite Ed.
    split; [|split; [exact Q1|]; split; [exact Q2|]; split; [exact Q3|]; split; [apply HI|]; split; apply HI].
    destruct HI as (_ & _ & _ & C). assert (CI : st_idx (st u) = st_idx (st (with_source v (id, pos0)))) by apply C.
    assert (CS : st_sid (st u) = st_sid (st (with_source v (id, pos0)))) by apply C. unfold source_of. rewrite CI, CS. unfold with_source. gnorm. reflexivity. }
  intros ra u I. unfold d_restore_source.
  var_. rewrite HB in *.
  seqs. eapply (wp_action _ _ _ _ _ _ _ _ _ _ _ _ _ _ (two_fetch_lib a 16 (zlen l + 1)) L C1); [eapply inv_kept; [eassumption|apply same_refl|split; [exact F1|split; [exact F2|exact F3]]]|cbn [app]; eassumption|wlen|wlen|assumption| |].
  { replace (v_ds u0) with (v_ds v) by (symmetry; apply I0). repeat split; try assumption; unfold is_cell; lia. }
  intros outs text w0 (-> & M0 & ->) I3. rewrite said_nil in I3. replace (v_ds u0) with (v_ds v) in M0 by (symmetry; apply I0). rewrite M0 in I3. cbn [app] in I3.
  by_is (drop_effect 16). by_is (dup_effect (zlen l + 1)). by_num. by_effect (greater_than_spec (zlen l + 1) 0).
  match goal with T : truth _ _ |- _ => destruct (truth_case _ _ T) as [T1 T2] end.
  seqs. eapply wp_if_else; [eassumption| |]; intros Hy w J; [|exfalso; apply T2; [exact Hy|lia]].
  by_is (dup_effect (zlen l + 1)). by_effect (one_minus_spec (zlen l + 1)). wraps. var_. rewrite HB in *.
  seqs. eapply wp_cell_plus; [known_word|eassumption|red; lia|]. intros ?u ?I.
  seqs. eapply wp_store; [known_word|eassumption|assumption|lia|lia|intros k Hk; specialize (F3 k Hk); lia|]. intros w1 m1 S1 D1 G1 J1.
  assert (SB1 : same_memory_but (v_ds v) m1 a 272) by (eapply (same_join (v_ds v) (v_ds v) m1 a 0 (a + 8) 8 a 272); [apply same_refl|exact S1|lia..]).
  pose proof (same_ok _ _ _ _ HD S1 G1) as HD1.
  seqs. eapply (wp_stacks _ _ _ _ _ _ _ _ _ _ _ _ _ (two_star_lib (zlen l + 1)) L C2); [eapply inv_kept; [eassumption|exact SB1|split; [exact F1|split; [exact F2|exact F3]]]|cbn [app]; eassumption|wlen|wlen|].
  intros outs w2 (y2 & -> & Y2) J2. cbn [app] in J2. wraps.
  seqs. eapply wp_cells; [known_word|eassumption|red; lia|]. intros ?u ?I.
  var_. rewrite HB in *.
  by_effect (plus_spec (2 * (zlen l + 1) * 8) a). wraps.
  match goal with J : inv v (2 * (zlen l + 1) * 8 + a :: _) _ _ m1 _ _ |- _ => replace (2 * (zlen l + 1) * 8 + a) with (a + 16 * (zlen l + 1)) in J by lia; rename J into J3 end.
  assert (SS1 : start m1 = start (v_ds v) /\ limit m1 = limit (v_ds v)) by (split; apply S1).
  seqs. eapply (wp_action _ _ _ _ _ _ _ _ _ _ _ _ _ _ (two_fetch_lib (a + 16 * (zlen l + 1)) (to_i64 pos0) id) L C1);
    [eapply inv_kept; [eassumption|exact SB1|split; [exact F1|split; [exact F2|exact F3]]]|cbn [app]; eassumption|wlen|wlen|exact HD1| |].
  { match goal with |- start (v_ds ?x) < _ /\ _ => assert (Ed : v_ds x = m1) by apply J3 end. rewrite Ed. destruct SS1 as [-> ->].
    split; [lia|]. split; [lia|]. split; [eapply cell_keep; [exact S1|lia|lia|exact E1]|]. split; [eapply cell_keep; [exact S1|lia|lia|exact E2]|].
    split; [apply to_i64_cell|exact E3]. }
  intros outs text w5 (-> & X1 & ->) J5. rewrite said_nil in J5. cbn [app] in J5.
  match goal with J : v_ds _ = v_ds ?x |- _ => assert (Ed : v_ds x = m1) by apply J3; rewrite Ed in J end. rewrite X1 in J5.
  seqs. eapply wp_set_idx; [known_word|exact J5|]. intros w6 J6. rewrite pos_back in J6 by exact E4.
  eapply wp_set_sid; [|exact J6| |].
  { unfold word_is. change (v_wl (set_idx pos0 v)) with (v_wl v). apply (L P_p_set_source_id). unfold lib_prims. cbn. tauto. }
  { unfold selectable in *. gnorm. exact HX. }
  intros w7 J7. exists d, m1, (v_out v), (with_source v (id, pos0)). split; [|split; [reflexivity|exact J7]]. split; [reflexivity|].
  split; [|split; [exact SB1|]; split; [congruence|]; split; reflexivity].
  split; [eapply cell_keep; [exact S1|lia|lia|exact V1]|]. split; [replace (zlen l) with (zlen l + 1 - 1) by lia; exact D1|]. split; [lia|].
  eapply entries_keep; [exact S1|lia|lia|exact E5].
Qed.

(** ** Balanced nesting *)
Lemma source_words_eq ix v w sv rs a : v_wl w = v_wl v -> kept K v w -> source_words K ix v sv rs a -> source_words K ix w sv rs a.
Proof.
  intros Ew HK (L & src & f2 & tw & s2 & pos & W1 & HB & W2 & C1 & C2 & C3 & C4 & C5 & HF).
  split; [eapply library_eq; eassumption|]. exists src, f2, tw, s2, pos. unfold word_is, body, word_of in *. rewrite Ew.
  split; [exact W1|]. split; [exact HB|]. split; [exact W2|].
  split; [eapply colon_eq; eassumption|]. split; [eapply colon_eq; eassumption|]. split; [eapply colon_eq; eassumption|].
  split; [eapply colon_eq; eassumption|]. split; [eapply colon_eq; eassumption|].
  destruct HK as (A & B & _). unfold free_of in *. rewrite A, B. exact HF.
Qed.
Definition opens (ids : list Z) v : Prop := forall id, In id ids -> selectable v id.
Lemma does_kept v i (Q : vm -> Prop) : does K v i Q -> does K v i (fun v' => kept K v v' /\ Q v').
Proof. intros D r Hr. destruct (D r Hr) as (f & u & v' & E1 & G & KK & q). exists f, u, v'. auto 10. Qed.
Lemma save_settled ix sv rs a l v ids : settled K ix sv rs a l v -> opens ids v -> In (st_sid (st v)) ids -> zlen l < 16 ->
  wp K (Op sv) (fun v' => settled K ix sv rs a (source_of v :: l) v' /\ opens ids v' /\ In (st_sid (st v')) ids) v.
Proof.
  intros (W & V & D & (d & r & f & S & Hd & Hr) & Hs & Hp) HO HI Hl. apply wp_call.
  eapply does_conseq; [|apply does_kept, (save_does ix sv rs a l v d r f); assumption].
  intros v' (KK & V' & M & G & S' & O & C).
  assert (Es : st_sid (st v') = st_sid (st v)) by apply C. assert (Ei : st_idx (st v') = st_idx (st v)) by apply C.
  split; [|split; [intros id Hid; eapply selectable_calm; [exact C|apply HO; exact Hid]|rewrite Es; exact HI]].
  split; [eapply source_words_eq; [apply C|exact KK|exact W]|]. split; [exact V'|]. split; [eapply same_ok; eassumption|].
  split; [exists d, r, f; auto|]. rewrite Es, Ei. auto.
Qed.
Lemma restore_settled ix sv rs a l s v ids : settled K ix sv rs a (s :: l) v -> opens ids v -> In (fst s) ids ->
  wp K (Op rs) (fun v' => settled K ix sv rs a l v' /\ opens ids v' /\ source_of v' = s) v.
Proof.
  destruct s as [id pos]. cbn [fst]. intros (W & V & D & (d & r & f & S & Hd & Hr) & Hs & Hp) HO HI. apply wp_call.
  eapply does_conseq; [|apply does_kept, (restore_does ix sv rs a id pos l v d r f); try assumption; apply HO; exact HI].
  intros v' (KK & Es & V' & M & G & S' & O & C).
  split; [|split; [intros id' Hid; eapply selectable_calm; [exact C|]; specialize (HO id' Hid); unfold selectable, with_source in *; gnorm; exact HO|exact Es]].
  split; [eapply source_words_eq; [apply C|exact KK|exact W]|]. split; [exact V'|]. split; [eapply same_ok; eassumption|].
  split; [exists d, r, f; auto|]. unfold source_of in Es. injection Es as -> ->.
  destruct V as (_ & _ & _ & (_ & _ & A & B & _)). auto.
Qed.
Lemma balanced_runs ix sv rs a ids n p : balanced K ix sv rs a ids n p -> 0 <= n /\ forall l v, settled K ix sv rs a l v -> opens ids v -> In (st_sid (st v)) ids ->
  zlen l + n <= 16 -> wp K p (fun v' => settled K ix sv rs a l v' /\ opens ids v' /\ In (st_sid (st v')) ids) v.
Proof.
  induction 1 as [p H|n m p q H1 IH1 H2 IH2|n p H IH].
  - split; [lia|]. intros l v A B C _. exact (H l v A B C).
  - destruct IH1 as [N1 IH1], IH2 as [N2 IH2]. split; [lia|]. intros l v A B C D. apply wp_seq. eapply wp_conseq; [|apply (IH1 l v A B C); lia].
    intros u (A' & B' & C'). apply IH2; [assumption..|lia].
  - destruct IH as [N1 IH]. split; [lia|]. intros l v A B C D. apply wp_seq. eapply wp_conseq; [|apply (save_settled ix sv rs a l v ids A B C); lia].
    intros u (A' & B' & C'). apply wp_seq. eapply wp_conseq; [|apply (IH _ u A' B' C'); rewrite zlen_cons; lia].
    intros w (A2 & B2 & C2). eapply wp_conseq; [|apply (restore_settled ix sv rs a l _ w ids A2 B2); exact C].
    intros w' (A3 & B3 & C3). split; [exact A3|]. split; [exact B3|]. unfold source_of in C3. injection C3 as -> _. exact C.
Qed.
Lemma nest_runs ix sv rs a ids n p l v : balanced K ix sv rs a ids n p -> settled K ix sv rs a l v -> opens ids v -> In (st_sid (st v)) ids ->
  zlen l + n < 16 -> runs K (Seq (Op sv) (Seq p (Op rs))) (fun v' => source_of v' = source_of v /\ settled K ix sv rs a l v') v.
Proof.
  intros HB A B C D. destruct (balanced_runs _ _ _ _ _ _ _ HB) as [N1 IH]. change (wp K (Seq (Op sv) (Seq p (Op rs))) (fun v' => source_of v' = source_of v /\ settled K ix sv rs a l v') v).
  apply wp_seq. eapply wp_conseq; [|apply (save_settled ix sv rs a l v ids A B C); lia].
  intros u (A' & B' & C'). apply wp_seq. eapply wp_conseq; [|apply (IH _ u A' B' C'); rewrite zlen_cons; lia].
  intros w (A2 & B2 & C2). eapply wp_conseq; [|apply (restore_settled ix sv rs a l _ w ids A2 B2); exact C].
  intros w' (A3 & B3 & C3). auto.
Qed.
End K.
End L.
