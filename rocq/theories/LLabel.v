(** Labels, GOTO and CALL. *)
From Coq Require Import ZArith List Bool Lia.
From Verif Require Import Base Stack Mem State CoreM Exec Spec Spec4 Spec5 Spec6 Spec7 Spec8
  LBase LStack LState LMem LMon LMemWords LTask LCode LComp LRun LCtl.
Import ListNotations.
Open Scope Z_scope.
Open Scope m_scope.
Ltac Zify.zify_post_hook ::= Z.div_mod_to_equations.

Section L.
Context {E : Env}.
Implicit Types (v w u : vm).

(** ** Emitting code *)
Definition grown d d' n : Prop :=
  ds_ok d' /\ start d' = start d /\ limit d' = limit d /\ here d' = here d + n /\
  forall i, start d <= i < here d -> byte_at d' i = byte_at d i.
Lemma grown_trans d d1 d2 n m : 0 <= n -> grown d d1 n -> grown d1 d2 m -> grown d d2 (n + m).
Proof.
  intros Hn (A1 & A2 & A3 & A4 & A5) (B1 & B2 & B3 & B4 & B5).
  split; [exact B1|]. split; [congruence|]. split; [congruence|]. split; [lia|].
  intros i Hi. rewrite B5 by lia. apply A5. exact Hi.
Qed.
Lemma grown_cell d d' n a x : grown d d' n -> start d <= a -> a + 8 <= here d -> cell_at d a x -> cell_at d' a x.
Proof. intros (_ & _ & _ & _ & H) H1 H2 C k Hk. rewrite H by lia. apply C. exact Hk. Qed.
Lemma emit v x : ds_ok (v_ds v) -> here (v_ds v) + 8 <= limit (v_ds v) ->
  exists d, ds_upd (fun d => compile_cell d x) v = Ok (tt, set_v_ds d v) /\ grown (v_ds v) d 8 /\ cell_at d (here (v_ds v)) x.
Proof.
  intros H1 H2. destruct (compile_cell_ok _ x H1 H2) as (d & E1 & C & (M1 & M2 & M3) & H3 & _).
  exists d. split; [apply ds_upd_eq; exact E1|]. split; [|exact C].
  destruct H1 as (A & B & D). split; [unfold ds_ok; lia|]. repeat split; try assumption. intros i Hi. apply M3; lia.
Qed.
Lemma emit2 v f x : ds_ok (v_ds v) -> here (v_ds v) + 16 <= limit (v_ds v) ->
  exists d, (idx <- refs_get f ;; compile_word idx ;;; ds_upd (fun d => compile_cell d x)) v = Ok (tt, set_v_ds d v) /\
    grown (v_ds v) d 16 /\ cell_at d (here (v_ds v)) (f (v_refs v)) /\ cell_at d (here (v_ds v) + 8) x.
Proof.
  intros H1 H2. unfold refs_get, compile_word. rewrite bind_gets.
  destruct (emit v (f (v_refs v)) H1 ltac:(lia)) as (d1 & E1 & G1 & C1).
  rewrite (bind_Ok _ _ _ _ _ E1). pose proof G1 as (A1 & A2 & A3 & A4 & A5).
  destruct (emit (set_v_ds d1 v) x) as (d2 & E2 & G2 & C2); [exact A1|cbn [v_ds set_v_ds]; lia|].
  cbn [v_ds set_v_ds] in *. exists d2. split; [exact E2|]. destruct H1 as (? & ? & ?).
  split; [exact (grown_trans _ _ _ 8 8 ltac:(lia) G1 G2)|]. split.
  - eapply grown_cell; [exact G2|lia|lia|exact C1].
  - rewrite <- A4. exact C2.
Qed.
Lemma branch_emit v x : ds_ok (v_ds v) -> here (v_ds v) + 16 <= limit (v_ds v) ->
  exists d, compile_branch x v = Ok (here (v_ds v) + 16, set_v_ds d v) /\
    grown (v_ds v) d 16 /\ cell_at d (here (v_ds v)) (idx_branch (v_refs v)) /\ cell_at d (here (v_ds v) + 8) x.
Proof.
  intros H1 H2. destruct (emit2 v idx_branch x H1 H2) as (d & E1 & G & R). exists d. split; [|split; [exact G|exact R]].
  unfold compile_branch. revert E1. unfold bind. destruct (refs_get idx_branch v) as [[i v1]| | |]; try discriminate.
  destruct (compile_word i v1) as [[q v2]| | |]; try discriminate.
  destruct (ds_upd _ v2) as [[q' v3]| | |]; try discriminate. intro Q. injection Q as -> ->.
  unfold gets. cbn [v_ds set_v_ds]. destruct G as (_ & _ & _ & -> & _). reflexivity.
Qed.

(** ** The invariant *)
Definition at_n n (g : list (Z * Z)) : list Z := map fst (branches_to n g).
Fixpoint chain d x (l : list Z) : Prop :=
  match l with
  | [] => x = 0
  | a :: r => x = a + 8 /\ exists y, cell_at d (a + 8) y /\ chain d y r
  end.
Definition is_branch v a : Prop := exists i, cell_at (v_ds v) a i /\ word_is v i P_branch /\ i < 2 ^ 63.
Fixpoint sorted (l : list Z) : Prop :=
  match l with [] => True | a :: r => (forall b, In b r -> b + 16 <= a) /\ sorted r end.

Record inv g l v : Prop := {
  i_ds : ds_ok (v_ds v);
  i_ready : compiler_ready v;
  i_g : forall a n, In (a, n) g -> start (v_ds v) <= a /\ a + 16 <= here (v_ds v) /\ 0 < n < 1000 /\ is_branch v a;
  i_sorted : sorted (map fst g);
  i_l : forall n t, In (n, t) l -> 0 < n < 1000 /\ start (v_ds v) <= t <= here (v_ds v);
  i_uniq : NoDup (map fst l);
  i_def : forall n t, In (n, t) l -> In n (v_res v) /\ ~ In n (v_fwd v) /\ tget 0 (v_labels v) n = t /\
            forall a, In (a, n) g -> cell_at (v_ds v) (a + 8) t;
  i_undef : forall n, 0 < n < 1000 -> ~ In n (map fst l) -> ~ In n (v_res v) /\
            match at_n n g with
            | [] => ~ In n (v_fwd v)
            | _ => In n (v_fwd v) /\ chain (v_ds v) (tget 0 (v_labels v) n) (at_n n g)
            end }.

Lemma in_at n g a : In a (at_n n g) <-> In (a, n) g.
Proof.
  unfold at_n, branches_to. rewrite in_map_iff. split.
  - intros ([b m] & <- & H). apply filter_In in H as [H1 H2]. cbn in *. apply Z.eqb_eq in H2. subst. exact H1.
  - intro H. exists (a, n). split; [reflexivity|]. apply filter_In. split; [exact H|]. cbn. apply Z.eqb_refl.
Qed.
Lemma at_cons n a m g : at_n n ((a, m) :: g) = if m =? n then a :: at_n n g else at_n n g.
Proof. unfold at_n, branches_to. cbn [filter snd]. destruct (m =? n); reflexivity. Qed.
Lemma sorted_at n g : sorted (map fst g) -> sorted (at_n n g).
Proof.
  induction g as [|[a m] g IH]; intro H; [exact I|]. rewrite at_cons. cbn in H. destruct H as [H1 H2].
  destruct (m =? n); [|auto]. split; [|auto]. intros b Hb. apply H1. apply in_at in Hb. apply (in_map fst) in Hb. exact Hb.
Qed.
Lemma chain_move d d' l : (forall a y, In a l -> cell_at d (a + 8) y -> cell_at d' (a + 8) y) ->
  forall x, chain d x l -> chain d' x l.
Proof.
  induction l as [|a r IH]; intros H x; [auto|]. cbn [chain]. intros (-> & y & C & R). split; [reflexivity|].
  exists y. split; [apply H; [left; reflexivity|exact C]|]. apply IH; [|exact R]. intros b z Hb. apply H. right. exact Hb.
Qed.
Lemma contains_In s n : bs_contains s n = true <-> In n s.
Proof.
  unfold bs_contains. rewrite existsb_exists. split.
  - intros (x & H & Hx). apply Z.eqb_eq in Hx. subst. exact H.
  - intro H. exists n. split; [exact H|apply Z.eqb_refl].
Qed.
Lemma contains_not s n : bs_contains s n = false <-> ~ In n s.
Proof. rewrite <- contains_In. destruct (bs_contains s n); split; congruence. Qed.
Lemma add_In s n m : In m (bs_add s n) <-> m = n \/ In m s.
Proof.
  unfold bs_add. destruct (bs_contains s n) eqn:H; cbn [In].
  - apply contains_In in H. split; [auto|]. intros [->|]; assumption.
  - split; intros [|]; auto.
Qed.
Lemma remove_In s n m : In m (bs_remove s n) <-> m <> n /\ In m s.
Proof.
  unfold bs_remove. rewrite filter_In. rewrite negb_true_iff, Z.eqb_neq. tauto.
Qed.
Lemma in_fst (l : list (Z * Z)) n : In n (map fst l) <-> exists t, In (n, t) l.
Proof.
  rewrite in_map_iff. split.
  - intros ([a b] & <- & H). exists b. exact H.
  - intros (t & H). exists (n, t). split; [reflexivity|exact H].
Qed.

(** ** Resolving *)
Lemma resolve h l : forall f x v, l <> [] -> chain (v_ds v) x l -> sorted l ->
  (forall a, In a l -> start (v_ds v) <= a /\ a + 16 <= limit (v_ds v)) -> 0 < start (v_ds v) -> limit (v_ds v) < 2 ^ 63 ->
  if (length l <=? f)%nat then
    exists d, resolve_loop f h x v = Ok (tt, set_v_ds d v) /\ start d = start (v_ds v) /\ limit d = limit (v_ds v) /\
      here d = here (v_ds v) /\ (forall a, In a l -> cell_at d (a + 8) h) /\
      (forall i, start (v_ds v) <= i -> (forall a, In a l -> i < a + 8 \/ a + 16 <= i) -> byte_at d i = byte_at (v_ds v) i)
  else resolve_loop f h x v = OutOfFuel.
Proof.
  induction l as [|a r IH]; intros f x v Hl HC HS HB H0 HL; [congruence|]. clear Hl.
  destruct f as [|f]; [reflexivity|]. cbn [length Nat.leb resolve_loop].
  cbn [chain] in HC. destruct HC as (-> & y & C & HR). destruct HS as [HS1 HS2].
  pose proof (HB a (or_introl eq_refl)) as B0.
  assert (Hin : in_ds (v_ds v) (a + 8) 8 = true) by (apply in_ds_true; lia).
  assert (Hy : 0 <= y < two64 /\ (y = 0 <-> r = [])).
  { destruct r as [|b r]; cbn [chain] in HR; [subst; split; [unfold two64; lia|tauto]|].
    destruct HR as [-> _]. pose proof (HB b (or_intror (or_introl eq_refl))). split; [unfold two64; lia|].
    split; [lia|congruence]. }
  rewrite (bind_Ok _ _ _ _ _ (ds_get_eq _ _ v (get_usize_ok _ _ _ Hin C (proj1 Hy)))).
  destruct (put_cell_ok (v_ds v) h (a + 8) Hin) as (d1 & E1 & C1 & (M1 & M2 & M3) & Hh & _).
  rewrite (bind_Ok _ _ _ _ _ (ds_upd_eq (fun d => put_cell d h (a + 8)) _ v E1)).
  destruct (Z.eqb_spec y 0) as [Y|Y].
  - apply (proj2 Hy) in Y. subst r. exists d1. split; [reflexivity|]. repeat (split; [assumption|]).
    split.
    + intros b [<-|[]]. exact C1.
    + intros i Hi Hb. apply M3; [exact Hi|]. specialize (Hb a (or_introl eq_refl)). lia.
  - assert (r <> []) by tauto.
    specialize (IH f y (set_v_ds d1 v)). cbn [v_ds set_v_ds] in IH. rewrite M1, M2 in IH.
    assert (HC' : chain d1 y r).
    { eapply chain_move; [|exact HR]. intros b z Hb. specialize (HS1 b Hb). pose proof (HB b (or_intror Hb)).
      apply (cell_at_kept (v_ds v) d1 (a + 8) 8); [repeat split; assumption|lia|lia]. }
    specialize (IH H HC' HS2 (fun b Hb => HB b (or_intror Hb)) H0 HL).
    destruct (length r <=? f)%nat; [|exact IH].
    destruct IH as (d & E2 & S1 & S2 & S3 & S4 & S5). exists d. split; [exact E2|].
    split; [exact S1|]. split; [exact S2|]. split; [congruence|]. split.
    + intros b [<-|Hb]; [|apply S4; exact Hb]. intros k Hk. rewrite S5; [apply C1; exact Hk|lia|].
      intros b Hb. specialize (HS1 b Hb). lia.
    + intros i Hi Hb. rewrite S5; [|exact Hi|intros b Hb'; apply Hb; right; exact Hb'].
      apply M3; [exact Hi|]. specialize (Hb a (or_introl eq_refl)). lia.
Qed.

(** ** The words *)
Lemma pop_s v x rest : stack_has (t_s (cur v)) (x :: rest) -> s_pop v = Ok (x, drop_s 1 v).
Proof. intro H. apply s_pop_eq. apply (pop_items _ _ _ H). Qed.
Lemma small_u64 n : 0 <= n < 2 ^ 63 -> to_u64 n = n.
Proof. intro. unfold to_u64. apply Z.mod_small. unfold two64. lia. Qed.
Lemma label_range n : 0 < n < 1000 -> (0 <? n) && (n <? LABEL_COUNT) = true.
Proof. unfold LABEL_COUNT. lia. Qed.

(** What GOTO does in a state that satisfies the invariant *)
Definition is_defined (n : Z) (l : list (Z * Z)) : bool := existsb (fun b => fst b =? n) l.
Lemma is_defined_In n l : is_defined n l = true <-> In n (map fst l).
Proof.
  unfold is_defined. rewrite existsb_exists, in_map_iff. split.
  - intros (x & H & Hx). apply Z.eqb_eq in Hx. exists x. auto.
  - intros (x & <- & H). exists x. split; [exact H|apply Z.eqb_refl].
Qed.
Definition after_goto n l d v : vm :=
  if is_defined n l then set_v_ds d (drop_s 1 v)
  else set_v_fwd (bs_add (v_fwd v) n) (set_v_labels (tset (v_labels v) n (here (v_ds v) + 8)) (set_v_ds d (drop_s 1 v))).
Lemma add_present s n : In n s -> bs_add s n = s.
Proof. intro H. unfold bs_add. apply contains_In in H. rewrite H. reflexivity. Qed.
Lemma set_fwd_id (v : vm) : set_v_fwd (v_fwd v) v = v.
Proof. destruct v. reflexivity. Qed.

Definition operand n g l v : Z :=
  match at_n n g, is_defined n l with [], false => 0 | _, _ => tget 0 (v_labels v) n end.
Lemma goto_ok ew g l v n rest : inv g l v -> stack_has (t_s (cur v)) (n :: rest) -> 0 < n < 1000 ->
  here (v_ds v) + 16 <= limit (v_ds v) ->
  exists d, imm_goto ew v = Ok (tt, after_goto n l d v) /\ grown (v_ds v) d 16 /\
    cell_at d (here (v_ds v)) (idx_branch (v_refs v)) /\ cell_at d (here (v_ds v) + 8) (operand n g l v).
Proof.
  intros HI Hs Hn Hr. pose proof (i_ds _ _ _ HI) as HD.
  destruct (branch_emit (drop_s 1 v) (operand n g l v)) as (d & E1 & G & C1 & C2); [exact HD|exact Hr|].
  exists d. split; [|split; [exact G|split; [exact C1|exact C2]]].
  unfold imm_goto. rewrite (bind_Ok _ _ _ _ _ (pop_s _ _ _ Hs)). cbv zeta. rewrite small_u64 by lia. rewrite label_range by exact Hn.
  rewrite !bind_gets. change (v_fwd (drop_s 1 v)) with (v_fwd v). change (v_res (drop_s 1 v)) with (v_res v).
  change (here (v_ds (drop_s 1 v))) with (here (v_ds v)) in E1.
  unfold after_goto, operand in *. unfold label_get. destruct HD as (D1 & D2 & D3).
  destruct (is_defined n l) eqn:Ed.
  - apply is_defined_In, in_fst in Ed as [t Ht]. destruct (i_def _ _ _ HI _ _ Ht) as (A1 & A2 & A3 & A4).
    apply contains_not in A2. apply contains_In in A1. rewrite A1, A2. rewrite bind_gets.
    change (v_labels (drop_s 1 v)) with (v_labels v).
    replace (match at_n n g with [] | _ => tget 0 (v_labels v) n end) with (tget 0 (v_labels v) n) in E1 by (destruct (at_n n g); reflexivity).
    rewrite (bind_Ok _ _ _ _ _ E1). reflexivity.
  - assert (Hd : ~ In n (map fst l)) by (rewrite <- is_defined_In; congruence).
    destruct (i_undef _ _ _ HI n Hn Hd) as (A1 & A2). apply contains_not in A1. rewrite A1.
    destruct (at_n n g) as [|b r].
    + apply contains_not in A2. rewrite A2. rewrite (bind_Ok _ _ _ _ _ E1).
      rewrite (bind_Ok _ _ _ _ _ (chk_u64_ok (here (v_ds v) + 16 - 8) _ ltac:(unfold two64; lia))). unfold label_set. rewrite bind_modify.
      unfold modify. do 3 f_equal. replace (here (v_ds v) + 16 - 8) with (here (v_ds v) + 8) by lia. reflexivity.
    + destruct A2 as [A2 A3]. rewrite (add_present _ _ A2). apply contains_In in A2. rewrite A2. rewrite bind_gets.
      change (v_labels (drop_s 1 v)) with (v_labels v). rewrite (bind_Ok _ _ _ _ _ E1).
      rewrite (bind_Ok _ _ _ _ _ (chk_u64_ok (here (v_ds v) + 16 - 8) _ ltac:(unfold two64; lia))). unfold label_set, modify.
      do 2 f_equal. replace (here (v_ds v) + 16 - 8) with (here (v_ds v) + 8) by lia. reflexivity.
Qed.

Lemma ready_eq v v' : v_wl v' = v_wl v -> v_refs v' = v_refs v -> compiler_ready v -> compiler_ready v'.
Proof. unfold compiler_ready, word_is. intros -> ->. auto. Qed.

Lemma goto_inv ew g l v n rest v' : inv g l v -> stack_has (t_s (cur v)) (n :: rest) -> 0 < n < 1000 ->
  here (v_ds v) + 16 <= limit (v_ds v) -> imm_goto ew v = Ok (tt, v') ->
  inv ((here (v_ds v), n) :: g) l v' /\ here (v_ds v') = here (v_ds v) + 16.
Proof.
  intros HI Hs Hn Hr HG. destruct (goto_ok ew g l v n rest HI Hs Hn Hr) as (d & E1 & G & C1 & C2).
  rewrite E1 in HG. injection HG as <-. clear E1.
  assert (Hds : v_ds (after_goto n l d v) = d) by (unfold after_goto; destruct (is_defined n l); reflexivity).
  assert (Hwl : v_wl (after_goto n l d v) = v_wl v) by (unfold after_goto; destruct (is_defined n l); reflexivity).
  assert (Hrf : v_refs (after_goto n l d v) = v_refs v) by (unfold after_goto; destruct (is_defined n l); reflexivity).
  assert (Hre : v_res (after_goto n l d v) = v_res v) by (unfold after_goto; destruct (is_defined n l); reflexivity).
  assert (Hfw : forall m, In m (v_fwd (after_goto n l d v)) <-> In m (v_fwd v) \/ (m = n /\ is_defined n l = false)).
  { intro m. unfold after_goto. destruct (is_defined n l); cbn [v_fwd set_v_fwd]; [|rewrite add_In]; intuition congruence. }
  assert (Hla : forall m, 0 < m < 1000 -> tget 0 (v_labels (after_goto n l d v)) m =
    if (m =? n) && negb (is_defined n l) then here (v_ds v) + 8 else tget 0 (v_labels v) m).
  { intros m Hm. unfold after_goto. destruct (is_defined n l); cbn [negb]; [rewrite andb_false_r; reflexivity|].
    rewrite andb_true_r. cbn [v_labels set_v_fwd set_v_labels]. destruct (Z.eqb_spec m n) as [->|Hne].
    - apply tget_tset_same.
    - apply tget_tset_other; lia. }
  destruct HI as [I1 I2 I3 I4 I5 I6 I7 I8]. pose proof G as (G1 & G2 & G3 & G4 & G5). pose proof I1 as (D1 & D2 & D3).
  split; [|rewrite Hds; exact G4]. 
  assert (HW : forall a, is_branch v a -> start (v_ds v) <= a -> a + 8 <= here (v_ds v) -> is_branch (after_goto n l d v) a).
  { intros a (i & C & W & L) H1 H2. exists i. rewrite Hds. split; [eapply grown_cell; eassumption|]. split; [|exact L].
    unfold word_is. rewrite Hwl. exact W. }
  split.
  - rewrite Hds. exact G1.
  - eapply ready_eq; eassumption.
  - rewrite Hds, G2, G4. intros a m [H|H].
    + injection H as <- <-. split; [lia|]. split; [lia|]. split; [exact Hn|]. exists (idx_branch (v_refs v)).
      rewrite Hds. split; [exact C1|]. destruct I2 as [R1 R2]. specialize (R2 idx_branch P_branch).
      assert (W : word_is v (idx_branch (v_refs v)) P_branch) by (apply R2; unfold compiler_words; cbn [In]; tauto).
      unfold word_is in *. rewrite Hwl. split; [exact W|]. lia.
    + destruct (I3 a m H) as (H1 & H2 & H3 & H4). split; [lia|]. split; [lia|]. split; [lia|]. apply HW; [exact H4|lia|lia].
  - cbn [map fst sorted]. split; [|exact I4]. intros b Hb. apply in_fst in Hb as [m Hb].
    destruct (I3 b m Hb) as (_ & H2 & _). exact H2.
  - rewrite Hds, G2, G4. intros m t Hm. destruct (I5 m t Hm). split; [assumption|lia].
  - exact I6.
  - intros m t Hm. pose proof (I7 m t Hm) as (A1 & A2 & A3 & A4). rewrite Hre, Hds. split; [exact A1|]. rewrite Hfw.
    assert (Hdm : is_defined m l = true) by (apply is_defined_In, in_fst; exists t; exact Hm).
    split; [intros [H|[-> H]]; congruence|]. split.
    + rewrite Hla by apply (I5 m t Hm). rewrite A3. destruct (Z.eqb_spec m n) as [->|]; [rewrite Hdm|]; reflexivity.
    + intros a [H|H].
      * injection H as <- <-. unfold operand in C2. rewrite Hdm, A3 in C2. destruct (at_n n g); exact C2.
      * destruct (I3 a m H) as (H1 & H2 & _). eapply grown_cell; [exact G|lia|lia|auto].
  - intros m Hm Hd. destruct (I8 m Hm Hd) as (A1 & A2). rewrite Hre. split; [exact A1|].
    assert (Hdm : is_defined m l = false) by (destruct (is_defined m l) eqn:Q; [apply is_defined_In in Q; contradiction|reflexivity]).
    rewrite at_cons, Hds. rewrite Hla by exact Hm.
    assert (HC : forall x, chain (v_ds v) x (at_n m g) -> chain d x (at_n m g)).
    { apply chain_move. intros a y Ha C. apply in_at in Ha. destruct (I3 a m Ha) as (H1 & H2 & _).
      eapply grown_cell; [exact G|lia|lia|exact C]. }
    destruct (Z.eqb_spec n m) as [<-|Hne].
    + rewrite Z.eqb_refl, Hdm. cbn [andb negb]. split; [apply Hfw; auto|]. cbn [chain]. split; [reflexivity|].
      exists (operand n g l v). split; [exact C2|]. unfold operand. rewrite Hdm. destruct (at_n n g); [reflexivity|].
      apply HC. apply A2.
    + replace (m =? n) with false by lia. cbn [andb]. destruct (at_n m g).
      * rewrite Hfw. intros [H|[H _]]; [tauto|congruence].
      * rewrite Hfw. split; [left; apply A2|]. apply HC, A2.
Qed.

(** CALL *)
Lemma call_prefix ew g l v n rest : inv g l v -> stack_has (t_s (cur v)) (n :: rest) ->
  here (v_ds v) + 40 <= limit (v_ds v) ->
  exists d, imm_call ew v = imm_goto ew (set_v_ds d v) /\ grown (v_ds v) d 24 /\
    cell_at d (here (v_ds v)) (idx_lit (v_refs v)) /\ cell_at d (here (v_ds v) + 8) (here (v_ds v) + 40) /\
    cell_at d (here (v_ds v) + 16) (idx_to_r (v_refs v)).
Proof.
  intros HI Hs Hr. pose proof (i_ds _ _ _ HI) as HD. pose proof HD as (D1 & D2 & D3).
  unfold imm_call. rewrite bind_gets. rewrite (bind_Ok _ _ _ _ _ (chk_u64_ok (here (v_ds v) + 40) _ ltac:(unfold two64; lia))).
  rewrite to_i64_id by (unfold imin, imax, two63; lia).
  destruct (emit2 v idx_lit (here (v_ds v) + 40) HD ltac:(lia)) as (d1 & E1 & G1 & C1 & C2).
  unfold compile_integer. rewrite (bind_Ok _ _ _ _ _ E1). unfold refs_get, compile_word. rewrite bind_gets.
  pose proof G1 as (A1 & A2 & A3 & A4 & A5).
  destruct (emit (set_v_ds d1 v) (idx_to_r (v_refs v))) as (d2 & E2 & G2 & C3); [exact A1|cbn [v_ds set_v_ds]; lia|].
  cbn [v_ds set_v_ds] in *. change (v_refs (set_v_ds d1 v)) with (v_refs v). rewrite (bind_Ok _ _ _ _ _ E2).
  exists d2. split; [reflexivity|]. split; [exact (grown_trans _ _ _ 16 8 ltac:(lia) G1 G2)|].
  split; [eapply grown_cell; [exact G2|lia|lia|exact C1]|].
  split; [eapply grown_cell; [exact G2|lia|lia|exact C2]|]. rewrite <- A4. exact C3.
Qed.
Lemma inv_grown g l v d n : inv g l v -> grown (v_ds v) d n -> 0 <= n -> inv g l (set_v_ds d v).
Proof.
  intros [I1 I2 I3 I4 I5 I6 I7 I8] G Hn. pose proof G as (G1 & G2 & G3 & G4 & G5).
  assert (HC : forall a m y, In (a, m) g -> cell_at (v_ds v) (a + 8) y -> cell_at d (a + 8) y).
  { intros a m y Ha C. destruct (I3 a m Ha) as (H1 & H2 & _). eapply grown_cell; [exact G|lia|lia|exact C]. }
  split; cbn [v_ds set_v_ds]; auto.
  - rewrite G2, G4. intros a m H. destruct (I3 a m H) as (H1 & H2 & H3 & (i & C & W & L)). split; [lia|]. split; [lia|].
    split; [exact H3|]. exists i. split; [cbn [v_ds set_v_ds]; eapply grown_cell; [exact G|lia|lia|exact C]|]. split; [exact W|exact L].
  - rewrite G2, G4. intros m t H. destruct (I5 m t H). split; [assumption|lia].
  - intros m t H. destruct (I7 m t H) as (A1 & A2 & A3 & A4). repeat (split; [assumption|]). intros a Ha. eapply HC; eauto.
  - intros m Hm Hd. destruct (I8 m Hm Hd) as (A1 & A2). split; [exact A1|].
    destruct (at_n m g) as [|b r] eqn:Ea; [exact A2|]. split; [apply A2|]. eapply chain_move; [|apply A2].
    rewrite <- Ea. intros a y Ha. apply in_at in Ha. apply (HC a m y Ha).
Qed.
Lemma call_inv ew g l v n rest v' : inv g l v -> stack_has (t_s (cur v)) (n :: rest) -> 0 < n < 1000 ->
  here (v_ds v) + 40 <= limit (v_ds v) -> imm_call ew v = Ok (tt, v') ->
  inv ((here (v_ds v) + 24, n) :: g) l v'.
Proof.
  intros HI Hs Hn Hr HG. destruct (call_prefix ew g l v n rest HI Hs ltac:(lia)) as (d & E1 & G & _).
  rewrite E1 in HG. pose proof G as (G1 & G2 & G3 & G4 & G5).
  destruct (goto_inv ew g l (set_v_ds d v) n rest v' (inv_grown _ _ _ _ _ HI G ltac:(lia)) Hs Hn) as [H _]; [|exact HG|].
  - cbn [v_ds set_v_ds]. lia.
  - cbn [v_ds set_v_ds] in H. rewrite <- G4. exact H.
Qed.

(** LABEL *)
Definition after_label n d v : vm :=
  set_v_res (bs_add (v_res v) n) (set_v_fwd (bs_remove (v_fwd v) n)
    (set_v_labels (tset (v_labels v) n (here (v_ds v))) (set_v_ds d (drop_s 1 v)))).
Lemma remove_absent s n : ~ In n s -> bs_remove s n = s.
Proof.
  unfold bs_remove. induction s as [|x s IH]; intro H; [reflexivity|]. cbn. cbn in H.
  destruct (Z.eqb_spec x n) as [->|]; [tauto|]. cbn. f_equal. apply IH. tauto.
Qed.
Lemma label_ok fuel ew g l v n rest : inv g l v -> stack_has (t_s (cur v)) (n :: rest) -> 0 < n < 1000 ->
  ~ In n (map fst l) ->
  if (length (at_n n g) <=? fuel)%nat then
    exists d, imm_label fuel ew v = Ok (tt, after_label n d v) /\
      start d = start (v_ds v) /\ limit d = limit (v_ds v) /\ here d = here (v_ds v) /\
      (forall a, In a (at_n n g) -> cell_at d (a + 8) (here (v_ds v))) /\
      (forall i, start (v_ds v) <= i -> (forall a, In a (at_n n g) -> i < a + 8 \/ a + 16 <= i) -> byte_at d i = byte_at (v_ds v) i)
  else imm_label fuel ew v = OutOfFuel.
Proof.
  intros HI Hs Hn Hd. unfold imm_label. rewrite (bind_Ok _ _ _ _ _ (pop_s _ _ _ Hs)). cbv zeta.
  rewrite small_u64 by lia. rewrite label_range by exact Hn. rewrite !bind_gets.
  change (v_fwd (drop_s 1 v)) with (v_fwd v). change (v_res (drop_s 1 v)) with (v_res v). change (v_ds (drop_s 1 v)) with (v_ds v).
  destruct (i_undef _ _ _ HI n Hn Hd) as (A1 & A2). apply contains_not in A1. rewrite A1.
  pose proof (i_ds _ _ _ HI) as (D1 & D2 & D3).
  destruct (at_n n g) as [|b r] eqn:Ea.
  - cbn [length Nat.leb]. exists (v_ds v). pose proof A2 as A2'. apply contains_not in A2. rewrite A2. split; [|repeat split; intros a []].
    unfold label_set. rewrite bind_modify. unfold modify, after_label. rewrite (remove_absent _ _ A2'). destruct v; reflexivity.
  - destruct A2 as [A2 A3]. apply contains_In in A2. rewrite A2. unfold label_get. rewrite bind_gets.
    pose proof (resolve (here (v_ds v)) (b :: r) fuel (tget 0 (v_labels v) n) (drop_s 1 v)) as HR.
    change (v_ds (drop_s 1 v)) with (v_ds v) in HR. change (v_labels (drop_s 1 v)) with (v_labels v).
    specialize (HR ltac:(congruence) A3). rewrite <- Ea in HR |- *.
    specialize (HR (sorted_at n g (i_sorted _ _ _ HI))).
    assert (HB : forall a, In a (at_n n g) -> start (v_ds v) <= a /\ a + 16 <= limit (v_ds v)).
    { intros a Ha. apply in_at in Ha. destruct (i_g _ _ _ HI a n Ha) as (H1 & H2 & _). lia. }
    specialize (HR HB D1 D3). destruct (length (at_n n g) <=? fuel)%nat.
    + destruct HR as (d & E1 & R). exists d. split; [|exact R]. rewrite (bind_Ok _ _ _ _ _ E1).
      unfold label_set. rewrite !bind_modify. unfold modify. reflexivity.
    + unfold bind at 1. rewrite HR. reflexivity.
Qed.
Lemma sorted_apart l a b : sorted l -> In a l -> In b l -> a = b \/ a + 16 <= b \/ b + 16 <= a.
Proof.
  induction l as [|c l IH]; [intros _ []|]. cbn [sorted]. intros (H1 & H2) [->|Ha] [->|Hb]; auto.
Qed.
Lemma sorted_other (g : list (Z * Z)) a n m : sorted (map fst g) -> In (a, n) g -> In (a, m) g -> n = m.
Proof.
  induction g as [|[b k] g IH]; [intros _ []|]. cbn [map fst sorted]. intros (H1 & H2) [Ha|Ha] [Hb|Hb]; try congruence.
  - injection Ha as -> ->. apply (in_map fst) in Hb. specialize (H1 _ Hb). cbn in H1. lia.
  - injection Hb as -> ->. apply (in_map fst) in Ha. specialize (H1 _ Ha). cbn in H1. lia.
  - auto.
Qed.
Lemma label_inv fuel ew g l v n rest v' : inv g l v -> stack_has (t_s (cur v)) (n :: rest) -> 0 < n < 1000 ->
  ~ In n (map fst l) -> imm_label fuel ew v = Ok (tt, v') -> inv g ((n, here (v_ds v)) :: l) v'.
Proof.
  intros HI Hs Hn Hd HL. pose proof (label_ok fuel ew g l v n rest HI Hs Hn Hd) as HO.
  destruct (length (at_n n g) <=? fuel)%nat; [|congruence]. destruct HO as (d & E1 & S1 & S2 & S3 & S4 & S5).
  rewrite E1 in HL. injection HL as <-. destruct HI as [I1 I2 I3 I4 I5 I6 I7 I8]. pose proof I1 as (D1 & D2 & D3).
  assert (HC : forall a m y, In (a, m) g -> m <> n -> cell_at (v_ds v) (a + 8) y -> cell_at d (a + 8) y).
  { intros a m y Ha Hm C k Hk. destruct (I3 a m Ha) as (H1 & H2 & _). rewrite S5; [apply C; exact Hk|lia|].
    intros b Hb. apply in_at in Hb. destruct (I3 b n Hb) as (H3 & H4 & _).
    destruct (sorted_apart (map fst g) a b I4) as [<-|]; [exact (in_map fst _ _ Ha)|exact (in_map fst _ _ Hb)| |lia].
    contradict Hm. eapply sorted_other; eassumption. }
  unfold after_label. split; cbn [v_ds v_fwd v_res v_labels set_v_ds set_v_res set_v_fwd set_v_labels].
  - unfold ds_ok. rewrite S1, S2, S3. exact I1.
  - exact I2.
  - rewrite S1, S3. intros a m Ha. destruct (I3 a m Ha) as (H1 & H2 & H3 & (i & C & W & L)). repeat (split; [assumption|]).
    exists i. split; [|split; [exact W|exact L]]. cbn [v_ds set_v_ds set_v_res set_v_fwd set_v_labels].
    intros k Hk. rewrite S5; [apply C; exact Hk|lia|]. intros b Hb. apply in_at in Hb. 
    destruct (sorted_apart (map fst g) a b I4) as [<-|]; [exact (in_map fst _ _ Ha)|exact (in_map fst _ _ Hb)|lia|lia].
  - exact I4.
  - rewrite S1, S3. intros m t [H|H]; [injection H as <- <-; split; [exact Hn|lia]|apply I5; exact H].
  - cbn [map fst]. constructor; [exact Hd|exact I6].
  - intros m t [H|H].
    + injection H as <- <-. rewrite add_In, remove_In, tget_tset_same. split; [tauto|]. split; [tauto|]. split; [reflexivity|].
      intros a Ha. apply S4. apply in_at. exact Ha.
    + destruct (I7 m t H) as (A1 & A2 & A3 & A4). assert (m <> n) by (intros ->; apply Hd, in_fst; exists t; exact H).
      rewrite add_In, remove_In, tget_tset_other; [|lia|destruct (I5 m t H); lia|congruence]. split; [tauto|]. split; [tauto|]. split; [exact A3|].
      intros a Ha. eapply HC; [exact Ha|assumption|auto].
  - intros m Hm Hd'. cbn [map fst In] in Hd'. assert (m <> n) by (intros ->; tauto). destruct (I8 m Hm ltac:(tauto)) as (A1 & A2).
    rewrite add_In. split; [tauto|]. rewrite tget_tset_other by lia. destruct (at_n m g) as [|b r] eqn:Ea.
    + rewrite remove_In. tauto.
    + rewrite remove_In. split; [tauto|]. eapply chain_move; [|apply A2]. rewrite <- Ea. intros a y Ha. apply in_at in Ha.
      apply (HC a m y Ha). assumption.
Qed.

Lemma other_inv g l v v' : inv g l v -> kept (branches g) v v' -> ds_ok (v_ds v') -> here (v_ds v) <= here (v_ds v') ->
  compiler_ready v' -> v_fwd v' = v_fwd v -> v_res v' = v_res v -> v_labels v' = v_labels v -> inv g l v'.
Proof.
  intros [I1 I2 I3 I4 I5 I6 I7 I8] (K1 & K2 & K3 & K4) HD HH HR Hf Hr Hl.
  assert (HC : forall a m k y, In (a, m) g -> k = 0 \/ k = 8 -> cell_at (v_ds v) (a + k) y -> cell_at (v_ds v') (a + k) y).
  { intros a m k y Ha Hk C j Hj. rewrite K3; [apply C; exact Hj|]. exists a, m. split; [exact Ha|]. lia. }
  split; auto.
  - rewrite K1. intros a m Ha. destruct (I3 a m Ha) as (H1 & H2 & H3 & (i & C & W & L)). split; [lia|]. split; [lia|]. split; [assumption|].
    exists i. split; [|split; [apply K4; [cbn; tauto|exact W]|exact L]].
    pose proof (HC a m 0 i Ha (or_introl eq_refl)) as Q. replace (a + 0) with a in Q by lia. auto.
  - rewrite K1. intros m t H. destruct (I5 m t H). split; [assumption|lia].
  - rewrite Hf, Hr, Hl. intros m t H. destruct (I7 m t H) as (A1 & A2 & A3 & A4). repeat (split; [assumption|]). intros a Ha. eapply HC; eauto.
  - rewrite Hf, Hr, Hl. intros m Hm Hd. destruct (I8 m Hm Hd) as (A1 & A2). split; [exact A1|].
    destruct (at_n m g) as [|b r] eqn:Ea; [exact A2|]. split; [apply A2|]. eapply chain_move; [|apply A2].
    rewrite <- Ea. intros a y Ha. apply in_at in Ha. apply (HC a m 8 y Ha). auto.
Qed.

Lemma not_in_fst n (l : list (Z * Z)) : (forall a, ~ In (n, a) l) -> ~ In n (map fst l).
Proof. intros H Hn. apply in_fst in Hn as [t Ht]. exact (H t Ht). Qed.
Lemma labelled_inv fuel ew g l v : labelled fuel ew g l v -> inv g l v.
Proof.
  induction 1 as [v H1 H2 H3 H4 | g l v n rest v' HL IH Hs Hn Hr HE | g l v n rest v' HL IH Hs Hn Hr HE
    | g l v n rest v' HL IH Hs Hn Hd HE | g l v v' HL IH HK HD HH HR Hf Hr Hl].
  - split; try assumption; try solve [intros ? ? []].
    + exact I.
    + constructor.
    + intros m Hm _. rewrite H3, H4. split; intros [].
  - apply (goto_inv ew g l v n rest v' IH Hs Hn Hr HE).
  - apply (call_inv ew g l v n rest v' IH Hs Hn Hr HE).
  - apply (label_inv fuel ew g l v n rest v' IH Hs Hn (not_in_fst _ _ Hd) HE).
  - eapply other_inv; eassumption.
Qed.

(** ** The properties *)
Lemma goto_reaches fuel ew g l v a n t : labelled fuel ew g l v -> In (a, n) g -> In (n, t) l -> goes v a v t.
Proof.
  intros HL Ha Ht. apply labelled_inv in HL. destruct HL as [I1 I2 I3 I4 I5 I6 I7 I8].
  destruct (I3 a n Ha) as (H1 & H2 & H3 & (i & C & W & L)). destruct (I7 n t Ht) as (_ & _ & _ & C').
  specialize (C' a Ha). destruct (I5 n t Ht) as [_ H4]. destruct I1 as (D1 & D2 & D3).
  apply (goes_branch T); [split; lia| |repeat split; try lia; exact C'|lia].
  exists i. split; [|split; [exact W|exact L]]. repeat split; try lia; exact C.
Qed.
Lemma accepted fuel ew g l v a n : labelled fuel ew g l v -> v_fwd v = [] -> In (a, n) g ->
  exists t, In (n, t) l /\ goes v a v t.
Proof.
  intros HL Hf Ha. pose proof (labelled_inv _ _ _ _ _ HL) as I. destruct (in_dec Z.eq_dec n (map fst l)) as [Hn|Hn].
  - apply in_fst in Hn as [t Ht]. exists t. split; [exact Ht|]. eapply goto_reaches; eassumption.
  - exfalso. destruct (i_g _ _ _ I a n Ha) as (_ & _ & Hr & _). destruct (i_undef _ _ _ I n Hr Hn) as (_ & A).
    assert (Hin : In a (at_n n g)) by (apply in_at; exact Ha). destruct (at_n n g); [destruct Hin|].
    rewrite Hf in A. destruct A as [[] _].
Qed.
Lemma one_place fuel ew g l v n t t' : labelled fuel ew g l v -> In (n, t) l -> In (n, t') l -> t = t'.
Proof.
  intros HL H1 H2. apply labelled_inv in HL. destruct (i_def _ _ _ HL _ _ H1) as (_ & _ & A & _).
  destruct (i_def _ _ _ HL _ _ H2) as (_ & _ & B & _). congruence.
Qed.
Lemma pending_rejected fuel ew f ew' g l v a n : labelled fuel ew g l v -> In (a, n) g -> (forall t, ~ In (n, t) l) ->
  exists v1, raised (-22) v v1 /\
    exec_prim f ew' P_semicolon v = (ew' (v_handler v) ;;; exec_prim f ew' P_left_bracket) v1.
Proof.
  intros HL Ha Ht. pose proof (labelled_inv _ _ _ _ _ HL) as I. destruct (i_g _ _ _ I a n Ha) as (_ & _ & Hr & _).
  destruct (i_undef _ _ _ I n Hr (not_in_fst _ _ Ht)) as (_ & A).
  assert (Hin : In a (at_n n g)) by (apply in_at; exact Ha). destruct (at_n n g); [destruct Hin|]. destruct A as [A _].
  exists (aborted (-22) v). split; [apply aborted_raised|]. cbn [exec_prim]. unfold semicolon.
  rewrite !bind_gets. destruct (v_fwd v) as [|x r]; [destruct A|].
  assert (Q : forall k : M unit, (mismatch ew' ;;; k) v = (ew' (v_handler v) ;;; k) (aborted (-22) v)).
  { intro k. unfold bind, mismatch. rewrite abort_with_eq. reflexivity. }
  destruct (negb (len (c_stk v) =? 0)); apply Q.
Qed.
Lemma label_twice fuel ew f ew' g l v n t rest : labelled fuel ew g l v -> stack_has (t_s (cur v)) (n :: rest) -> In (n, t) l ->
  exists v1, raised (-24) (drop_s 1 v) v1 /\ exec_prim f ew' P_imm_label v = ew' (v_handler v) v1.
Proof.
  intros HL Hs Ht. apply labelled_inv in HL. destruct (i_l _ _ _ HL n t Ht) as [Hn _].
  destruct (i_def _ _ _ HL n t Ht) as (A1 & A2 & _). exists (aborted (-24) (drop_s 1 v)). split; [apply aborted_raised|].
  cbn [exec_prim]. unfold imm_label. rewrite (bind_Ok _ _ _ _ _ (pop_s _ _ _ Hs)). cbv zeta.
  rewrite small_u64 by lia. rewrite label_range by exact Hn. rewrite !bind_gets.
  change (v_fwd (drop_s 1 v)) with (v_fwd v). change (v_res (drop_s 1 v)) with (v_res v).
  apply contains_not in A2. apply contains_In in A1. rewrite A1, A2. rewrite abort_with_eq. reflexivity.
Qed.
Lemma range_rejected p f ew v n rest : In p [P_imm_label; P_imm_goto] -> stack_has (t_s (cur v)) (n :: rest) -> is_cell n -> ~ 0 < n < 1000 ->
  exists v1, raised (-24) (drop_s 1 v) v1 /\ exec_prim f ew p v = ew (v_handler v) v1.
Proof.
  intros Hp Hs Hc Hn. exists (aborted (-24) (drop_s 1 v)). split; [apply aborted_raised|].
  assert (Hg : (0 <? to_u64 n) && (to_u64 n <? LABEL_COUNT) = false).
  { unfold to_u64, two64, LABEL_COUNT, is_cell in *. apply andb_false_iff. destruct (Z.ltb_spec n 0).
    - right. rewrite <- (Z.mod_add n 1) by lia. rewrite Z.mod_small by lia. lia.
    - rewrite Z.mod_small by lia. lia. }
  cbn [In] in Hp. destruct Hp as [<-|[<-|[]]]; cbn [exec_prim].
  - unfold imm_label. rewrite (bind_Ok _ _ _ _ _ (pop_s _ _ _ Hs)). cbv zeta. rewrite Hg. rewrite abort_with_eq. reflexivity.
  - unfold imm_goto. rewrite (bind_Ok _ _ _ _ _ (pop_s _ _ _ Hs)). cbv zeta. rewrite Hg. rewrite abort_with_eq. reflexivity.
Qed.
Lemma goto_works p k fuel ew f ew' g l v n rest : In (p, k) [(P_imm_goto, 16); (P_imm_call, 40)] ->
  labelled fuel ew g l v -> stack_has (t_s (cur v)) (n :: rest) -> 0 < n < 1000 ->
  here (v_ds v) + k <= limit (v_ds v) ->
  exists v', exec_prim f ew' p v = Ok (tt, v') /\ here (v_ds v') = here (v_ds v) + k /\
    stack_has (t_s (cur v')) rest /\ v_err v' = v_err v.
Proof.
  intros Hp HL Hs Hn Hr. apply labelled_inv in HL.
  assert (HS : forall d, stack_has (t_s (cur (after_goto n l d v))) rest /\ v_err (after_goto n l d v) = v_err v).
  { intro d. unfold after_goto. pose proof (pop1_has _ _ _ Hs) as (s1 & P & H1 & _). rewrite (pop_items _ _ _ Hs) in P. injection P as <-.
    assert (Q : stack_has (t_s (cur (drop_s 1 v))) rest) by (unfold drop_s; rewrite cur_set_s; exact H1).
    destruct (is_defined n l); split; try reflexivity; exact Q. }
  cbn [In] in Hp. destruct Hp as [Hp|[Hp|[]]]; injection Hp as <- <-; cbn [exec_prim].
  - destruct (goto_ok ew' g l v n rest HL Hs Hn Hr) as (d & E1 & G & _). exists (after_goto n l d v).
    split; [exact E1|]. split; [|apply HS]. transitivity (here d); [unfold after_goto; destruct (is_defined n l); reflexivity|apply G].
  - destruct (call_prefix ew' g l v n rest HL Hs ltac:(lia)) as (d & E1 & G & _). rewrite E1.
    pose proof G as (G1 & G2 & G3 & G4 & G5).
    destruct (goto_ok ew' g l (set_v_ds d v) n rest (inv_grown _ _ _ _ _ HL G ltac:(lia)) Hs Hn) as (d2 & E2 & G' & _).
    { cbn [v_ds set_v_ds]. lia. }
    exists (after_goto n l d2 (set_v_ds d v)). split; [exact E2|].
    destruct G' as (_ & _ & _ & Hh & _). cbn [v_ds set_v_ds] in Hh.
    specialize (HS d2). unfold after_goto in *. destruct (is_defined n l).
    + split; [change (here d2 = here (v_ds v) + 40); lia|exact HS].
    + split; [change (here d2 = here (v_ds v) + 40); lia|exact HS].
Qed.
Lemma label_works fuel ew f ew' g l v n rest : labelled fuel ew g l v -> stack_has (t_s (cur v)) (n :: rest) -> 0 < n < 1000 ->
  (forall t, ~ In (n, t) l) -> (length (branches_to n g) <= f)%nat ->
  exists v', exec_prim f ew' P_imm_label v = Ok (tt, v') /\ here (v_ds v') = here (v_ds v) /\
    stack_has (t_s (cur v')) rest /\ v_err v' = v_err v.
Proof.
  intros HL Hs Hn Hd Hf. apply labelled_inv in HL. cbn [exec_prim].
  pose proof (label_ok f ew' g l v n rest HL Hs Hn (not_in_fst _ _ Hd)) as HO.
  replace (length (at_n n g) <=? f)%nat with true in HO.
  2:{ symmetry. apply Nat.leb_le. unfold at_n. rewrite map_length. exact Hf. }
  destruct HO as (d & E1 & S1 & S2 & S3 & _). exists (after_label n d v). split; [exact E1|]. split; [exact S3|]. split; [|reflexivity].
  pose proof (pop1_has _ _ _ Hs) as (s1 & P & H1 & _). rewrite (pop_items _ _ _ Hs) in P. injection P as <-.
  change (stack_has (t_s (cur (drop_s 1 v))) rest). unfold drop_s; rewrite cur_set_s; exact H1.
Qed.

Lemma to_r_eq v x i a : 0 <= len (t_s (cur v)) < 255 -> 0 <= len (t_r (cur v)) < 255 ->
  p_to_r (at_ i a (add_s x v)) = Ok (tt, at_ i a (add_r x (drop_s 1 (add_s x v)))).
Proof.
  intros Hs Hr. unfold p_to_r, modify. cbv zeta. unfold s_stk, r_stk. rewrite s_at, r_at.
  rewrite set_r_at, set_s_at. do 3 f_equal. unfold add_r, drop_s, add_s. set (s := add_item (t_s (cur v)) x).
  assert (Q : t_r (cur (set_s s v)) = t_r (cur v)) by (rewrite cur_set_s; reflexivity).
  assert (Q2 : t_s (cur (set_s s v)) = s) by (rewrite cur_set_s; reflexivity).
  assert (Q3 : t_r (cur (set_s (drop_items 1 s) (set_s s v))) = t_r (cur v)) by (rewrite !cur_set_s; reflexivity).
  rewrite Q, Q2, Q3. 
  assert (Hl : w8sub (len s) 1 = len (t_s (cur v))) by (unfold s, add_item, w8sub; cbn [len set_len]; rewrite Z.mod_small; lia).
  assert (Hl2 : w8add (len (t_r (cur v))) 1 = len (t_r (cur v)) + 1) by (unfold w8add; rewrite Z.mod_small; lia).
  assert (Hl3 : w8sub (len (t_r (cur v)) + 1) 1 = len (t_r (cur v))) by (unfold w8sub; rewrite Z.mod_small; lia).
  assert (Hg : sget s (len (t_s (cur v))) = x) by (unfold s, add_item; rewrite sget_set_len; apply sget_sset_same).
  rewrite Hl, Hl2, Hl3, Hg.
  unfold set_s, set_r. rewrite !upd_upd. f_equal. unfold drop_items, add_item.
  replace (len s - 1) with (len (t_s (cur v))) by (unfold s, add_item; cbn [len set_len]; lia).
  reflexivity.
Qed.

(** CALL pushes the address after its branch on the return stack *)
Lemma call_runs fuel ew f ew' g l v n rest v' u : labelled fuel ew g l v -> stack_has (t_s (cur v)) (n :: rest) -> 0 < n < 1000 ->
  here (v_ds v) + 40 <= limit (v_ds v) -> exec_prim f ew' P_imm_call v = Ok (tt, v') ->
  let h := here (v_ds v) in
  kept (fun i => h <= i < h + 24) v' u -> 0 <= len (t_s (cur u)) < 255 -> 0 <= len (t_r (cur u)) < 255 ->
  goes u h (add_r (h + 40) (drop_s 1 (add_s (h + 40) u))) (h + 24).
Proof.
  intros HL Hs Hn Hr HE h HK Hls Hlr. apply labelled_inv in HL. cbn [exec_prim] in HE.
  destruct (call_prefix ew' g l v n rest HL Hs ltac:(lia)) as (d & E1 & G & C1 & C2 & C3). fold h in C1, C2, C3. rewrite E1 in HE.
  pose proof G as (G1 & G2 & G3 & G4 & G5).
  destruct (goto_ok ew' g l (set_v_ds d v) n rest (inv_grown _ _ _ _ _ HL G ltac:(lia)) Hs Hn) as (d2 & E2 & G' & _).
  { cbn [v_ds set_v_ds]. lia. }
  rewrite E2 in HE. injection HE as <-. cbn [v_ds set_v_ds] in G'.
  assert (Hds : v_ds (after_goto n l d2 (set_v_ds d v)) = d2) by (unfold after_goto; destruct (is_defined n l); reflexivity).
  assert (Hwl : v_wl (after_goto n l d2 (set_v_ds d v)) = v_wl v) by (unfold after_goto; destruct (is_defined n l); reflexivity).
  set (w := after_goto n l d2 (set_v_ds d v)) in *.
  pose proof (i_ds _ _ _ HL) as (D1 & D2 & D3). pose proof G' as (G1' & G2' & G3' & G4' & G5').
  set (K := fun i => h <= i < h + 24) in *.
  assert (CC : forall k x, 0 <= k <= 16 -> cell_at d (h + k) x -> code_cell K w (h + k) x).
  { intros k x Hk C. split; [|split; [|split]]; rewrite ?Hds; try (unfold h in *; lia).
    - eapply grown_cell; [exact G'|unfold h in *; lia|unfold h in *; lia|exact C].
    - unfold K. intros; lia. }
  assert (HW : forall f p, In (f, p) compiler_words -> word_is w (f (v_refs v)) p /\ f (v_refs v) < 2 ^ 63).
  { intros q p Hq. destruct (i_ready _ _ _ HL) as [R1 R2]. specialize (R2 _ _ Hq). unfold word_is in *. rewrite Hwl. split; [exact R2|lia]. }
  assert (HA : addressable u) by (destruct HK as (K1 & K2 & _); split; rewrite ?K1, ?K2, Hds; lia).
  assert (HN : laid K u (Num (h + 40)) h).
  { apply (kept_laid K w u _ HK). cbn [laid]. split; [|split; [|unfold is_cell; unfold h in *; lia]].
    - exists (idx_lit (v_refs v)). split; [pose proof (CC 0 (idx_lit (v_refs v)) ltac:(lia)) as Q; replace (h + 0) with h in Q by lia; auto|].
      apply HW. unfold compiler_words; cbn [In]; tauto.
    - apply CC; [lia|exact C2]. }
  assert (HR : code_word K u (h + 16) P_p_to_r).
  { eapply kept_word; [cbn; tauto|exact HK|]. exists (idx_to_r (v_refs v)). split; [apply CC; [lia|exact C3]|].
    apply HW. unfold compiler_words; cbn [In]; tauto. }
  assert (HH : holds K u (Num (h + 40)) h).
  { split; [exact HA|]. split; [|exact HN]. destruct HK as (K1 & K2 & _). rewrite K1, K2, Hds. unfold h in *. lia. }
  pose proof (num_run K (h + 40) u h HH Hls) as [P1 P2]. cbn [fin] in P1.
  eapply goes_trans; [exact P1|]. eapply goes_word; [exact HA|exact HR|]. intros ew0 f0 i. cbn [exec_prim].
  replace (h + 16 + 8) with (h + 24) by lia. apply to_r_eq; assumption.
Qed.
End L.
