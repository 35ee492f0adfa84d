(** Compiling structured programs. *)
From Coq Require Import ZArith List Bool Lia ZifyBool ZifyNat.
From Verif Require Import Base Stack Mem State CoreM Exec LBase LStack Spec Spec2 Spec4 Spec5 Spec6
  LState LMem LMon LMemWords LTask LCode.
Import ListNotations.
Open Scope Z_scope.
Open Scope m_scope.
Ltac Zify.zify_post_hook ::= Z.div_mod_to_equations.

Section C.
Context {E : Env}.
Implicit Types (v w : vm).

Lemma sbc_refl v : same_but_code v v.
Proof. repeat split. Qed.
Lemma sbc_trans v1 v2 v3 : same_but_code v1 v2 -> same_but_code v2 v3 -> same_but_code v1 v3.
Proof.
  unfold same_but_code. intros H1 H2.
  repeat match goal with |- _ /\ _ => split end.
  all: try (repeat match goal with H : _ /\ _ |- _ => destruct H end; congruence).
  assert (Hc : v_cur v2 = v_cur v1) by apply H1.
  assert (A : same_other_tasks v1 v2) by apply H1.
  assert (B : same_other_tasks v2 v3) by apply H2.
  clear H1 H2. intros i Hi Hp Hn. rewrite B, A; congruence.
Qed.
Lemma sbc_set_ds d v : same_but_code v (set_v_ds d v).
Proof. repeat split. Qed.
Lemma sbc_set_c c v : same_but_code v (set_c c v).
Proof.
  unfold same_but_code, st. unfold set_c. rewrite cur_upd.
  repeat match goal with |- _ /\ _ => split end; try reflexivity. apply same_other_upd.
Qed.

(** Everywhere *)
Definition T : Z -> Prop := fun _ => True.
Definition upto (lo hi : Z) : Z -> Prop := fun i => lo <= i < hi.
Definition but (lo a : Z) : Z -> Prop := fun i => lo <= i /\ (i < a \/ a + 8 <= i).

Lemma control_eqb_refl c : control_eqb c c = true.
Proof. destruct c; cbn; rewrite ?Z.eqb_refl; reflexivity. Qed.

(** As [compiles_to], for a given dictionary *)
Definition compiles_in (wl : wordlist) (rf : refs) (loop : bool) (n : Z) (m : M unit) (p : prog) : Prop :=
  forall v, v_wl v = wl -> v_refs v = rf -> can_compile loop n v -> fin p (here (v_ds v)) <= limit (v_ds v) ->
    exists v', m v = Ok (tt, v') /\ compiled p v v'.

Section V0.
Variable v0 : vm.
Let S0 := start (v_ds v0).
Let L0 := limit (v_ds v0).

(** The state during compilation *)
Definition J v (open : list control) : Prop :=
  ds_ok (v_ds v) /\ start (v_ds v) = S0 /\ limit (v_ds v) = L0 /\ same_but_code v0 v /\
  stack_has (t_c (cur v)) open /\ canary (t_c (cur v)) = canary (t_c (cur v0)) /\
  sget (t_c (cur v)) 255 = canary (t_c (cur v)).

Lemma J_wl v open : J v open -> v_wl v = v_wl v0.
Proof. intros (_ & _ & _ & H & _). apply H. Qed.
Lemma J_refs v open : J v open -> v_refs v = v_refs v0.
Proof. intros (_ & _ & _ & H & _). apply H. Qed.
Lemma J_range v open : J v open -> 0 < S0 /\ S0 <= here (v_ds v) <= L0 /\ L0 < 2 ^ 63.
Proof. intros ((A & B & C) & H1 & H2 & _). rewrite H1, H2 in *. lia. Qed.

Lemma kept_of (K : Z -> Prop) v v' : start (v_ds v') = start (v_ds v) -> limit (v_ds v') = limit (v_ds v) -> v_wl v' = v_wl v ->
  (forall a, K a -> byte_at (v_ds v') a = byte_at (v_ds v) a) -> kept K v v'.
Proof. intros H1 H2 H3 H4. split; [exact H1|]. split; [exact H2|]. split; [exact H4|].
  intros i p _. unfold word_is. rewrite H3. tauto. Qed.

Lemma emit_ok v open x : J v open -> here (v_ds v) + 8 <= L0 ->
  exists v', ds_upd (fun d => compile_cell d x) v = Ok (tt, v') /\ J v' open /\
    here (v_ds v') = here (v_ds v) + 8 /\ code_cell T v' (here (v_ds v)) x /\
    kept (upto S0 (here (v_ds v))) v v'.
Proof.
  intros HJ HR. pose proof HJ as (H1 & H2 & H3 & H4 & H5 & H6 & H7). pose proof (J_range _ _ HJ).
  destruct (compile_cell_ok (v_ds v) x H1 ltac:(lia)) as (d' & E1 & C & (M1 & M2 & M3) & Hh & I1 & I2).
  exists (set_v_ds d' v). split; [apply ds_upd_eq; exact E1|]. split.
  - unfold J. cbn [v_ds set_v_ds]. rewrite cur_set_v_ds. split.
    + destruct H1 as (? & ? & ?). unfold ds_ok. rewrite M1, M2, Hh. lia.
    + split; [congruence|]. split; [congruence|]. split; [eapply sbc_trans; [exact H4|apply sbc_set_ds]|]. auto.
  - split; [exact Hh|]. split.
    + split; [cbn; lia|]. split; [cbn; lia|]. split; [exact C|]. unfold T. auto.
    + apply kept_of; try reflexivity; try assumption. intros a Ha. red in Ha. apply M3; lia.
Qed.

Lemma patch_ok v open x h : J v open -> S0 <= h - 8 -> h <= here (v_ds v) ->
  exists v', patch x h v = Ok (tt, v') /\ J v' open /\
    here (v_ds v') = here (v_ds v) /\ code_cell T v' (h - 8) x /\ kept (but S0 (h - 8)) v v'.
Proof.
  intros HJ Hl Hh. pose proof HJ as (H1 & H2 & H3 & H4 & H5 & H6 & H7). pose proof (J_range _ _ HJ) as R.
  destruct (put_cell_ok (v_ds v) x (h - 8)) as (d' & E1 & C & (M1 & M2 & M3) & Hh' & I1 & I2 & _).
  { apply in_ds_true. lia. }
  exists (set_v_ds d' v). split.
  { unfold patch. rewrite (bind_Ok _ _ _ (h - 8) v) by (apply chk_u64_ok; unfold two64; lia).
    apply ds_upd_eq. exact E1. }
  split.
  - unfold J. cbn [v_ds set_v_ds]. rewrite cur_set_v_ds. split.
    + destruct H1 as (? & ? & ?). unfold ds_ok. rewrite M1, M2, Hh'. lia.
    + split; [congruence|]. split; [congruence|]. split; [eapply sbc_trans; [exact H4|apply sbc_set_ds]|]. auto.
  - split; [exact Hh'|]. split.
    + split; [cbn; lia|]. split; [cbn; lia|]. split; [exact C|]. unfold T. auto.
    + apply kept_of; try reflexivity; try assumption. intros a Ha. red in Ha. apply M3; lia.
Qed.

Lemma c_push_ok v open x : J v open -> zlen open < 64 ->
  exists v', c_push x v = Ok (tt, v') /\ J v' (x :: open) /\ v_ds v' = v_ds v /\ kept T v v'.
Proof.
  intros HJ HL. pose proof HJ as (H1 & H2 & H3 & H4 & H5 & H6 & H7).
  exists (set_c (push (t_c (cur v)) x) v). split; [reflexivity|]. split; [|split; [reflexivity|apply kept_eq; reflexivity]].
  unfold J. rewrite cur_set_c. cbn [t_c set_t_c]. split; [exact H1|]. split; [exact H2|]. split; [exact H3|].
  split; [eapply sbc_trans; [exact H4|apply sbc_set_c]|].
  split; [apply push_has; [exact H5|lia]|]. split; [exact H6|].
  pose proof (stack_has_len _ _ H5) as HN. pose proof (zlen_nonneg open).
  rewrite add_item_push by lia. unfold add_item. rewrite sget_set_len, canary_set_len, canary_sset.
  rewrite sget_sset_other by lia. exact H7.
Qed.

Lemma c_pop_ok v open x : J v (x :: open) -> zlen open <= 64 ->
  exists v', c_pop v = Ok (x, v') /\ J v' open /\ v_ds v' = v_ds v /\ kept T v v' /\ c_underflow v' = false.
Proof.
  intros HJ HL. pose proof HJ as (H1 & H2 & H3 & H4 & H5 & H6 & H7).
  destruct (pop_has _ _ _ H5) as (s' & P1 & P2 & P3 & P4).
  pose proof (pop_items _ _ _ H5) as PI. rewrite P1 in PI. injection PI as ->.
  exists (set_c (drop_items 1 (t_c (cur v))) v). split.
  { unfold c_pop, c_stk. rewrite P1. reflexivity. }
  assert (Q : J (set_c (drop_items 1 (t_c (cur v))) v) open).
  { unfold J. rewrite cur_set_c. cbn [t_c set_t_c]. split; [exact H1|]. split; [exact H2|]. split; [exact H3|].
    split; [eapply sbc_trans; [exact H4|apply sbc_set_c]|].
    split; [exact P2|]. split; [exact H6|exact H7]. }
  split; [exact Q|]. split; [reflexivity|]. split; [apply kept_eq; reflexivity|].
  destruct Q as (_ & _ & _ & _ & Q5 & Q6 & Q7). unfold c_underflow, underflow, c_stk.
  rewrite Q7. pose proof (stack_has_len _ _ Q5) as HN. rewrite HN.
  rewrite control_eqb_refl. cbn. lia.
Qed.

Lemma body_ok l n m p v open : compiles_in (v_wl v0) (v_refs v0) l n m p -> compiler_ready v0 -> J v open ->
  zlen open + n <= 64 -> (l = true -> exists p q, In (CDo p q) open) -> 0 <= n ->
  fin p (here (v_ds v)) <= L0 ->
  exists v', m v = Ok (tt, v') /\ J v' open /\ here (v_ds v') = fin p (here (v_ds v)) /\
    laid (upto (here (v_ds v)) (here (v_ds v'))) v' p (here (v_ds v)) /\
    kept (upto S0 (here (v_ds v))) v v'.
Proof.
  intros HM HR HJ Hn Hl Hn0 HF. pose proof HJ as (H1 & H2 & H3 & H4 & H5 & H6 & H7).
  pose proof (zlen_nonneg open).
  destruct (HM v (J_wl _ _ HJ) (J_refs _ _ HJ)) as (v' & E1 & C1 & C2 & C3 & C4 & C5 & C6 & C7 & C8 & C9).
  { split; [exact H1|]. split.
    - destruct HR as [R1 R2]. split; [rewrite (J_wl _ _ HJ); exact R1|].
      intros f q Hin. unfold word_is. rewrite (J_wl _ _ HJ), (J_refs _ _ HJ). apply R2. exact Hin.
    - split; [exact H7|]. exists open. split; [exact H5|]. split; [lia|exact Hl]. }
  { lia. }
  pose proof (J_range _ _ HJ).
  assert (HK : kept (upto S0 (here (v_ds v))) v v').
  { apply kept_of; try assumption; [apply C9|]. intros a Ha. red in Ha. apply C4. lia. }
  assert (Hge : here (v_ds v) <= fin p (here (v_ds v))).
  { pose proof (laid_range _ _ _ _ C5 ltac:(lia)). lia. }
  exists v'. split; [exact E1|]. split.
  - unfold J. split; [|split; [congruence|split; [congruence|split]]].
    + destruct H1 as (? & ? & ?). unfold ds_ok. rewrite C2, C3, C1. lia.
    + eapply sbc_trans; [exact H4|exact C9].
    + split; [apply C8; [lia|exact H5]|]. split; congruence.
  - split; [exact C1|]. split; [|exact HK]. unfold upto. rewrite C1. exact C5.
Qed.

(** ** Moving facts along *)
Lemma cell_mono (K K' : Z -> Prop) v a x : code_cell K v a x -> (forall k, 0 <= k < 8 -> K' (a + k)) -> code_cell K' v a x.
Proof. intros (? & ? & ? & ?) HK. repeat split; auto. Qed.
Lemma cell_move (K : Z -> Prop) v v' a x : code_cell T v a x -> kept K v v' -> (forall k, 0 <= k < 8 -> K (a + k)) -> code_cell T v' a x.
Proof.
  intros C HK H. apply (cell_mono K); [|unfold T; auto]. eapply kept_cell; [exact HK|].
  eapply cell_mono; [exact C|exact H].
Qed.
Lemma laid_mono (K K' : Z -> Prop) v p : (forall i, K i -> K' i) -> forall a, laid K v p a -> laid K' v p a.
Proof.
  intro H.
  assert (HC : forall a x, code_cell K v a x -> code_cell K' v a x) by (intros a x (? & ? & ? & ?); repeat split; auto).
  assert (HW : forall a x, code_word K v a x -> code_word K' v a x) by (intros a x (i & ? & ?); exists i; auto).
  assert (HT : forall a x, code_text K v a x -> code_text K' v a x).
  { intros a x (? & ? & HH). split; [assumption|]. split; [assumption|]. intros k y Hk. destruct (HH k y Hk). auto. }
  induction p; cbn [laid]; cbv zeta; intros a HL; intuition auto.
Qed.
Lemma laid_move (K K' : Z -> Prop) v v' p a : laid K v p a -> kept K' v v' -> (forall i, K i -> K' i) -> laid K v' p a.
Proof.
  intros HL HK Hi. eapply kept_laid; [|exact HL]. destruct HK as (A1 & A2 & A3 & A4).
  split; [exact A1|]. split; [exact A2|]. split; [|exact A4]. auto.
Qed.

Lemma kept_mono (K K' : Z -> Prop) v v' : kept K v v' -> (forall i, K' i -> K i) -> kept K' v v'.
Proof. intros (A1 & A2 & A3 & A4) H. split; [exact A1|]. split; [exact A2|]. split; [|exact A4]. auto. Qed.
Lemma kept_comp (K K1 K2 : Z -> Prop) v v1 v2 : kept K1 v v1 -> kept K2 v1 v2 ->
  (forall i, K i -> K1 i) -> (forall i, K i -> K2 i) -> kept K v v2.
Proof. intros A B HA HB. eapply kept_trans; eapply kept_mono; eauto. Qed.

Hypothesis HR : compiler_ready v0.

Lemma ready_word (K : Z -> Prop) v open f q a : J v open -> In (f, q) compiler_words -> code_cell T v a (f (v_refs v0)) ->
  (forall k, 0 <= k < 8 -> K (a + k)) -> code_word K v a q.
Proof.
  intros HJ Hin HC HK. exists (f (v_refs v0)). split; [eapply cell_mono; eassumption|].
  destruct HR as [R1 R2]. specialize (R2 _ _ Hin). unfold word_is in *. rewrite (J_wl _ _ HJ). split; [exact R2|]. lia.
Qed.

Lemma fin_ge p : forall a, a <= fin p a.
Proof.
  induction p; intro a; cbn [fin]; unfold round8;
    repeat match goal with
    | IH : forall a, a <= fin ?p a |- context [fin ?p ?c] =>
      lazymatch goal with _ : c <= fin p c |- _ => fail | _ => pose proof (IH c) end
    end;
    try (pose proof (zlen_nonneg s)); lia.
Qed.

(** Two cells: a word of the compiler and an operand *)
Lemma emit2_ok v open f x : J v open -> here (v_ds v) + 16 <= L0 ->
  exists v', (idx <- refs_get f ;; compile_word idx ;;; ds_upd (fun d => compile_cell d x)) v = Ok (tt, v') /\ J v' open /\
    here (v_ds v') = here (v_ds v) + 16 /\ code_cell T v' (here (v_ds v)) (f (v_refs v0)) /\
    code_cell T v' (here (v_ds v) + 8) x /\ kept (upto S0 (here (v_ds v))) v v'.
Proof.
  intros HJ Hl. pose proof (J_range _ _ HJ).
  destruct (emit_ok v open (f (v_refs v)) HJ ltac:(lia)) as (v1 & E1 & J1 & H1 & C1 & K1).
  destruct (emit_ok v1 open x J1 ltac:(lia)) as (v2 & E2 & J2 & H2 & C2 & K2).
  exists v2. split; [|split; [exact J2|split; [lia|split; [|split]]]].
  - unfold refs_get, gets. unfold bind at 1. unfold compile_word. rewrite (bind_Ok _ _ _ _ _ E1). exact E2.
  - rewrite <- (J_refs _ _ HJ). eapply cell_move; [exact C1|exact K2|]. unfold upto. intros. lia.
  - rewrite <- H1. exact C2.
  - eapply kept_comp; [exact K1|exact K2|auto|]. unfold upto. intros. lia.
Qed.
Lemma emit2b_ok v open f x : J v open -> here (v_ds v) + 16 <= L0 ->
  exists v', (idx <- refs_get f ;; compile_word idx ;;; ds_upd (fun d => compile_cell d x) ;;; gets (fun v => here (v_ds v))) v = Ok (here (v_ds v) + 16, v') /\ J v' open /\
    here (v_ds v') = here (v_ds v) + 16 /\ code_cell T v' (here (v_ds v)) (f (v_refs v0)) /\
    code_cell T v' (here (v_ds v) + 8) x /\ kept (upto S0 (here (v_ds v))) v v'.
Proof.
  intros HJ Hl. destruct (emit2_ok v open f x HJ Hl) as (v' & E1 & J1 & H1 & R).
  exists v'. split; [|split; [exact J1|split; [exact H1|exact R]]].
  revert E1. unfold bind. destruct (refs_get f v) as [[i v1]| | |]; try discriminate.
  destruct (compile_word i v1) as [[u v2]| | |]; try discriminate.
  destruct (ds_upd _ v2) as [[u' v3]| | |]; try discriminate. intro Q. injection Q as -> ->.
  unfold gets. rewrite H1. reflexivity.
Qed.
Lemma branch_ok v open x : J v open -> here (v_ds v) + 16 <= L0 ->
  exists v', compile_branch x v = Ok (here (v_ds v) + 16, v') /\ J v' open /\
    here (v_ds v') = here (v_ds v) + 16 /\ code_cell T v' (here (v_ds v)) (idx_branch (v_refs v0)) /\
    code_cell T v' (here (v_ds v) + 8) x /\ kept (upto S0 (here (v_ds v))) v v'.
Proof. apply (emit2b_ok v open idx_branch). Qed.
Lemma zero_branch_ok v open x : J v open -> here (v_ds v) + 16 <= L0 ->
  exists v', compile_zero_branch x v = Ok (here (v_ds v) + 16, v') /\ J v' open /\
    here (v_ds v') = here (v_ds v) + 16 /\ code_cell T v' (here (v_ds v)) (idx_zero_branch (v_refs v0)) /\
    code_cell T v' (here (v_ds v) + 8) x /\ kept (upto S0 (here (v_ds v))) v v'.
Proof. apply (emit2b_ok v open idx_zero_branch). Qed.

(** What the words of the compiler do *)
Variables (fuel : nat) (ew : Z -> M unit).

Lemma if_ok mk v open : J v open -> here (v_ds v) + 16 <= L0 -> zlen open < 64 ->
  exists v', (h <- compile_zero_branch 0 ;; c_push (mk h)) v = Ok (tt, v') /\ J v' (mk (here (v_ds v) + 16) :: open) /\
    here (v_ds v') = here (v_ds v) + 16 /\ code_cell T v' (here (v_ds v)) (idx_zero_branch (v_refs v0)) /\
    kept (upto S0 (here (v_ds v))) v v'.
Proof.
  intros HJ Hl Hn. destruct (zero_branch_ok v open 0 HJ Hl) as (v1 & E1 & J1 & H1 & C1 & _ & K1).
  destruct (c_push_ok v1 open (mk (here (v_ds v) + 16)) J1 Hn) as (v2 & E2 & J2 & D2 & K2).
  exists v2. rewrite (bind_Ok _ _ _ _ _ E1). split; [exact E2|]. split; [exact J2|]. rewrite D2. split; [exact H1|]. split.
  - eapply cell_move; [exact C1|exact K2|]. unfold T. auto.
  - eapply kept_comp; [exact K1|exact K2|auto|unfold T; auto].
Qed.

(** [imm_else], [imm_endof]: branch to be resolved, resolve the previous one *)
Lemma else_ok mk v c h0 open (k : control -> M unit) :
  k c = (u <- gets c_underflow ;; if (u : bool) then mismatch ew else h <- compile_branch 0 ;; c_push (mk h) ;;; patch h h0) ->
  J v (c :: open) -> here (v_ds v) + 16 <= L0 -> zlen open < 64 -> S0 <= h0 - 8 -> h0 <= here (v_ds v) ->
  exists v', (c <- c_pop ;; k c) v = Ok (tt, v') /\
    J v' (mk (here (v_ds v) + 16) :: open) /\ here (v_ds v') = here (v_ds v) + 16 /\
    code_cell T v' (h0 - 8) (here (v_ds v) + 16) /\ code_cell T v' (here (v_ds v)) (idx_branch (v_refs v0)) /\
    kept (fun i => S0 <= i < here (v_ds v) /\ (i < h0 - 8 \/ h0 <= i)) v v'.
Proof.
  intros Hk HJ Hl Hn Ha Hb.
  destruct (c_pop_ok v open c HJ ltac:(lia)) as (v1 & E1 & J1 & D1 & K1 & U1).
  destruct (branch_ok v1 open 0 J1 ltac:(rewrite D1; lia)) as (v2 & E2 & J2 & H2 & C2 & _ & K2). rewrite D1 in *.
  destruct (c_push_ok v2 open (mk (here (v_ds v) + 16)) J2 Hn) as (v3 & E3 & J3 & D3 & K3).
  destruct (patch_ok v3 _ (here (v_ds v) + 16) h0 J3 Ha ltac:(rewrite D3; lia)) as (v4 & E4 & J4 & H4 & C4 & K4).
  exists v4. split.
  { rewrite (bind_Ok _ _ _ _ _ E1). rewrite Hk. unfold gets. unfold bind at 1. rewrite U1. rewrite (bind_Ok _ _ _ _ _ E2).
    rewrite (bind_Ok _ _ _ _ _ E3). exact E4. }
  split; [exact J4|]. split; [rewrite H4, D3; exact H2|]. split; [exact C4|]. split.
  - eapply cell_move; [|exact K4|unfold but; intros; pose proof (J_range _ _ HJ); lia].
    eapply cell_move; [exact C2|exact K3|unfold T; auto].
  - eapply kept_comp; [exact K1| |unfold T; auto|intros i Hi; exact Hi].
    eapply kept_comp; [exact K2| |unfold upto; intros i Hi; lia|intros i Hi; exact Hi].
    eapply kept_comp; [exact K3|exact K4|unfold T; auto|unfold but; intros; lia].
Qed.

(** [imm_then] *)
Lemma then_ok v c h0 open (k : control -> M unit) :
  k c = (u <- gets c_underflow ;; if (u : bool) then mismatch ew else h <- gets (fun v => here (v_ds v)) ;; patch h h0) ->
  J v (c :: open) -> zlen open <= 64 -> S0 <= h0 - 8 -> h0 <= here (v_ds v) ->
  exists v', (c <- c_pop ;; k c) v = Ok (tt, v') /\
    J v' open /\ here (v_ds v') = here (v_ds v) /\
    code_cell T v' (h0 - 8) (here (v_ds v)) /\ kept (but S0 (h0 - 8)) v v'.
Proof.
  intros Hk HJ Hn Ha Hb.
  destruct (c_pop_ok v open c HJ ltac:(lia)) as (v1 & E1 & J1 & D1 & K1 & U1).
  destruct (patch_ok v1 _ (here (v_ds v)) h0 J1 Ha ltac:(rewrite D1; lia)) as (v4 & E4 & J4 & H4 & C4 & K4).
  exists v4. split.
  { rewrite (bind_Ok _ _ _ _ _ E1). rewrite Hk. unfold gets. unfold bind at 1. rewrite U1. unfold bind at 1. rewrite D1. exact E4. }
  split; [exact J4|]. split; [rewrite H4, D1; reflexivity|]. split; [exact C4|].
  eapply kept_comp; [exact K1|exact K4|unfold T; auto|auto].
Qed.

(** [imm_until], [imm_again] *)
Lemma back_ok (cb : Z -> M Z) f v c p open (k : control -> M unit) :
  k c = (u <- gets c_underflow ;; if (u : bool) then mismatch ew else cb p ;;; ret tt) ->
  (forall v open x, J v open -> here (v_ds v) + 16 <= L0 ->
    exists v', cb x v = Ok (here (v_ds v) + 16, v') /\ J v' open /\
    here (v_ds v') = here (v_ds v) + 16 /\ code_cell T v' (here (v_ds v)) f /\
    code_cell T v' (here (v_ds v) + 8) x /\ kept (upto S0 (here (v_ds v))) v v') ->
  J v (c :: open) -> zlen open <= 64 -> here (v_ds v) + 16 <= L0 ->
  exists v', (c <- c_pop ;; k c) v = Ok (tt, v') /\
    J v' open /\ here (v_ds v') = here (v_ds v) + 16 /\ code_cell T v' (here (v_ds v)) f /\
    code_cell T v' (here (v_ds v) + 8) p /\ kept (upto S0 (here (v_ds v))) v v'.
Proof.
  intros Hk Hcb HJ Hn Hl.
  destruct (c_pop_ok v open c HJ ltac:(lia)) as (v1 & E1 & J1 & D1 & K1 & U1).
  destruct (Hcb v1 open p J1 ltac:(rewrite D1; lia)) as (v2 & E2 & J2 & H2 & C2 & C3 & K2). rewrite D1 in *.
  exists v2. split.
  { rewrite (bind_Ok _ _ _ _ _ E1). rewrite Hk. unfold gets. unfold bind at 1. rewrite U1. rewrite (bind_Ok _ _ _ _ _ E2). reflexivity. }
  split; [exact J2|]. split; [exact H2|]. split; [exact C2|]. split; [exact C3|].
  eapply kept_comp; [exact K1|exact K2|unfold T; auto|auto].
Qed.

(** [imm_repeat] *)
Lemma repeat_ok v b h0 open : J v (CWhile h0 :: CBegin b :: open) -> zlen open < 64 -> S0 <= h0 - 8 -> h0 <= here (v_ds v) ->
  here (v_ds v) + 16 <= L0 ->
  exists v', imm_repeat ew v = Ok (tt, v') /\ J v' open /\ here (v_ds v') = here (v_ds v) + 16 /\
    code_cell T v' (h0 - 8) (here (v_ds v) + 16) /\ code_cell T v' (here (v_ds v)) (idx_branch (v_refs v0)) /\
    code_cell T v' (here (v_ds v) + 8) b /\
    kept (fun i => S0 <= i < here (v_ds v) /\ (i < h0 - 8 \/ h0 <= i)) v v'.
Proof.
  intros HJ Hn Ha Hb Hl.
  destruct (c_pop_ok v _ _ HJ ltac:(rewrite zlen_cons; lia)) as (v1 & E1 & J1 & D1 & K1 & _).
  destruct (c_pop_ok v1 open _ J1 ltac:(lia)) as (v1' & E1' & J1' & D1' & K1' & U1).
  assert (EP : c_pop2 v = Ok ((CBegin b, CWhile h0), v1')).
  { unfold c_pop2, c_stk. destruct HJ as (_ & _ & _ & _ & HS & _). pose proof HS as HS'.
    rewrite (pop2_items _ _ _ _ HS). f_equal. f_equal.
    revert E1' E1. unfold c_pop, c_stk. rewrite (pop_items _ _ _ HS).
    intros E2 E3. injection E3 as <-. revert E2. rewrite cur_set_c. cbn [t_c set_t_c].
    destruct J1 as (_ & _ & _ & _ & HS1 & _). unfold set_c in HS1 at 1. rewrite cur_upd in HS1. cbn [t_c set_t_c] in HS1.
    rewrite (pop_items _ _ _ HS1). intro E2. injection E2 as <-. unfold set_c. rewrite upd_upd. apply upd_ext.
    unfold drop_items. cbn [len set_len]. set (A := set_len _ _). set (B := set_len _ _).
    assert (A = B) as -> by (unfold A, B, set_len; cbn; f_equal; lia). reflexivity. }
  assert (DD : v_ds v1' = v_ds v) by congruence.
  destruct (branch_ok v1' open b J1' ltac:(rewrite DD; lia)) as (v2 & E2 & J2 & H2 & C2 & C3 & K2).
  rewrite DD in *.
  destruct (patch_ok v2 _ (here (v_ds v) + 16) h0 J2 Ha ltac:(lia)) as (v4 & E4 & J4 & H4 & C4 & K4).
  exists v4. split.
  { unfold imm_repeat. rewrite (bind_Ok _ _ _ _ _ EP). unfold gets. unfold bind at 1. rewrite U1. rewrite (bind_Ok _ _ _ _ _ E2). exact E4. }
  pose proof (J_range _ _ HJ).
  split; [exact J4|]. split; [lia|]. split; [exact C4|]. split; [|split].
  - eapply cell_move; [exact C2|exact K4|unfold but; intros; lia].
  - eapply cell_move; [exact C3|exact K4|unfold but; intros; lia].
  - eapply kept_comp; [exact K1| |unfold T; auto|intros i Hi; exact Hi].
    eapply kept_comp; [exact K1'| |unfold T; auto|intros i Hi; exact Hi].
    eapply kept_comp; [exact K2|exact K4|unfold upto; intros i Hi; lia|unfold but; intros; lia].
Qed.

(** [imm_do], [imm_qdo] *)
Lemma do_ok f v open : J v open -> here (v_ds v) + 16 <= L0 -> zlen open < 64 ->
  exists v', (idx <- refs_get f ;; compile_word idx ;;; ds_upd (fun d => compile_cell d 0) ;;;
              h <- gets (fun v => here (v_ds v)) ;; c_push (CDo h h)) v = Ok (tt, v') /\
    J v' (CDo (here (v_ds v) + 16) (here (v_ds v) + 16) :: open) /\
    here (v_ds v') = here (v_ds v) + 16 /\ code_cell T v' (here (v_ds v)) (f (v_refs v0)) /\
    kept (upto S0 (here (v_ds v))) v v'.
Proof.
  intros HJ Hl Hn. destruct (emit2_ok v open f 0 HJ Hl) as (v1 & E1 & J1 & H1 & C1 & _ & K1).
  destruct (c_push_ok v1 open (CDo (here (v_ds v1)) (here (v_ds v1))) J1 Hn) as (v2 & E2 & J2 & D2 & K2).
  exists v2. split.
  { revert E1. unfold bind at 1 3. destruct (refs_get f v) as [[i w]| | |]; try discriminate.
    unfold bind. destruct (compile_word i w) as [[u w']| | |]; try discriminate. intro E1. rewrite E1. exact E2. }
  rewrite H1 in J2. split; [exact J2|]. rewrite D2. split; [exact H1|]. split.
  - eapply cell_move; [exact C1|exact K2|]. unfold T. auto.
  - eapply kept_comp; [exact K1|exact K2|auto|unfold T; auto].
Qed.

(** [imm_loop], [imm_plus_loop] *)
Lemma loop_ok f v h0 q open : J v (CDo h0 q :: open) -> zlen open <= 64 -> S0 <= h0 - 8 -> h0 <= here (v_ds v) ->
  here (v_ds v) + 16 <= L0 ->
  exists v', loop_common ew f v = Ok (tt, v') /\ J v' open /\ here (v_ds v') = here (v_ds v) + 16 /\
    code_cell T v' (h0 - 8) (here (v_ds v) + 16) /\ code_cell T v' (here (v_ds v)) (f (v_refs v0)) /\
    code_cell T v' (here (v_ds v) + 8) h0 /\
    kept (fun i => S0 <= i < here (v_ds v) /\ (i < h0 - 8 \/ h0 <= i)) v v'.
Proof.
  intros HJ Hn Ha Hb Hl.
  destruct (c_pop_ok v open _ HJ ltac:(lia)) as (v1 & E1 & J1 & D1 & K1 & U1).
  destruct (emit2_ok v1 open f h0 J1 ltac:(rewrite D1; lia)) as (v2 & E2 & J2 & H2 & C2 & C3 & K2). rewrite D1 in *.
  destruct (patch_ok v2 _ (here (v_ds v2)) h0 J2 Ha ltac:(lia)) as (v4 & E4 & J4 & H4 & C4 & K4).
  rewrite H2 in C4.
  exists v4. split.
  { unfold loop_common. rewrite (bind_Ok _ _ _ _ _ E1). unfold gets at 1. unfold bind at 1. rewrite U1.
    revert E2. unfold bind at 1 3. destruct (refs_get f v1) as [[i w]| | |]; try discriminate.
    unfold bind at 1 2. destruct (compile_word i w) as [[u w']| | |]; try discriminate. intro E2.
    rewrite (bind_Ok _ _ _ _ _ E2). exact E4. }
  pose proof (J_range _ _ HJ).
  split; [exact J4|]. split; [lia|]. split; [exact C4|]. split; [|split].
  - eapply cell_move; [exact C2|exact K4|unfold but; intros; lia].
  - eapply cell_move; [exact C3|exact K4|unfold but; intros; lia].
  - eapply kept_comp; [exact K1| |unfold T; auto|intros i Hi; exact Hi].
    eapply kept_comp; [exact K2|exact K4|unfold upto; intros i Hi; lia|unfold but; intros; lia].
Qed.

(** [imm_of] *)
Definition is_case (c : control) : Prop := c = CCase \/ exists n, c = CEndof n.
Lemma of_ok v c open : J v (c :: open) -> is_case c -> zlen open <= 62 -> here (v_ds v) + 40 <= L0 ->
  exists v', imm_of ew v = Ok (tt, v') /\ J v' (COf (here (v_ds v) + 32) :: c :: open) /\
    here (v_ds v') = here (v_ds v) + 40 /\
    code_cell T v' (here (v_ds v)) (idx_over (v_refs v0)) /\
    code_cell T v' (here (v_ds v) + 8) (idx_equal (v_refs v0)) /\
    code_cell T v' (here (v_ds v) + 16) (idx_zero_branch (v_refs v0)) /\
    code_cell T v' (here (v_ds v) + 32) (idx_drop (v_refs v0)) /\
    kept (upto S0 (here (v_ds v))) v v'.
Proof.
  intros HJ Hc Hn Hl. pose proof (zlen_nonneg open) as Hz. pose proof (J_range _ _ HJ) as HRg.
  destruct (c_pop_ok v open c HJ ltac:(lia)) as (v1 & E1 & J1 & D1 & K1 & _).
  destruct (c_push_ok v1 open c J1 ltac:(lia)) as (v2 & E2 & J2 & D2 & K2).
  assert (U2 : c_underflow v2 = false).
  { destruct J2 as (_ & _ & _ & _ & Q5 & Q6 & Q7). unfold c_underflow, underflow, c_stk.
    rewrite Q7. rewrite (stack_has_len _ _ Q5). rewrite control_eqb_refl, zlen_cons. cbn. lia. }
  rewrite D1 in D2.
  destruct (emit_ok v2 _ (idx_over (v_refs v2)) J2 ltac:(rewrite D2; lia)) as (v3 & E3 & J3 & H3 & C3 & K3). rewrite D2 in *.
  destruct (emit_ok v3 _ (idx_equal (v_refs v3)) J3 ltac:(lia)) as (v4 & E4 & J4 & H4 & C4 & K4).
  destruct (if_ok COf v4 _ J4 ltac:(lia) ltac:(rewrite zlen_cons; lia)) as (v5 & E5 & J5 & H5 & C5 & K5).
  destruct (emit_ok v5 _ (idx_drop (v_refs v5)) J5 ltac:(lia)) as (v6 & E6 & J6 & H6 & C6 & K6).
  exists v6. split.
  { unfold imm_of. rewrite (bind_Ok _ _ _ _ _ E1).
    assert (EG : (u <- gets c_underflow;;
      (if (u : bool) then mismatch ew
       else idx <- refs_get idx_over;; compile_word idx;;;
            idx0 <- refs_get idx_equal;; compile_word idx0;;;
            h <- compile_zero_branch 0;; c_push (COf h);;;
            idx1 <- refs_get idx_drop;; compile_word idx1)) v2 = Ok (tt, v6)).
    { unfold gets, refs_get. unfold bind at 1. rewrite U2. unfold bind at 1.
      unfold gets. unfold compile_word. rewrite (bind_Ok _ _ _ _ _ E3). unfold bind at 1.
      rewrite (bind_Ok _ _ _ _ _ E4). revert E5. unfold bind. destruct (compile_zero_branch 0 v4) as [[x w]| | |]; try discriminate.
      intros ->. exact E6. }
    destruct Hc as [->|[n ->]]; rewrite (bind_Ok _ _ _ _ _ E2); exact EG. }
  rewrite (J_refs _ _ J2) in C3. rewrite (J_refs _ _ J3) in C4. rewrite (J_refs _ _ J5) in C6.
  rewrite H5, H4, H3 in *.
  replace (here (v_ds v) + 8 + 8 + 16) with (here (v_ds v) + 32) in * by lia.
  replace (here (v_ds v) + 8 + 8) with (here (v_ds v) + 16) in * by lia.
  split; [exact J6|]. split; [lia|]. split; [|split; [|split; [|split]]].
  - eapply cell_move; [|exact K6|unfold upto; intros; lia]. eapply cell_move; [|exact K5|unfold upto; intros; lia].
    eapply cell_move; [|exact K4|unfold upto; intros; lia]. exact C3.
  - eapply cell_move; [|exact K6|unfold upto; intros; lia]. eapply cell_move; [|exact K5|unfold upto; intros; lia].
    exact C4.
  - eapply cell_move; [|exact K6|unfold upto; intros; lia]. exact C5.
  - exact C6.
  - eapply kept_comp; [exact K1| |unfold T; auto|intros i Hi; exact Hi].
    eapply kept_comp; [exact K2| |unfold T; auto|intros i Hi; exact Hi].
    eapply kept_comp; [exact K3| |auto|intros i Hi; exact Hi].
    eapply kept_comp; [exact K4| |unfold upto; intros; lia|intros i Hi; exact Hi].
    eapply kept_comp; [exact K5|exact K6|unfold upto; intros; lia|unfold upto; intros; lia].
Qed.

(** [imm_endcase] *)
Definition apart (rs : list Z) : Prop :=
  forall a b, In a rs -> In b rs -> a = b \/ a + 8 <= b \/ b + 8 <= a.
Lemma endcase_ok rs : forall n v open, (length rs < n)%nat ->
  J v (map CEndof rs ++ CCase :: open) -> zlen rs + zlen open < 64 ->
  (forall h, In h rs -> S0 <= h - 8 /\ h <= here (v_ds v)) -> apart rs ->
  exists v', endcase_loop ew n v = Ok (tt, v') /\ J v' open /\ here (v_ds v') = here (v_ds v) /\
    (forall h, In h rs -> code_cell T v' (h - 8) (here (v_ds v))) /\
    kept (fun i => S0 <= i /\ forall h, In h rs -> i < h - 8 \/ h <= i) v v'.
Proof.
  induction rs as [|h rs IH]; intros n v open Hn HJ Hl Hr Ha; (destruct n as [|n]; [cbn in Hn; lia|]); pose proof (zlen_nonneg open) as Hz.
  - cbn [map app] in HJ. destruct (c_pop_ok v open _ HJ ltac:(change (@zlen Z []) with 0 in Hl; lia)) as (v1 & E1 & J1 & D1 & K1 & U1).
    exists v1. split.
    { cbn [endcase_loop]. rewrite (bind_Ok _ _ _ _ _ E1). unfold gets, bind. rewrite U1. reflexivity. }
    split; [exact J1|]. rewrite D1. split; [reflexivity|]. split; [intros ? []|].
    eapply kept_mono; [exact K1|unfold T; auto].
  - cbn [map app] in HJ. rewrite zlen_cons in Hl. pose proof (zlen_nonneg rs).
    assert (HZ : zlen (map CEndof rs ++ CCase :: open) <= 64).
    { unfold zlen in *. rewrite app_length, map_length. cbn [length]. lia. }
    destruct (c_pop_ok v _ _ HJ HZ) as (v1 & E1 & J1 & D1 & K1 & U1).
    destruct (Hr h (or_introl eq_refl)) as [Hh1 Hh2].
    destruct (patch_ok v1 _ (here (v_ds v)) h J1 Hh1 ltac:(rewrite D1; lia)) as (v2 & E2 & J2 & H2 & C2 & K2).
    rewrite D1 in H2.
    destruct (IH n v2 open) as (v3 & E3 & J3 & H3 & C3 & K3).
    { cbn in Hn. lia. }
    { exact J2. }
    { lia. }
    { intros x Hx. rewrite H2. apply Hr. right. exact Hx. }
    { intros x y Hx Hy. apply Ha; right; assumption. }
    exists v3. split.
    { cbn [endcase_loop]. rewrite (bind_Ok _ _ _ _ _ E1). unfold gets at 1. unfold bind at 1. rewrite U1.
      rewrite (bind_Ok _ _ v1 tt v2); [exact E3|]. unfold gets, bind. rewrite D1. exact E2. }
    split; [exact J3|]. split; [lia|]. rewrite H2 in C3. split.
    + intros x [<-|Hx]; [|apply C3; exact Hx].
      destruct (in_dec Z.eq_dec h rs) as [Hi|Hi]; [apply C3; exact Hi|].
      eapply cell_move; [exact C2|exact K3|]. intros k Hk. split; [lia|]. intros y Hy.
      destruct (Ha h y (or_introl eq_refl) (or_intror Hy)) as [->|]; [contradiction|lia].
    + eapply kept_comp; [exact K1| |unfold T; auto|intros i Hi; exact Hi].
      eapply kept_comp; [exact K2|exact K3| |].
      * intros i [Hi Hx]. specialize (Hx h (or_introl eq_refl)). unfold but. lia.
      * intros i [Hi Hx]. split; [exact Hi|]. intros y Hy. apply Hx. right. exact Hy.
Qed.

(** ** Whole constructs *)
Definition in_loop (l : bool) (open : list control) : Prop := l = true -> exists p q, In (CDo p q) open.
Lemma in_loop_cons l c open : in_loop l open -> in_loop l (c :: open).
Proof. intros H Hl. destruct (H Hl) as (p & q & Hi). exists p, q. right. exact Hi. Qed.

Definition done (open : list control) p v' : Prop :=
  J v' open /\ here (v_ds v') = fin p (here (v_ds v0)) /\
  laid (upto (here (v_ds v0)) (here (v_ds v'))) v' p (here (v_ds v0)) /\ kept (upto S0 (here (v_ds v0))) v0 v'.
Lemma done_compiled open p v' : J v0 open -> done open p v' -> compiled p v0 v'.
Proof.
  intros HJ (J1 & H1 & L1 & K1). unfold compiled. split; [exact H1|].
  destruct K1 as (B1 & B2 & B3 & B4). destruct J1 as (A1 & A2 & A3 & A4 & A5 & A6 & A7).
  destruct HJ as (Z1 & Z2 & Z3 & Z4 & Z5 & Z6 & Z7).
  split; [exact B1|]. split; [exact B2|]. split; [exact B3|].
  split; [unfold upto in L1; rewrite H1 in L1; exact L1|].
  split; [exact A6|]. split; [rewrite A7, Z7; exact A6|]. split; [|exact A4].
  intros op _ Hop. rewrite (stack_has_inj _ _ _ Hop Z5). exact A5.
Qed.
Lemma done_skip open : J v0 open -> done open Skip v0.
Proof. intro HJ. split; [exact HJ|]. split; [reflexivity|]. split; [exact I|apply kept_refl]. Qed.

Notation CI := (compiles_in (v_wl v0) (v_refs v0)).
Notation h := (here (v_ds v0)).
Notation act := (exec_prim fuel ew).

Ltac rng := unfold upto, but, T in *; intros; lia.
(** Carry everything known about [v] along [HK : kept K v v'] *)
Ltac carry HK :=
  lazymatch type of HK with kept _ ?v ?v' =>
    repeat match goal with
    | C : code_cell T v ?a ?x |- _ =>
      let C' := fresh C in assert (C' : code_cell T v' a x) by (eapply cell_move; [exact C|exact HK|rng]); clear C
    | L : laid _ v ?p ?a |- _ =>
      let L' := fresh L in pose proof (laid_move _ _ _ _ _ _ L HK ltac:(rng)) as L'; clear L
    end
  end.
Ltac words HJ :=
  repeat match goal with
  | |- _ /\ _ => split
  | |- code_word _ _ _ ?q => eapply (ready_word _ _ _ _ q _ HJ); [unfold compiler_words; cbn [In]; tauto|eassumption|rng]
  | |- code_cell _ _ _ _ => eapply cell_mono; [eassumption|rng]
  | |- laid _ _ _ _ => eapply laid_mono; [|eassumption]; rng
  end.

Lemma imm_then_ok v c h0 open : c = CIf h0 \/ c = CElse h0 -> J v (c :: open) -> zlen open <= 64 -> S0 <= h0 - 8 -> h0 <= here (v_ds v) ->
  exists v', act P_imm_then v = Ok (tt, v') /\
    J v' open /\ here (v_ds v') = here (v_ds v) /\
    code_cell T v' (h0 - 8) (here (v_ds v)) /\ kept (but S0 (h0 - 8)) v v'.
Proof.
  intros Hc. change (act P_imm_then) with (imm_then ew). unfold imm_then.
  destruct Hc as [->| ->]; eapply then_ok; reflexivity.
Qed.
Lemma imm_else_ok v h0 open : J v (CIf h0 :: open) -> here (v_ds v) + 16 <= L0 -> zlen open < 64 -> S0 <= h0 - 8 -> h0 <= here (v_ds v) ->
  exists v', act P_imm_else v = Ok (tt, v') /\
    J v' (CElse (here (v_ds v) + 16) :: open) /\ here (v_ds v') = here (v_ds v) + 16 /\
    code_cell T v' (h0 - 8) (here (v_ds v) + 16) /\ code_cell T v' (here (v_ds v)) (idx_branch (v_refs v0)) /\
    kept (fun i => S0 <= i < here (v_ds v) /\ (i < h0 - 8 \/ h0 <= i)) v v'.
Proof. change (act P_imm_else) with (imm_else ew). unfold imm_else. eapply (else_ok CElse). reflexivity. Qed.
Lemma imm_endof_ok v h0 open : J v (COf h0 :: open) -> here (v_ds v) + 16 <= L0 -> zlen open < 64 -> S0 <= h0 - 8 -> h0 <= here (v_ds v) ->
  exists v', act P_imm_endof v = Ok (tt, v') /\
    J v' (CEndof (here (v_ds v) + 16) :: open) /\ here (v_ds v') = here (v_ds v) + 16 /\
    code_cell T v' (h0 - 8) (here (v_ds v) + 16) /\ code_cell T v' (here (v_ds v)) (idx_branch (v_refs v0)) /\
    kept (fun i => S0 <= i < here (v_ds v) /\ (i < h0 - 8 \/ h0 <= i)) v v'.
Proof. change (act P_imm_endof) with (imm_endof ew). unfold imm_endof. eapply (else_ok CEndof). reflexivity. Qed.
Lemma imm_until_ok v p open : J v (CBegin p :: open) -> zlen open <= 64 -> here (v_ds v) + 16 <= L0 ->
  exists v', act P_imm_until v = Ok (tt, v') /\
    J v' open /\ here (v_ds v') = here (v_ds v) + 16 /\ code_cell T v' (here (v_ds v)) (idx_zero_branch (v_refs v0)) /\
    code_cell T v' (here (v_ds v) + 8) p /\ kept (upto S0 (here (v_ds v))) v v'.
Proof.
  change (act P_imm_until) with (imm_until ew). unfold imm_until.
  apply (back_ok compile_zero_branch _ v (CBegin p) p open
    (fun c => match c with CBegin p => u <- gets c_underflow ;; if (u : bool) then mismatch ew else compile_zero_branch p ;;; ret tt | _ => mismatch ew end) eq_refl). exact zero_branch_ok.
Qed.
Lemma imm_again_ok v p open : J v (CBegin p :: open) -> zlen open <= 64 -> here (v_ds v) + 16 <= L0 ->
  exists v', act P_imm_again v = Ok (tt, v') /\
    J v' open /\ here (v_ds v') = here (v_ds v) + 16 /\ code_cell T v' (here (v_ds v)) (idx_branch (v_refs v0)) /\
    code_cell T v' (here (v_ds v) + 8) p /\ kept (upto S0 (here (v_ds v))) v v'.
Proof.
  change (act P_imm_again) with (imm_again ew). unfold imm_again.
  apply (back_ok compile_branch _ v (CBegin p) p open
    (fun c => match c with CBegin p => u <- gets c_underflow ;; if (u : bool) then mismatch ew else compile_branch p ;;; ret tt | _ => mismatch ew end) eq_refl). exact branch_ok.
Qed.
Lemma imm_begin_ok v open : J v open -> zlen open < 64 ->
  exists v', act P_imm_begin v = Ok (tt, v') /\ J v' (CBegin (here (v_ds v)) :: open) /\ v_ds v' = v_ds v /\ kept T v v'.
Proof. intros HJ Hn. apply (c_push_ok v open (CBegin (here (v_ds v))) HJ Hn). Qed.

Lemma c_seq l n p q m1 m2 open : CI l n m1 p -> CI l n m2 q -> 0 <= n ->
  J v0 open -> zlen open + n <= 64 -> in_loop l open -> fin (Seq p q) h <= L0 ->
  exists v', (m1 ;;; m2) v0 = Ok (tt, v') /\ done open (Seq p q) v'.
Proof.
  intros HM1 HM2 Hn0 HJ Hn Hl HF. cbn [fin] in HF. pose proof (fin_ge q (fin p h)) as G1. pose proof (fin_ge p h) as G2. pose proof (J_range _ _ HJ) as G3.
  destruct (body_ok l n m1 p v0 open HM1 HR HJ Hn Hl Hn0 ltac:(lia)) as (v1 & E1 & J1 & H1 & L1 & K1).
  destruct (body_ok l n m2 q v1 open HM2 HR J1 Hn Hl Hn0 ltac:(rewrite H1; lia)) as (v2 & E2 & J2 & H2 & L2 & K2).
  exists v2. rewrite (bind_Ok _ _ _ _ _ E1). split; [exact E2|]. rewrite H2, H1 in *.
  carry K2. split; [exact J2|]. cbn [fin laid]. split; [exact H2|]. split.
  - rewrite H2. words J2.
  - eapply kept_comp; [exact K1|exact K2|rng|rng].
Qed.

Lemma c_if l n p m open : CI l n m p -> 0 <= n ->
  J v0 open -> zlen open + (n + 1) <= 64 -> in_loop l open -> fin (IfThen p) h <= L0 ->
  exists v', (act P_imm_if ;;; m ;;; act P_imm_then) v0 = Ok (tt, v') /\ done open (IfThen p) v'.
Proof.
  intros HM Hn0 HJ Hn Hl HF. cbn [fin] in HF. pose proof (fin_ge p (h + 16)) as G1. pose proof (J_range _ _ HJ) as G2.
  destruct (if_ok CIf v0 open HJ ltac:(lia) ltac:(lia)) as (v1 & E1 & J1 & H1 & C1 & K1).
  destruct (body_ok l n m p v1 _ HM HR J1 ltac:(rewrite zlen_cons; lia) (in_loop_cons _ _ _ Hl) Hn0 ltac:(rewrite H1; lia)) as (v2 & E2 & J2 & H2 & L2 & K2).
  rewrite H1 in *.
  destruct (imm_then_ok v2 _ (h + 16) open (or_introl eq_refl) J2 ltac:(lia) ltac:(lia) ltac:(lia)) as (v3 & E3 & J3 & H3 & C3 & K3).
  exists v3. split.
  { change (act P_imm_if) with (h <- compile_zero_branch 0 ;; c_push (CIf h)). rewrite (bind_Ok _ _ _ _ _ E1).
    rewrite (bind_Ok _ _ _ _ _ E2). exact E3. }
  rewrite H2 in *. replace (h + 16 - 8) with (h + 8) in * by lia.
  carry K2. carry K3. split; [exact J3|]. cbn [fin laid]. split; [exact H3|]. split.
  - rewrite H3. words J3.
  - eapply kept_comp; [exact K1| |rng|intros i Hi; exact Hi].
    eapply kept_comp; [exact K2|exact K3|rng|rng].
Qed.

Lemma c_else l n p q m1 m2 open : CI l n m1 p -> CI l n m2 q -> 0 <= n ->
  J v0 open -> zlen open + (n + 1) <= 64 -> in_loop l open -> fin (IfElse p q) h <= L0 ->
  exists v', (act P_imm_if ;;; m1 ;;; act P_imm_else ;;; m2 ;;; act P_imm_then) v0 = Ok (tt, v') /\ done open (IfElse p q) v'.
Proof.
  intros HM1 HM2 Hn0 HJ Hn Hl HF. cbn [fin] in HF. pose proof (fin_ge p (h + 16)) as G1. pose proof (J_range _ _ HJ) as G2.
  pose proof (fin_ge q (fin p (h + 16) + 16)) as G3.
  destruct (if_ok CIf v0 open HJ ltac:(lia) ltac:(lia)) as (v1 & E1 & J1 & H1 & C1 & K1).
  destruct (body_ok l n m1 p v1 _ HM1 HR J1 ltac:(rewrite zlen_cons; lia) (in_loop_cons _ _ _ Hl) Hn0 ltac:(rewrite H1; lia)) as (v2 & E2 & J2 & H2 & L2 & K2).
  rewrite H1 in *.
  destruct (imm_else_ok v2 (h + 16) open J2 ltac:(lia) ltac:(lia) ltac:(lia) ltac:(lia)) as (v3 & E3 & J3 & H3 & C3 & C3' & K3).
  rewrite H2 in *.
  destruct (body_ok l n m2 q v3 _ HM2 HR J3 ltac:(rewrite zlen_cons; lia) (in_loop_cons _ _ _ Hl) Hn0 ltac:(rewrite H3; lia)) as (v4 & E4 & J4 & H4 & L4 & K4).
  rewrite H3 in *.
  destruct (imm_then_ok v4 _ (fin p (h + 16) + 16) open (or_intror eq_refl) J4 ltac:(lia) ltac:(lia) ltac:(lia)) as (v5 & E5 & J5 & H5 & C5 & K5).
  rewrite H4 in *.
  exists v5. split.
  { change (act P_imm_if) with (h <- compile_zero_branch 0 ;; c_push (CIf h)). rewrite (bind_Ok _ _ _ _ _ E1).
    rewrite (bind_Ok _ _ _ _ _ E2), (bind_Ok _ _ _ _ _ E3), (bind_Ok _ _ _ _ _ E4). exact E5. }
  replace (h + 16 - 8) with (h + 8) in * by lia. replace (fin p (h + 16) + 16 - 8) with (fin p (h + 16) + 8) in * by lia.
  carry K2. carry K3. carry K4. carry K5. split; [exact J5|]. cbn [fin laid]; cbv zeta. split; [exact H5|]. split.
  - rewrite H5. words J5.
  - eapply kept_comp; [exact K1| |rng|intros i Hi; exact Hi].
    eapply kept_comp; [exact K2| |rng|intros i Hi; exact Hi].
    eapply kept_comp; [exact K3| |rng|intros i Hi; exact Hi].
    eapply kept_comp; [exact K4|exact K5|rng|rng].
Qed.

Lemma c_until l n p m open : CI l n m p -> 0 <= n ->
  J v0 open -> zlen open + (n + 1) <= 64 -> in_loop l open -> fin (Until p) h <= L0 ->
  exists v', (act P_imm_begin ;;; m ;;; act P_imm_until) v0 = Ok (tt, v') /\ done open (Until p) v'.
Proof.
  intros HM Hn0 HJ Hn Hl HF. cbn [fin] in HF. pose proof (fin_ge p h) as G1. pose proof (J_range _ _ HJ) as G2.
  destruct (imm_begin_ok v0 open HJ ltac:(lia)) as (v1 & E1 & J1 & H1 & K1).
  destruct (body_ok l n m p v1 _ HM HR J1 ltac:(rewrite zlen_cons; lia) (in_loop_cons _ _ _ Hl) Hn0 ltac:(rewrite H1; lia)) as (v2 & E2 & J2 & H2 & L2 & K2).
  rewrite H1 in *.
  destruct (imm_until_ok v2 h open J2 ltac:(lia) ltac:(lia)) as (v3 & E3 & J3 & H3 & C3 & C3' & K3).
  rewrite H2 in *.
  exists v3. split.
  { rewrite (bind_Ok _ _ _ _ _ E1), (bind_Ok _ _ _ _ _ E2). exact E3. }
  carry K3. split; [exact J3|]. cbn [fin laid]; cbv zeta. split; [exact H3|]. split.
  - rewrite H3. words J3.
  - eapply kept_comp; [exact K1| |rng|intros i Hi; exact Hi].
    eapply kept_comp; [exact K2|exact K3|rng|rng].
Qed.

Lemma c_again l n p m open : CI l n m p -> 0 <= n ->
  J v0 open -> zlen open + (n + 1) <= 64 -> in_loop l open -> fin (Again p) h <= L0 ->
  exists v', (act P_imm_begin ;;; m ;;; act P_imm_again) v0 = Ok (tt, v') /\ done open (Again p) v'.
Proof.
  intros HM Hn0 HJ Hn Hl HF. cbn [fin] in HF. pose proof (fin_ge p h) as G1. pose proof (J_range _ _ HJ) as G2.
  destruct (imm_begin_ok v0 open HJ ltac:(lia)) as (v1 & E1 & J1 & H1 & K1).
  destruct (body_ok l n m p v1 _ HM HR J1 ltac:(rewrite zlen_cons; lia) (in_loop_cons _ _ _ Hl) Hn0 ltac:(rewrite H1; lia)) as (v2 & E2 & J2 & H2 & L2 & K2).
  rewrite H1 in *.
  destruct (imm_again_ok v2 h open J2 ltac:(lia) ltac:(lia)) as (v3 & E3 & J3 & H3 & C3 & C3' & K3).
  rewrite H2 in *.
  exists v3. split.
  { rewrite (bind_Ok _ _ _ _ _ E1), (bind_Ok _ _ _ _ _ E2). exact E3. }
  carry K3. split; [exact J3|]. cbn [fin laid]; cbv zeta. split; [exact H3|]. split.
  - rewrite H3. words J3.
  - eapply kept_comp; [exact K1| |rng|intros i Hi; exact Hi].
    eapply kept_comp; [exact K2|exact K3|rng|rng].
Qed.

Lemma c_while l n p q m1 m2 open : CI l (n + 1) m1 p -> CI l n m2 q -> 0 <= n ->
  J v0 open -> zlen open + (n + 2) <= 64 -> in_loop l open -> fin (While p q) h <= L0 ->
  exists v', (act P_imm_begin ;;; m1 ;;; act P_imm_while ;;; m2 ;;; act P_imm_repeat) v0 = Ok (tt, v') /\ done open (While p q) v'.
Proof.
  intros HM1 HM2 Hn0 HJ Hn Hl HF. cbn [fin] in HF. pose proof (fin_ge p h) as G1. pose proof (J_range _ _ HJ) as G2.
  pose proof (fin_ge q (fin p h + 16)) as G3.
  destruct (imm_begin_ok v0 open HJ ltac:(lia)) as (v1 & E1 & J1 & H1 & K1).
  destruct (body_ok l (n + 1) m1 p v1 _ HM1 HR J1 ltac:(rewrite zlen_cons; lia) (in_loop_cons _ _ _ Hl) ltac:(lia) ltac:(rewrite H1; lia)) as (v2 & E2 & J2 & H2 & L2 & K2).
  rewrite H1 in *.
  destruct (if_ok CWhile v2 _ J2 ltac:(lia) ltac:(rewrite zlen_cons; lia)) as (v3 & E3 & J3 & H3 & C3 & K3).
  rewrite H2 in *.
  destruct (body_ok l n m2 q v3 _ HM2 HR J3 ltac:(rewrite !zlen_cons; lia) (in_loop_cons _ _ _ (in_loop_cons _ _ _ Hl)) Hn0 ltac:(rewrite H3; lia)) as (v4 & E4 & J4 & H4 & L4 & K4).
  rewrite H3 in *.
  destruct (repeat_ok v4 _ (fin p h + 16) open J4 ltac:(lia) ltac:(lia) ltac:(lia) ltac:(lia)) as (v5 & E5 & J5 & H5 & C5 & C5' & C5'' & K5).
  rewrite H4 in *.
  exists v5. split.
  { rewrite (bind_Ok _ _ _ _ _ E1), (bind_Ok _ _ _ _ _ E2). change (act P_imm_while) with (h <- compile_zero_branch 0 ;; c_push (CWhile h)).
    rewrite (bind_Ok _ _ _ _ _ E3), (bind_Ok _ _ _ _ _ E4). exact E5. }
  replace (fin p h + 16 - 8) with (fin p h + 8) in * by lia.
  carry K3. carry K4. carry K5. split; [exact J5|]. cbn [fin laid]; cbv zeta. split; [exact H5|]. split.
  - rewrite H5. words J5.
  - eapply kept_comp; [exact K1| |rng|intros i Hi; exact Hi].
    eapply kept_comp; [exact K2| |rng|intros i Hi; exact Hi].
    eapply kept_comp; [exact K3| |rng|intros i Hi; exact Hi].
    eapply kept_comp; [exact K4|exact K5|rng|rng].
Qed.

Lemma c_do l n skip step p m open : CI true n m p -> 0 <= n ->
  J v0 open -> zlen open + (n + 1) <= 64 -> in_loop l open -> fin (Do skip step p) h <= L0 ->
  exists v', (act (if skip then P_imm_qdo else P_imm_do) ;;; m ;;; act (if step then P_imm_plus_loop else P_imm_loop)) v0 = Ok (tt, v') /\
    done open (Do skip step p) v'.
Proof.
  intros HM Hn0 HJ Hn Hl HF. cbn [fin] in HF. pose proof (fin_ge p (h + 16)) as G1. pose proof (J_range _ _ HJ) as G2.
  destruct (do_ok (if skip then idx_qdo else idx_do) v0 open HJ ltac:(lia) ltac:(lia)) as (v1 & E1 & J1 & H1 & C1 & K1).
  assert (HL : in_loop true (CDo (h + 16) (h + 16) :: open)) by (intros _; eexists _, _; left; reflexivity).
  destruct (body_ok true n m p v1 _ HM HR J1 ltac:(rewrite zlen_cons; lia) HL Hn0 ltac:(rewrite H1; lia)) as (v2 & E2 & J2 & H2 & L2 & K2).
  rewrite H1 in *.
  destruct (loop_ok (if step then idx_plus_loop else idx_loop) v2 (h + 16) _ open J2 ltac:(lia) ltac:(lia) ltac:(lia) ltac:(lia)) as (v3 & E3 & J3 & H3 & C3 & C3' & C3'' & K3).
  rewrite H2 in *.
  exists v3. split.
  { replace (act (if skip then P_imm_qdo else P_imm_do)) with (idx <- refs_get (if skip then idx_qdo else idx_do);; compile_word idx;;;
      ds_upd (fun d => compile_cell d 0);;; h <- gets (fun v => here (v_ds v));; c_push (CDo h h)) by (destruct skip; reflexivity).
    rewrite (bind_Ok _ _ _ _ _ E1), (bind_Ok _ _ _ _ _ E2). destruct step; exact E3. }
  replace (h + 16 - 8) with (h + 8) in * by lia.
  carry K2. carry K3. split; [exact J3|]. cbn [fin laid]; cbv zeta. split; [exact H3|]. split.
  - rewrite H3. destruct skip, step; words J3.
  - eapply kept_comp; [exact K1| |rng|intros i Hi; exact Hi].
    eapply kept_comp; [exact K2|exact K3|rng|rng].
Qed.

Lemma c_op i open (m : M unit) : J v0 open -> 0 <= i < wl_len (v_wl v0) -> h + 8 <= L0 ->
  m v0 = compile_word i v0 ->
  exists v', m v0 = Ok (tt, v') /\ done open (Op i) v'.
Proof.
  intros HJ Hi HF ->. destruct (emit_ok v0 open i HJ HF) as (v1 & E1 & J1 & H1 & C1 & K1).
  exists v1. split; [exact E1|]. split; [exact J1|]. cbn [fin laid]. split; [exact H1|]. split; [|exact K1].
  rewrite H1. destruct HR as [R1 _]. split; [words J1|lia].
Qed.

Lemma c_num x open : J v0 open -> is_cell x -> h + 16 <= L0 ->
  exists v', compile_integer x v0 = Ok (tt, v') /\ done open (Num x) v'.
Proof.
  intros HJ Hx HF. destruct (emit2_ok v0 open idx_lit x HJ HF) as (v1 & E1 & J1 & H1 & C1 & C2 & K1).
  exists v1. split; [exact E1|]. split; [exact J1|]. cbn [fin laid]. split; [exact H1|]. split; [|exact K1].
  rewrite H1. words J1. exact Hx.
Qed.

Lemma align_ok v open : J v open -> round8 (here (v_ds v)) <= L0 ->
  exists v', ds_upd (ds_align chk) v = Ok (tt, v') /\ J v' open /\ here (v_ds v') = round8 (here (v_ds v)) /\ kept T v v'.
Proof.
  intros HJ HF. pose proof (J_range _ _ HJ) as G. pose proof HJ as (H1 & H2 & H3 & H4 & H5).
  assert (round8 (here (v_ds v)) = align8 (here (v_ds v))) as EQ by reflexivity.
  pose proof (align8_range (here (v_ds v))).
  assert (HA : ds_align chk (v_ds v) = Ok (mkDs (ds_inner (v_ds v)) (ds_cap (v_ds v)) (round8 (here (v_ds v)) - ds_inner (v_ds v)) (ds_mem (v_ds v)))).
  { unfold ds_align. rewrite aligned8_ok by (unfold two64; lia). cbn [rbind].
    rewrite set_here_ok by (rewrite H2, H3; lia). reflexivity. }
  eexists. split; [apply ds_upd_eq; exact HA|].
  assert (HH : here (mkDs (ds_inner (v_ds v)) (ds_cap (v_ds v)) (round8 (here (v_ds v)) - ds_inner (v_ds v)) (ds_mem (v_ds v))) = round8 (here (v_ds v))).
  { unfold here. cbn. lia. }
  split.
  - unfold J. cbn [v_ds set_v_ds]. rewrite cur_set_v_ds. split.
    + destruct H1 as (? & ? & ?). unfold ds_ok. rewrite HH. change (0 < start (v_ds v) /\ start (v_ds v) <= round8 (here (v_ds v)) <= limit (v_ds v) /\ limit (v_ds v) < 2 ^ 63). rewrite H2, H3. lia.
    + split; [exact H2|]. split; [exact H3|]. split; [eapply sbc_trans; [exact H4|apply sbc_set_ds]|]. exact H5.
  - split; [exact HH|]. apply kept_of; reflexivity.
Qed.

Lemma c_flo x open : J v0 open -> 0 <= x < 2 ^ 64 -> round8 (h + 8) + 8 <= L0 ->
  exists v', compile_float x v0 = Ok (tt, v') /\ done open (Flo x) v'.
Proof.
  intros HJ Hx HF. pose proof (J_range _ _ HJ) as G. pose proof (align8_range (h + 8)) as G1. change (align8 (h + 8)) with (round8 (h + 8)) in G1.
  destruct (emit_ok v0 open (idx_flit (v_refs v0)) HJ ltac:(lia)) as (v1 & E1 & J1 & H1 & C1 & K1).
  destruct (align_ok v1 open J1 ltac:(rewrite H1; lia)) as (v2 & E2 & J2 & H2 & K2). rewrite H1 in *.
  destruct (emit_ok v2 open x J2 ltac:(lia)) as (v3 & E3 & J3 & H3 & C3 & K3). rewrite H2 in *.
  carry K2. carry K3.
  exists v3. split.
  { unfold compile_float, refs_get, gets. unfold bind at 1. unfold compile_word.
    rewrite (bind_Ok _ _ _ _ _ E1), (bind_Ok _ _ _ _ _ E2). exact E3. }
  split; [exact J3|]. cbn [fin laid]. split; [exact H3|]. split.
  - rewrite H3. words J3; lia.
  - eapply kept_comp; [exact K1| |rng|intros i Hi; exact Hi].
    eapply kept_comp; [exact K2|exact K3|rng|rng].
Qed.

(** leave, inside a loop *)
Lemma slice_rev {A} (f : nat -> A) l :
  (forall k x, nth_error l k = Some x -> f (length l - 1 - k)%nat = x) -> map f (seq 0 (length l)) = rev l.
Proof.
  induction l as [|x l IH]; intro H; [reflexivity|].
  cbn [length rev]. rewrite seq_S, map_app. cbn [map]. f_equal.
  - apply IH. intros k y Hk. rewrite <- (H (S k) y Hk). f_equal. cbn [length].
    assert (k < length l)%nat by (apply nth_error_Some; congruence). lia.
  - f_equal. rewrite <- (H O x eq_refl). f_equal. cbn [length]. lia.
Qed.
Lemma as_slice_has {A} (s : stack A) l : stack_has s l -> as_slice s = rev l.
Proof.
  intros (H1 & _ & H3). unfold as_slice. rewrite H1. unfold zlen. rewrite Nat2Z.id.
  apply slice_rev. intros k x Hk. rewrite <- (H3 k x Hk). f_equal. rewrite H1. unfold zlen.
  assert (k < length l)%nat by (apply nth_error_Some; congruence). lia.
Qed.
Lemma leave_part_ok v open : J v open -> in_loop true open -> exists q, leave_part v = Ok (Some q, v).
Proof.
  intros (_ & _ & _ & _ & HS & _) HL. unfold leave_part, gets, c_stk. rewrite (as_slice_has _ _ HS).
  destruct (HL eq_refl) as (p & q & Hi). rewrite (in_rev open) in Hi. revert Hi. generalize (rev open) as l.
  assert (G : forall l (o : option Z), (exists q, o = Some q) \/ (exists p q, In (CDo p q) l) ->
    exists q, fold_left (fun acc c => match c with CDo _ q => Some q | _ => acc end) l o = Some q).
  { induction l as [|c l IH]; intros o Ho; cbn [fold_left].
    - destruct Ho as [Ho|(? & ? & [])]. exact Ho.
    - apply IH. destruct Ho as [[x ->]|(a & b & [->|Hi])].
      + left. destruct c; eexists; reflexivity.
      + left. eexists. reflexivity.
      + right. eauto. }
  intros l Hi. destruct (G l None) as [x Hx]; [right; eauto|]. exists x. rewrite Hx. reflexivity.
Qed.

(** The clauses of a case, before endcase: the destinations of the branches at
    [p - 16], for [p] in [ps], are still open *)
Fixpoint finc (cs : list (prog * prog)) (a : Z) : Z :=
  match cs with
  | [] => a
  | (x, p) :: r => finc r (fin p (fin x a + 40) + 16)
  end.
Fixpoint openc v (cs : list (prog * prog)) (a : Z) (ps : list Z) : Prop :=
  match cs with
  | [] => ps = []
  | (x, p) :: r =>
    let m := fin x a in
    let n := fin p (m + 40) in
    laid (upto a m) v x a /\ code_cell T v m (idx_over (v_refs v0)) /\ code_cell T v (m + 8) (idx_equal (v_refs v0)) /\
    code_cell T v (m + 16) (idx_zero_branch (v_refs v0)) /\ code_cell T v (m + 24) (n + 16) /\
    code_cell T v (m + 32) (idx_drop (v_refs v0)) /\ laid (upto (m + 40) n) v p (m + 40) /\
    code_cell T v n (idx_branch (v_refs v0)) /\
    exists ps', ps = (n + 16) :: ps' /\ openc v r (n + 16) ps'
  end.
Lemma finc_ge cs : forall a, a <= finc cs a.
Proof.
  induction cs as [|[x p] cs IH]; intro a; cbn [finc]; [lia|].
  pose proof (fin_ge x a). pose proof (fin_ge p (fin x a + 40)). pose proof (IH (fin p (fin x a + 40) + 16)). lia.
Qed.
Lemma openc_holes v cs : forall a ps, openc v cs a ps ->
  zlen ps = zlen cs /\ (forall q, In q ps -> a + 56 <= q <= finc cs a) /\ apart ps.
Proof.
  induction cs as [|[x p] cs IH]; intros a ps; cbn [openc finc]; cbv zeta.
  - intros ->. split; [reflexivity|]. split; [intros ? []|intros ? ? []].
  - intros (_ & _ & _ & _ & _ & _ & _ & _ & ps' & -> & H). pose proof (fin_ge x a). pose proof (fin_ge p (fin x a + 40)).
    pose proof (finc_ge cs (fin p (fin x a + 40) + 16)).
    destruct (IH _ _ H) as (A & B & C). split; [rewrite !zlen_cons; lia|]. split.
    + intros q [<-|Hq]; [lia|]. specialize (B q Hq). lia.
    + intros q q' [<-|Hq] [<-|Hq'].
      * left. reflexivity.
      * specialize (B _ Hq'). lia.
      * specialize (B _ Hq). lia.
      * apply C; assumption.
Qed.
Lemma openc_move (K : Z -> Prop) v v' cs : kept K v v' -> forall a ps, openc v cs a ps ->
  (forall i, a <= i < finc cs a -> (forall q, In q ps -> i < q - 8 \/ q <= i) -> K i) -> openc v' cs a ps.
Proof.
  intro HK. induction cs as [|[x p] cs IH]; intros a ps; cbn [openc finc]; cbv zeta; [auto|].
  intros (L1 & C1 & C2 & C3 & C4 & C5 & L2 & C6 & ps' & -> & H) Hi.
  pose proof (fin_ge x a). pose proof (fin_ge p (fin x a + 40)).
  pose proof (finc_ge cs (fin p (fin x a + 40) + 16)).
  destruct (openc_holes _ _ _ _ H) as (_ & B & _).
  assert (G : forall i, a <= i < fin p (fin x a + 40) + 8 -> K i).
  { intros i Hr. apply Hi; [lia|]. intros q [<-|Hq]; [lia|]. specialize (B q Hq). lia. }
  repeat match goal with |- _ /\ _ => split end;
    try (eapply cell_move; [eassumption|exact HK|]; intros; apply G; lia).
  - eapply laid_move; [exact L1|exact HK|]. intros. apply G. rng.
  - eapply laid_move; [exact L2|exact HK|]. intros. apply G. rng.
  - exists ps'. split; [reflexivity|]. apply IH; [exact H|]. intros i Hr Hq. apply Hi; [lia|].
    intros q [<-|Hin]; [lia|]. apply Hq. exact Hin.
Qed.
Lemma fin_case o e d cs dflt : forall a, fin (Case o e d cs dflt) a = fin dflt (finc cs a) + 8.
Proof.
  induction cs as [|[x p] cs IH]; intro a; cbn [Case fin finc]; [reflexivity|].
  rewrite IH. replace (fin x a + 8 + 8 + 16 + 8) with (fin x a + 40) by lia. reflexivity.
Qed.
Lemma openc_closed v open cs dflt : J v open -> forall a ps z, openc v cs a ps ->
  (forall q, In q ps -> code_cell T v (q - 8) (fin dflt z + 8)) -> z = finc cs a ->
  laid (upto z (fin dflt z)) v dflt z -> code_cell T v (fin dflt z) (idx_drop (v_refs v0)) ->
  laid (upto a (fin dflt z + 8)) v (Case (idx_over (v_refs v0)) (idx_equal (v_refs v0)) (idx_drop (v_refs v0)) cs dflt) a.
Proof.
  intro HJ.
  assert (G : forall f q, In (f, q) compiler_words -> 0 <= f (v_refs v0) < 2 ^ 63).
  { intros f q Hi. destruct HR as [R1 R2]. destruct (R2 _ _ Hi). lia. }
  assert (Go := G idx_over P_over ltac:(unfold compiler_words; cbn [In]; tauto)).
  assert (Ge := G idx_equal P_equals ltac:(unfold compiler_words; cbn [In]; tauto)).
  assert (Gd := G idx_drop P_p_drop ltac:(unfold compiler_words; cbn [In]; tauto)).
  induction cs as [|[x p] cs IH]; intros a ps z HO HP Hz HL HC.
  - cbn [finc Case laid] in *. subst z. pose proof (fin_ge dflt a). words HJ; lia.
  - cbn [openc] in HO; cbv zeta in HO.
    destruct HO as (L1 & C1 & C2 & C3 & C4 & C5 & L2 & C6 & ps' & -> & H).
    cbn [finc] in Hz. cbn [Case laid fin]; cbv zeta. pose proof (fin_ge x a) as F1. pose proof (fin_ge p (fin x a + 40)) as F2.
    pose proof (finc_ge cs (fin p (fin x a + 40) + 16)) as F3. pose proof (fin_ge dflt z) as F4.
    specialize (IH _ ps' z H (fun q Hq => HP q (or_intror Hq)) Hz HL HC).
    pose proof (HP _ (or_introl eq_refl)) as C7.
    replace (fin p (fin x a + 40) + 16 - 8) with (fin p (fin x a + 40) + 8) in C7 by lia.
    rewrite fin_case.
    replace (fin x a + 8 + 8 + 16 + 8) with (fin x a + 40) by lia.
    replace (fin x a + 8 + 8 + 8) with (fin x a + 24) by lia.
    replace (fin x a + 8 + 8 + 16) with (fin x a + 32) by lia.
    replace (fin x a + 8 + 8) with (fin x a + 16) by lia.
    rewrite <- Hz. words HJ; try lia.
Qed.

(** [m] compiles the clauses [cs] *)
Definition clauses_in (l : bool) (n : Z) (cs : list (prog * prog)) (m : M unit) : Prop :=
  forall v c open, J v (c :: open) -> is_case c -> zlen open + 1 + n <= 64 -> in_loop l open ->
    finc cs (here (v_ds v)) <= L0 ->
    exists v' ps, m v = Ok (tt, v') /\ J v' (map CEndof (rev ps) ++ c :: open) /\
      here (v_ds v') = finc cs (here (v_ds v)) /\ openc v' cs (here (v_ds v)) ps /\
      kept (upto S0 (here (v_ds v))) v v'.
Lemma clauses_none l n : clauses_in l n [] (ret tt).
Proof.
  intros v c open HJ Hc Hn Hl HF. exists v, []. split; [reflexivity|]. split; [exact HJ|].
  split; [reflexivity|]. split; [reflexivity|apply kept_refl].
Qed.
Lemma clauses_of l n x p cs m1 m2 m : 0 <= n - 1 -> CI l n m1 x -> CI l (n - 1) m2 p -> clauses_in l (n - 1) cs m ->
  clauses_in l n ((x, p) :: cs) (m1 ;;; act P_imm_of ;;; m2 ;;; act P_imm_endof ;;; m).
Proof.
  intros Hn0 HM1 HM2 HM v c open HJ Hc Hn Hl HF. cbn [finc] in HF. set (a := here (v_ds v)) in *.
  pose proof (J_range _ _ HJ) as G. pose proof (fin_ge x a) as F1. pose proof (fin_ge p (fin x a + 40)) as F2.
  pose proof (finc_ge cs (fin p (fin x a + 40) + 16)) as F3.
  destruct (body_ok l n m1 x v _ HM1 HR HJ ltac:(rewrite zlen_cons; lia) (in_loop_cons _ _ _ Hl) ltac:(lia) ltac:(fold a; lia)) as (v1 & E1 & J1 & H1 & L1 & K1).
  fold a in H1, L1, K1. rewrite H1 in *.
  destruct (of_ok v1 c open J1 Hc ltac:(lia) ltac:(lia)) as (v2 & E2 & J2 & H2 & C2a & C2b & C2c & C2d & K2). rewrite H1 in *.
  destruct (body_ok l (n - 1) m2 p v2 _ HM2 HR J2 ltac:(rewrite !zlen_cons; lia) (in_loop_cons _ _ _ (in_loop_cons _ _ _ Hl)) ltac:(lia) ltac:(rewrite H2; lia)) as (v3 & E3 & J3 & H3 & L3 & K3).
  rewrite H2 in *.
  destruct (imm_endof_ok v3 (fin x a + 32) (c :: open) J3 ltac:(lia) ltac:(rewrite zlen_cons; lia) ltac:(lia) ltac:(lia)) as (v4 & E4 & J4 & H4 & C4a & C4b & K4).
  rewrite H3 in *.
  assert (HQ : exists v5 ps, m v4 = Ok (tt, v5) /\ J v5 (map CEndof (rev ps) ++ CEndof (fin p (fin x a + 40) + 16) :: c :: open) /\
    here (v_ds v5) = finc cs (here (v_ds v4)) /\ openc v5 cs (here (v_ds v4)) ps /\ kept (upto S0 (here (v_ds v4))) v4 v5).
  { apply HM; [exact J4|right; eexists; reflexivity|rewrite zlen_cons; lia|apply in_loop_cons; exact Hl|rewrite H4; exact HF]. }
  destruct HQ as (v5 & ps & E5 & J5 & H5 & O5 & K5). rewrite H4 in *.
  replace (fin x a + 32 - 8) with (fin x a + 24) in * by lia.
  carry K2. carry K3. carry K4. carry K5.
  exists v5, ((fin p (fin x a + 40) + 16) :: ps). split; [|split; [|split; [|split]]].
  - rewrite (bind_Ok _ _ _ _ _ E1). change (act P_imm_of) with (imm_of ew).
    rewrite (bind_Ok _ _ _ _ _ E2), (bind_Ok _ _ _ _ _ E3), (bind_Ok _ _ _ _ _ E4). exact E5.
  - cbn [rev]. rewrite map_app, <- app_assoc. exact J5.
  - cbn [finc]. exact H5.
  - cbn [openc]; cbv zeta. words J5. exists ps. split; [reflexivity|exact O5].
  - eapply kept_comp; [exact K1| |rng|intros i Hi; exact Hi].
    eapply kept_comp; [exact K2| |rng|intros i Hi; exact Hi].
    eapply kept_comp; [exact K3| |rng|intros i Hi; exact Hi].
    eapply kept_comp; [exact K4|exact K5|rng|rng].
Qed.

Lemma in_loop_app l a b : in_loop l b -> in_loop l (a ++ b).
Proof. intros H Hl. destruct (H Hl) as (p & q & Hi). exists p, q. apply in_or_app. right. exact Hi. Qed.

Hypothesis Hfuel : (65 <= fuel)%nat.
Lemma c_case l n cs dflt m1 m2 open : clauses_in l n cs m1 -> CI l (n - zlen cs) m2 dflt -> 0 <= n - zlen cs ->
  J v0 open -> zlen open + (n + 1) <= 64 -> in_loop l open ->
  fin (Case (idx_over (v_refs v0)) (idx_equal (v_refs v0)) (idx_drop (v_refs v0)) cs dflt) h <= L0 ->
  exists v', (act P_imm_case ;;; m1 ;;; m2 ;;; act P_imm_endcase) v0 = Ok (tt, v') /\
    done open (Case (idx_over (v_refs v0)) (idx_equal (v_refs v0)) (idx_drop (v_refs v0)) cs dflt) v'.
Proof.
  intros HM1 HM2 Hn0 HJ Hn Hl HF. rewrite fin_case in HF. pose proof (J_range _ _ HJ) as G.
  pose proof (finc_ge cs h) as F1. pose proof (fin_ge dflt (finc cs h)) as F2. pose proof (zlen_nonneg cs) as Hz. pose proof (zlen_nonneg open) as Hzo.
  destruct (c_push_ok v0 open CCase HJ ltac:(lia)) as (v1 & E1 & J1 & D1 & K1).
  destruct (HM1 v1 CCase open J1 (or_introl eq_refl) ltac:(lia) Hl ltac:(rewrite D1; lia)) as (v2 & ps & E2 & J2 & H2 & O2 & K2).
  rewrite D1 in *. destruct (openc_holes _ _ _ _ O2) as (P1 & P2 & P3).
  assert (Hz2 : zlen (map CEndof (rev ps) ++ CCase :: open) = zlen cs + 1 + zlen open).
  { rewrite zlen_app, zlen_cons. unfold zlen in *. rewrite map_length, rev_length. lia. }
  destruct (body_ok l (n - zlen cs) m2 dflt v2 _ HM2 HR J2 ltac:(lia) (in_loop_app _ _ _ (in_loop_cons _ _ _ Hl)) Hn0 ltac:(rewrite H2; lia)) as (v3 & E3 & J3 & H3 & L3 & K3).
  rewrite H2 in *.
  destruct (emit_ok v3 _ (idx_drop (v_refs v3)) J3 ltac:(lia)) as (v4 & E4 & J4 & H4 & C4 & K4).
  rewrite (J_refs _ _ J3) in C4. rewrite H3 in *.
  destruct (endcase_ok (rev ps) fuel v4 open) as (v5 & E5 & J5 & H5 & C5 & K5).
  { rewrite rev_length. unfold zlen in *. lia. }
  { exact J4. }
  { unfold zlen in *. rewrite rev_length. lia. }
  { intros q Hq. apply in_rev in Hq. specialize (P2 q Hq). lia. }
  { intros q q' Hq Hq'. apply in_rev in Hq, Hq'. apply P3; assumption. }
  rewrite H4 in *.
  assert (P2' : forall q, In q (rev ps) -> h + 56 <= q <= finc cs h) by (intros q Hq; apply in_rev in Hq; apply P2; exact Hq).
  assert (O5 : openc v5 cs h ps).
  { eapply openc_move; [exact K5| |intros i Hi Hq; split; [lia|]; intros q Hq'; apply Hq; apply in_rev; exact Hq'].
    eapply openc_move; [exact K4| |rng]. eapply openc_move; [exact K3|exact O2|rng]. }
  assert (L5 : laid (upto (finc cs h) (fin dflt (finc cs h))) v5 dflt (finc cs h)).
  { eapply laid_move; [|exact K5|intros i Hi; split; [rng|]; intros q Hq; specialize (P2' q Hq); rng].
    eapply laid_move; [exact L3|exact K4|rng]. }
  assert (C5d : code_cell T v5 (fin dflt (finc cs h)) (idx_drop (v_refs v0))).
  { eapply cell_move; [exact C4|exact K5|]. intros k Hk. split; [lia|]. intros q Hq; specialize (P2' q Hq); lia. }
  exists v5. split.
  { change (act P_imm_case) with (c_push CCase). rewrite (bind_Ok _ _ _ _ _ E1), (bind_Ok _ _ _ _ _ E2), (bind_Ok _ _ _ _ _ E3).
    change (act P_imm_endcase) with (idx <- refs_get idx_drop ;; compile_word idx ;;; endcase_loop ew fuel).
    unfold refs_get, gets. unfold bind at 1. unfold compile_word. rewrite (bind_Ok _ _ _ _ _ E4). exact E5. }
  split; [exact J5|]. rewrite fin_case. split; [lia|]. split.
  - replace (here (v_ds v5)) with (fin dflt (finc cs h) + 8) by lia.
    eapply openc_closed; [exact J5|exact O5| |reflexivity|exact L5|exact C5d].
    intros q Hq. apply C5. rewrite <- in_rev. exact Hq.
  - eapply kept_comp; [exact K1| |rng|intros i Hi; exact Hi].
    eapply kept_comp; [exact K2| |rng|intros i Hi; exact Hi].
    eapply kept_comp; [exact K3| |rng|intros i Hi; exact Hi].
    eapply kept_comp; [exact K4|exact K5|rng|].
    intros i Hi. split; [rng|]. intros q Hq; specialize (P2' q Hq); rng.
Qed.

End V0.

Lemma can_J v l n : can_compile l n v -> exists open, J v v open /\ zlen open + n <= 64 /\ in_loop l open /\ compiler_ready v.
Proof.
  intros (H1 & H2 & H3 & open & H4 & H5 & H6). exists open. split; [|auto].
  split; [exact H1|]. split; [reflexivity|]. split; [reflexivity|]. split; [apply sbc_refl|]. auto.
Qed.

Section Thm.
Variables (wl : wordlist) (rf : refs) (fuel : nat) (ew : Z -> M unit).
Hypothesis Hfuel : (65 <= fuel)%nat.

Ltac begin_c v := intros v Hw Hf HC HF; subst wl rf;
  destruct (can_J _ _ _ HC) as (open & HJ & Hn & Hl & HR).
Ltac finish L := destruct L as (v' & E1 & D1); exists v'; split; [exact E1|eapply done_compiled; eassumption].

Lemma source_ok_both :
  (forall l n p m, source wl (idx_over rf) (idx_equal rf) (idx_drop rf) fuel ew l n p m -> 0 <= n /\ compiles_in wl rf l n m p) /\
  (forall l n cs m, source_of wl (idx_over rf) (idx_equal rf) (idx_drop rf) fuel ew l n cs m ->
     0 <= n /\ forall v0, v_wl v0 = wl -> v_refs v0 = rf -> compiler_ready v0 -> clauses_in v0 l n cs m).
Proof.
  apply source_both.
  - intros l n Hn0. split; [exact Hn0|]. begin_c v. exists v. split; [reflexivity|]. eapply done_compiled; [exact HJ|apply done_skip; exact HJ].
  - intros l n p q m1 m2 _ [Hn0 H1] _ [_ H2]. split; [exact Hn0|]. begin_c v. finish (c_seq v HR ew l n p q m1 m2 open H1 H2 Hn0 HJ Hn Hl HF).
  - intros l n i Hn0 Hi Hcs. split; [exact Hn0|]. begin_c v.
    finish (c_op v HR ew i open (run_cs ew (w_cs (wl_get (v_wl v) i)) i) HJ Hi HF ltac:(destruct (w_cs (wl_get (v_wl v) i)); try reflexivity; congruence)).
  - intros n i Hn0 Hi Hcs. split; [exact Hn0|]. begin_c v.
    destruct (leave_part_ok v fuel ew v open HJ Hl) as [q Hq].
    finish (c_op v HR ew i open (run_cs ew (w_cs (wl_get (v_wl v) i)) i) HJ Hi HF ltac:(rewrite Hcs; cbn [run_cs]; unfold compile_leave; rewrite (bind_Ok _ _ _ _ _ Hq); reflexivity)).
  - intros l n x Hn0 Hx. split; [exact Hn0|]. begin_c v. finish (c_num v HR ew x open HJ Hx HF).
  - intros l n x Hn0 Hx. split; [exact Hn0|]. begin_c v. finish (c_flo v HR ew x open HJ Hx HF).
  - intros l n p m _ [Hn0 H1]. split; [lia|]. begin_c v. finish (c_if v HR fuel ew l n p m open H1 Hn0 HJ Hn Hl HF).
  - intros l n p q m1 m2 _ [Hn0 H1] _ [_ H2]. split; [lia|]. begin_c v. finish (c_else v HR fuel ew l n p q m1 m2 open H1 H2 Hn0 HJ Hn Hl HF).
  - intros l n p m _ [Hn0 H1]. split; [lia|]. begin_c v. finish (c_until v HR fuel ew l n p m open H1 Hn0 HJ Hn Hl HF).
  - intros l n p q m1 m2 _ [_ H1] _ [Hn0 H2]. split; [lia|]. begin_c v. finish (c_while v HR fuel ew l n p q m1 m2 open H1 H2 Hn0 HJ Hn Hl HF).
  - intros l n p m _ [Hn0 H1]. split; [lia|]. begin_c v. finish (c_again v HR fuel ew l n p m open H1 Hn0 HJ Hn Hl HF).
  - intros l n skip step p m _ [Hn0 H1]. split; [lia|]. begin_c v. finish (c_do v HR fuel ew l n skip step p m open H1 Hn0 HJ Hn Hl HF).
  - intros l n cs dflt m1 m2 _ [Hn0 H1] _ [Hn1 H2]. split; [lia|]. begin_c v.
    finish (c_case v HR fuel ew Hfuel l n cs dflt m1 m2 open (H1 v eq_refl eq_refl HR) H2 Hn1 HJ Hn Hl HF).
  - intros l n p m Hn0 H1. split; [exact Hn0|]. intros v _ _. apply H1.
  - intros l n Hn0. split; [exact Hn0|]. intros. apply clauses_none.
  - intros l n x p cs m1 m2 m _ [_ H1] _ [Hn0 H2] _ [_ H3]. split; [lia|]. intros v0 Hw Hf HR.
    apply clauses_of; rewrite ?Hw, ?Hf; auto.
Qed.
End Thm.

(** Compiling the source of [p] appends the code of [p]. *)
Theorem compile_source fuel ew l n p m v : (65 <= fuel)%nat ->
  source (v_wl v) (idx_over (v_refs v)) (idx_equal (v_refs v)) (idx_drop (v_refs v)) fuel ew l n p m ->
  can_compile l n v -> fin p (here (v_ds v)) <= limit (v_ds v) ->
  exists v', m v = Ok (tt, v') /\ compiled p v v'.
Proof.
  intros Hf HS HC HF. destruct (source_ok_both (v_wl v) (v_refs v) fuel ew Hf) as [H _].
  destruct (H _ _ _ _ HS) as [_ Q]. apply Q; auto.
Qed.
End C.
