(** Defining words, finishing words, markers. *)
From Coq Require Import ZArith List Bool Lia ZifyBool ZifyNat.
From Verif Require Import Base Stack Mem Parser Flt State CoreM IoM FloatM FileM Exec.
From Verif Require Import LBase LStack Spec Spec4 Spec9 Spec10 LState LMem LMon LStep LTask LCode LDict.
Import ListNotations.
Open Scope Z_scope.
Open Scope m_scope.
Ltac Zify.zify_post_hook ::= Z.div_mod_to_equations.

Section D.
Context {E : Env}.
Implicit Types (v : vm).

Lemma rbind_inv {A B} (m : res A) (k : A -> res B) r : rbind m k = Ok r -> exists a, m = Ok a /\ k a = Ok r.
Proof. destruct m; try discriminate. cbn. eauto. Qed.
Definition eub : Z -> M unit := fun _ _ => UB.
Lemma abort_ub e v : abort_with eub e v = UB.
Proof. rewrite abort_with_eq. reflexivity. Qed.

(** Same words, data space and error *)
Definition fr v v' : Prop := v_wl v' = v_wl v /\ v_ds v' = v_ds v /\ v_err v' = v_err v.
Lemma fr_refl v : fr v v. Proof. repeat split. Qed.
Lemma fr_trans v1 v2 v3 : fr v1 v2 -> fr v2 v3 -> fr v1 v3.
Proof. intros (A & B & C) (A' & B' & C'). repeat split; congruence. Qed.
Definition frm {A} (m : M A) : Prop := forall v x v', m v = Ok (x, v') -> fr v v'.
Lemma frm_bind {A B} (m : M A) (k : A -> M B) : frm m -> (forall x, frm (k x)) -> frm (bind m k).
Proof. intros H1 H2 v x v' H. apply bind_inv in H as (y & v1 & A1 & A2). eapply fr_trans; [exact (H1 _ _ _ A1)|exact (H2 _ _ _ _ A2)]. Qed.
Lemma frm_ret {A} (x : A) : frm (ret x).
Proof. intros v y v' H. injection H as _ <-. apply fr_refl. Qed.
Lemma frm_gets {A} (f : vm -> A) : frm (gets f).
Proof. intros v y v' H. injection H as _ <-. apply fr_refl. Qed.
Lemma frm_modify (f : vm -> vm) : (forall v, fr v (f v)) -> frm (modify f).
Proof. intros HF v y v' H. unfold modify in H. injection H as _ <-. apply HF. Qed.
Lemma frm_chk_u64 z : frm (chk_u64 z).
Proof. unfold chk_u64. destruct (in_u64 z); [apply frm_ret|]. destruct chk; [intros v x v' H; discriminate H|apply frm_ret]. Qed.
Lemma frm_take_token : frm take_token.
Proof. intros v x v' H. unfold take_token in H. destruct (v_tkn v); [|discriminate H]. injection H as _ <-. repeat split. Qed.
Lemma frm_slice buf i : frm (slice_or_panic buf i).
Proof. intros v x v' H. unfold slice_or_panic in H. repeat match type of H with context [match ?q with _ => _ end] => destruct q end; try discriminate H; unfold ret in H; injection H as _ <-; apply fr_refl. Qed.
Lemma frm_parse_word : frm parse_word.
Proof.
  unfold parse_word. apply frm_bind; [apply frm_take_token|]. intros t. apply frm_bind; [intros v x v' H; unfold get_inbuf in H; repeat match type of H with context [match ?q with _ => _ end] => destruct q end; try discriminate H; injection H as _ <-; apply fr_refl|]. intros [buf|].
  - apply frm_bind; [apply frm_gets|]. intro i. destruct (i <? zlen buf); [|apply frm_modify; repeat split].
    apply frm_bind; [apply frm_slice|]. intro src. cbv zeta. apply frm_bind; [apply frm_chk_u64|]. intro n.
    apply frm_bind; [|intros _]; apply frm_modify; repeat split.
  - apply frm_modify; repeat split.
Qed.

Lemma define_ub fuel a c v v' : dict_ok v -> define fuel eub a c v = Ok (tt, v') ->
  exists t, t <> [] /\ defined a t v v' /\ v_err v' = v_err v /\ w_dfa (word_of v' (words v)) = here (v_ds v').
Proof.
  intros HD H. unfold define in H. apply bind_inv in H as ([] & v1 & H1 & H). pose proof (frm_parse_word _ _ _ H1) as F1. clear H1.
  apply bind_inv in H as (t0 & v2 & H2 & H).
  assert (F2 : fr v v2) by (eapply fr_trans; [exact F1|exact (frm_take_token _ _ _ H2)]).
  clear H2 F1. cbv zeta in H. apply bind_inv in H as (f & v3 & H3 & H). apply find_state in H3 as ->.
  apply bind_inv in H as ([] & v3 & H3 & H).
  assert (F3 : fr v v3) by (apply (fr_trans _ _ _ F2); destruct f; [unfold out_push, modify in H3|unfold ret in H3]; injection H3 as <-; [destruct (v_out v2)|]; repeat split). clear H3 F2.
  destruct (map lower t0) as [|b0 t1] eqn:Et.
  { exfalso. apply bind_inv in H as ([] & v4 & _ & H). rewrite abort_ub in H. discriminate H. }
  rewrite <- Et in *. set (t := map lower t0) in *. exists t. split; [rewrite Et; discriminate|].
  apply bind_inv in H as (nfa & v4 & H4 & H). destruct F3 as (W3 & D3 & E3).
  apply rbind_inv in H4 as ([n d1] & H4 & HQ). injection HQ as <- <-. rewrite D3 in H4.
  destruct (compile_str_grows _ _ _ _ (proj1 HD) H4) as (G1 & -> & Hh & HN). cbn [fst snd] in *.
  apply bind_inv in H as ([] & v5 & H5 & H). apply rbind_inv in H5 as (d2 & H5 & HQ). injection HQ as <-. cbn [v_ds set_v_ds] in H5.
  pose proof (align_grows _ _ _ (proj1 G1) H5) as G2.
  rewrite bind_gets in H. cbn [v_ds set_v_ds] in H. apply bind_inv in H as ([] & v6 & H6 & H). injection H6 as <-.
  injection H as <-.
  assert (E4 : w_dfa (word_of (set_v_tkn (Some t) (set_v_wl (wl_push t (word_new a c (here (v_ds v)) (here d2)) (v_wl v3)) (set_v_ds d2 (set_v_ds d1 v3)))) (words v)) = here d2)
    by (unfold word_of, words; cbn [v_wl set_v_tkn set_v_wl]; rewrite <- W3, wl_push_new; reflexivity).
  split; [|split; [exact E3|exact E4]].
  exists c, (here d2). cbn [v_ds v_wl set_v_ds set_v_wl set_v_tkn]. pose proof G2 as (K1 & K2 & K3 & K4 & K5).
  split; [eapply grows_trans; eassumption|]. split; [lia|]. split; [lia|]. split; [|rewrite W3; reflexivity].
  eapply name_field_kept; [exact HN|exact K2|exact K4|]. intros i Hi. destruct HN as (N1 & N2 & _). apply K5. lia.
Qed.

Lemma ds_upd_inv f v v' : ds_upd f v = Ok (tt, v') -> exists d, f (v_ds v) = Ok d /\ v' = set_v_ds d v.
Proof. intro H. apply rbind_inv in H as (d & H & HQ). injection HQ as <-. eauto. Qed.

(** A change of a word that keeps its place in the dictionary *)
Definition wkeep (w w' : word) : Prop :=
  w_link w' = w_link w /\ w_hash w' = w_hash w /\ w_nfa w' = w_nfa w /\ w_dfa w' = w_dfa w /\
  (w_action w' = w_action w \/ w_action w' = P_xdoes).
Definition set_word_at i w v : vm := set_v_wl (set_wl_tbl (tset (wl_tbl (v_wl v)) i w) (v_wl v)) v.
Lemma upd_word_inv i f v v' : upd_word i f v = Ok (tt, v') -> 0 <= i < words v /\ v' = set_word_at i (f (word_of v i)) v.
Proof.
  unfold upd_word, words. destruct (_ && _) eqn:B; [|discriminate]. intros [= <-]. split; [lia|reflexivity].
Qed.
Lemma set_word_of i w v j : 0 <= i -> 0 <= j -> word_of (set_word_at i w v) j = if i =? j then w else word_of v j.
Proof.
  intros Hi Hj. unfold word_of, set_word_at, wl_get. cbn. destruct (Z.eqb_spec i j) as [->|N]; [apply tget_tset_same|apply tget_tset_other; lia].
Qed.
Lemma set_word_dict i w v : dict_ok v -> 0 <= i < words v -> wkeep (word_of v i) w -> dict_ok (set_word_at i w v).
Proof.
  intros (H0 & H1 & H2 & H3 & H4 & H5) Hi (K1 & K2 & K3 & K4 & K5).
  assert (HW : forall j, 0 <= j < words v -> w_link (word_of (set_word_at i w v) j) = w_link (word_of v j) /\
    w_hash (word_of (set_word_at i w v) j) = w_hash (word_of v j) /\ w_nfa (word_of (set_word_at i w v) j) = w_nfa (word_of v j) /\
    w_dfa (word_of (set_word_at i w v) j) = w_dfa (word_of v j) /\
    (w_action (word_of (set_word_at i w v) j) = P_unmark -> w_action (word_of v j) = P_unmark)).
  { intros j Hj. rewrite set_word_of by lia. destruct (Z.eqb_spec i j) as [<-|N]; [|repeat split; auto].
    repeat (split; [assumption|]). intro HA. destruct K5 as [K5|K5]; congruence. }
  split; [exact H0|]. split; [exact H1|]. split; [exact H2|]. split; [|split].
  - apply (chained_ext (v_wl v)); [reflexivity| |reflexivity|exact H3]. intros j Hj. destruct (HW j Hj) as (A & B & _). auto.
  - intros j Hj. destruct (H4 j Hj) as (n & A & B & C). exists n. unfold named. destruct (HW j Hj) as (_ & W2 & W3 & _). rewrite W2, W3.
    split; [exact A|]. split; [exact B|]. intro Hj'. destruct (HW (j + 1)) as (_ & _ & W4 & _).
    { change (words (set_word_at i w v)) with (words v) in Hj'. lia. }
    rewrite W4. apply C. exact Hj'.
  - intros j Hj HA. destruct (HW j Hj) as (_ & _ & _ & W4 & W5). rewrite W4. apply H5; auto.
Qed.
Lemma older_refl v : older_kept v v.
Proof. repeat split; try lia; reflexivity. Qed.
Lemma older_trans v1 v2 v3 : older_kept v1 v2 -> older_kept v2 v3 -> older_kept v1 v3.
Proof.
  intros (A1 & A2 & A3 & A4 & A5 & A6) (B1 & B2 & B3 & B4 & B5 & B6). split; [lia|]. split; [congruence|]. split; [congruence|]. split; [lia|]. split.
  - intros i Hi. rewrite B5 by lia. apply A5. exact Hi.
  - intros a Ha. rewrite B6 by lia. apply A6. exact Ha.
Qed.
Lemma older_grows v v' : v_wl v' = v_wl v -> grows (v_ds v) (v_ds v') -> older_kept v v'.
Proof.
  intros HW (G1 & G2 & G3 & G4 & G5). split; [unfold words; rewrite HW; lia|]. repeat (split; [assumption|]). split; [|exact G5].
  intros i Hi. unfold word_of. rewrite HW. reflexivity.
Qed.
Lemma older_set_word v0 v i w : older_kept v0 v -> words v0 <= i -> 0 <= words v0 -> older_kept v0 (set_word_at i w v).
Proof.
  intros (A1 & A2 & A3 & A4 & A5 & A6) Hi H0. split; [exact A1|]. repeat (split; [assumption|]). split; [|exact A6].
  intros j Hj. rewrite set_word_of by lia. replace (i =? j) with false by lia. apply A5. exact Hj.
Qed.

(** ** Defining words *)
Lemma marker_loop_inv n : forall i v v', ds_ok (v_ds v) -> marker_loop n i v = Ok (tt, v') ->
  v_wl v' = v_wl v /\ v_err v' = v_err v /\ grows (v_ds v) (v_ds v') /\ here (v_ds v') = here (v_ds v) + 8 * Z.of_nat n /\
  forall k, 0 <= k < Z.of_nat n -> cell_at (v_ds v') (here (v_ds v) + 8 * k) (tget 0 (wl_temp (v_wl v)) (i + k)).
Proof.
  induction n as [|n IH]; intros i v v' HO H.
  - injection H as <-. split; [reflexivity|]. split; [reflexivity|]. split; [apply grows_refl; exact HO|]. split; [lia|]. intros k Hk; lia.
  - cbn [marker_loop] in H. rewrite bind_gets in H. apply bind_inv in H as ([] & v1 & H1 & H).
    apply ds_upd_inv in H1 as (d1 & H1 & ->). destruct (compile_cell_grows _ _ _ HO H1) as (G1 & Hh & HC).
    destruct (IH (i + 1) (set_v_ds d1 v) v' (proj1 G1) H) as (W & R & G2 & Hh2 & HC2). cbn [v_ds v_wl v_err set_v_ds] in *.
    split; [exact W|]. split; [exact R|]. split; [eapply grows_trans; eassumption|]. split; [lia|].
    intros k Hk. destruct (Z.eq_dec k 0) as [->|N].
    + rewrite !Z.add_0_r. destruct G2 as (_ & _ & _ & _ & G2). intros j Hj. destruct G1 as ((O1 & O2 & O3) & S1 & _). destruct HO as (P1 & P2 & P3).
      rewrite G2 by lia. apply HC. exact Hj.
    + replace (here (v_ds v) + 8 * k) with (here d1 + 8 * (k - 1)) by lia. replace (i + k) with (i + 1 + (k - 1)) by lia. apply HC2. lia.
Qed.

Lemma cell_grows d d' a x : grows d d' -> start d <= a -> a + 8 <= here d -> cell_at d a x -> cell_at d' a x.
Proof. intros (_ & _ & _ & _ & G) H1 H2 H j Hj. rewrite G by lia. apply H. exact Hj. Qed.
(** What [marker] leaves in its data: the newest word and the 64 buckets *)
Definition marker_data v d a : Prop :=
  cell_at d a (wl_last (v_wl v)) /\ forall k, 0 <= k < 64 -> cell_at d (a + 8 + 8 * k) (tget 0 (wl_buckets (v_wl v)) k).
Lemma dict_temp v m : dict_ok v -> dict_ok (set_v_wl (set_wl_temp m (v_wl v)) v).
Proof. intro H. exact H. Qed.
Definition new_word v v' t a : Prop :=
  dict_ok v' /\ older_kept v v' /\ words v' = words v + 1 /\ named v' (words v) t /\ w_action (word_of v' (words v)) = a /\
  t <> [] /\ v_err v' = v_err v.
Lemma defined_new a t v v' : dict_ok v -> t <> [] -> v_err v' = v_err v -> defined a t v v' ->
  (a = P_unmark -> w_dfa (word_of v' (words v)) + 520 <= here (v_ds v')) -> new_word v v' t a /\ w_nfa (word_of v' (words v)) = here (v_ds v) /\
  w_hidden (word_of v' (words v)) = false.
Proof.
  intros HD Ht HE HF HU. destruct (defined_dict a t v v' HD HF HU) as (A & B & C). destruct HF as (c & dfa & G & Hd & Hd' & HN & HW).
  assert (HWn : word_of v' (words v) = set_w_link (tget 0 (wl_buckets (v_wl v)) (hash t mod 64)) (set_w_hash (hash t) (word_new a c (here (v_ds v)) dfa))).
  { unfold word_of. rewrite HW. apply wl_push_new. }
  split; [|rewrite HWn; cbn; auto]. repeat (split; [assumption|]). split; [unfold named; rewrite HWn; exact HN|]. split; [rewrite HWn; reflexivity|]. auto.
Qed.
Lemma marker_ub fuel v v' : dict_ok v -> exec_prim fuel eub P_marker v = Ok (tt, v') ->
  exists t, new_word v v' t P_unmark /\ w_nfa (word_of v' (words v)) = here (v_ds v) /\ w_hidden (word_of v' (words v)) = false /\
    marker_data v (v_ds v') (w_dfa (word_of v' (words v))).
Proof.
  intros HD H. cbn [exec_prim] in H. unfold marker in H. rewrite bind_gets in H. apply bind_inv in H as ([] & v1 & H1 & H). injection H1 as <-.
  apply bind_inv in H as ([] & v2 & H2 & H). apply define_ub in H2 as (t & Ht & HF & HE & HA); [|apply dict_temp; exact HD].
  apply bind_inv in H as ([] & v3 & H3 & H). apply ds_upd_inv in H3 as (d & H3 & ->).
  pose proof HF as (c & dfa & G & Hd & Hd' & HN & HW). cbn [v_ds v_wl v_err set_v_wl] in *.
  destruct (compile_cell_grows _ _ _ (proj1 G) H3) as (G1 & Hh & HC).
  destruct (marker_loop_inv BUCKET_COUNT 0 (set_v_ds d v2) v' (proj1 G1) H) as (W & R & G2 & Hh2 & HC2). cbn [v_ds v_wl v_err set_v_ds] in *.
  assert (HT : wl_temp (v_wl v2) = wl_buckets (v_wl v)) by (rewrite HW; reflexivity).
  assert (HF' : defined P_unmark t (set_v_wl (set_wl_temp (wl_buckets (v_wl v)) (v_wl v)) v) v').
  { eapply defined_grows; [exact HF|exact W|eapply grows_trans; eassumption]. }
  assert (Hdfa : w_dfa (word_of v' (words v)) = dfa).
  { unfold word_of, words. rewrite W, HW. change (wl_len (v_wl v)) with (wl_len (set_wl_temp (wl_buckets (v_wl v)) (v_wl v))). rewrite wl_push_new. reflexivity. }
  exists t. change (Z.of_nat BUCKET_COUNT) with 64 in *.
  destruct (defined_new P_unmark t (set_v_wl (set_wl_temp (wl_buckets (v_wl v)) (v_wl v)) v) v' HD Ht) as (A & B & C); [cbn [v_err set_v_wl]; congruence|exact HF'| |].
  { intros _. change (words (set_v_wl _ v)) with (words v). rewrite Hdfa. lia. }
  split; [exact A|]. split; [exact B|]. split; [exact C|]. rewrite Hdfa.
  assert (dfa = here (v_ds v2)) as ->.
  { rewrite <- HA, <- Hdfa. unfold word_of. rewrite W. reflexivity. }
  destruct G1 as (O1 & S1 & L1 & M1 & B1). destruct G as (O0 & S0 & L0 & M0 & B0). split.
  - apply (cell_grows d); [exact G2| | |exact HC]; destruct O0; lia.
  - intros k Hk. replace (here (v_ds v2) + 8 + 8 * k) with (here d + 8 * k) by lia. rewrite <- HT. apply (HC2 k). exact Hk.
Qed.
End D.
