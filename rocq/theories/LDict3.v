(** Sequences of definitions; executing a marker. *)
From Coq Require Import ZArith List Bool Lia ZifyBool ZifyNat.
From Verif Require Import Base Stack Mem Parser Flt State CoreM IoM FloatM FileM Exec.
From Verif Require Import LBase LStack Spec Spec4 Spec9 Spec10 LState LMem LMon LStep LTask LCode LDict LDict2.
Import ListNotations.
Open Scope Z_scope.
Open Scope m_scope.
Ltac Zify.zify_post_hook ::= Z.div_mod_to_equations.

Section D.
Context {E : Env}.
Implicit Types (v : vm).

(** Same words and error, the data space grows *)
Definition gr v v' : Prop := v_wl v' = v_wl v /\ v_err v' = v_err v /\ grows (v_ds v) (v_ds v').
Lemma gr_ok v v' : gr v v' -> ds_ok (v_ds v'). Proof. intros (_ & _ & G). apply G. Qed.
Lemma gr_trans v1 v2 v3 : gr v1 v2 -> gr v2 v3 -> gr v1 v3.
Proof. intros (A & B & C) (A' & B' & C'). split; [congruence|]. split; [congruence|]. eapply grows_trans; eassumption. Qed.
Definition grm {A} (m : M A) : Prop := forall v x v', ds_ok (v_ds v) -> m v = Ok (x, v') -> gr v v'.
Lemma grm_bind {A B} (m : M A) (k : A -> M B) : grm m -> (forall x, grm (k x)) -> grm (bind m k).
Proof.
  intros H1 H2 v x v' HO H. apply bind_inv in H as (y & v1 & A1 & A2). pose proof (H1 _ _ _ HO A1) as G1.
  eapply gr_trans; [exact G1|exact (H2 _ _ _ _ (gr_ok _ _ G1) A2)].
Qed.
Lemma frm_grm {A} (m : M A) : frm m -> grm m.
Proof. intros HF v x v' HO H. destruct (HF _ _ _ H) as (A1 & A2 & A3). split; [exact A1|]. split; [exact A3|]. rewrite A2. apply grows_refl. exact HO. Qed.
Lemma grm_cell x : grm (ds_upd (fun d => compile_cell d x)).
Proof.
  intros v [] v' HO H. apply ds_upd_inv in H as (d & H & ->). destruct (compile_cell_grows _ _ _ HO H) as (G & _). split; [reflexivity|]. split; [reflexivity|]. exact G.
Qed.
Lemma grm_align c : grm (ds_upd (ds_align c)).
Proof.
  intros v [] v' HO H. apply ds_upd_inv in H as (d & H & ->). split; [reflexivity|]. split; [reflexivity|]. exact (align_grows _ _ _ HO H).
Qed.
Lemma grm_abort e : grm (abort_with eub e).
Proof. intros v x v' _ H. rewrite abort_ub in H. discriminate H. Qed.
Lemma grm_run_cs c i : grm (run_cs eub c i).
Proof.
  destruct c; cbn [run_cs]; try apply grm_cell. unfold compile_leave. apply grm_bind; [apply frm_grm, frm_gets|].
  intros [q|]; [apply grm_cell|apply grm_abort].
Qed.
Lemma frm_s_pop : frm s_pop.
Proof. intros v x v' H. unfold s_pop in H. destruct (pop (s_stk v)). injection H as _ <-. repeat split. Qed.
Lemma frm_f_pop : frm f_pop.
Proof. intros v x v' H. unfold f_pop in H. destruct (pop (f_stk v)). injection H as _ <-. repeat split. Qed.
Lemma frm_word_at i : frm (word_at i).
Proof. intros v x v' H. unfold word_at in H. destruct (_ && _); [|discriminate H]. injection H as _ <-. apply fr_refl. Qed.

Lemma fr_dict v v' : fr v v' -> dict_ok v -> dict_ok v'.
Proof. intros (A & B & _). unfold dict_ok, words, named, word_of. rewrite A, B. auto. Qed.

(** One step of a sequence of definitions *)
Definition step v v' : Prop :=
  dict_ok v' /\ words v <= words v' /\ start (v_ds v') = start (v_ds v) /\ limit (v_ds v') = limit (v_ds v) /\
  here (v_ds v) <= here (v_ds v') /\
  (forall i, 0 <= i < words v - 1 -> word_of v' i = word_of v i) /\ wkeep (word_of v (words v - 1)) (word_of v' (words v - 1)) /\
  forall a, protected v a -> byte_at (v_ds v') a = byte_at (v_ds v) a.
Lemma wkeep_refl w : wkeep w w. Proof. repeat split. left. reflexivity. Qed.
Lemma goes_on_step v v' : dict_ok v -> goes_on v v' -> step v v'.
Proof.
  intros HD HG. pose proof (goes_on_dict _ _ HG HD) as HD'. destruct HG as ((W1 & W2 & W3 & W4) & HO & HS & HL & HH & HP). pose proof HD as (_ & H1 & _).
  split; [exact HD'|]. split; [lia|]. repeat (split; [assumption|]). split; [intros i Hi; apply W3; lia|]. split; [rewrite W3 by lia; apply wkeep_refl|exact HP].
Qed.
Lemma older_step v v' : dict_ok v -> dict_ok v' -> older_kept v v' -> step v v'.
Proof.
  intros HD HD' (A1 & A2 & A3 & A4 & A5 & A6). pose proof HD as (_ & H1 & _).
  split; [exact HD'|]. repeat (split; [assumption|]). split; [intros i Hi; apply A5; lia|]. split; [rewrite A5 by lia; apply wkeep_refl|].
  intros a Ha. apply A6. apply protected_below; assumption.
Qed.

(** ** Defining words *)
Definition act (p : prim) : prim :=
  match p with P_colon => P_nest | P_create => P_p_var | P_constant => P_p_const | P_fconstant => P_p_fconst | _ => P_unmark end.
Lemma new_word_fr v v1 v' t a : fr v v1 -> new_word v1 v' t a -> new_word v v' t a.
Proof.
  intros (A & B & C) (N1 & N2 & N3 & N4 & N5 & N6 & N7). unfold new_word, older_kept, words, word_of in *. rewrite A, B in *.
  repeat (split; [assumption|]). congruence.
Qed.
Lemma define_new fuel a c v v' : dict_ok v -> a <> P_unmark -> define fuel eub a c v = Ok (tt, v') ->
  exists t, new_word v v' t a /\ w_nfa (word_of v' (words v)) = here (v_ds v) /\ w_hidden (word_of v' (words v)) = false.
Proof.
  intros HD Ha H. apply define_ub in H as (t & Ht & HF & HE & HA); [|exact HD]. exists t.
  apply (defined_new a t v v' HD Ht HE HF). intro; contradiction.
Qed.
Lemma new_word_gr v v1 v' t a : new_word v v1 t a -> gr v1 v' -> new_word v v' t a.
Proof.
  intros (N1 & N2 & N3 & N4 & N5 & N6 & N7) (A & B & C).
  assert (HG : goes_on v1 v') by (apply grows_goes_on; assumption).
  split; [eapply goes_on_dict; eassumption|]. split; [eapply older_trans; [exact N2|apply older_grows; assumption]|].
  split; [unfold words in *; rewrite A; exact N3|]. split; [eapply goes_on_named; [exact HG| |exact N4]|].
  { destruct N2 as (K & _). destruct N1 as (_ & K1 & _). split; [|lia]. destruct N4 as (K2 & _). unfold words in *. lia. }
  split; [unfold word_of in *; rewrite A; exact N5|]. split; [exact N6|]. congruence.
Qed.
Lemma hide_new v v1 t a : 0 <= words v -> new_word v v1 t a -> new_word v (set_word_at (words v) (set_w_hidden true (word_of v1 (words v))) v1) t a.
Proof.
  intros H0 (N1 & N2 & N3 & N4 & N5 & N6 & N7).
  assert (HW : word_of (set_word_at (words v) (set_w_hidden true (word_of v1 (words v))) v1) (words v) = set_w_hidden true (word_of v1 (words v))).
  { rewrite set_word_of by lia. rewrite Z.eqb_refl. reflexivity. }
  split; [apply set_word_dict; [exact N1|lia|]|].
  { repeat split. left. reflexivity. }
  split; [apply older_set_word; [exact N2|lia|lia]|]. split; [exact N3|]. split; [unfold named; rewrite HW; exact N4|].
  split; [rewrite HW; exact N5|]. split; [exact N6|exact N7].
Qed.
Lemma colon_ub fuel v v' : dict_ok v -> v_err v = None -> exec_prim fuel eub P_colon v = Ok (tt, v') ->
  exists t, new_word v v' t P_nest /\ w_hidden (word_of v' (words v)) = true.
Proof.
  intros HD HN H. cbn [exec_prim] in H. unfold colon in H. apply bind_inv in H as ([] & v1 & H1 & H).
  apply define_new in H1 as (t & N & _); [|exact HD|discriminate]. exists t. rewrite bind_gets in H.
  pose proof N as (N1 & N2 & N3 & N4 & N5 & N6 & N7). rewrite N7, HN in H. rewrite bind_gets in H.
  apply bind_inv in H as ([] & v2 & H2 & H). apply upd_word_inv in H2 as (HI & ->). destruct N1 as (_ & _ & HL & _).
  unfold right_bracket, modify in H. injection H as <-. replace (wl_last (v_wl v1)) with (words v) in * by lia.
  pose proof (hide_new v v1 t P_nest ltac:(lia) N) as N'. split; [exact N'|].
  change (word_of (set_compiling true ?x) ?y) with (word_of x y). rewrite set_word_of by lia. rewrite Z.eqb_refl. reflexivity.
Qed.
Lemma defining_ub fuel p v v' : dict_ok v -> In p defining_words -> exec_prim fuel eub p v = Ok (tt, v') -> exists t, new_word v v' t (act p).
Proof.
  intros HD Hp H. unfold defining_words in Hp. cbn [In] in Hp. destruct Hp as [<-|[<-|[<-|[<-|[<-|[]]]]]]; cbn [act].
  - destruct (v_err v) as [e|] eqn:HE.
    + cbn [exec_prim] in H. unfold colon in H. apply bind_inv in H as ([] & v1 & H1 & H).
      apply define_new in H1 as (t & N & _); [|exact HD|discriminate]. exists t. rewrite bind_gets in H.
      pose proof N as (N1 & N2 & N3 & N4 & N5 & N6 & N7). rewrite N7, HE in H. injection H as <-. exact N.
    + destruct (colon_ub fuel v v' HD HE H) as (t & N & _). eauto.
  - cbn [exec_prim] in H. apply define_new in H as (t & N & _); [eauto|exact HD|discriminate].
  - cbn [exec_prim] in H. unfold constant in H. apply bind_inv in H as (x & v0 & H0 & H). pose proof (frm_s_pop _ _ _ H0) as F.
    apply bind_inv in H as ([] & v1 & H1 & H). apply define_new in H1 as (t & N & _); [|eapply fr_dict; eassumption|discriminate].
    exists t. apply (new_word_fr v v0 v' t _ F). rewrite bind_gets in H. destruct (v_err v1).
    + injection H as <-. exact N.
    + eapply new_word_gr; [exact N|]. apply (grm_cell x v1 tt v'); [apply N|exact H].
  - cbn [exec_prim] in H. unfold fconstant in H. apply bind_inv in H as (x & v0 & H0 & H). pose proof (frm_f_pop _ _ _ H0) as F.
    apply bind_inv in H as ([] & v1 & H1 & H). apply define_new in H1 as (t & N & _); [|eapply fr_dict; eassumption|discriminate].
    exists t. apply (new_word_fr v v0 v' t _ F). eapply new_word_gr; [exact N|].
    refine (grm_bind _ _ (grm_align chk) (fun _ => grm_cell x) v1 tt v' _ H). apply N.
  - destruct (marker_ub fuel v v' HD H) as (t & N & _). eauto.
Qed.

(** ** Words that finish a definition *)
(** The newest word may change, but not its place *)
Definition newest_changed v v' : Prop :=
  v_wl v' = v_wl v \/ exists w, wkeep (word_of v (words v - 1)) w /\ v_wl v' = v_wl (set_word_at (words v - 1) w v).
Definition finished v v' : Prop := newest_changed v v' /\ grows (v_ds v) (v_ds v') /\ v_err v' = v_err v.
Lemma upd_last v v' f : dict_ok v -> (forall w, wkeep w (f w)) -> upd_word (wl_last (v_wl v)) f v = Ok (tt, v') ->
  v' = set_word_at (words v - 1) (f (word_of v (words v - 1))) v /\ finished v v'.
Proof.
  intros HD HF H. apply upd_word_inv in H as (HI & ->). pose proof HD as (H0 & H1 & H2 & _). rewrite H2. split; [reflexivity|].
  split; [right; eexists; split; [apply HF|reflexivity]|]. split; [apply grows_refl; exact H0|reflexivity].
Qed.
Lemma gr_finished v v1 v' : gr v v1 -> finished v1 v' -> finished v v'.
Proof.
  intros (A & B & C) (D & G & F). split; [|split; [eapply grows_trans; eassumption|congruence]].
  unfold newest_changed, word_of, words, set_word_at in *. cbn [v_wl set_v_wl] in *. rewrite A in D. exact D.
Qed.
Lemma semicolon_ub fuel v v' : dict_ok v -> exec_prim fuel eub P_semicolon v = Ok (tt, v') ->
  finished v v' /\ v_wl v' = v_wl (set_word_at (words v - 1) (set_w_hidden false (word_of v (words v - 1))) v).
Proof.
  intros HD H. cbn [exec_prim] in H. unfold semicolon in H. rewrite !bind_gets in H. apply bind_inv in H as ([] & v1 & H1 & H).
  unfold left_bracket, modify in H. injection H as <-. change (v_wl (set_compiling false v1)) with (v_wl v1).
  change (finished v (set_compiling false v1)) with (finished v v1).
  destruct (negb _); [unfold mismatch in H1; rewrite abort_ub in H1; discriminate H1|].
  destruct (v_fwd v); [|unfold mismatch in H1; rewrite abort_ub in H1; discriminate H1].
  unfold refs_get in H1. rewrite bind_gets in H1. apply bind_inv in H1 as (w & v2 & H2 & H1). apply bind_inv in H1 as ([] & v3 & H3 & H1).
  assert (G : gr v v3).
  { eapply gr_trans; [apply (frm_grm _ (frm_word_at (idx_exit (v_refs v))) v w v2); [apply HD|exact H2]|].
    apply (grm_run_cs (w_cs w) (idx_exit (v_refs v)) v2 tt v3); [|exact H3]. destruct (frm_word_at _ _ _ _ H2) as (_ & -> & _). apply HD. }
  rewrite bind_gets in H1. destruct (upd_last v3 v1 (set_w_hidden false)) as (A & B); [|intro; repeat split; left; reflexivity|exact H1|].
  { eapply goes_on_dict; [|exact HD]. apply grows_goes_on; [exact HD| |]; apply G. }
  split; [eapply gr_finished; eassumption|]. rewrite A. unfold set_word_at, words, word_of. cbn [v_wl set_v_wl]. destruct G as (-> & _). reflexivity.
Qed.
Lemma finishing_ub fuel p v v' : dict_ok v -> In p finishing_words -> exec_prim fuel eub p v = Ok (tt, v') -> finished v v'.
Proof.
  intros HD Hp H. unfold finishing_words in Hp. cbn [In] in Hp. destruct Hp as [<-|[<-|[<-|[<-|[]]]]].
  - destruct (semicolon_ub fuel v v' HD H) as (A & _). exact A.
  - cbn [exec_prim] in H. unfold immediate in H. rewrite bind_gets in H. eapply upd_last; [exact HD| |exact H]. intro; repeat split; left; reflexivity.
  - cbn [exec_prim] in H. unfold compile_only in H. rewrite bind_gets in H. eapply upd_last; [exact HD| |exact H]. intro; repeat split; left; reflexivity.
  - cbn [exec_prim] in H. unfold _does in H. apply bind_inv in H as (i & v1 & H1 & H). unfold get_ip, gets in H1. injection H1 as <- <-.
    apply bind_inv in H as (n & v1 & H1 & H). pose proof (frm_chk_u64 _ _ _ _ H1) as F1.
    apply bind_inv in H as ([] & v2 & H2 & H).
    assert (G : gr v v2).
    { eapply gr_trans; [apply (frm_grm _ (frm_chk_u64 (ip v + 8)) v n v1); [apply HD|exact H1]|]. apply (grm_cell n v1 tt v2); [|exact H2]. destruct F1 as (_ & -> & _). apply HD. }
    rewrite bind_gets in H. eapply gr_finished; [exact G|]. eapply upd_last; [| |exact H].
    + eapply goes_on_dict; [|exact HD]. apply grows_goes_on; [exact HD| |]; apply G.
    + intro w. repeat split. right. reflexivity.
Qed.
Lemma finished_step v v' : dict_ok v -> finished v v' -> step v v'.
Proof.
  intros HD (HC & HG & _). pose proof HD as (H0 & H1 & H2 & _).
  assert (HP : forall a, protected v a -> byte_at (v_ds v') a = byte_at (v_ds v) a).
  { intros a Ha. destruct HG as (_ & _ & _ & _ & G). apply G. apply protected_below; assumption. }
  destruct HC as [HC|(w & HK & HC)].
  - apply goes_on_step; [exact HD|]. apply grows_goes_on; assumption.
  - assert (HD1 : dict_ok (set_word_at (words v - 1) w v)) by (apply set_word_dict; [exact HD|lia|exact HK]).
    assert (HD2 : dict_ok v').
    { eapply goes_on_dict; [|exact HD1]. apply grows_goes_on; [exact HD1|exact HC|exact HG]. }
    assert (HW : forall i, word_of v' i = word_of (set_word_at (words v - 1) w v) i) by (intro i; unfold word_of; rewrite HC; reflexivity).
    assert (HL : words v' = words v) by (unfold words; rewrite HC; reflexivity).
    destruct HG as (_ & G2 & G3 & G4 & _). split; [exact HD2|]. split; [lia|]. repeat (split; [assumption|]). split; [|split; [|exact HP]].
    + intros i Hi. rewrite HW, set_word_of by lia. replace (words v - 1 =? i) with false by lia. reflexivity.
    + rewrite HW, set_word_of by lia. rewrite Z.eqb_refl. exact HK.
Qed.
Lemma quiet_ub fuel p v v' : quiet fuel p v v' -> exec_prim fuel eub p v = Ok (tt, v').
Proof. intro H. apply H. Qed.
Lemma definitions_dict fuel v v' : dict_ok v -> definitions fuel v v' -> dict_ok v'.
Proof.
  intro HD. induction 1 as [|p v1 v2 HS IH Hp Hq|p v1 v2 HS IH Hp Hq|v1 v2 HS IH HG].
  - exact HD.
  - apply quiet_ub in Hq. apply defining_ub in Hq as (t & N); [apply N|exact IH|exact Hp].
  - apply quiet_ub in Hq. apply finishing_ub in Hq; [|exact IH|exact Hp]. apply (finished_step v1 v2 IH Hq).
  - eapply goes_on_dict; eassumption.
Qed.
Lemma definitions_ind_step fuel v (P : vm -> Prop) : dict_ok v -> P v -> (forall v1 v2, dict_ok v1 -> step v1 v2 -> P v1 -> P v2) ->
  forall v', definitions fuel v v' -> P v'.
Proof.
  intros HD HP Hs v' H. induction H as [|p v1 v2 HS IH Hp Hq|p v1 v2 HS IH Hp Hq|v1 v2 HS IH HG].
  - exact HP.
  - pose proof (definitions_dict _ _ _ HD HS) as H1. apply (Hs v1 v2 H1); [|exact IH]. apply quiet_ub in Hq. apply defining_ub in Hq as (t & N1 & N2 & _); [|exact H1|exact Hp].
    apply older_step; assumption.
  - pose proof (definitions_dict _ _ _ HD HS) as H1. apply (Hs v1 v2 H1); [|exact IH]. apply quiet_ub in Hq. apply finishing_ub in Hq; [|exact H1|exact Hp].
    apply finished_step; assumption.
  - pose proof (definitions_dict _ _ _ HD HS) as H1. apply (Hs v1 v2 H1); [|exact IH]. apply goes_on_step; assumption.
Qed.
End D.
