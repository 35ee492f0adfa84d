(** SAVE-SOURCE and RESTORE-SOURCE in the booted machines. *)
From Coq Require Import ZArith List Bool Lia String.
From Verif Require Import Base Stack Mem Parser Flt State CoreM Exec Boot Std Spec Spec2 Spec4 Spec5 Spec7 Spec9 Spec10 Spec15 Spec16 Spec17
  LBase LStack LState LMem LDict LComp LCode LDec LRun LLib LLibWords LSource Ex Ex2 Ex3 Ex5 Ex6 Ex10 Ex11.
Import ListNotations.
Open Scope list_scope.
Open Scope Z_scope.
Open Scope m_scope.

Definition cellb (m : dspace) (a x : Z) : bool := forallb (fun k => byte_at m (a + k) =? (x / 256 ^ k) mod 256) [0; 1; 2; 3; 4; 5; 6; 7].
Lemma cellb_ok m a x : cellb m a x = true -> cell_at m a x.
Proof.
  unfold cellb. rewrite forallb_forall. intros H k Hk. apply Z.eqb_eq. apply H.
  assert (C : k = 0 \/ k = 1 \/ k = 2 \/ k = 3 \/ k = 4 \/ k = 5 \/ k = 6 \/ k = 7) by lia. cbn [In]. lia.
Qed.

Section I.
Context {E : Env}.
Variable v : vm.
Hypothesis HD : dict_ok v.
Hypothesis HW : words v < Z.of_nat 400.
Hypothesis HA : 0 < start (v_ds v) /\ limit (v_ds v) < 2 ^ 63.
Variable ix : prim -> Z.
(** The allocated part of the data space without the stack of sources *)
Definition outside (a : Z) (k : Z) : Prop := start (v_ds v) <= k < here (v_ds v) /\ (k < a \/ a + 272 <= k).
Definition colon_out (a i : Z) (p : prog) : bool :=
  let e := fin (Seq p (Op (ix P_exit))) (body v i) in
  colonb v ix i p && (start (v_ds v) <=? body v i) && (e <=? here (v_ds v)) && ((e <=? a) || (a + 272 <=? body v i)).
Lemma colon_out_ok a i p : colon_out a i p = true -> colon_word (outside a) v i p (ix P_exit).
Proof.
  unfold colon_out. cbv zeta. rewrite !andb_true_iff, orb_true_iff. intros (((H2 & H3) & H4) & H5).
  apply (colonb_more v HW HA); [exact H2|]. unfold own_code, outside. cbv zeta. unfold body in *. intros k Hk. lia.
Qed.
Lemma source_ok sv rs src f2 tw s2 pos :
  forallb (fun p => word_isb v (ix p) p) lib_prims = true ->
  let a := body v src in
  foundb v (b "save-source") sv && foundb v (b "restore-source") rs && foundb v (b "src-stack") src && word_isb v src P_p_var && word_isb v pos P_p_source_idx &&
  colon_out a f2 (d_two_fetch ix) && colon_out a tw (d_two_star ix) && colon_out a s2 (d_two_store ix) &&
  colon_out a sv (d_save_source ix src f2 tw s2 pos) && colon_out a rs (d_restore_source ix src f2 tw) &&
  (start (v_ds v) <? a) && (a + 272 <=? limit (v_ds v)) && cellb (v_ds v) a 16 && cellb (v_ds v) (a + 8) 0 && (st_sid (st v) =? 0) &&
  (0 <=? st_idx (st v)) && (st_idx (st v) <? 2 ^ 64) = true ->
  ds_ok (v_ds v) -> roomy v ->
  source_installed ix v /\ settled (outside a) ix sv rs a [] v.
Proof.
  cbv zeta. set (a := body v src).
  rewrite !andb_true_iff, forallb_forall. intros H0 ((((((((((((((((N1 & N2) & N3) & W1) & W2) & C1) & C2) & C3) & C4) & C5) & B1) & B2) & M1) & M2) & S1) & S2) & S3) D R.
  assert (SW : source_words (outside a) ix v sv rs a).
  { split; [intros p Hp; apply word_isb_ok, H0, Hp|]. exists src, f2, tw, s2, pos. split; [apply word_isb_ok; exact W1|]. split; [reflexivity|].
    split; [apply word_isb_ok; exact W2|]. repeat (split; [apply colon_out_ok; assumption|]).
    split; [lia|]. split; [lia|]. unfold outside. intros k Hk. lia. }
  assert (SV : saved (v_ds v) a []). { split; [apply cellb_ok; exact M1|]. split; [apply cellb_ok; exact M2|]. split; [unfold zlen; cbn; lia|exact Logic.I]. }
  assert (ST : settled (outside a) ix sv rs a [] v).
  { split; [exact SW|]. split; [exact SV|]. split; [exact D|]. split; [exact R|]. unfold is_cell. lia. }
  split; [|exact ST]. exists (outside a), sv, rs, src. split; [apply (foundb_ok v HD HW); exact N1|]. split; [apply (foundb_ok v HD HW); exact N2|].
  split; [apply (foundb_ok v HD HW); exact N3|]. split; [exact SW|]. split; [exact SV|]. split; [intros k Hk; apply Hk|exact ST].
Qed.
End I.
Lemma booted_roomy : @roomy env_d booted_d.
Proof. exists [], [], []. split; [exact (bs_stacks [] ltac:(reflexivity))|]. split; discriminate. Qed.
Lemma booted_roomy_r : @roomy env_r booted_r.
Proof. exists [], [], []. split; [split; [has|split; has]|]. split; discriminate. Qed.
Lemma booted_ds_r : ds_ok (v_ds booted_r).
Proof. split; [|split]; vm_compute; intuition discriminate. Qed.
Lemma booted_source_both : @source_installed env_d ix0 booted_d /\ settled (@outside env_d booted_d (body booted_d 315)) ix0 316 317 (body booted_d 315) [] booted_d.
Proof.
  apply (source_ok booted_d booted_dict booted_words booted_addr ix0 316 317 315 263 244 264 141); [vm_cast_no_check (@eq_refl bool true)..|exact booted_ds|exact booted_roomy].
Qed.
Lemma booted_source_r : @source_installed env_r ix0 booted_r.
Proof.
  apply (source_ok booted_r booted_dict_r booted_words_r booted_addr_r ix0 316 317 315 263 244 264 141); [vm_cast_no_check (@eq_refl bool true)..|exact booted_ds_r|exact booted_roomy_r].
Qed.
