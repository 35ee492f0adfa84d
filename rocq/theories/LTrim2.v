(** SAVE-SOURCE and RESTORE-SOURCE with the toolbox of LTrim (C90). *)
From Coq Require Import ZArith List Bool Lia String ZifyBool ZifyNat.
From Verif Require Import Base Stack Mem Parser State CoreM IoM FileM Exec LBase LStack Spec Spec2 Spec4 Spec5 Spec6 Spec7 Spec9 Spec10 Spec11 Spec12 Spec14 Spec15 Spec16 Spec17 Spec19 Spec24 Spec25
  LState LMem LMon LMemWords LTask LFuel LCode LComp LRun LCtl LFloat LWords LSay LFile LFile2 LFile5 LLib LLibWords LDefine LDefine2 LNoInput LSource LEval LNest Spec27 LShell LShell2 Spec28 LTrim.
Import ListNotations.
Open Scope list_scope.
Open Scope Z_scope.
Open Scope m_scope.

Section W.
Context {E : Env}.
Variable K : Z -> Prop.
Implicit Types (v w u : vm).

Lemma kept_then v0 u w mm m1 a n : kept K v0 u -> v_ds u = mm -> same_memory_but mm m1 a n -> (forall k, K k -> start mm <= k /\ (k < a \/ a + n <= k)) ->
  v_ds w = m1 -> v_wl w = v_wl u -> kept K v0 w.
Proof. intros H1 H2 H3 H4 H5 H6. eapply kept_trans; [exact H1|]. eapply kept_same; [rewrite H2, H5; exact H3|exact H6|rewrite H2; exact H4]. Qed.
Lemma tin_ds v0 d r f m o u : tin v0 d r f m o u -> v_ds u = m. Proof. intros [H _]. apply H. Qed.
Lemma kept_tin v0 d r f m o u d' r' f' o' w : kept K v0 u -> tin v0 d r f m o u -> tin v0 d' r' f' m o' w -> kept K v0 w.
Proof.
  intros H A B. eapply kept_trans; [exact H|]. apply kept_eq; [rewrite (tin_ds _ _ _ _ _ _ _ A), (tin_ds _ _ _ _ _ _ _ B); reflexivity|].
  rewrite (tin_wl _ _ _ _ _ _ _ A), (tin_wl _ _ _ _ _ _ _ B). reflexivity.
Qed.

Lemma two_fetch_tp ix i a x y v0 d r f m o u (Q : vm -> Prop) : library ix v0 -> colon_word K v0 i (d_two_fetch ix) (ix P_exit) -> kept K v0 u ->
  tin v0 (a :: d) r f m o u -> zlen d <= 58 -> zlen r < 64 -> ds_ok m -> start m < a -> a + 16 <= limit m -> cell_at m a x -> cell_at m (a + 8) y -> is_cell x -> is_cell y ->
  (forall u', tin v0 (x :: y :: d) r f m o u' -> Q u') -> wp K (Op i) Q u.
Proof.
  intros L HC HK HI Hd Hr HD H1 H2 P3 P4 P5 P6 HQ. pose proof (zlen_nonneg d). eapply tp_call; [exact HC|exact HK|exact HI|exact Hr|]. intros ra w I KW. unfold d_two_fetch. room.
  t_is (dup_effect a).
  seqs. eapply tp_cell_plus; [known_word|eassumption|wlen|red; lia|]. intros ?u ?I.
  seqs. eapply tp_fetch with (x := y); [known_word|eassumption|wlen|assumption|lia|lia|assumption|assumption|]. intros ?u ?I.
  t_is (swap_effect a y).
  seqs. eapply tp_fetch with (x := x); [known_word|eassumption|wlen|assumption|lia|lia|assumption|assumption|]. intros ?u ?I.
  eexists v0, _, _, _. split; [reflexivity|]. split; [eassumption|exact HQ].
Qed.
Lemma two_star_tp ix i x v0 d r f m o u (Q : vm -> Prop) : library ix v0 -> colon_word K v0 i (d_two_star ix) (ix P_exit) -> kept K v0 u ->
  tin v0 (x :: d) r f m o u -> zlen d <= 58 -> zlen r < 64 -> is_cell (2 * x) ->
  (forall u', tin v0 (2 * x :: d) r f m o u' -> Q u') -> wp K (Op i) Q u.
Proof.
  intros L HC HK HI Hd Hr H1 HQ. pose proof (zlen_nonneg d). eapply tp_call; [exact HC|exact HK|exact HI|exact Hr|]. intros ra w I KW. unfold d_two_star.
  t_num. t_effect (star_spec x 2).
  match goal with H : wraps_to _ y |- _ => destruct H as [Hc [q Hq]]; unfold is_cell in Hc, H1; replace y with (2 * x) in * by lia end.
  eexists v0, _, _, _. split; [reflexivity|]. split; [eassumption|exact HQ].
Qed.
Lemma two_store_tp ix i a x y v0 d r f m o u (Q : vm -> Prop) : library ix v0 -> colon_word K v0 i (d_two_store ix) (ix P_exit) -> kept K v0 u ->
  tin v0 (a :: x :: y :: d) r f m o u -> zlen d <= 58 -> zlen r < 64 -> ds_ok m -> start m < a -> a + 16 <= limit m -> (forall k, K k -> start m <= k /\ (k < a \/ a + 16 <= k)) ->
  (forall m' u', cell_at m' a x -> cell_at m' (a + 8) y -> same_memory_but m m' a 16 -> here m' = here m -> tin v0 d r f m' o u' -> Q u') -> wp K (Op i) Q u.
Proof.
  intros L HC HK HI Hd Hr HD P1 P2 P3 HQ. pose proof (zlen_nonneg d). eapply tp_call; [exact HC|exact HK|exact HI|exact Hr|]. intros ra w I KW. unfold d_two_store. room.
  t_is (swap_effect x a). t_is (over_effect a x).
  seqs. eapply tp_store; [known_word|eassumption|wlen|assumption|lia|lia|intros k Hk; specialize (P3 k Hk); lia|]. intros ?u m2 S2 C2 G2 J2.
  pose proof (same_ok _ _ _ _ HD S2 G2) as HD2. destruct S2 as (X1 & X2 & X3).
  seqs. eapply tp_cell_plus; [known_word|eassumption|wlen|red; lia|]. intros ?u ?I.
  seqs. eapply tp_store; [known_word|eassumption|wlen|assumption|lia|lia|intros k Hk; specialize (P3 k Hk); lia|]. intros ?u m4 S4 C4 G4 J4.
  eexists v0, _, _, _. split; [reflexivity|]. split; [exact J4|]. intros u'' J.
  eapply HQ; [eapply cell_keep; [exact S4|lia|lia|exact C2]|exact C4| | |exact J].
  - eapply (same_join m m2 m4 a 8); [split; [exact X1|split; [exact X2|exact X3]]|exact S4|lia|lia|lia|lia].
  - congruence.
Qed.
Lemma tp_cells i a v0 d r f m o u (Q : vm -> Prop) : word_is v0 i P_cells -> tin v0 (a :: d) r f m o u -> zlen d < 64 -> is_cell (a * 8) ->
  (forall u', tin v0 (a * 8 :: d) r f m o u' -> Q u') -> wp K (Op i) Q u.
Proof.
  intros W HI Hd Hx HQ. eapply tp_quiet; [exact W|exact HI|rewrite zlen_cons; lia| | |exact HQ]; [rewrite zlen_cons; lia|].
  intros fuel ew w J. apply cells_ok; [apply J|exact Hx].
Qed.
Ltac wraps := match goal with H : wraps_to ?e ?y |- _ => let Hc := fresh in let q := fresh in let Hq := fresh in
  destruct H as [Hc [q Hq]]; unfold is_cell in Hc; replace y with e in * by lia; clear Hc Hq end.

Lemma save_tp ix sv rs a l v0 d r f mm o u (Q : vm -> Prop) : source_words K ix v0 sv rs a -> kept K v0 u -> saved mm a l -> ds_ok mm ->
  tin v0 d r f mm o u -> zlen d <= 52 -> zlen r <= 60 -> is_cell (st_sid (st v0)) -> 0 <= st_idx (st v0) < 2 ^ 64 -> zlen l < 16 ->
  (forall m' u', saved m' a (source_of v0 :: l) -> same_memory_but mm m' a 272 -> here m' = here mm -> kept K v0 u' -> tin v0 d r f m' o u' -> Q u') ->
  wp K (Op sv) Q u.
Proof.
  intros (L & src & f2 & tw & s2 & pos & W1 & HB & W2 & C1 & C2 & C3 & C4 & _ & HF) HK (V1 & V2 & V3 & V4) HD HI Hd Hr Hs Hp Hl HQ.
  assert (HF' : start mm < a /\ a + 272 <= limit mm /\ forall k, K k -> start mm <= k /\ (k < a \/ a + 272 <= k)).
  { unfold free_of in HF. destruct HK as (A & B & _). rewrite (tin_ds _ _ _ _ _ _ _ HI) in A, B. rewrite A, B. exact HF. }
  clear HF. destruct HF' as (F1 & F2 & F3). pose proof (zlen_nonneg d). pose proof (zlen_nonneg r). pose proof (zlen_nonneg l). room.
  eapply tp_call; [exact C4|exact HK|exact HI|lia|]. intros ra w0 I KW. unfold d_save_source.
  seqs. eapply (tp_part K _ _ (fun v => st_sid (st v))); [known_word|reflexivity|intros x C; apply C|eassumption|wlen|]. intros ?u ?I.
  seqs. eapply (tp_part K _ _ (fun v => to_i64 (st_idx (st v)))); [exact W2| |intros x C; f_equal; apply C|eassumption|wlen|].
  { intros fuel ew. reflexivity. }
  intros ?u ?I. cbv beta in *.
  t_var. rewrite HB in *.
  seqs. eapply (two_fetch_tp _ _ a 16 (zlen l)); [exact L|exact C1|eapply kept_tin; [exact HK|exact HI|eassumption]|eassumption|wlen|wlen|exact HD|lia|lia|assumption|assumption|red; lia|red; lia|]. intros w1 I3.
  t_is (over_effect (zlen l) 16). t_effect (greater_than_spec 16 (zlen l)).
  match goal with T : truth _ _ |- _ => destruct (truth_case _ _ T) as [T1 T2] end. seqs. eapply tp_if_else; [eassumption|wlen| |]; intros Hy w J; [|exfalso; apply T2; [exact Hy|lia]].
  t_effect (one_plus_spec (zlen l)). wraps.
  t_is (dup_effect (zlen l + 1)). t_var. rewrite HB in *.
  seqs. eapply tp_cell_plus; [known_word|eassumption|wlen|red; lia|]. intros ?u ?I.
  seqs. eapply tp_store; [known_word|eassumption|wlen|assumption|lia|lia|intros k Hk; specialize (F3 k Hk); lia|]. intros w2 m1 S1 D1 G1 J1.
  assert (SB1 : same_memory_but mm m1 a 272) by (eapply (same_join mm mm m1 a 0 (a + 8) 8 a 272); [apply same_refl|exact S1|lia..]).
  pose proof (same_ok _ _ _ _ HD S1 G1) as HD1.
  assert (KW1 : kept K v0 w2) by (eapply kept_then; [exact HK|eapply tin_ds; exact HI|exact SB1|exact F3|eapply tin_ds; exact J1|rewrite (tin_wl _ _ _ _ _ _ _ J1), (tin_wl _ _ _ _ _ _ _ HI); reflexivity]).
  seqs. eapply (two_star_tp _ _ (zlen l + 1)); [exact L|exact C2|exact KW1|exact J1|wlen|wlen|red; lia|]. intros w3 J2.
  seqs. eapply tp_cells; [known_word|eassumption|wlen|red; lia|]. intros ?u ?I.
  t_var. rewrite HB in *.
  t_effect (plus_spec (2 * (zlen l + 1) * 8) a). wraps.
  match goal with J : tin v0 (?x :: to_i64 _ :: _) _ _ m1 _ _ |- _ => replace x with (a + 16 * (zlen l + 1)) in J by lia; rename J into J3 end.
  assert (SS1 : start m1 = start mm /\ limit m1 = limit mm) by (split; apply S1). destruct SS1 as [SS1 SS2].
  eapply (two_store_tp _ _ (a + 16 * (zlen l + 1)) (to_i64 (st_idx (st v0))) (st_sid (st v0))); [exact L|exact C3|eapply kept_tin; [exact KW1|exact J1|exact J3]|exact J3|wlen|wlen|exact HD1|lia|lia|intros k Hk; specialize (F3 k Hk); lia|].
  intros m2 w5 X1 X2 X3 X4 J5.
  assert (SB2 : same_memory_but mm m2 a 272) by (eapply (same_join mm m1 m2 a 272); [exact SB1|exact X3|lia..]).
  eexists v0, _, _, _. split; [reflexivity|]. split; [exact J5|]. intros u'' J'.
  eapply HQ; [|exact SB2|congruence| |exact J'].
  2: { eapply kept_then; [exact HK|eapply tin_ds; exact HI|exact SB2|exact F3|eapply tin_ds; exact J'|rewrite (tin_wl _ _ _ _ _ _ _ J'), (tin_wl _ _ _ _ _ _ _ HI); reflexivity]. }
  unfold saved. rewrite zlen_cons. split; [eapply cell_keep; [exact X3|lia|lia|]; eapply cell_keep; [exact S1|lia|lia|exact V1]|].
  split; [eapply cell_keep; [exact X3|lia|lia|]; replace (1 + zlen l) with (zlen l + 1) by lia; exact D1|]. split; [lia|].
  unfold source_of. cbn [entries]. rewrite zlen_cons. replace (1 + zlen l) with (zlen l + 1) by lia.
  split; [exact X1|]. split; [exact X2|]. split; [exact Hs|]. split; [exact Hp|].
  eapply (entries_keep K); [exact X3|lia|lia|]. eapply (entries_keep K); [exact S1|lia|lia|exact V4].
Qed.

Lemma restore_tp ix sv rs a id pos0 l v0 d r f mm o u (Q : vm -> Prop) : source_words K ix v0 sv rs a -> kept K v0 u -> saved mm a ((id, pos0) :: l) -> ds_ok mm ->
  tin v0 d r f mm o u -> zlen d <= 52 -> zlen r <= 60 -> selectable v0 id ->
  (forall m' u', saved m' a l -> same_memory_but mm m' a 272 -> here m' = here mm -> kept K v0 u' -> tin (with_source v0 (id, pos0)) d r f m' o u' -> Q u') ->
  wp K (Op rs) Q u.
Proof.
  intros (L & src & f2 & tw & s2 & pos & W1 & HB & W2 & C1 & C2 & C3 & _ & C4 & HF) HK (V1 & V2 & V3 & V4) HD HI Hd Hr HX HQ.
  assert (HF' : start mm < a /\ a + 272 <= limit mm /\ forall k, K k -> start mm <= k /\ (k < a \/ a + 272 <= k)).
  { unfold free_of in HF. destruct HK as (A & B & _). rewrite (tin_ds _ _ _ _ _ _ _ HI) in A, B. rewrite A, B. exact HF. }
  clear HF. destruct HF' as (F1 & F2 & F3). pose proof (zlen_nonneg d). pose proof (zlen_nonneg r). pose proof (zlen_nonneg l). room.
  destruct V4 as (E1 & E2 & E3 & E4 & E5). rewrite zlen_cons in *. replace (1 + zlen l) with (zlen l + 1) in * by lia.
  eapply tp_call; [exact C4|exact HK|exact HI|lia|]. intros ra w0 I KW. unfold d_restore_source.
  t_var. rewrite HB in *.
  seqs. eapply (two_fetch_tp _ _ a 16 (zlen l + 1)); [exact L|exact C1|eapply kept_tin; [exact HK|exact HI|eassumption]|eassumption|wlen|wlen|exact HD|lia|lia|assumption|assumption|red; lia|red; lia|]. intros w1 I3.
  t_is (drop_effect 16). t_is (dup_effect (zlen l + 1)). t_num. t_effect (greater_than_spec (zlen l + 1) 0).
  match goal with T : truth _ _ |- _ => destruct (truth_case _ _ T) as [T1 T2] end.
  seqs. eapply tp_if_else; [eassumption|wlen| |]; intros Hy w J; [|exfalso; apply T2; [exact Hy|lia]].
  t_is (dup_effect (zlen l + 1)). t_effect (one_minus_spec (zlen l + 1)). wraps. t_var. rewrite HB in *.
  seqs. eapply tp_cell_plus; [known_word|eassumption|wlen|red; lia|]. intros ?u ?I.
  seqs. eapply tp_store; [known_word|eassumption|wlen|assumption|lia|lia|intros k Hk; specialize (F3 k Hk); lia|]. intros w2 m1 S1 D1 G1 J1.
  assert (SB1 : same_memory_but mm m1 a 272) by (eapply (same_join mm mm m1 a 0 (a + 8) 8 a 272); [apply same_refl|exact S1|lia..]).
  pose proof (same_ok _ _ _ _ HD S1 G1) as HD1.
  assert (KW1 : kept K v0 w2) by (eapply kept_then; [exact HK|eapply tin_ds; exact HI|exact SB1|exact F3|eapply tin_ds; exact J1|rewrite (tin_wl _ _ _ _ _ _ _ J1), (tin_wl _ _ _ _ _ _ _ HI); reflexivity]).
  seqs. eapply (two_star_tp _ _ (zlen l + 1)); [exact L|exact C2|exact KW1|exact J1|wlen|wlen|red; lia|]. intros w3 J2.
  seqs. eapply tp_cells; [known_word|eassumption|wlen|red; lia|]. intros ?u ?I.
  t_var. rewrite HB in *.
  t_effect (plus_spec (2 * (zlen l + 1) * 8) a). wraps.
  match goal with J : tin v0 (2 * (zlen l + 1) * 8 + a :: _) _ _ m1 _ _ |- _ => replace (2 * (zlen l + 1) * 8 + a) with (a + 16 * (zlen l + 1)) in J by lia; rename J into J3 end.
  assert (SS1 : start m1 = start mm /\ limit m1 = limit mm) by (split; apply S1). destruct SS1 as [SS1 SS2].
  seqs. eapply (two_fetch_tp _ _ (a + 16 * (zlen l + 1)) (to_i64 pos0) id); [exact L|exact C1|eapply kept_tin; [exact KW1|exact J1|exact J3]|exact J3|wlen|wlen|exact HD1|lia|lia
    |eapply cell_keep; [exact S1|lia|lia|exact E1]|eapply cell_keep; [exact S1|lia|lia|exact E2]|exact (to_i64_cell K _)|exact E3|].
  intros w5 J5.
  seqs. eapply tp_set_idx; [known_word|exact J5|wlen|]. intros w6 J6. rewrite (pos_back K) in J6 by exact E4.
  eapply tp_set_sid; [|exact J6|wlen| |].
  { unfold word_is. change (v_wl (set_idx pos0 v0)) with (v_wl v0). apply (L P_p_set_source_id). unfold lib_prims. cbn. tauto. }
  { unfold selectable in *. gnorm. exact HX. }
  intros w7 J7. eexists (with_source v0 (id, pos0)), _, _, _. split; [reflexivity|]. split; [exact J7|]. intros u'' J'.
  eapply HQ; [|exact SB1|congruence| |exact J'].
  2: { eapply kept_then; [exact HK|eapply tin_ds; exact HI|exact SB1|exact F3|eapply tin_ds; exact J'|rewrite (tin_wl _ _ _ _ _ _ _ J'), (tin_wl _ _ _ _ _ _ _ HI); reflexivity]. }
  split; [eapply cell_keep; [exact S1|lia|lia|exact V1]|]. split; [replace (zlen l) with (zlen l + 1 - 1) by lia; exact D1|]. split; [lia|].
  eapply (entries_keep K); [exact S1|lia|lia|exact E5].
Qed.
End W.
