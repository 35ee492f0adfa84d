(** Loading a file with a word that is not known (C91). *)
From Coq Require Import ZArith List Bool Lia String ZifyBool ZifyNat.
From Verif Require Import Base Stack Mem Parser State CoreM IoM FileM Exec LBase LStack Spec Spec2 Spec4 Spec5 Spec6 Spec7 Spec9 Spec10 Spec11 Spec12 Spec14 Spec15 Spec16 Spec17 Spec19 Spec24 Spec25
  LState LMem LMon LMemWords LTask LFuel LCode LComp LRun LCtl LFloat LWords LSay LFile LFile2 LFile3 LFile5 LDict LText LLib LLibWords LDefine LDefine2 LNoInput LSource LEval LNest LPrint LCrash3 Spec27 LShell LShell2 LShell6 Spec28 LTrim LTrim2 LInc LInc2 Spec29 LInc3 Spec30 LInc6.
Import ListNotations.
Open Scope list_scope.
Open Scope Z_scope.
Open Scope m_scope.

Section L.
Context {E : Env}.
Variable K : Z -> Prop.
Implicit Types (v w u a : vm).
Variables (n : names) (id : Z) (R : line_reader) (m : loader_names) (s : Z * Z) (l : list (Z * Z)).

Lemma cur_err e v : cur (set_v_err e v) = cur v. Proof. reflexivity. Qed.
Lemma given_up e v : let x := aborted e (dispatched n v) in
  t_sources (cur x) = t_sources (cur v) /\ st_sid (st x) = st_sid (st v) /\ v_err x = Some e /\ v_wl x = v_wl v /\ v_ds x = v_ds v.
Proof.
  cbv zeta. unfold dispatched. rewrite set_ip_wp_at. generalize (token_addr n v + 8) (ix n (token_word v)). intros i1 i2.
  unfold aborted, st. rewrite cur_err, cur_upd, cur_at. repeat split.
Qed.
Lemma frame_unknown a u t : frame a u -> unknown_token a t -> unknown_token u t.
Proof.
  intros (A & B & _) (H1 & H2 & H3). split; [apply (newest_kept a u A B); exact H1|]. split; [|exact H3]. unfold no_integer, base_is in *. rewrite A. exact H2.
Qed.
Lemma near_unknown v0 w t : in_order n m v0 -> near n m v0 w -> ds_ok (v_ds w) -> unknown_token v0 t -> unknown_token w t.
Proof.
  intros (D & (b & Hb & Cb & Lb) & I1 & I2 & I3 & I4 & _ & BH & HP) (A1 & A2 & A3 & A4 & A5 & A6 & A7 & A8 & A9 & A10) HD (N1 & (b' & N2 & N3) & N4).
  assert (EB : base_addr (v_ds w) = base_addr (v_ds v0)) by (unfold base_addr, start in *; lia).
  assert (GO : goes_on v0 w).
  { split; [unfold same_words, words, word_of; rewrite A1; repeat split; reflexivity|]. split; [exact HD|]. split; [exact A3|]. split; [exact A4|]. split; [lia|].
    intros a Ha. pose proof (protected_below _ _ D Ha). destruct (HP a (or_introl Ha)). apply A6; [lia|assumption|assumption|lia]. }
  assert (HB : in_base b w).
  { split; [exact Hb|]. rewrite EB. split; [|lia]. intros k Hk. destruct (HP (base_addr (v_ds v0) + k) ltac:(right; lia)). rewrite A6; [apply Cb; exact Hk|unfold base_addr, start in *; lia|assumption|assumption|lia]. }
  pose proof (base_ok b w HD HB) as GB. pose proof D as (D0 & D1 & _).
  assert (GB0 : base_is v0 b) by (apply base_ok; [exact D0|split; [exact Hb|auto]]).
  assert (b' = b) by (unfold base_is in *; congruence). subst b'. split; [|split; [exists b; split; [exact GB|exact N3]|exact N4]].
  intros j Hj [V1 (nm & V2 & V3)]. unfold words in Hj. rewrite A1 in Hj. apply (N1 j Hj). split; [unfold word_of in *; rewrite A1 in V1; exact V1|]. exists nm. split; [|exact V3].
  destruct (dict_named v0 j D) as (nm0 & M1 & _); [unfold words; lia|]. pose proof (goes_on_named v0 w j nm0 GO ltac:(unfold words; lia) M1) as M2.
  pose proof (named_inj w j nm0 nm (goes_on_dict _ _ GO D) M2 V2). subst nm0. exact M1.
Qed.
Lemma typo_collapses v0 c xs : typo_in v0 c xs -> in_order n m v0 ->
  start (v_ds v0) <= src_at m v0 -> start (v_ds v0) < line_at n v0 -> (line_at n v0 + 8 <= src_at m v0 \/ src_at m v0 + 272 <= line_at n v0) ->
  forall (Q : vm -> Prop) w d r f, loading R n m id s l c w -> stacks_are w d r f -> near n m v0 w -> zlen d + zlen xs <= 48 -> zlen r <= 60 -> 1 <= id ->
  (forall x, v_err x = Some (-13) /\ v_wl x = v_wl v0 /\ st_sid (st x) = id /\ (exists sr, source_as x id sr) /\ saved (v_ds x) (src_at m v0) (s :: l) -> Q x) ->
  collapses R K n m id s l Q c w.
Proof.
  intros HN HO G1 G2 G3. induction HN as [c ln rr t cs tk ts Hne HF HSt HU HZ HK HX|c ln rr t cs ts xs ys Hne HF HSt HU HZ HK HX HN IH]; intros Q w d r f HL HS N Hd Hr Hid HQ.
  - rewrite zlen_nil in Hd. pose proof (zlen_nonneg d).
    eapply Co_now; [exact Hne|exact HF|exact HSt|]. intros v1 ra (w1 & HFe & HA).
    destruct (fetch_keeps K n id R m s l v0 c w t rr w1 d r f HL HS N ltac:(lia) ltac:(lia) HFe) as (L1 & S1 & N1 & LN1).
    set (w2 := set_idx 0 w1) in *.
    assert (CW : cur w2 = set_t_state (set_st_idx 0 (t_state (cur w1))) (cur w1)) by (unfold w2; apply cur_set_idx).
    assert (S2 : stacks_are w2 d r f) by (unfold stacks_are; rewrite CW; exact S1).
    assert (L2 : loading R n m id s l rr w2) by (eapply (loading_by n id R m s l rr w1); try reflexivity; unfold st; rewrite ?CW; try reflexivity; [exact L1|exact S2|lia]).
    assert (N2 : near n m v0 w2) by (apply (near_same n m v0 w1); try reflexivity; unfold st; rewrite ?CW; try reflexivity; exact N1).
    pose proof (loading_alike n id R m s l _ _ _ _ _ _ L2 S2 ltac:(lia) HA) as L3. pose proof (near_alike K n id m v0 w2 v1 d r f N2 S2 ltac:(lia) ltac:(lia) HA) as N3.
    assert (LN3 : nth_error (t_lines (cur v1)) (Z.to_nat (id - 1)) = Some (Some t)).
    { destruct HA as (_ & _ & _ & D & _). replace (t_lines (cur v1)) with (t_lines (cur w2)) by (symmetry; apply D). rewrite CW. exact LN1. }
    assert (IX3 : st_idx (st v1) = 0).
    { destruct HA as (_ & _ & _ & D & _). replace (st_idx (st v1)) with (st_idx (st w2)) by (symmetry; apply D). unfold st. rewrite CW. reflexivity. }
    pose proof (proj1 HA _ _ _ S2) as S3. set (a := add_r ra v1).
    assert (CA : cur a = set_t_r (add_item (t_r (cur v1)) ra) (cur v1)) by (unfold a, add_r; apply cur_set_r).
    assert (S4 : stacks_are a d (ra :: r) f). { destruct S3 as (X1 & X2 & X3). unfold stacks_are. split; [rewrite CA; exact X1|]. split; [apply has_add_r; [exact X2|lia]|rewrite CA; exact X3]. }
    assert (L4 : loading R n m id s l rr a) by (eapply (loading_by n id R m s l rr v1); try reflexivity; unfold st; rewrite ?CA; try reflexivity; [exact L3|exact S4|lia]).
    assert (N4 : near n m v0 a).
    { apply (near_by n m v0 v1); try reflexivity; unfold st; rewrite ?CA; try reflexivity; [exact N3|change (v_tkn a) with (v_tkn v1); apply N3|].
      pose proof (stack_has_len _ _ (proj1 S4)). pose proof (stack_has_len _ _ (proj1 (proj2 S3))). pose proof (zlen_nonneg r).
      apply (sound_up v1); [apply N3|rewrite CA; reflexivity|rewrite CA; reflexivity|rewrite CA; apply upper_refl|rewrite CA; cbn [t_r set_t_r]; apply (upper_add K); lia|lia|].
      rewrite CA. cbn [t_r set_t_r]. change (len (add_item (t_r (cur v1)) ra)) with (len (t_r (cur v1)) + 1). lia. }
    assert (SI : st_sid (st a) = id) by apply L4.
    destruct (near_ready K n id m v0 a HO N4 ltac:(apply L4) SI) as [RD _].
    assert (RI : rest_of_input a t).
    { exists t, []. split; [right; rewrite SI; split; [lia|rewrite CA; exact LN3]|]. split; [reflexivity|]. split; [unfold st; rewrite CA; exact IX3|exact HZ]. }
    destruct (next_word a t cs (tk :: ts) RI HU ltac:(apply N4) HK 0%nat) as (k & q & cs' & v2 & Q1 & T1 & _). cbn [hd] in T1.
    pose proof (frame_read _ _ _ _ T1) as F1. pose proof (stack_has_len _ _ (proj1 S4)) as LS.
    assert (ES : t_s (cur v2) = t_s (cur a)) by (destruct T1 as [->|[_ ->]]; [|reflexivity]; change (cur (set_v_tkn (Some tk) (set_idx k a))) with (cur (set_idx k a)); rewrite cur_set_idx; reflexivity).
    assert (Tt : v_tkn v2 = Some tk) by (destruct T1 as [->|[_ ->]]; reflexivity).
    assert (HS1 : stack_has (t_s (cur v2)) d) by (rewrite ES; apply S4).
    assert (F2 : frame a (noted v2)) by (eapply frame_trans; [exact F1|apply (frame_shown K); rewrite ES; lia]).
    pose proof (frame_ready id _ _ _ _ F1 RD HS1 ltac:(lia)) as R1.
    destruct (frame_unknown _ _ _ F2 (near_unknown _ _ _ HO N4 ltac:(apply L4) HX)) as (U1 & U2 & U3).
    exists [], a, tk, v2, (S (Z.to_nat (words v0))), (aborted (-13) (dispatched n (noted v2))).
    split; [constructor; eapply ready_steady; [exact RD|apply S4|lia]|]. split; [split; [exact Q1|exact Tt]|].
    split; [inversion HK; subst; assumption|]. split; [split; [exact Tt|]; destruct R1 as (X1 & X2 & X3 & X4 & _); auto|].
    split; [apply fails_unknown; assumption|].
    pose proof F2 as (P1 & P2 & P3 & P4 & P5 & P6 & P7 & P8 & P9 & P10 & P11 & P12 & P13 & P14 & P15). destruct (near_at n m _ _ N4) as [E1 _].
    apply HQ. set (z := noted v2) in *. set (x := aborted (-13) (dispatched n z)).
    assert (CX : t_sources (cur x) = t_sources (cur z) /\ st_sid (st x) = st_sid (st z) /\ v_err x = Some (-13) /\ v_wl x = v_wl z /\ v_ds x = v_ds z) by apply given_up. clearbody x.
    destruct CX as (CX1 & CX2 & CX3 & CX4 & CX5). destruct L4 as ((sr & Z1 & Z2) & _ & _ & _ & Z3 & _).
    split; [exact CX3|]. split; [rewrite CX4, P2; apply N4|]. split; [congruence|].
    split; [exists sr; unfold source_as in *; rewrite CX1, P12; exact Z1|]. rewrite CX5, P1, <- E1. exact Z3.
  - rewrite zlen_app in Hd. pose proof (zlen_nonneg ys). pose proof (zlen_nonneg xs). pose proof (zlen_nonneg d).
    eapply Co_later; [exact Hne|exact HF|exact HSt|]. intros v1 ra (w1 & HFe & HA).
    destruct (fetch_keeps K n id R m s l v0 c w t rr w1 d r f HL HS N ltac:(lia) ltac:(lia) HFe) as (L1 & S1 & N1 & LN1).
    set (w2 := set_idx 0 w1) in *.
    assert (CW : cur w2 = set_t_state (set_st_idx 0 (t_state (cur w1))) (cur w1)) by (unfold w2; apply cur_set_idx).
    assert (S2 : stacks_are w2 d r f) by (unfold stacks_are; rewrite CW; exact S1).
    assert (L2 : loading R n m id s l rr w2) by (eapply (loading_by n id R m s l rr w1); try reflexivity; unfold st; rewrite ?CW; try reflexivity; [exact L1|exact S2|lia]).
    assert (N2 : near n m v0 w2) by (apply (near_same n m v0 w1); try reflexivity; unfold st; rewrite ?CW; try reflexivity; exact N1).
    pose proof (loading_alike n id R m s l _ _ _ _ _ _ L2 S2 ltac:(lia) HA) as L3. pose proof (near_alike K n id m v0 w2 v1 d r f N2 S2 ltac:(lia) ltac:(lia) HA) as N3.
    assert (LN3 : nth_error (t_lines (cur v1)) (Z.to_nat (id - 1)) = Some (Some t)).
    { destruct HA as (_ & _ & _ & D & _). replace (t_lines (cur v1)) with (t_lines (cur w2)) by (symmetry; apply D). rewrite CW. exact LN1. }
    assert (IX3 : st_idx (st v1) = 0).
    { destruct HA as (_ & _ & _ & D & _). replace (st_idx (st v1)) with (st_idx (st w2)) by (symmetry; apply D). unfold st. rewrite CW. reflexivity. }
    pose proof (proj1 HA _ _ _ S2) as S3. set (a := add_r ra v1).
    assert (CA : cur a = set_t_r (add_item (t_r (cur v1)) ra) (cur v1)) by (unfold a, add_r; apply cur_set_r).
    assert (S4 : stacks_are a d (ra :: r) f). { destruct S3 as (X1 & X2 & X3). unfold stacks_are. split; [rewrite CA; exact X1|]. split; [apply has_add_r; [exact X2|lia]|rewrite CA; exact X3]. }
    assert (L4 : loading R n m id s l rr a) by (eapply (loading_by n id R m s l rr v1); try reflexivity; unfold st; rewrite ?CA; try reflexivity; [exact L3|exact S4|lia]).
    assert (N4 : near n m v0 a).
    { apply (near_by n m v0 v1); try reflexivity; unfold st; rewrite ?CA; try reflexivity; [exact N3|change (v_tkn a) with (v_tkn v1); apply N3|].
      pose proof (stack_has_len _ _ (proj1 S4)). pose proof (stack_has_len _ _ (proj1 (proj2 S3))). pose proof (zlen_nonneg r).
      apply (sound_up v1); [apply N3|rewrite CA; reflexivity|rewrite CA; reflexivity|rewrite CA; apply upper_refl|rewrite CA; cbn [t_r set_t_r]; apply (upper_add K); lia|lia|].
      rewrite CA. cbn [t_r set_t_r]. change (len (add_item (t_r (cur v1)) ra)) with (len (t_r (cur v1)) + 1). lia. }
    assert (SI : st_sid (st a) = id) by apply L4.
    destruct (near_ready K n id m v0 a HO N4 ltac:(apply L4) SI) as [RD NUM].
    assert (HX' : Forall2 (number_of a) ts xs) by (clear -HX NUM; induction HX; constructor; auto).
    assert (RI : rest_of_input a t).
    { exists t, []. split; [right; rewrite SI; split; [lia|rewrite CA; exact LN3]|]. split; [reflexivity|]. split; [unfold st; rewrite CA; exact IX3|exact HZ]. }
    destruct (ints_obeyed K n id _ a ts xs HX' t cs a d (frame_refl a) RD RI HU HK ltac:(apply N4) (proj1 S4) ltac:(lia)) as (v2 & O2 & F2 & H2 & T2).
    pose proof F2 as (P1 & P2 & P3 & P4 & P5 & P6 & P7 & P8 & P9 & P10 & P11 & P12 & P13 & P14 & P15).
    assert (S5 : stacks_are v2 (rev xs ++ d) (ra :: r) f) by (split; [exact H2|rewrite P7, P9; apply S4]).
    assert (ZL : zlen (rev xs ++ d) = zlen d + zlen xs) by (rewrite zlen_app; unfold zlen; rewrite rev_length; lia).
    exists ts, v2. split; [exact O2|]. split; [eapply (loading_by n id R m s l rr a); [exact L4|exact P4|exact P12|exact P11|exact P1|exact P2|exact P14|exact S5|lia]|].
    intros v3 HT. set (x := drop_r 1 v2) in *.
    assert (CX : cur x = set_t_r (drop_items 1 (t_r (cur v2))) (cur v2)) by (unfold x, drop_r; apply cur_set_r).
    assert (S6 : stacks_are x (rev xs ++ d) r f). { destruct S5 as (X1 & X2 & X3). unfold stacks_are. rewrite CX. split; [exact X1|]. split; [apply (drop_has _ [ra]); exact X2|exact X3]. }
    assert (N5 : near n m v0 v2) by (apply (near_by n m v0 a); try assumption; apply (frame_sound a v2 _ F2 ltac:(apply N4) H2); lia).
    assert (N6 : near n m v0 x).
    { apply (near_by n m v0 v2); try reflexivity; unfold st; rewrite ?CX; try reflexivity; [exact N5|exact T2|].
      pose proof (stack_has_len _ _ (proj1 S6)). pose proof (stack_has_len _ _ (proj1 (proj2 S6))).
      apply (sound_up v2); [apply N5|rewrite CX; reflexivity|rewrite CX; reflexivity|rewrite CX; apply upper_refl|rewrite CX; split; [reflexivity|intros; reflexivity]|lia|lia]. }
    assert (L6 : loading R n m id s l rr x).
    { eapply (loading_by n id R m s l rr a); unfold st; rewrite ?CX; [exact L4|exact P4|exact P12|exact P11|exact P1|exact P2|exact P14|exact S6|lia]. }
    destruct (tally_keeps K n id R m s l v0 rr x v3 _ _ _ L6 S6 N6 ltac:(lia) ltac:(lia) G1 G2 G3 HT) as (L7 & S7 & N7).
    apply (IH Q v3 (rev xs ++ d) r f L7 S7 N7); [lia|lia|exact Hid|exact HQ].
Qed.
End L.

Section I.
Context {E : Env}.
Implicit Types (v w u : vm).
Lemma included_typo K R n m path o h c xs l v xa x a d r f : shell K n v -> loader K n m v -> at_home m l v -> spare K n m v -> in_order n m v -> can_open R path o h c a v -> typo_in v c xs ->
  stacks_are v (x :: xa :: d) r f -> addr_of xa a -> addr_of x (zlen path) -> zlen d + zlen xs <= 48 -> zlen r <= 56 ->
  (a + zlen path <= src_at m v \/ src_at m v + 272 <= a) ->
  fails_at v (l_included m) (fun y => v_err y = Some (-13) /\ v_wl y = v_wl v /\ saved (v_ds y) (src_at m v) (source_of v :: l) /\
    exists id, st_sid (st y) = id /\ is_source y id /\ ~ is_source v id).
Proof.
  intros HSh HLo HA HSp HO HC HN HS Ha Hx Hd Hr HDj. pose proof HLo as (_ & _ & _ & _ & _ & _ & _ & _ & _ & _ & _ & _ & _ & (FS1 & FS2 & _) & (FL1 & FL2 & _) & DJ & _). pose proof (zlen_nonneg xs).
  eapply (included_fails K R n m path o h c l); try eassumption; [lia|]. intros id v1 HOp.
  assert (Hz : zlen (t_sources (cur v)) < 2 ^ 63 - 1) by apply HA. pose proof (proj2 (proj2 (proj2 HC))) as HR.
  destruct (opened_loading K R n m path o h c l d r f v id v1 HA HR HO HLo Hz ltac:(lia) Hr HOp) as (I1 & L1 & N1 & ra & rb & S1).
  apply (typo_collapses K n id R m (source_of v) l v c xs HN HO ltac:(lia) ltac:(lia) DJ _ v1 d (rb :: ra :: r) f L1 S1 N1 ltac:(lia) ltac:(rewrite !zlen_cons; lia) I1).
  intros y (Y1 & Y2 & Y3 & (sr & Y4) & Y5). split; [exact Y1|]. split; [exact Y2|]. split; [exact Y5|].
  exists id. split; [exact Y3|]. split; [exists sr; exact Y4|]. destruct HOp as (? & ? & ? & ? & ? & ? & X & _). exact X.
Qed.
End I.
