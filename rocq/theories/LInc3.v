(** Loading a file of numbers (C90). *)
From Coq Require Import ZArith List Bool Lia String ZifyBool ZifyNat.
From Verif Require Import Base Stack Mem Parser State CoreM IoM FileM Exec LBase LStack Spec Spec2 Spec4 Spec5 Spec6 Spec7 Spec9 Spec10 Spec11 Spec12 Spec14 Spec15 Spec16 Spec17 Spec19 Spec24 Spec25
  LState LMem LMon LMemWords LTask LFuel LCode LComp LRun LCtl LFloat LWords LSay LFile LFile2 LFile3 LFile5 LDict LText LLib LLibWords LDefine LDefine2 LNoInput LSource LEval LNest LPrint LCrash3 Spec27 LShell LShell2 LShell6 Spec28 LTrim LTrim2 LInc LInc2 Spec29.
Import ListNotations.
Open Scope list_scope.
Open Scope Z_scope.
Open Scope m_scope.

Section L.
Context {E : Env}.
Variable K : Z -> Prop.
Implicit Types (v w u a : vm).

(** ** What the tokens of a line of numbers keep *)
Definition frame a u : Prop :=
  v_ds u = v_ds a /\ v_wl u = v_wl a /\ v_refs u = v_refs a /\ v_os u = v_os a /\ v_cur u = v_cur a /\ v_out u = v_out a /\
  t_r (cur u) = t_r (cur a) /\ t_c (cur u) = t_c (cur a) /\ t_f (cur u) = t_f (cur a) /\ t_inbuf (cur u) = t_inbuf (cur a) /\
  t_lines (cur u) = t_lines (cur a) /\ t_sources (cur u) = t_sources (cur a) /\
  st_compiling (st u) = st_compiling (st a) /\ st_sid (st u) = st_sid (st a) /\ upper (t_s (cur a)) (t_s (cur u)).
Lemma frame_refl a : frame a a. Proof. do 14 (split; [reflexivity|]). apply upper_refl. Qed.
Lemma frame_trans a u w : frame a u -> frame u w -> frame a w.
Proof.
  unfold frame. intros H1 H2. repeat match goal with H : _ /\ _ |- _ => destruct H end. do 14 (split; [congruence|]). eapply upper_trans; eassumption.
Qed.
Lemma frame_read v t n v1 : token_read v t n v1 -> frame v v1.
Proof.
  intros [->|[_ ->]]; [|do 14 (split; [reflexivity|]); apply upper_refl]. unfold frame, st. change (cur (set_v_tkn (Some t) (set_idx n v))) with (cur (set_idx n v)).
  rewrite cur_set_idx. cbn. do 14 (split; [reflexivity|]). apply upper_refl.
Qed.
Lemma upper_add (s : stack Z) x : 0 <= len s < 64 -> upper s (add_item s x).
Proof. intro H. split; [reflexivity|]. intros i Hi. apply sget_add_item; lia. Qed.
Lemma frame_add v (x : Z) : 0 <= len (t_s (cur v)) < 64 -> frame v (add_s x v).
Proof. intro H. unfold frame, add_s, st. rewrite !cur_set_s. cbn. do 14 (split; [reflexivity|]). apply upper_add. exact H. Qed.
Lemma frame_drop v k : frame v (drop_s k v).
Proof. unfold frame, drop_s, st. rewrite !cur_set_s. cbn. do 14 (split; [reflexivity|]). split; [reflexivity|intros i _; reflexivity]. Qed.
Lemma frame_err v e : frame v (set_v_err e v). Proof. do 14 (split; [reflexivity|]). apply upper_refl. Qed.
Lemma frame_shown v (x : Z) : 0 <= len (t_s (cur v)) < 64 -> frame v (shown x v).
Proof. intro H. eapply frame_trans; [apply (frame_add _ x); exact H|apply frame_drop]. Qed.
Lemma frame_sound a u d : frame a u -> sound a -> stack_has (t_s (cur u)) d -> zlen d <= 64 -> sound u.
Proof.
  intros (_ & _ & _ & _ & _ & _ & A & B & C & _ & _ & _ & _ & _ & D & F) S H L. pose proof (stack_has_len _ _ H).
  eapply (sound_s a); try assumption; [apply F; lia|apply F; lia|lia].
Qed.
Lemma frame_dict a u : frame a u -> dict_ok a -> dict_ok u.
Proof. intros (A & B & _). unfold dict_ok, named, words, word_of. rewrite A, B. exact (fun H => H). Qed.
Lemma frame_number a u t x : frame a u -> number_of a t x -> number_of u t x.
Proof.
  intros (A & B & _) [H1 H2]. split; [apply (newest_kept a u A B); exact H1|]. unfold integer_token, base_is in *. rewrite A. exact H2.
Qed.

Variable n : names.
Variable id : Z.
(** [a] can interpret a line of the source [id] *)
Definition ready fuel a : Prop :=
  dict_ok a /\ words a < Z.of_nat fuel /\ (exists b, base_is a b) /\ idx_flit (v_refs a) <> 0 /\ t_inbuf (cur a) <> None /\
  sound a /\ st_compiling (st a) = false /\ st_sid (st a) = id.
Lemma frame_ready fuel a u d : frame a u -> ready fuel a -> stack_has (t_s (cur u)) d -> zlen d <= 64 -> ready fuel u.
Proof.
  intros F (A1 & A2 & A3 & A4 & A5 & A6 & A7 & A8) H L. pose proof (frame_sound _ _ _ F A6 H L) as S. pose proof (frame_dict _ _ F A1) as D.
  destruct F as (F1 & F2 & F3 & F4 & F5 & F6 & F7 & F8 & F9 & F10 & F11 & F12 & F13 & F14 & F15).
  split; [exact D|]. split; [unfold words in *; rewrite F2; exact A2|]. split; [destruct A3 as [b Hb]; exists b; unfold base_is; rewrite F1; exact Hb|].
  split; [congruence|]. split; [congruence|]. split; [exact S|]. split; congruence.
Qed.
Lemma ready_steady fuel u d : ready fuel u -> stack_has (t_s (cur u)) d -> zlen d <= 62 -> steady_on id u.
Proof. intros (_ & _ & _ & _ & A5 & A6 & _ & A8) H L. split; [apply check_iff; exact A6|]. split; [exists d; auto|]. auto. Qed.

Lemma ints_obeyed fuel a ts xs : Forall2 (number_of a) ts xs -> forall s cs u d, frame a u -> ready fuel a -> rest_of_input u s -> utf8_text s cs -> tokens s ts -> v_tkn u <> None ->
  stack_has (t_s (cur u)) d -> zlen d + zlen xs <= 62 ->
  exists u', obeys_on id K n u ts u' /\ frame a u' /\ stack_has (t_s (cur u')) (rev xs ++ d) /\ v_tkn u' <> None.
Proof.
  induction 1 as [|t x ts xs Hn _ IH]; intros s cs u d F RD HR HU HK HT HS HL.
  - destruct (next_word u s cs [] HR HU HT HK 0%nat) as (k & r & cs' & v1 & Q1 & T1 & _). cbn [hd] in T1. rewrite zlen_nil in HL.
    pose proof (frame_read _ _ _ _ T1) as F1. pose proof (stack_has_len _ _ HS) as LS. pose proof (zlen_nonneg d).
    assert (ES : t_s (cur v1) = t_s (cur u)) by (destruct T1 as [->|[_ ->]]; [|reflexivity]; change (cur (set_v_tkn (Some []) (set_idx k u))) with (cur (set_idx k u)); rewrite cur_set_idx; reflexivity).
    assert (Tt : v_tkn v1 = Some []) by (destruct T1 as [->|[_ ->]]; reflexivity).
    exists (shown 0 v1). split; [exists u, v1; split; [constructor; eapply ready_steady; [eapply frame_ready; [exact F|exact RD|exact HS|lia]|exact HS|lia]|split; [split; [exact Q1|exact Tt]|reflexivity]]|].
    split; [eapply frame_trans; [exact F|eapply frame_trans; [exact F1|apply frame_shown; rewrite ES; lia]]|].
    split; [cbn [rev app]; apply has_shown; [rewrite ES; exact HS|lia]|]. change (v_tkn (shown 0 v1)) with (v_tkn v1). congruence.
  - destruct (next_word u s cs (t :: ts) HR HU HT HK 0%nat) as (k & r & cs' & v1 & Q1 & T1 & _ & HR1 & HU1 & HK1). cbn [hd tl] in T1, HK1. rewrite zlen_cons in HL.
    pose proof (frame_read _ _ _ _ T1) as F1. pose proof (stack_has_len _ _ HS) as LS. pose proof (zlen_nonneg d). pose proof (zlen_nonneg xs).
    assert (ES : t_s (cur v1) = t_s (cur u)) by (destruct T1 as [->|[_ ->]]; [|reflexivity]; change (cur (set_v_tkn (Some t) (set_idx k u))) with (cur (set_idx k u)); rewrite cur_set_idx; reflexivity).
    assert (Tt : v_tkn v1 = Some t) by (destruct T1 as [->|[_ ->]]; reflexivity).
    pose proof (frame_trans _ _ _ F F1) as Fa1. assert (HS1 : stack_has (t_s (cur v1)) d) by (rewrite ES; exact HS).
    assert (F2 : frame a (noted v1)) by (eapply frame_trans; [exact Fa1|apply frame_shown; rewrite ES; lia]).
    assert (HS2 : stack_has (t_s (cur (noted v1))) d) by (apply has_shown; [exact HS1|lia]).
    pose proof (frame_ready _ _ _ _ F2 RD HS2 ltac:(lia)) as R2. pose proof (frame_number _ _ _ _ F2 Hn) as [N1 N2]. pose proof (stack_has_len _ _ HS2) as LS2.
    set (v2 := add_s x (set_v_err None (noted v1))).
    assert (HA : acts K n fuel t (noted v1) v2) by (apply (acts_integer K n fuel t _ x d N1 N2 ltac:(apply R2) HS2); lia).
    assert (F3 : frame a v2) by (eapply frame_trans; [exact F2|]; eapply frame_trans; [apply (frame_err _ None)|apply frame_add; change (cur (set_v_err None (noted v1))) with (cur (noted v1)); lia]).
    assert (HS3 : stack_has (t_s (cur v2)) (x :: d)) by (apply has_push; [exact HS2|lia]).
    assert (HR2 : rest_of_input v2 r).
    { destruct HR1 as (buf & pre & I1 & I2). exists buf, pre. unfold v2, input_text, add_s, st in *. rewrite cur_set_s. change (cur (set_v_err None (noted v1))) with (cur (noted v1)).
      unfold noted, shown, drop_s, add_s. rewrite !cur_set_s. cbn [t_inbuf t_lines t_state set_t_s]. auto. }
    assert (HT2 : v_tkn v2 <> None) by (change (v_tkn v2) with (v_tkn v1); congruence).
    destruct (IH r cs' v2 (x :: d) F3 RD HR2 HU1 HK1 HT2 HS3 ltac:(rewrite zlen_cons; lia)) as (u' & (v0 & w1 & O1 & O2 & O3) & FF & SS & TT).
    exists u'. split; [|split; [exact FF|split; [cbn [rev]; rewrite <- app_assoc; exact SS|exact TT]]].
    exists v0, w1. split; [|auto]. assert (Hne : t <> []) by (inversion HK; subst; assumption).
    pose proof (frame_ready _ _ _ _ F RD HS ltac:(lia)) as Ru. pose proof (frame_ready _ _ _ _ Fa1 RD HS1 ltac:(lia)) as R1.
    eapply (Oy_word id K n u t v1 fuel v2 ts v0); [eapply ready_steady; [exact Ru|exact HS|lia]|split; [exact Q1|exact Tt]|exact Hne| |exact HA|exact O1].
    split; [exact Tt|]. destruct R1 as (X1 & X2 & X3 & X4 & _). auto.
Qed.

(** ** The state between the lines *)
Variable R : line_reader.
Variable m : loader_names.
Variable s : Z * Z.
Variable l : list (Z * Z).
Lemma sound_up w u : sound w -> t_c (cur u) = t_c (cur w) -> t_f (cur u) = t_f (cur w) -> upper (t_s (cur w)) (t_s (cur u)) -> upper (t_r (cur w)) (t_r (cur u)) ->
  len (t_s (cur u)) <= 64 -> len (t_r (cur u)) <= 64 -> sound u.
Proof.
  clear. unfold sound, s_overflow, s_underflow, r_overflow, r_underflow, c_overflow, c_underflow, f_overflow, f_underflow, s_stk, r_stk, c_stk, f_stk.
  intros (A & B & C & D & F) -> -> [P1 P2] [Q1 Q2] L1 L2. unfold overflow, underflow in A, B, C, D |- *. rewrite P1, Q1, !P2, !Q2 by lia.
  apply orb_false_elim in A, B, C, D. destruct A as [-> _], B as [-> _], C as [-> _], D as [-> _]. cbn [orb].
  split; [lia|]. split; [lia|]. split; [lia|]. split; [lia|exact F].
Qed.
(** [w] is like [v0], but for SRC-STACK, LOAD-LINE#, one more cell, the stacks and the files *)
Definition near v0 w : Prop :=
  v_wl w = v_wl v0 /\ v_refs w = v_refs v0 /\ start (v_ds w) = start (v_ds v0) /\ limit (v_ds w) = limit (v_ds v0) /\ here (v_ds w) = here (v_ds v0) + 8 /\
  (forall k, start (v_ds v0) <= k -> k < src_at m v0 \/ src_at m v0 + 272 <= k -> k < line_at n v0 \/ line_at n v0 + 8 <= k -> k < here (v_ds v0) \/ here (v_ds v0) + 8 <= k -> byte_at (v_ds w) k = byte_at (v_ds v0) k) /\
  v_tkn w <> None /\ t_inbuf (cur w) <> None /\ st_compiling (st w) = false /\ sound w.
Lemma near_by v0 w u : near v0 w -> v_wl u = v_wl w -> v_refs u = v_refs w -> v_ds u = v_ds w -> v_tkn u <> None -> t_inbuf (cur u) = t_inbuf (cur w) ->
  st_compiling (st u) = st_compiling (st w) -> sound u -> near v0 u.
Proof.
  intros (A1 & A2 & A3 & A4 & A5 & A6 & A7 & A8 & A9 & A10) B1 B2 B3 B4 B5 B6 B7. unfold near. rewrite B1, B2, B3, B5, B6. auto 20.
Qed.
Lemma near_alike v0 w u d r f : near v0 w -> stacks_are w d r f -> zlen d <= 64 -> zlen r <= 64 -> alike w u -> near v0 u.
Proof.
  intros N S Hd Hr (A & B & C & D & T1 & T2 & T3). destruct (A _ _ _ S) as (S1 & S2 & S3). pose proof (stack_has_len _ _ S1). pose proof (stack_has_len _ _ S2).
  apply (near_by v0 w); try (apply D); [exact N|exact B|replace (v_tkn u) with (v_tkn w) by (symmetry; apply D); apply N|].
  eapply (sound_up w); [apply N|apply D|exact T3|exact T1|exact T2|lia|lia].
Qed.
Lemma near_same v0 w u : near v0 w -> v_wl u = v_wl w -> v_refs u = v_refs w -> v_ds u = v_ds w -> v_tkn u = v_tkn w -> t_inbuf (cur u) = t_inbuf (cur w) ->
  st_compiling (st u) = st_compiling (st w) -> t_s (cur u) = t_s (cur w) -> t_r (cur u) = t_r (cur w) -> t_c (cur u) = t_c (cur w) -> t_f (cur u) = t_f (cur w) -> near v0 u.
Proof.
  intros N A1 A2 A3 A4 A5 A6 A7 A8 A9 A10. apply (near_by v0 w); try assumption; [rewrite A4; apply N|].
  assert (H : sound w) by apply N. revert H.
  unfold sound, s_overflow, s_underflow, r_overflow, r_underflow, c_overflow, c_underflow, f_overflow, f_underflow, s_stk, r_stk, c_stk, f_stk. rewrite A7, A8, A9, A10. exact (fun H => H).
Qed.
Lemma near_at v0 w : near v0 w -> src_at m w = src_at m v0 /\ line_at n w = line_at n v0.
Proof. intros (A & _). unfold src_at, line_at, body, word_of. rewrite A. auto. Qed.
Lemma near_ready v0 w : in_order n m v0 -> near v0 w -> ds_ok (v_ds w) -> st_sid (st w) = id -> ready (S (Z.to_nat (words v0))) w /\
  forall t x, number_of v0 t x -> number_of w t x.
Proof.
  intros (D & (b & Hb & Cb & Lb) & I1 & I2 & I3 & I4 & _ & BH & HP) (A1 & A2 & A3 & A4 & A5 & A6 & A7 & A8 & A9 & A10) HD Hs.
  assert (EB : base_addr (v_ds w) = base_addr (v_ds v0)) by (unfold base_addr, start in *; lia).
  assert (GO : goes_on v0 w).
  { split; [unfold same_words, words, word_of; rewrite A1; repeat split; reflexivity|]. split; [exact HD|]. split; [exact A3|]. split; [exact A4|]. split; [lia|].
    intros a Ha. pose proof (protected_below _ _ D Ha). destruct (HP a (or_introl Ha)). apply A6; [lia|assumption|assumption|lia]. }
  assert (HB : in_base b w).
  { split; [exact Hb|]. rewrite EB. split; [|lia]. intros k Hk. destruct (HP (base_addr (v_ds v0) + k) ltac:(right; lia)). rewrite A6; [apply Cb; exact Hk|unfold base_addr, start in *; lia|assumption|assumption|lia]. }
  pose proof (base_ok b w HD HB) as GB. pose proof D as (D0 & D1 & _).
  assert (GB0 : base_is v0 b) by (apply base_ok; [exact D0|split; [exact Hb|auto]]).
  split.
  - split; [eapply goes_on_dict; eassumption|]. split; [unfold words; rewrite A1; fold (words v0); lia|]. split; [exists b; exact GB|]. split; [congruence|]. auto.
  - intros t x [N1 (b' & N2 & N3)]. assert (b' = b) by (unfold base_is in *; congruence). subst b'. split; [|exists b; split; [exact GB|exact N3]].
    intros j Hj [V1 (nm & V2 & V3)]. unfold words in Hj. rewrite A1 in Hj. apply (N1 j Hj). split; [unfold word_of in *; rewrite A1 in V1; exact V1|]. exists nm. split; [|exact V3].
    destruct (dict_named v0 j D) as (nm0 & M1 & _); [unfold words; lia|]. pose proof (goes_on_named v0 w j nm0 GO ltac:(unfold words; lia) M1) as M2.
    pose proof (named_inj w j nm0 nm (goes_on_dict _ _ GO D) M2 V2). subst nm0. exact M1.
Qed.

Lemma fetch_keeps v0 c w t c' u d r f : loading R n m id s l c w -> stacks_are w d r f -> near v0 w -> zlen d <= 48 -> zlen r <= 64 -> fetched R id t c' w u ->
  loading R n m id s l c' u /\ stacks_are u d r f /\ near v0 u /\ nth_error (t_lines (cur u)) (Z.to_nat (id - 1)) = Some (Some t).
Proof.
  intros (_ & HL & Hc & HD & HSv & HSel & (f0 & Hf0) & (x & HX1 & HX2) & Hsid & _) HS N Hd Hr (sr & o & rd & HSr & HR & HA).
  set (w1 := world o (t_files (cur w)) (set_nth (t_sources (cur w)) (Z.to_nat (id - 1)) (Some (mkSource rd (src_path sr)))) (set_nth (t_lines (cur w)) (Z.to_nat (id - 1)) (Some t)) w) in *.
  assert (CW : cur w1 = set_t_lines (set_nth (t_lines (cur w)) (Z.to_nat (id - 1)) (Some t)) (set_t_sources (set_nth (t_sources (cur w)) (Z.to_nat (id - 1)) (Some (mkSource rd (src_path sr)))) (set_t_files (t_files (cur w)) (cur w)))) by apply cur_world.
  assert (HS1 : stacks_are w1 d r f) by (unfold stacks_are; rewrite CW; exact HS).
  assert (N1 : near v0 w1). { apply (near_same v0 w); try reflexivity; unfold st; rewrite ?CW; try reflexivity. exact N. }
  pose proof (near_alike v0 w1 u d r f N1 HS1 ltac:(lia) Hr HA) as N2. destruct HA as (A1 & A2 & A3 & A4 & A5). pose proof (A1 _ _ _ HS1) as HS2.
  assert (HLs : (Z.to_nat (id - 1) < List.length (t_lines (cur w)))%nat). { apply nth_error_Some. unfold line_of in HL. destruct (nth_error _ _) as [[]|]; congruence. }
  assert (HSs : (Z.to_nat (id - 1) < List.length (t_sources (cur w)))%nat). { apply nth_error_Some. destruct HSr as [_ HSr]. congruence. }
  assert (TL : t_lines (cur u) = set_nth (t_lines (cur w)) (Z.to_nat (id - 1)) (Some t)) by (replace (t_lines (cur u)) with (t_lines (cur w1)) by (symmetry; apply A4); rewrite CW; reflexivity).
  assert (TS : t_sources (cur u) = set_nth (t_sources (cur w)) (Z.to_nat (id - 1)) (Some (mkSource rd (src_path sr)))) by (replace (t_sources (cur u)) with (t_sources (cur w1)) by (symmetry; apply A4); rewrite CW; reflexivity).
  assert (OS : v_os u = o) by (replace (v_os u) with (v_os w1) by (symmetry; apply A4); reflexivity).
  assert (LN : nth_error (t_lines (cur u)) (Z.to_nat (id - 1)) = Some (Some t)) by (rewrite TL; apply nth_set_nth; exact HLs).
  destruct (near_at _ _ N) as [E1 E2]. destruct (near_at _ _ N2) as [E3 E4]. assert (ED : v_ds u = v_ds w) by exact A2.
  split; [|split; [exact HS2|split; [exact N2|exact LN]]].
  unfold loading, line_of, source_as, selectable. rewrite TS, LN, OS, ED, E3, E4, <- E1, <- E2.
  split; [exists (mkSource rd (src_path sr)); split; [split; [apply HSr|apply nth_set_nth; exact HSs]|exact HR]|]. split; [discriminate|]. split; [exact Hc|]. split; [exact HD|]. split; [exact HSv|].
  split.
  { destruct HSel as [->|(G0 & (y & G1) & (z & G2))]; [left; reflexivity|]. right. split; [exact G0|].
    destruct (Nat.eq_dec (Z.to_nat (fst s - 1)) (Z.to_nat (id - 1))) as [Eq|Ne].
    - rewrite Eq, nth_set_nth, LN by assumption. split; eexists; reflexivity.
    - rewrite TL, !nth_set_other by assumption. split; eexists; eassumption. }
  split; [exists f; apply HS2|]. split; [exists x; auto|]. split; [|exists d; split; [apply HS2|exact Hd]].
  replace (st_sid (st u)) with (st_sid (st w1)) by (symmetry; apply A4). unfold st. rewrite CW. exact Hsid.
Qed.

Lemma loading_by c w u d r f : loading R n m id s l c w -> v_os u = v_os w -> t_sources (cur u) = t_sources (cur w) -> t_lines (cur u) = t_lines (cur w) ->
  v_ds u = v_ds w -> v_wl u = v_wl w -> st_sid (st u) = st_sid (st w) -> stacks_are u d r f -> zlen d <= 48 -> loading R n m id s l c u.
Proof.
  intros (A1 & A2 & A3 & A4 & A5 & A6 & _ & A8 & A9 & _) B1 B2 B3 B4 B5 B6 HS Hd. unfold loading, source_as, line_of, selectable, src_at, line_at, body, word_of in *.
  rewrite B1, B2, B3, B4, B5, B6. split; [exact A1|]. split; [exact A2|]. split; [exact A3|]. split; [exact A4|]. split; [exact A5|]. split; [exact A6|].
  split; [exists f; apply HS|]. split; [exact A8|]. split; [exact A9|]. exists d. split; [apply HS|exact Hd].
Qed.
Lemma loading_alike c w u d r f : loading R n m id s l c w -> stacks_are w d r f -> zlen d <= 48 -> alike w u -> loading R n m id s l c u.
Proof. intros HL HS Hd (A & B & C & D & _). eapply (loading_by c w); [exact HL|apply D|apply D|apply D|exact B|apply D|apply D|apply A; exact HS|exact Hd]. Qed.

Lemma tally_keeps v0 c w u d r f : loading R n m id s l c w -> stacks_are w d r f -> near v0 w -> zlen d <= 48 -> zlen r <= 64 ->
  start (v_ds v0) <= src_at m v0 -> start (v_ds v0) < line_at n v0 -> (line_at n v0 + 8 <= src_at m v0 \/ src_at m v0 + 272 <= line_at n v0) ->
  tallied n w u -> loading R n m id s l c u /\ stacks_are u d r f /\ near v0 u.
Proof.
  intros HL HS N Hd Hr G1 G2 G3 (x & y & mem & C1 & C2 & C3 & C4 & C5 & C6 & HA). destruct (near_at _ _ N) as [E1 E2].
  destruct (flushed_same w) as (F1 & F2 & F3). set (w1 := set_v_ds mem (flushed w)) in *. change (cur (flushed w)) with (cur w1) in F3.
  assert (W1 : v_wl w1 = v_wl w) by exact F2.
  assert (OS : v_os w1 = v_os w /\ v_tkn w1 = v_tkn w /\ v_refs w1 = v_refs w) by (unfold w1, flushed; destruct (v_out w) as [[|]|]; repeat split). destruct OS as (OS & TK & RF).
  assert (HS1 : stacks_are w1 d r f) by (unfold stacks_are; rewrite F3; exact HS). pose proof C5 as (M1 & M2 & M3).
  assert (N1 : near v0 w1).
  { pose proof N as (A1 & A2 & A3 & A4 & A5 & A6 & A7 & A8 & A9 & A10). unfold near, st. rewrite W1, TK, RF, F3. change (v_ds w1) with mem. rewrite M1, M2, C6.
    do 5 (split; [assumption|]). split; [intros k K1 K2 K3 K4; rewrite M3 by lia; apply A6; assumption|]. split; [exact A7|]. split; [exact A8|]. split; [exact A9|].
    revert A10. unfold sound, s_overflow, s_underflow, r_overflow, r_underflow, c_overflow, c_underflow, f_overflow, f_underflow, s_stk, r_stk, c_stk, f_stk. rewrite F3. exact (fun H => H). }
  assert (HL1 : loading R n m id s l c w1).
  { destruct HL as (A1 & A2 & A3 & A4 & A5 & A6 & A7 & A8 & A9 & A10). unfold loading, source_as, line_of, selectable, st in *. destruct (near_at _ _ N1) as [E3 E4].
    rewrite F3, OS, E3, E4. change (v_ds w1) with mem. assert (N' := N). destruct N' as (_ & _ & S3 & S4 & S5 & _).
    split; [exact A1|]. split; [exact A2|]. split; [exact A3|]. split; [destruct A4 as (O1 & O2 & O3); unfold ds_ok; rewrite M1, M2, C6; auto|].
    split; [rewrite E1 in A5; eapply (loading_saved K); [exact A5|exact C5|lia|lia]|]. split; [exact A6|]. split; [exact A7|].
    split; [exists y; rewrite <- E2; split; [exact C4|apply C3]|]. split; [exact A9|exact A10]. }
  split; [eapply loading_alike; eassumption|]. split; [apply HA; exact HS1|]. eapply near_alike; [exact N1|exact HS1|lia|exact Hr|exact HA].
Qed.

Lemma numbers_follow v0 c xs : numbers_in v0 c xs -> in_order n m v0 ->
  start (v_ds v0) <= src_at m v0 -> start (v_ds v0) < line_at n v0 -> (line_at n v0 + 8 <= src_at m v0 \/ src_at m v0 + 272 <= line_at n v0) ->
  forall (Q : vm -> Prop) w d r f, loading R n m id s l c w -> stacks_are w d r f -> near v0 w -> zlen d + zlen xs <= 48 -> zlen r <= 60 -> 1 <= id ->
  (forall u, stacks_are u (rev xs ++ d) r f -> near v0 u -> Q u) -> follows R K n m id s l Q c w.
Proof.
  intros HN HO G1 G2 G3. induction HN as [|c ln rr t cs ts xs ys Hne HF HSt HU HZ HK HX HN IH]; intros Q w d r f HL HS N Hd Hr Hid HQ.
  - constructor. intros u HFe. rewrite zlen_nil in Hd. pose proof (fetch_keeps v0 [] w [] [] u d r f HL HS N ltac:(lia) ltac:(lia) HFe) as (_ & S2 & N2 & _). apply HQ; [exact S2|exact N2].
  - rewrite zlen_app in Hd. pose proof (zlen_nonneg ys). pose proof (zlen_nonneg xs). pose proof (zlen_nonneg d).
    eapply Fo_line; [exact Hne|exact HF|exact HSt|]. intros v1 ra (w1 & HFe & HA).
    destruct (fetch_keeps v0 c w t rr w1 d r f HL HS N ltac:(lia) ltac:(lia) HFe) as (L1 & S1 & N1 & LN1).
    set (w2 := set_idx 0 w1) in *.
    assert (CW : cur w2 = set_t_state (set_st_idx 0 (t_state (cur w1))) (cur w1)) by (unfold w2; apply cur_set_idx).
    assert (S2 : stacks_are w2 d r f) by (unfold stacks_are; rewrite CW; exact S1).
    assert (L2 : loading R n m id s l rr w2) by (eapply (loading_by rr w1); try reflexivity; unfold st; rewrite ?CW; try reflexivity; [exact L1|exact S2|lia]).
    assert (N2 : near v0 w2) by (apply (near_same v0 w1); try reflexivity; unfold st; rewrite ?CW; try reflexivity; exact N1).
    pose proof (loading_alike _ _ _ _ _ _ L2 S2 ltac:(lia) HA) as L3. pose proof (near_alike v0 w2 v1 d r f N2 S2 ltac:(lia) ltac:(lia) HA) as N3.
    assert (LN3 : nth_error (t_lines (cur v1)) (Z.to_nat (id - 1)) = Some (Some t)).
    { destruct HA as (_ & _ & _ & D & _). replace (t_lines (cur v1)) with (t_lines (cur w2)) by (symmetry; apply D). rewrite CW. exact LN1. }
    assert (IX3 : st_idx (st v1) = 0).
    { destruct HA as (_ & _ & _ & D & _). replace (st_idx (st v1)) with (st_idx (st w2)) by (symmetry; apply D). unfold st. rewrite CW. reflexivity. }
    pose proof (proj1 HA _ _ _ S2) as S3. set (a := add_r ra v1).
    assert (CA : cur a = set_t_r (add_item (t_r (cur v1)) ra) (cur v1)) by (unfold a, add_r; apply cur_set_r).
    assert (S4 : stacks_are a d (ra :: r) f). { destruct S3 as (X1 & X2 & X3). unfold stacks_are. split; [rewrite CA; exact X1|]. split; [apply has_add_r; [exact X2|lia]|rewrite CA; exact X3]. }
    assert (L4 : loading R n m id s l rr a) by (eapply (loading_by rr v1); try reflexivity; unfold st; rewrite ?CA; try reflexivity; [exact L3|exact S4|lia]).
    assert (N4 : near v0 a).
    { apply (near_by v0 v1); try reflexivity; unfold st; rewrite ?CA; try reflexivity; [exact N3|change (v_tkn a) with (v_tkn v1); apply N3|].
      pose proof (stack_has_len _ _ (proj1 S4)). pose proof (stack_has_len _ _ (proj1 (proj2 S3))). pose proof (zlen_nonneg r).
      apply (sound_up v1); [apply N3|rewrite CA; reflexivity|rewrite CA; reflexivity|rewrite CA; apply upper_refl|rewrite CA; cbn [t_r set_t_r]; apply upper_add; lia|lia|].
      rewrite CA. cbn [t_r set_t_r]. change (len (add_item (t_r (cur v1)) ra)) with (len (t_r (cur v1)) + 1). lia. }
    assert (SI : st_sid (st a) = id) by apply L4.
    destruct (near_ready v0 a HO N4 ltac:(apply L4) SI) as [RD NUM].
    assert (HX' : Forall2 (number_of a) ts xs) by (clear -HX NUM; induction HX; constructor; auto).
    assert (RI : rest_of_input a t).
    { exists t, []. split; [right; rewrite SI; split; [lia|rewrite CA; exact LN3]|]. split; [reflexivity|]. split; [unfold st; rewrite CA; exact IX3|exact HZ]. }
    destruct (ints_obeyed _ a ts xs HX' t cs a d (frame_refl a) RD RI HU HK ltac:(apply N4) (proj1 S4) ltac:(lia)) as (v2 & O2 & F2 & H2 & T2).
    pose proof F2 as (P1 & P2 & P3 & P4 & P5 & P6 & P7 & P8 & P9 & P10 & P11 & P12 & P13 & P14 & P15).
    assert (S5 : stacks_are v2 (rev xs ++ d) (ra :: r) f) by (split; [exact H2|rewrite P7, P9; apply S4]).
    assert (ZL : zlen (rev xs ++ d) = zlen d + zlen xs) by (rewrite zlen_app; unfold zlen; rewrite rev_length; lia).
    exists ts, v2. split; [exact O2|]. split; [eapply (loading_by rr a); [exact L4|exact P4|exact P12|exact P11|exact P1|exact P2|exact P14|exact S5|lia]|].
    intros v3 HT. set (x := drop_r 1 v2) in *.
    assert (CX : cur x = set_t_r (drop_items 1 (t_r (cur v2))) (cur v2)) by (unfold x, drop_r; apply cur_set_r).
    assert (S6 : stacks_are x (rev xs ++ d) r f). { destruct S5 as (X1 & X2 & X3). unfold stacks_are. rewrite CX. split; [exact X1|]. split; [apply (drop_has _ [ra]); exact X2|exact X3]. }
    assert (N5 : near v0 v2) by (apply (near_by v0 a); try assumption; apply (frame_sound a v2 _ F2 ltac:(apply N4) H2); lia).
    assert (N6 : near v0 x).
    { apply (near_by v0 v2); try reflexivity; unfold st; rewrite ?CX; try reflexivity; [exact N5|exact T2|].
      pose proof (stack_has_len _ _ (proj1 S6)). pose proof (stack_has_len _ _ (proj1 (proj2 S6))).
      apply (sound_up v2); [apply N5|rewrite CX; reflexivity|rewrite CX; reflexivity|rewrite CX; apply upper_refl|rewrite CX; split; [reflexivity|intros; reflexivity]|lia|lia]. }
    assert (L6 : loading R n m id s l rr x).
    { eapply (loading_by rr a); unfold st; rewrite ?CX; [exact L4|exact P4|exact P12|exact P11|exact P1|exact P2|exact P14|exact S6|lia]. }
    destruct (tally_keeps v0 rr x v3 _ _ _ L6 S6 N6 ltac:(lia) ltac:(lia) G1 G2 G3 HT) as (L7 & S7 & N7).
    apply (IH Q v3 (rev xs ++ d) r f L7 S7 N7); [lia|lia|exact Hid|]. intros u Su Nu. apply HQ; [|exact Nu]. rewrite rev_app_distr, <- app_assoc. exact Su.
Qed.
End L.

Section I.
Context {E : Env}.
Implicit Types (v w u : vm).
Lemma opened_loading K R n m path o h c l d r f v id v1 : at_home m l v -> rest R o (os_reader o h) = Some c -> in_order n m v -> loader K n m v -> zlen (t_sources (cur v)) < 2 ^ 63 - 1 ->
  zlen d <= 48 -> zlen r <= 56 -> opened n m o h path l d r f v id v1 ->
  1 <= id /\ loading R n m id (source_of v) l c v1 /\ near n m v v1 /\ exists ra rb, stacks_are v1 d (rb :: ra :: r) f.
Proof.
  intros (HD & HSv & Hl & Hs & Hp & HSel & HLL & HZ & HNN) HR HO HLo Hz Hd Hr (fl & ss & ls & ra & rb & A1 & A2 & A3 & A4 & A5 & A6 & A7 & A8 & A9 & A10 & A11 & A12' & A12 & A13 & A14 & A15 & A16 & A17 & A18).
  set (w := set_sid id (world o fl ss ls v)) in *.
  assert (CW : cur w = set_t_state (set_st_sid id (t_state (cur v))) (set_t_lines ls (set_t_sources ss (set_t_files fl (cur v))))).
  { unfold w, set_compiling, set_sid, set_st, st. rewrite !cur_upd, !cur_world. reflexivity. }
  assert (W1 : v_wl v1 = v_wl v) by (replace (v_wl v1) with (v_wl w) by (symmetry; apply A17); reflexivity).
  assert (TS : t_sources (cur v1) = ss) by (replace (t_sources (cur v1)) with (t_sources (cur w)) by (symmetry; apply A17); rewrite CW; reflexivity).
  assert (TL : t_lines (cur v1) = ls) by (replace (t_lines (cur v1)) with (t_lines (cur w)) by (symmetry; apply A17); rewrite CW; reflexivity).
  assert (OS : v_os v1 = o) by (replace (v_os v1) with (v_os w) by (symmetry; apply A17); reflexivity).
  assert (TK : v_tkn v1 = v_tkn v) by (replace (v_tkn v1) with (v_tkn w) by (symmetry; apply A17); reflexivity).
  assert (RF : v_refs v1 = v_refs v) by (replace (v_refs v1) with (v_refs w) by (symmetry; apply A17); reflexivity).
  assert (TC : t_c (cur v1) = t_c (cur v)) by (replace (t_c (cur v1)) with (t_c (cur w)) by (symmetry; apply A17); rewrite CW; reflexivity).
  assert (TI : t_inbuf (cur v1) = t_inbuf (cur v)) by (replace (t_inbuf (cur v1)) with (t_inbuf (cur w)) by (symmetry; apply A17); rewrite CW; reflexivity).
  assert (SC : st_compiling (st v1) = false) by (replace (st_compiling (st v1)) with (st_compiling (st w)) by (symmetry; apply A17); unfold st in *; rewrite CW; apply HO).
  assert (SI : st_sid (st v1) = id) by (replace (st_sid (st v1)) with (st_sid (st w)) by (symmetry; apply A17); unfold st; rewrite CW; reflexivity).
  pose proof HO as (_ & _ & _ & I4 & I5 & I6 & IC & _). apply check_iff in I6. destruct A18 as (U1 & U2 & U3).
  pose proof (stack_has_len _ _ (proj1 A15)). pose proof (stack_has_len _ _ (proj1 (proj2 A15))) as LR. rewrite !zlen_cons in LR.
  assert (N : near n m v v1).
  { unfold near. rewrite TK, RF, TI, A11, A12, A13. do 5 (split; [first [assumption|reflexivity]|]). split; [exact A14|]. split; [exact I4|]. split; [exact I5|]. split; [exact SC|].
    eapply (sound_up v); [exact I6|exact TC|exact U3|exact U1|exact U2|lia|lia]. }
  split; [exact A1|]. split; [|split; [exact N|exists ra, rb; exact A15]]. destruct (near_at n m _ _ N) as [E1 E2].
  unfold loading, source_as, line_of, selectable. rewrite TS, TL, OS, SI, E1, E2. destruct A5 as [t Ht].
  split; [eexists; split; [split; [exact A1|exact A3]|exact HR]|]. split; [rewrite Ht; discriminate|]. split.
  { destruct (Z_lt_dec id (2 ^ 63)) as [L|L]; [red; lia|]. exfalso. assert (Hge : (List.length (t_sources (cur v)) <= Z.to_nat (id - 1 - 1))%nat) by (unfold zlen in Hz; lia).
    assert (X : nth_error ss (Z.to_nat (id - 1 - 1)) = None) by (rewrite A4 by lia; apply nth_error_None; exact Hge). apply nth_error_None in X.
    assert (Y : (Z.to_nat (id - 1) < List.length ss)%nat) by (apply nth_error_Some; congruence). lia. }
  split; [exact A8|]. split; [exact A9|]. split.
  { cbn [fst source_of]. destruct HSel as [E0|(E0 & (z1 & Hz1) & (z2 & Hz2))]; [left; exact E0|]. right. split; [exact E0|]. split.
    - exists z1. rewrite A4; [exact Hz1|]. intro X. apply A2. exists z1. split; [exact A1|]. rewrite <- X. exact Hz1.
    - exists z2. apply A6. exact Hz2. }
  split; [exists f; apply A15|]. split; [exists 1; split; [exact A10|red; lia]|]. split; [reflexivity|]. exists d. split; [apply A15|exact Hd].
Qed.

Lemma included_numbers K R n m path o h c xs l v xa x a d r f : shell K n v -> loader K n m v -> at_home m l v -> spare K n m v -> in_order n m v -> can_open R path o h c a v -> numbers_in v c xs ->
  stacks_are v (x :: xa :: d) r f -> addr_of xa a -> addr_of x (zlen path) -> zlen d + zlen xs <= 48 -> zlen r <= 56 ->
  (a + zlen path <= src_at m v \/ src_at m v + 272 <= a) ->
  does K v (l_included m) (fun v' => stacks_are v' (rev xs ++ d) r f /\ source_of v' = source_of v /\ saved (v_ds v') (src_at m v) l /\
    v_wl v' = v_wl v /\ here (v_ds v') = here (v_ds v) + 8 /\ st_compiling (st v') = false /\
    (forall k, start (v_ds v) <= k -> k < src_at m v \/ src_at m v + 272 <= k -> k < line_at n v \/ line_at n v + 8 <= k -> k < here (v_ds v) \/ here (v_ds v) + 8 <= k -> byte_at (v_ds v') k = byte_at (v_ds v) k)).
Proof.
  intros HSh HLo HA HSp HO HC HN HS Ha Hx Hd Hr HDj. pose proof HLo as (_ & _ & _ & _ & _ & _ & _ & _ & _ & _ & _ & _ & _ & (FS1 & FS2 & _) & (FL1 & FL2 & _) & DJ & _). pose proof (zlen_nonneg xs).
  eapply (does_conseq K); [|eapply (included_wp K R n m path o h c l (fun u => (exists ra rb, stacks_are u (rev xs ++ d) (rb :: ra :: r) f) /\ near n m v u)); try eassumption; [lia|]].
  - intros v' (id & w & _ & ((ra & rb & S1) & N) & sr & d2 & ra2 & rb2 & r2 & f2 & C1 & C2 & C3 & C4 & C5 & C6 & C7 & C8 & C9). cbv beta.
    destruct (near_at n m _ _ N) as [E1 E2]. destruct (stacks_inj _ _ _ _ _ _ _ S1 C2) as (-> & Er & ->). injection Er as -> -> ->. rewrite E1 in *.
    destruct N as (N1 & N2 & N3 & N4 & N5 & N6 & _ & _ & N9 & _). destruct C5 as (M1 & M2 & M3).
    set (z := world (os_close_reader (v_os w) (src_reader sr)) (t_files (cur w)) (set_nth (t_sources (cur w)) (Z.to_nat (id - 1)) None) (t_lines (cur w)) (with_source w (source_of v))) in *.
    assert (SZ : st z = set_st_sid (fst (source_of v)) (set_st_idx (snd (source_of v)) (st w))) by (unfold z; rewrite st_world; unfold with_source; gnorm; reflexivity).
    split; [exact C3|]. split.
    { unfold source_of at 1. replace (st_sid (st v')) with (st_sid (st z)) by (symmetry; apply C8). replace (st_idx (st v')) with (st_idx (st z)) by (symmetry; apply C8). rewrite SZ. reflexivity. }
    split; [exact C4|]. split; [replace (v_wl v') with (v_wl z) by (symmetry; apply C8); exact N1|]. split; [congruence|].
    split; [replace (st_compiling (st v')) with (st_compiling (st z)) by (symmetry; apply C8); rewrite SZ; exact N9|].
    intros k K1 K2 K3 K4. rewrite M3 by lia. apply N6; assumption.
  - intros id v1 HOp. assert (Hz : zlen (t_sources (cur v)) < 2 ^ 63 - 1) by apply HA. pose proof (proj2 (proj2 (proj2 HC))) as HR.
    destruct (opened_loading K R n m path o h c l d r f v id v1 HA HR HO HLo Hz ltac:(lia) Hr HOp) as (I1 & L1 & N1 & ra & rb & S1).
    apply (numbers_follow K n id R m (source_of v) l v c xs HN HO ltac:(lia) ltac:(lia) DJ _ v1 d (rb :: ra :: r) f L1 S1 N1 ltac:(lia) ltac:(rewrite !zlen_cons; lia) I1).
    intros u Su Nu. split; [exists ra, rb; exact Su|exact Nu].
Qed.
End I.
