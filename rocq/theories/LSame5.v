(** Interpreting a line and compiling it (C59): words that may occur in the line. *)
From Coq Require Import ZArith List Bool Lia String ZifyBool ZifyNat.
From Verif Require Import Base Stack Mem Parser Flt State CoreM IoM FloatM FileM Exec.
From Verif Require Import LBase LStack Spec Spec2 Spec4 Spec5 Spec6 Spec7 Spec9 Spec10 Spec11 Spec14 Spec15 Spec16 Spec19 Spec20
  LState LMem LMon LStep LTask LHist LCheck LFuel LCode LComp LRun LCtl LMemWords LSay LDict LDict2 LDict3 LDict4 LDict5 LParse LNum LNum2 LText LLib LLibWords LDefine LEval LSame LSame2 LSame3 LSame4.
Import ListNotations.
Open Scope list_scope.
Open Scope Z_scope.
Open Scope m_scope.

Section A.
Context {E : Env}.
Implicit Types (v u w : vm).

Lemma intact_high {T} (s s' : stack T) : intact s -> high_slots_kept s s' -> 0 <= len s' <= 64 -> intact s'.
Proof.
  intros (H1 & H2 & H3) (HC & HS) HL. split; [exact HL|]. rewrite !HS by lia. rewrite HC. auto.
Qed.

Section U.
Variable U : Z -> Prop.

Definition prim_frame u u' : Prop :=
  calm u u' /\ st_ip (st u') = st_ip (st u) /\ t_r (cur u') = t_r (cur u) /\ high_slots_kept (t_s (cur u)) (t_s (cur u')) /\ high_slots_kept (t_f (cur u)) (t_f (cur u')) /\
  here (v_ds u') = here (v_ds u) /\ forall a, start (v_ds u) <= a -> ~ U a -> byte_at (v_ds u') a = byte_at (v_ds u) a.

Lemma takes_prim v n i p c c' : word_is v i p -> zlen (c_data c') <= 64 -> zlen (c_float c') <= 64 ->
  (forall fuel ew u, start (v_ds u) = start (v_ds v) -> limit (v_ds u) = limit (v_ds v) -> st_wp (st u) = i -> later U v u -> shows U c u ->
     exists u', exec_prim fuel ew p u = Ok (tt, u') /\ shows U c' u' /\ prim_frame u u') ->
  takes_to U v n i c c'.
Proof.
  intros W L1 L2 H u rs LA HS HR HZ HI. pose proof LA as (A1 & A2 & A3 & A4 & A5 & A6 & A7 & A8).
  apply calls_prim with (p := p).
  - destruct W as (W1 & W2). split; [unfold words in *; lia|]. change (w_action (word_of u i) = p). rewrite A2 by exact W1. exact W2.
  - intros r fuel ew. destruct (H fuel ew (at_ i r u) A4 A5 ltac:(rewrite st_at; reflexivity)) as (u' & E1 & S1 & (F1 & F2 & F3 & F4 & F5 & F6 & F7)).
    { unfold later. exact LA. }
    { unfold shows in *. rewrite cur_at. exact HS. }
    rewrite st_at in F2. cbn in F2. rewrite cur_at in F3, F4, F5. cbn in F3, F4, F5.
    assert (CA : calm u u') by (eapply calm_trans; [apply (calm_at u u i r), calm_refl|exact F1]).
    exists u'. split; [exact E1|]. split; [exact F2|]. split; [apply CA|]. split.
    + assert (EW : v_wl u' = v_wl u) by apply CA. assert (EI : ds_inner (v_ds u') = ds_inner (v_ds u)) by apply CA. assert (EC : ds_cap (v_ds u') = ds_cap (v_ds u)) by apply CA.
      unfold kept, start, limit, word_is. rewrite EW, EI, EC. split; [reflexivity|]. split; [reflexivity|]. split; [|auto].
      intros a (Ha & HU). apply F7; [cbn; lia|exact HU].
    + split; [exact S1|]. split; [rewrite F3; exact HR|]. split; [exact F6|]. split; [|exact CA].
      destruct HI as (I1 & I2 & I3 & I4). destruct S1 as (S1 & S2 & _). pose proof (stack_has_len _ _ S1) as Z1. pose proof (stack_has_len _ _ S2) as Z2.
      pose proof (zlen_nonneg (c_data c')). pose proof (zlen_nonneg (c_float c')).
      unfold stacks_intact. rewrite F3. assert (EC : t_c (cur u') = t_c (cur u)) by apply CA. rewrite EC.
      split; [apply (intact_high _ _ I1 F4); lia|]. split; [exact I2|]. split; [exact I3|]. apply (intact_high _ _ I4 F5); lia.
Qed.

Lemma high_refl {T} (s : stack T) : high_slots_kept s s. Proof. split; auto. Qed.
Lemma calm_data u u' : only_data_stack u u' -> len (t_s (cur u)) <= 255 -> len (t_s (cur u')) <= 255 -> calm u u'.
Proof. clear U.
  intros (G & D & T & (A1 & A2 & A3 & A4 & A5 & A6 & A7) & R & F & H) L1 L2. destruct G as (G1 & G2 & G3 & G4 & G5 & G6 & G7 & G8 & G9 & G10 & G11 & G12 & G13 & G14 & G15).
  pose proof (slot255 _ _ H L1 L2) as S2. destruct H as (HC & _). unfold calm, st. rewrite A2, R, D. repeat (split; [assumption || reflexivity|]). assumption || reflexivity.
Qed.
Lemma frame_data u u' d d' : only_data_stack u u' -> stack_has (t_s (cur u)) d -> stack_has (t_s (cur u')) d' -> prim_frame u u'.
Proof.
  intros O S S'. pose proof (stack_has_bound _ _ S). pose proof (stack_has_bound _ _ S'). split; [apply calm_data; [exact O|lia|lia]|].
  destruct O as (G & D & T & (A1 & A2 & _) & R & F & HH). split; [unfold st; rewrite A2; reflexivity|]. split; [exact R|]. split; [exact HH|]. split; [rewrite F; apply high_refl|]. rewrite D. auto.
Qed.

(** words on the data stack *)
Lemma takes_effect v n i p ins (Q : list Z -> Prop) outs d f m o : word_is v i p -> effect p ins Q -> (forall l, Q l -> l = outs) -> zlen (outs ++ d) <= 64 -> zlen f <= 64 ->
  takes_to U v n i (Conf (ins ++ d) f m o) (Conf (outs ++ d) f m o).
Proof.
  intros W HE HQ L1 L2. apply (takes_prim v n i p); [exact W|exact L1|exact L2|]. intros fuel ew u _ _ _ _ (S1 & S2 & S3 & S4). cbn [c_data c_float c_mem c_out] in *.
  destruct (HE fuel ew u d S1) as (l & q & H). rewrite (HQ l q) in H. destruct (H ltac:(lia)) as (u' & E1 & S' & O). exists u'. split; [exact E1|].
  split; [|exact (frame_data _ _ _ _ O S1 S')]. destruct O as (G & D & T & A & R & F & HH). unfold shows. cbn. rewrite F, D. split; [exact S'|]. split; [exact S2|]. split; [exact S3|].
  destruct G as (_ & _ & _ & _ & _ & G & _). congruence.
Qed.
(** words on the data and the float stack *)
Lemma takes_word_effect v n i p d f d' f' dr fr m o : n <= 64 -> word_is v i p -> word_effect p d [] f d' [] f' -> zlen (d' ++ dr) <= 64 -> zlen (f' ++ fr) <= 64 ->
  takes_to U v n i (Conf (d ++ dr) (f ++ fr) m o) (Conf (d' ++ dr) (f' ++ fr) m o).
Proof.
  intros Hn W HE L1 L2 u rs LA HS HR HZ HI.
  assert (WU : word_is u i p). { destruct LA as (A1 & A2 & _). destruct W as (W1 & W2). split; [unfold words in *; lia|]. change (w_action (word_of u i) = p). rewrite A2 by exact W1. exact W2. }
  apply calls_prim with (p := p); [exact WU|]. intros r fuel ew. destruct HS as (S1 & S2 & S3 & S4). cbn [c_data c_float c_mem c_out] in *.
  assert (SA : stacks_are u (d ++ dr) rs (f ++ fr)) by (split; [exact S1|split; [exact HR|exact S2]]).
  destruct (HE fuel ew (at_ i r u) dr rs fr ltac:(unfold stacks_are; rewrite cur_at; exact SA) ltac:(lia) ltac:(cbn; lia) ltac:(lia)) as (u' & E1 & SA' & O).
  pose proof (inv_stacks u _ _ _ _ _ _ _ _ _ u' (inv_at _ _ _ _ _ _ _ i r (inv_start u _ _ _ SA)) SA' O) as (_ & ID & IO & CA). cbn [app] in *.
  destruct O as (G & D & T & (A1 & A2 & A) & H1 & H2 & H3). rewrite cur_at in H1, H2, H3. cbn in H1, H2, H3. exists u'. split; [exact E1|].
  split; [unfold st; rewrite A2, cur_at; reflexivity|]. split; [apply CA|]. split; [apply kept_eq; [exact ID|apply CA]|].
  destruct SA' as (T1 & T2 & T3). unfold shows. cbn. rewrite ID, IO. split; [auto|]. split; [exact T2|]. split; [reflexivity|]. split; [|exact CA].
  destruct HI as (I1 & I2 & I3 & I4). pose proof (stack_has_len _ _ T1). pose proof (stack_has_len _ _ T2). pose proof (stack_has_len _ _ T3). pose proof (stack_has_len _ _ HR).
  pose proof (zlen_nonneg (d' ++ dr)). pose proof (zlen_nonneg (f' ++ fr)). pose proof (zlen_nonneg rs). unfold stacks_intact. assert (EC : t_c (cur u') = t_c (cur u)) by apply CA. rewrite EC.
  split; [apply (intact_high _ _ I1 H1); lia|]. split; [apply (intact_high _ _ I2 H2); lia|]. split; [exact I3|]. apply (intact_high _ _ I4 H3); lia.
Qed.

(** memory *)
Lemma takes_fetch v n i xa a x d f m o : word_is v i P_fetch -> addr_of xa a -> start (v_ds v) < a -> a + 8 <= limit (v_ds v) ->
  (forall k, 0 <= k < 8 -> U (a + k) /\ m (a + k) = x / 256 ^ k mod 256) -> is_cell x -> zlen d < 64 -> zlen f <= 64 ->
  takes_to U v n i (Conf (xa :: d) f m o) (Conf (x :: d) f m o).
Proof.
  intros W HA H1 H2 HM HX L1 L2. apply (takes_prim v n i P_fetch); [exact W|cbn [c_data]; rewrite zlen_cons; lia|exact L2|]. intros fuel ew u E1 E2 _ LA (S1 & S2 & S3 & S4). cbn [c_data c_float c_mem c_out] in *.
  destruct (fetch_ok fuel ew u x xa a d) as (u' & X1 & X2 & O); try assumption; try lia.
  { apply LA. } { intros k Hk. destruct (HM k Hk) as (A & B). rewrite S3 by exact A. exact B. }
  exists u'. split; [exact X1|]. split; [|exact (frame_data _ _ _ _ O S1 X2)]. destruct O as (G & D & T & A & R & F & HH). unfold shows. cbn. rewrite F, D.
  split; [exact X2|]. split; [exact S2|]. split; [exact S3|]. destruct G as (_ & _ & _ & _ & _ & G & _). congruence.
Qed.
Lemma frame_memory u u' d d' : only_data_memory u u' -> stack_has (t_s (cur u)) d -> stack_has (t_s (cur u')) d' -> here (v_ds u') = here (v_ds u) ->
  (forall a, start (v_ds u) <= a -> ~ U a -> byte_at (v_ds u') a = byte_at (v_ds u) a) -> prim_frame u u'.
Proof.
  intros (G & T & (A1 & A2 & A3 & A4 & A5 & A6 & A7) & R & F & H & D1 & D2) S S' HH HB. pose proof (stack_has_bound _ _ S). pose proof (stack_has_bound _ _ S').
  pose proof (slot255 _ _ H ltac:(lia) ltac:(lia)) as S2.
  split; [|split; [unfold st; rewrite A2; reflexivity|split; [exact R|split; [exact H|split; [rewrite F; apply high_refl|auto]]]]].
  destruct G as (G1 & G2 & G3 & G4 & G5 & G6 & G7 & G8 & G9 & G10 & G11 & G12 & G13 & G14 & G15). destruct H as (HC & _). unfold calm, st. rewrite A2, R.
  repeat (split; [assumption || reflexivity|]). assumption || reflexivity.
Qed.
Lemma takes_store v n i xa a x d f m o : word_is v i P_store -> addr_of xa a -> start (v_ds v) < a -> a + 8 <= limit (v_ds v) ->
  (forall k, U k -> start (v_ds v) <= k) -> (forall k, 0 <= k < 8 -> U (a + k)) -> zlen d <= 64 -> zlen f <= 64 ->
  takes_to U v n i (Conf (xa :: x :: d) f m o) (Conf d f (put_bytes m a 8 x) o).
Proof.
  intros W HA H1 H2 HU HM L1 L2. apply (takes_prim v n i P_store); [exact W|exact L1|exact L2|]. intros fuel ew u E1 E2 _ LA (S1 & S2 & S3 & S4). cbn [c_data c_float c_mem c_out] in *.
  destruct (store_ok fuel ew u x xa a d) as (u' & X1 & X2 & X3 & (X4 & X5 & X6) & X7 & O); try assumption; try lia.
  { apply LA. }
  assert (D0 : 0 < start (v_ds u)) by apply LA.
  exists u'. split; [exact X1|]. split.
  - pose proof O as (G & T & A & R & F & HH & _). unfold shows. cbn. rewrite F. split; [exact X2|]. split; [exact S2|]. split; [|destruct G as (_ & _ & _ & _ & _ & G & _); congruence].
    intros k Hk. unfold put_bytes. destruct ((a <=? k) && (k <? a + 8)) eqn:B.
    + replace k with (a + (k - a)) at 1 by lia. apply X3. lia.
    + specialize (HU k Hk). rewrite X6 by lia. apply S3; exact Hk.
  - apply (frame_memory u u' _ _ O S1 X2 X7). intros k K1 K2. apply X6; [exact K1|]. destruct (Z_lt_le_dec k a) as [L|L]; [lia|]. destruct (Z_lt_le_dec k (a + 8)) as [L'|L']; [|lia].
    exfalso. apply K2. replace k with (a + (k - a)) by lia. apply HM. lia.
Qed.
Lemma takes_c_fetch v n i xa a d f m o : word_is v i P_c_fetch -> addr_of xa a -> start (v_ds v) <= a < limit (v_ds v) -> U a -> zlen d < 64 -> zlen f <= 64 ->
  takes_to U v n i (Conf (xa :: d) f m o) (Conf (m a :: d) f m o).
Proof.
  intros W HA H1 HM L1 L2. apply (takes_prim v n i P_c_fetch); [exact W|cbn [c_data]; rewrite zlen_cons; lia|exact L2|]. intros fuel ew u E1 E2 _ LA (S1 & S2 & S3 & S4). cbn [c_data c_float c_mem c_out] in *.
  destruct (c_fetch_ok fuel ew u xa a d) as (u' & X1 & X2 & O); try assumption; try lia. rewrite S3 in X2 by exact HM.
  exists u'. split; [exact X1|]. split; [|exact (frame_data _ _ _ _ O S1 X2)]. destruct O as (G & D & T & A & R & F & HH). unfold shows. cbn. rewrite F, D.
  split; [exact X2|]. split; [exact S2|]. split; [exact S3|]. destruct G as (_ & _ & _ & _ & _ & G & _). congruence.
Qed.
Lemma takes_c_store v n i xa a x d f m o : word_is v i P_c_store -> addr_of xa a -> start (v_ds v) < a < limit (v_ds v) ->
  (forall k, U k -> start (v_ds v) <= k) -> U a -> zlen d <= 64 -> zlen f <= 64 ->
  takes_to U v n i (Conf (xa :: x :: d) f m o) (Conf d f (put_bytes m a 1 x) o).
Proof.
  intros W HA H1 HU HM L1 L2. apply (takes_prim v n i P_c_store); [exact W|exact L1|exact L2|]. intros fuel ew u E1 E2 _ LA (S1 & S2 & S3 & S4). cbn [c_data c_float c_mem c_out] in *.
  destruct (c_store_ok fuel ew u x xa a d) as (u' & X1 & X2 & X3 & (X4 & X5 & X6) & X7 & O); try assumption; try lia.
  { apply LA. }
  exists u'. split; [exact X1|]. split.
  - pose proof O as (G & T & A & R & F & HH & _). unfold shows. cbn. rewrite F. split; [exact X2|]. split; [exact S2|]. split; [|destruct G as (_ & _ & _ & _ & _ & G & _); congruence].
    intros k Hk. unfold put_bytes. destruct ((a <=? k) && (k <? a + 1)) eqn:B.
    + assert (k = a) by lia. subst k. replace (a - a) with 0 by lia. change (256 ^ 0) with 1. rewrite Z.div_1_r. exact X3.
    + specialize (HU k Hk). rewrite X6 by lia. apply S3; exact Hk.
  - apply (frame_memory u u' _ _ O S1 X2 X7). intros k K1 K2. apply X6; [exact K1|]. assert (k <> a) by congruence. lia.
Qed.

(** created words and constants *)
Lemma word_later v u i : later U v u -> 0 <= i < words v -> word_of u i = word_of v i /\ 0 <= i < wl_len (v_wl u).
Proof. intros (A1 & A2 & _) H. split; [apply A2; exact H|unfold words in *; lia]. Qed.
Lemma takes_push v n i p x d f m o : word_is v i p -> zlen d < 64 -> zlen f <= 64 ->
  (forall fuel ew u, st_wp (st u) = i -> later U v u -> (forall a, U a -> byte_at (v_ds u) a = m a) -> exec_prim fuel ew p u = s_push x u) ->
  takes_to U v n i (Conf d f m o) (Conf (x :: d) f m o).
Proof.
  intros W L1 L2 H. apply (takes_prim v n i p); [exact W|cbn [c_data]; rewrite zlen_cons; lia|exact L2|]. intros fuel ew u E1 E2 EW LA (S1 & S2 & S3 & S4). cbn [c_data c_float c_mem c_out] in *.
  exists (add_s x u). assert (CU := cur_set_s (add_item (t_s (cur u)) x) u). fold (add_s x u) in CU. pose proof (stack_has_len _ _ S1) as HN. pose proof (zlen_nonneg d) as HP.
  assert (HP2 : s_push x u = Ok (tt, add_s x u)).
  { unfold s_push, modify, add_s, s_stk. do 3 f_equal. apply add_item_push. lia. }
  split; [rewrite H by assumption; exact HP2|]. split; [unfold shows; rewrite CU; cbn; split; [apply has_add; [exact S1|lia]|auto]|].
  split; [apply (calm_add_s U); lia|]. unfold st. rewrite CU. cbn. split; [reflexivity|]. split; [reflexivity|]. split.
  - split; [reflexivity|]. intros k K1 K2 K3. unfold add_item in *. cbn in K2. rewrite sget_set_len. apply sget_sset_other; lia.
  - split; [apply high_refl|]. split; [reflexivity|]. intros; reflexivity.
Qed.
Lemma takes_var v n i d f m o : word_is v i P_p_var -> 0 <= body v i < 2 ^ 63 -> zlen d < 64 -> zlen f <= 64 ->
  takes_to U v n i (Conf d f m o) (Conf (body v i :: d) f m o).
Proof.
  intros W Hb L1 L2. apply (takes_push v n i P_p_var); [exact W|exact L1|exact L2|]. intros fuel ew u EW LA HM. destruct (word_later v u i LA (proj1 W)) as (A & B).
  cbn [exec_prim]. unfold p_var. rewrite bind_gets, EW. rewrite (bind_Ok _ _ _ _ _ (word_at_eq u i B)). change (w_dfa (wl_get (v_wl u) i)) with (w_dfa (word_of u i)). rewrite A.
  change (w_dfa (word_of v i)) with (body v i). rewrite to_i64_id by (unfold imin, imax, two63; lia). reflexivity.
Qed.
Lemma takes_const v n i x d f m o : constant_is v i x -> is_cell x -> body v i + 8 <= here (v_ds v) -> (forall k, 0 <= k < 8 -> ~ U (body v i + k)) -> zlen d < 64 -> zlen f <= 64 ->
  takes_to U v n i (Conf d f m o) (Conf (x :: d) f m o).
Proof.
  intros (W & H1 & H2 & H3) Hx H4 H5 L1 L2. apply (takes_push v n i P_p_const); [exact W|exact L1|exact L2|]. intros fuel ew u EW LA HM. destruct (word_later v u i LA (proj1 W)) as (A & B).
  destruct LA as (A1 & A2 & A3 & A4 & A5 & A6 & (D1 & D2 & D3) & A8).
  cbn [exec_prim]. unfold p_const. rewrite bind_gets, EW. rewrite (bind_Ok _ _ _ _ _ (word_at_eq u i B)). change (w_dfa (wl_get (v_wl u) i)) with (w_dfa (word_of u i)). rewrite A.
  change (w_dfa (word_of v i)) with (body v i). rewrite (bind_Ok _ _ _ x u); [reflexivity|].
  unfold ds_get. rewrite (get_isize_ok (v_ds u) (body v i) x); [reflexivity|apply in_ds_true; lia| |assumption].
  intros k Hk. rewrite A8; [apply H3; exact Hk|lia|apply H5; exact Hk].
Qed.

(** output *)
Lemma takes_emit v n i x d f m o : word_is v i P_emit -> 0 <= x < 128 -> zlen d <= 64 -> zlen f <= 64 ->
  takes_to U v n i (Conf (x :: d) f m o) (Conf d f m (match o with Some t => Some (t ++ [x]) | None => None end)).
Proof.
  intros W HX L1 L2. apply (takes_prim v n i P_emit); [exact W|exact L1|exact L2|]. intros fuel ew u E1 E2 _ LA (S1 & S2 & S3 & S4). cbn [c_data c_float c_mem c_out] in *.
  destruct (emit_ascii fuel u x d S1 HX) as (u1 & u' & X1 & O & X2 & P). pose proof (frame_data _ _ _ _ O S1 X2) as (C & FR).
  exists u'. split; [apply X1|]. pose proof O as (G & D & T & A & R & F & HH). destruct G as (_ & _ & _ & _ & _ & G & _). rewrite S4 in G. rewrite <- G.
  unfold Spec14.printed in P. destruct (v_out u1) eqn:VO; rewrite P.
  - split; [|split; [exact C|exact FR]]. unfold shows. cbn. change (cur (set_v_out _ u1)) with (cur u1). rewrite F, D. auto.
  - split; [|split; [exact C|exact FR]]. unfold shows. cbn. rewrite F, D. auto.
Qed.

Lemma takes_memory v n i xa a x d f m o :
  addr_of xa a -> start (v_ds v) < a -> a + 8 <= limit (v_ds v) -> (forall k, U k -> start (v_ds v) <= k) ->
  (forall k, 0 <= k < 8 -> U (a + k)) -> zlen d < 64 -> zlen f <= 64 ->
  (word_is v i P_fetch -> is_cell x -> (forall k, 0 <= k < 8 -> m (a + k) = x / 256 ^ k mod 256) ->
     takes_to U v n i (Conf (xa :: d) f m o) (Conf (x :: d) f m o)) /\
  (word_is v i P_store -> takes_to U v n i (Conf (xa :: x :: d) f m o) (Conf d f (put_bytes m a 8 x) o)) /\
  (word_is v i P_c_fetch -> takes_to U v n i (Conf (xa :: d) f m o) (Conf (m a :: d) f m o)) /\
  (word_is v i P_c_store -> takes_to U v n i (Conf (xa :: x :: d) f m o) (Conf d f (put_bytes m a 1 x) o)).
Proof.
  intros HA H1 H2 HU HM L1 L2. assert (U0 : U a) by (replace a with (a + 0) by lia; apply HM; lia). split; [|split; [|split]].
  - intros W Hx Hm. apply (takes_fetch v n i xa a); try assumption. intros k Hk. split; [apply HM|apply Hm]; exact Hk.
  - intros W. apply (takes_store v n i xa a); try assumption. lia.
  - intros W. apply (takes_c_fetch v n i xa a); try assumption. lia.
  - intros W. apply (takes_c_store v n i xa a); try assumption; lia.
Qed.
Lemma takes_other v n i d f m o : zlen d < 64 -> zlen f <= 64 ->
  (word_is v i P_p_var -> 0 <= body v i < 2 ^ 63 -> takes_to U v n i (Conf d f m o) (Conf (body v i :: d) f m o)) /\
  (forall x, constant_is v i x -> is_cell x -> body v i + 8 <= here (v_ds v) -> (forall k, 0 <= k < 8 -> ~ U (body v i + k)) ->
     takes_to U v n i (Conf d f m o) (Conf (x :: d) f m o)) /\
  (forall x, word_is v i P_emit -> 0 <= x < 128 ->
     takes_to U v n i (Conf (x :: d) f m o) (Conf d f m (match o with Some t => Some (t ++ [x]) | None => None end))).
Proof.
  intros L1 L2. split; [|split].
  - intros W Hb. apply takes_var; assumption.
  - intros x Hc Hx Hb Hu. apply takes_const; assumption.
  - intros x W Hx. apply takes_emit; try assumption. lia.
Qed.

(** colon definitions *)
Lemma takes_colon v n i x items c c' : ds_ok (v_ds v) -> n < 64 -> (forall k, U k -> start (v_ds v) <= k) -> here (v_ds v) <= limit (v_ds v) ->
  colon_word (fun a => start (v_ds v) <= a < here (v_ds v) /\ ~ U a) v i (seqs items) x -> chain U v (n + 1) items c c' ->
  takes_to U v n i c c'.
Proof.
  intros DV Hn HU HL HW HC u rs LA HS HR HZ HI. refine (line_calls U v (n + 1) items c c' u rs i x DV HC _ LA HS HR _ _ HI); [|lia|lia].
  pose proof LA as (A1 & A2 & A3 & A4 & A5 & A6 & A7 & A8). destruct HW as ((W1 & W2) & (W3 & W4) & W5).
  assert (WW : word_of u i = word_of v i) by (apply A2; exact W1). assert (WX : word_of u x = word_of v x) by (apply A2; exact W3).
  split; [split; [unfold words in *; lia|]; change (w_action (word_of u i) = P_nest); rewrite WW; exact W2|].
  split; [split; [unfold words in *; lia|]; change (w_action (word_of u x) = P_exit); rewrite WX; exact W4|].
  rewrite WW. assert (HK : kept (fun a => start (v_ds v) <= a < here (v_ds v) /\ ~ U a) v u).
  { split; [exact A4|]. split; [exact A5|]. split; [intros a (Ha & Hu); apply A8; assumption|]. intros j q _ (J1 & J2).
    split; [unfold words in *; lia|]. change (w_action (word_of u j) = q). rewrite A2 by exact J1. exact J2. }
  destruct (holds_kept _ _ _ _ _ HK W5) as (H1 & H2 & H3). split; [exact H1|]. split; [exact H2|]. eapply laid_mono; [|exact H3].
  intros a (Ha & Hu). split; [|exact Hu]. rewrite A4, A5. lia.
Qed.
End U.
End A.
