(** The text and dump words of core.fth. *)
From Coq Require Import ZArith List Bool Lia ZifyBool ZifyNat.
From Verif Require Import Base Stack Mem Flt State CoreM IoM Exec LBase LStack Spec Spec2 Spec4 Spec5 Spec6 Spec7 Spec9 Spec10 Spec11 Spec14 Spec15 Spec16 Spec17 Spec24 Spec25
  LState LMem LMon LMemWords LSafe LTask LFuel LCode LComp LRun LCtl LFloat LWords LSay LLib LLibWords LDefine LDefine2 LSource LNum2 LSys LSys2 LPrint LPrint2.
Import ListNotations.
Import Spec14.
Open Scope list_scope.
Open Scope Z_scope.
Open Scope m_scope.

Section W.
Context {E : Env}.
Ltac wraps := match goal with H : wraps_to ?e ?y |- _ => let Hc := fresh in let q := fresh in let Hq := fresh in
  replace y with e in * by (destruct H as [Hc [q Hq]]; unfold is_cell in *; lia); clear H end.
Lemma and_is x : effect_is P_and [127; x] [x mod 128].
Proof.
  replace (x mod 128) with (Z.land 127 x); [exact (bin2_effect P_and (fun n t => Z.land t n) x 127 ltac:(reflexivity))|].
  rewrite Z.land_comm. change 127 with (Z.ones 7). rewrite Z.land_ones by lia. reflexivity.
Qed.
Lemma xor_is x y : effect_is P_xor [y; x] [Z.lxor y x].
Proof. exact (bin2_effect P_xor (fun n t => Z.lxor t n) x y ltac:(reflexivity)). Qed.
Lemma pad_run : lib_run 240 d_pad [] [] (fun _ _ v => here (v_ds v) + 519 < 2 ^ 63)
  (fun v outs fouts m text => (exists t, outs = [t] /\ least_multiple 8 (here (v_ds v) + 512) t) /\ fouts = [] /\ m = v_ds v /\ text = []).
Proof.
  runs_. room. seqs. eapply wp_here; [known_word|eassumption|assumption|wlen|]. intros ?u ?I. by_num. by_effect (plus_spec (here (v_ds v)) 512). wraps.
  eapply wp_aligned; [known_word|eassumption|lia|lia|apply least_align8|]. intros ?u ?I.
  exists [align8 (here (v_ds v) + 512)], [], (v_ds v), []. split; [|eassumption]. split; [|auto]. eexists. split; [reflexivity|apply least_align8].
Qed.
Lemma const_now v d r f m o u i x : inv v d r f m o u -> m = v_ds v -> ds_ok (v_ds v) -> constant_is v i x -> is_cell x -> pushes u i x.
Proof.
  intros HI -> HD (A1 & A2 & A3 & A4) Hx. assert (Ed : v_ds u = v_ds v) by apply HI. assert (Ew : v_wl u = v_wl v) by (eapply inv_wl; exact HI).
  apply constant_pushes; [rewrite Ed; exact HD| |exact Hx]. unfold constant_is, word_is, body, word_of in *. rewrite Ed, Ew. auto.
Qed.
Lemma to_char_run bl x : lib_run 240 (fun ix => d_to_char ix bl) [x] [] (fun _ _ v => constant_is v bl 32)
  (fun v outs fouts m text => (exists y, outs = [y] /\ shown x y) /\ fouts = [] /\ m = v_ds v /\ text = []).
Proof.
  runs_. by_num. by_is (and_is x). by_is (dup_effect (x mod 128)).
  seqs. eapply wp_const; [eapply const_now; [eassumption|reflexivity|eassumption|eassumption|red; lia]|eassumption|wlen|]. intros ?u ?I.
  by_num. by_is (within_effect (x mod 128) 32 127). by_is (invert_is (flag ((32 <=? x mod 128) && (x mod 128 <? 127)))).
  seqs. eapply wp_if_then; [eassumption| |].
  - intros Hx ?u ?J. by_is (drop_effect (x mod 128)). by_num. exists [95], [], (v_ds v), []. split; [|eassumption]. split; [|auto].
    exists 95. split; [reflexivity|]. right. split; [|reflexivity]. intro. apply Hx.
    replace ((32 <=? x mod 128) && (x mod 128 <? 127)) with true by lia. reflexivity.
  - intros Hx ?u ?J. exists [x mod 128], [], (v_ds v), []. split; [|eassumption]. split; [|auto]. exists (x mod 128). split; [reflexivity|]. left.
    split; [|reflexivity]. destruct ((32 <=? x mod 128) && (x mod 128 <? 127)) eqn:B; [lia|]. discriminate Hx.
Qed.
Lemma append_run a1 n a2 count : lib_run 235 (fun ix => d_append ix count) [a2; n; a1] []
  (fun K ix v => lib_word d_count count K ix v /\ 0 < n /\ start (v_ds v) < a1 /\ a1 + n <= limit (v_ds v) /\ 0 <= byte_at (v_ds v) a2 < 256 /\
     free_of K v a2 (1 + byte_at (v_ds v) a2 + n))
  (fun v outs fouts m text => outs = [] /\ fouts = [] /\ text = [] /\ appended (v_ds v) m a1 n a2).
Proof.
  runs_. destruct HP as (HC & Hn & A1 & A2 & A3 & P1 & P2 & P3). room. set (k := byte_at (v_ds v) a2) in *.
  by_stacks (two_to_r_eff n a2) (a1 :: rest) (r :: rs) fs; [wlen|]. by_stacks (two_r_fetch_eff n a2) (a1 :: rest) (r :: rs) fs; [wlen|].
  act (count_lib a2) K; [eapply kept_inv; eassumption|exact HD|rewrite (proj1 (proj2 I1)); lia|].
  intros outs text w (-> & E2 & ->) J. rewrite (proj1 (proj2 I1)) in E2. rewrite E2, said_nil in J. cbn [app] in J. rewrite (proj1 (proj2 I1)) in J. fold k in J.
  by_effect (plus_spec (a2 + 1) k). wraps. by_is (swap_effect n (a2 + 1 + k)).
  seqs. eapply wp_move; [known_word|eassumption|assumption|lia|lia|lia|lia|lia|intros j Hj; specialize (P3 j Hj); lia|].
  intros w1 m1 (X1 & X2 & X3 & X4) J1.
  assert (HD1 : ds_ok m1) by (unfold ds_ok, start, limit, here in *; rewrite X1, X2, X3; exact HD).
  assert (G1 : start m1 = start (v_ds v) /\ limit m1 = limit (v_ds v) /\ here m1 = here (v_ds v)) by (unfold start, limit, here; rewrite X1, X2, X3; auto).
  destruct G1 as (G1 & G2 & G3).
  assert (B2 : byte_at m1 a2 = k). { rewrite X4 by lia. replace ((a2 + 1 + k <=? a2) && (a2 <? a2 + 1 + k + n)) with false by lia. reflexivity. }
  by_stacks (two_r_from_eff n a2) rest (r :: rs) fs; [wlen|]. by_is (dup_effect a2). by_stacks (to_r_eff a2) (a2 :: n :: rest) (r :: rs) fs; [wlen|].
  seqs. eapply wp_c_fetch; [known_word|eassumption|assumption|lia|]. intros ?u ?I. rewrite B2 in *.
  by_effect (plus_spec n k). by_stacks (r_from_eff a2) (y0 :: rest) (r :: rs) fs; [wlen|].
  eapply wp_c_store; [known_word|eassumption|assumption|lia|intros j Hj; specialize (P3 j Hj); lia|].
  intros w2 m2 (Y1 & Y2 & Y3) C2 G4 J2. exists [], [], m2, []. split; [|exact J2]. split; [reflexivity|]. split; [reflexivity|]. split; [reflexivity|].
  split; [congruence|]. split; [congruence|]. split; [congruence|]. cbv zeta. fold k. split; [|split].
  - rewrite C2. match goal with H : wraps_to (n + k) y0 |- _ => destruct H as [_ [q Hq]] end. replace (k + n) with (y0 + q * 2 ^ 56 * 256) by lia.
    rewrite Z.mod_add by lia. reflexivity.
  - intros i Hi. rewrite Y3 by lia. rewrite X4 by lia. replace ((a2 + 1 + k <=? a2 + 1 + k + i) && (a2 + 1 + k + i <? a2 + 1 + k + n)) with true by lia. f_equal. lia.
  - intros i Hi N D. rewrite Y3 by lia. rewrite X4 by lia. replace ((a2 + 1 + k <=? i) && (i <? a2 + 1 + k + n)) with false by lia. reflexivity.
Qed.

(** ** Dump *)
Lemma same_data_refl d : same_data d d. Proof. split; [apply same_refl|reflexivity]. Qed.
Lemma same_data_trans d1 d2 d3 : same_data d1 d2 -> same_data d2 d3 -> same_data d1 d3.
Proof.
  intros ((A1 & A2 & A3) & A4) ((B1 & B2 & B3) & B4). split; [|congruence]. split; [congruence|]. split; [congruence|].
  intros i Hi _. rewrite B3 by lia. apply A3; lia.
Qed.
Lemma same_data_ok d d' : same_data d d' -> ds_ok d -> ds_ok d'.
Proof. intros ((A1 & A2 & A3) & A4) H. unfold ds_ok. rewrite A1, A2, A4. exact H. Qed.
Lemma same_data_byte d d' i : same_data d d' -> start d <= i -> byte_at d' i = byte_at d i.
Proof. intros ((A1 & A2 & A3) & A4) H. apply A3; lia. Qed.
Lemma same_data_cell d d' a x : same_data d d' -> start d <= a -> cell_at d a x -> cell_at d' a x.
Proof. intros ((A1 & A2 & A3) & A4) H C k Hk. rewrite A3 by lia. apply C. exact Hk. Qed.
Lemma same_data_kept (K : Z -> Prop) v d r f m o u : inv v d r f m o u -> same_data (v_ds v) m -> (forall k, K k -> start (v_ds v) <= k) -> ds_ok (v_ds v) -> kept K v u.
Proof.
  intros HI [HS _] HK HD. eapply kept_of; [exact HI|exact HS|]. intros k Hk. specialize (HK k Hk). destruct HD as (D & _). lia.
Qed.
Lemma same_data_base b (K : Z -> Prop) v u : same_data (v_ds v) (v_ds u) -> base_cell b K v -> base_cell b K u.
Proof.
  intros HS (B1 & B2 & B3 & B4 & B5). pose proof (same_base _ _ HS) as EB. pose proof HS as ((A1 & A2 & A3) & A4). unfold base_cell, free_of. rewrite EB, A1, A2.
  split; [eapply same_data_cell; [exact HS|lia|exact B1]|auto].
Qed.
Lemma same_data_const i x v u : same_data (v_ds v) (v_ds u) -> v_wl u = v_wl v -> constant_is v i x -> constant_is u i x.
Proof.
  intros HS Ew (A1 & A2 & A3 & A4). pose proof HS as ((B1 & B2 & _) & _). unfold constant_is, word_is, body, word_of in *. rewrite Ew, B1, B2.
  split; [exact A1|]. split; [exact A2|]. split; [exact A3|]. eapply same_data_cell; [exact HS|lia|exact A4].
Qed.
Lemma written_16 n t : 0 <= n < 2 ^ 63 -> written 16 n t -> unsigned_in 16 n t.
Proof.
  intros Hn [[H _]|[_ (m & Hm & [Hc [q Hq]] & HU)]]; [discriminate|]. replace n with m by lia. exact HU.
Qed.
Lemma lxor_zero x y : Z.lxor x y = 0 <-> x = y. Proof. apply Z.lxor_eq_0_iff. Qed.

Lemma type_run a n bounds count to_char bl : 0 <= n -> lib_run 230 (fun ix => d_type ix bounds count to_char) [n; a] []
  (fun K ix v => lib_word d_bounds bounds K ix v /\ lib_word d_count count K ix v /\ lib_word (fun ix => d_to_char ix bl) to_char K ix v /\
     constant_is v bl 32 /\ start (v_ds v) <= a /\ a + n <= limit (v_ds v))
  (fun v outs fouts m text => outs = [] /\ fouts = [] /\ m = v_ds v /\ text_column (v_ds v) a n text).
Proof.
  intro Hn. runs_. destruct HP as (C1 & C2 & C3 & CB & A1 & A2). room.
  seqs. eapply (wp_stacks K) with (1 := bounds_lib a n); [eassumption|exact C1|eapply kept_inv; eassumption|cbn [app]; eassumption|wlen|wlen|].
  intros ? w (e & -> & HW) J. wraps. cbn [app] in J. seqs.
  set (II := fun (j : nat) w => exists k t, 0 <= k <= n /\ j = Z.to_nat (n - k) /\ text_column (v_ds v) a k t /\
     inv v (a + k :: a + n :: rest) (r :: rs) fs (v_ds v) (said (v_out v) t) w).
  eapply (wp_while K _ _ II) with (n := Z.to_nat n).
  2:{ exists 0, []. split; [lia|]. split; [f_equal; lia|]. split; [|replace (a + 0) with a by lia; exact J]. split; [reflexivity|]. intros [|k0] y Hy; discriminate. }
  intros j w1 (k & t & K1 & K2 & K3 & J1). by_is (two_dup_effect (a + n) (a + k)). by_is (xor_is (a + n) (a + k)).
  eexists v, (Z.lxor (a + k) (a + n)), (a + k :: a + n :: rest), (r :: rs), fs, (v_ds v), (said (v_out v) t). split; [eassumption|]. split.
  - intros Hx w' J'. apply (proj1 (lxor_zero _ _)) in Hx. by_is (two_drop_effect (a + n) (a + k)). exists [], [], (v_ds v), t.
    split; [|eassumption]. split; [reflexivity|]. split; [reflexivity|]. split; [reflexivity|]. assert (Ekn : k = n) by lia. rewrite <- Ekn. exact K3.
  - intros Hx. assert (HN : k <> n) by (intros ->; apply Hx; apply lxor_zero; reflexivity). exists (Z.to_nat (n - (k + 1))). split; [lia|]. intros w' J'.
    act (count_lib (a + k)) K; [eapply kept_inv; eassumption|exact HD|rewrite (proj1 (proj2 J')); lia|].
    intros ? ? w2 (-> & E2 & ->) J2. rewrite (proj1 (proj2 J')) in E2. rewrite E2, said_nil in J2. cbn [app] in J2. rewrite (proj1 (proj2 J')) in J2.
    seqs. eapply (wp_run K) with (1 := to_char_run bl (byte_at (v_ds v) (a + k))); [eassumption|exact C3|eapply kept_inv; eassumption|cbn [app]; eassumption|wlen|wlen|wlen|assumption| |].
    { apply (same_data_const bl 32 v w2); [rewrite E2; apply same_data_refl|eapply inv_wl; eassumption|exact CB]. }
    intros ? ? ? w3 ((y & -> & HY) & -> & E3 & ->) J3. rewrite E2 in E3. rewrite E3, said_nil in J3. cbn [app] in J3.
    eapply wp_emit; [known_word|eassumption| |].
    { unfold shown in HY. pose proof (Z.mod_pos_bound (byte_at (v_ds v) (a + k)) 128 ltac:(lia)). lia. }
    intros w4 J4. rewrite said_app in J4. exists (k + 1), (t ++ [y]). split; [lia|]. split; [reflexivity|]. split; [|replace (a + (k + 1)) with (a + k + 1) by lia; exact J4].
    destruct K3 as [L3 K3]. split; [rewrite zlen_app; change (zlen [y]) with 1; lia|]. intros i z Hz.
    destruct (Nat.ltb_spec i (length t)) as [Hl|Hl].
    + rewrite nth_error_app1 in Hz by exact Hl. apply K3. exact Hz.
    + rewrite nth_error_app2 in Hz by exact Hl. destruct (i - length t)%nat as [|q] eqn:Q; [|destruct q; discriminate Hz]. injection Hz as <-.
      replace (Z.of_nat i) with k by (unfold zlen in L3; lia). exact HY.
Qed.
Lemma dump1_run a n bounds count hdot_r hex b : 0 <= n -> lib_run 225 (fun ix => d_dump1 ix bounds count hdot_r) [n; a] []
  (fun K ix v => lib_word d_bounds bounds K ix v /\ lib_word d_count count K ix v /\ lib_word (fun ix => d_hdot_r ix hex) hdot_r K ix v /\ lib_word d_hex hex K ix v /\
     base_cell b K v /\ bytes_ok (v_ds v) /\ start (v_ds v) <= a /\ a + n <= limit (v_ds v))
  (fun v outs fouts m text => outs = [] /\ fouts = [] /\ same_data (v_ds v) m /\ hex_column (v_ds v) a n text).
Proof.
  intro Hn. runs_. destruct HP as (C1 & C2 & C3 & C4 & HB & HM & A1 & A2). room.
  assert (HK : forall k, K k -> start (v_ds v) <= k) by (intros k Hk; destruct HB as (_ & _ & _ & _ & HB); apply (HB k Hk)).
  seqs. eapply (wp_stacks K) with (1 := bounds_lib a n); [eassumption|exact C1|eapply kept_inv; eassumption|cbn [app]; eassumption|wlen|wlen|].
  intros ? w (e & -> & HW) J. wraps. cbn [app] in J. seqs.
  set (II := fun (j : nat) w => exists k t m, 0 <= k <= n /\ j = Z.to_nat (n - k) /\ hex_column (v_ds v) a k t /\ same_data (v_ds v) m /\
     inv v (a + k :: a + n :: rest) (r :: rs) fs m (said (v_out v) t) w).
  eapply (wp_while K _ _ II) with (n := Z.to_nat n).
  2:{ exists 0, [], (v_ds v). split; [lia|]. split; [f_equal; lia|]. split; [|split; [apply same_data_refl|replace (a + 0) with a by lia; exact J]].
      exists []. split; [reflexivity|]. split; [reflexivity|]. intros [|k0] y Hy; discriminate. }
  intros j w1 (k & t & m & K1 & K2 & K3 & K4 & J1). by_is (two_dup_effect (a + n) (a + k)). by_is (xor_is (a + n) (a + k)).
  pose proof (same_data_ok _ _ K4 HD) as HDm. pose proof K4 as ((X1 & X2 & _) & X4).
  eexists v, (Z.lxor (a + k) (a + n)), (a + k :: a + n :: rest), (r :: rs), fs, m, (said (v_out v) t). split; [eassumption|]. split.
  - intros Hx w' J'. apply (proj1 (lxor_zero _ _)) in Hx. by_is (two_drop_effect (a + n) (a + k)). exists [], [], m, t.
    split; [|eassumption]. split; [reflexivity|]. split; [reflexivity|]. split; [exact K4|]. assert (Ekn : k = n) by lia. rewrite <- Ekn. exact K3.
  - intros Hx. assert (HN : k <> n) by (intros ->; apply Hx; apply lxor_zero; reflexivity). exists (Z.to_nat (n - (k + 1))). split; [lia|]. intros w' J'.
    act (count_lib (a + k)) K; [eapply same_data_kept; eassumption|exact HDm|rewrite (proj1 (proj2 J')); lia|].
    intros ? ? w2 (-> & E2 & ->) J2. rewrite (proj1 (proj2 J')) in E2. rewrite E2, said_nil in J2. cbn [app] in J2. rewrite (proj1 (proj2 J')) in J2.
    rewrite (same_data_byte _ _ (a + k) K4 ltac:(lia)) in J2. pose proof (HM (a + k) ltac:(lia)) as HBy. by_num.
    seqs. eapply (wp_run K) with (1 := hdot_r_run (byte_at (v_ds v) (a + k)) b 3 hex ltac:(red; lia) ltac:(lia));
      [eassumption|exact C3|eapply same_data_kept; eassumption|cbn [app]; eassumption|wlen|wlen|wlen|assumption| |].
    { assert (Em : v_ds u2 = m) by apply I2. split; [apply (same_data_base b K v u2); [rewrite Em; exact K4|exact HB]|].
      eapply colon_eq; [eapply inv_wl; eassumption|eapply same_data_kept; eassumption|exact C4]. }
    intros ? ? ? w3 (-> & -> & E3 & x & HX & ->) J3. rewrite (proj1 (proj2 I2)) in E3. rewrite said_app in J3. cbn [app] in J3.
    exists (k + 1), (t ++ field 3 x), (v_ds w3). split; [lia|]. split; [reflexivity|]. split; [|split; [eapply same_data_trans; eassumption|replace (a + (k + 1)) with (a + k + 1) by lia; exact J3]].
    destruct K3 as (ts & L3 & -> & K3). exists (ts ++ [field 3 x]). split; [rewrite zlen_app; change (zlen [field 3 x]) with 1; lia|].
    split; [rewrite concat_app; cbn [concat]; rewrite app_nil_r; reflexivity|]. intros i z Hz.
    destruct (Nat.ltb_spec i (length ts)) as [Hl|Hl].
    + rewrite nth_error_app1 in Hz by exact Hl. apply K3. exact Hz.
    + rewrite nth_error_app2 in Hz by exact Hl. destruct (i - length ts)%nat as [|q] eqn:Q; [|destruct q; discriminate Hz]. injection Hz as <-.
      replace (Z.of_nat i) with k by (unfold zlen in L3; lia). exists x. split; [|reflexivity]. apply written_16; [lia|exact HX].
Qed.
Lemma rows_same d d' e a t : same_data d d' -> start d <= a -> dump_rows d' e a t -> dump_rows d e a t.
Proof.
  intros HS Ha H. induction H as [a He|a t r He (ad & h & x & U & (ts & T1 & T2 & T3) & (X1 & X2) & ->) HR IH]; [apply DR_end; exact He|].
  apply DR_row; [exact He| |apply IH; lia]. exists ad, h, x. split; [exact U|]. split; [|split; [|reflexivity]].
  - exists ts. split; [exact T1|]. split; [exact T2|]. intros k y Hy. destruct (T3 k y Hy) as (q & Q1 & Q2). exists q.
    rewrite (same_data_byte _ _ (a + Z.of_nat k) HS ltac:(lia)) in Q1. auto.
  - split; [exact X1|]. intros k y Hy. rewrite <- (same_data_byte _ _ (a + Z.of_nat k) HS ltac:(lia)). apply X2. exact Hy.
Qed.
Definition rows_so_far (d : dspace) (e a k : Z) (t : bytes) : Prop := forall r, dump_rows d e (a + 8 * k) r -> dump_rows d e a (t ++ r).
Lemma dump_run a n bounds count to_char bl hdot_r hex space dump1 type1 cr b : 0 <= n -> lib_run 220 (fun ix => d_dump ix bounds hdot_r space dump1 type1 cr) [n; a] []
  (fun K ix v => lib_word d_bounds bounds K ix v /\ lib_word d_count count K ix v /\ lib_word (fun ix => d_to_char ix bl) to_char K ix v /\ constant_is v bl 32 /\
     lib_word (fun ix => d_hdot_r ix hex) hdot_r K ix v /\ lib_word d_hex hex K ix v /\ lib_word d_space space K ix v /\ lib_word d_cr cr K ix v /\
     lib_word (fun ix => d_dump1 ix bounds count hdot_r) dump1 K ix v /\ lib_word (fun ix => d_type ix bounds count to_char) type1 K ix v /\
     base_cell b K v /\ bytes_ok (v_ds v) /\ start (v_ds v) <= a /\ a + n <= limit (v_ds v) /\ a + (n + 7) / 8 * 8 <= limit (v_ds v))
  (fun v outs fouts m text => outs = [] /\ fouts = [] /\ same_data (v_ds v) m /\ dump_rows (v_ds v) (a + n) a text).
Proof.
  intro Hn. runs_. destruct HP as (C1 & C2 & C3 & CB & C4 & C5 & C6 & C7 & C8 & C9 & HB & HM & A1 & A2 & A3). room.
  assert (HK : forall k, K k -> start (v_ds v) <= k) by (intros k Hk; destruct HB as (_ & _ & _ & _ & HB); apply (HB k Hk)).
  seqs. eapply (wp_stacks K) with (1 := bounds_lib a n); [eassumption|exact C1|eapply kept_inv; eassumption|cbn [app]; eassumption|wlen|wlen|].
  intros ? w (e & -> & HW) J. wraps. cbn [app] in J. seqs.
  set (II := fun (j : nat) w => exists k t m, 0 <= k /\ 8 * (k - 1) < n /\ j = Z.to_nat (n - 8 * k) /\ rows_so_far (v_ds v) (a + n) a k t /\ same_data (v_ds v) m /\
     inv v (a + 8 * k :: a + n :: rest) (r :: rs) fs m (said (v_out v) t) w).
  eapply (wp_while K _ _ II) with (n := Z.to_nat n).
  2:{ exists 0, [], (v_ds v). split; [lia|]. split; [lia|]. split; [f_equal; lia|]. split; [intros r0; replace (a + 8 * 0) with a by lia; auto|].
      split; [apply same_data_refl|replace (a + 8 * 0) with a by lia; exact J]. }
  intros j w1 (k & t & m & K1 & K1' & K2 & K3 & K4 & J1). by_is (two_dup_effect (a + n) (a + 8 * k)). by_is (swap_effect (a + n) (a + 8 * k)).
  by_effect (less_than_spec (a + 8 * k) (a + n)). destruct (truth_case _ _ H5) as [T1 T2].
  pose proof (same_data_ok _ _ K4 HD) as HDm. pose proof K4 as ((X1 & X2 & _) & X4).
  exists v, y, (a + 8 * k :: a + n :: rest), (r :: rs), fs, m, (said (v_out v) t). split; [eassumption|]. split.
  - intros Hy w' J'. specialize (T2 Hy). by_is (two_drop_effect (a + n) (a + 8 * k)). exists [], [], m, t.
    split; [|eassumption]. split; [reflexivity|]. split; [reflexivity|]. split; [exact K4|]. rewrite <- (app_nil_r t). apply K3. apply DR_end. lia.
  - intros Hy. specialize (T1 Hy). exists (Z.to_nat (n - 8 * (k + 1))). split; [lia|]. intros w' J'.
    assert (HR : a + 8 * k + 8 <= limit (v_ds v)). { assert (k < (n + 7) / 8) by (assert (k + 1 <= (n + 7) / 8); [apply Z.div_le_lower_bound; lia|lia]). lia. }
    by_is (dup_effect (a + 8 * k)). by_num.
    seqs. eapply (wp_run K) with (1 := hdot_r_run (a + 8 * k) b 4 hex ltac:(red; lia) ltac:(lia));
      [eassumption|exact C4|eapply same_data_kept; eassumption|cbn [app]; eassumption|wlen|wlen|wlen|assumption| |].
    { match goal with J9 : inv _ (4 :: _) _ _ _ _ ?w9 |- _ => assert (Em : v_ds w9 = m) by apply J9; split; [apply (same_data_base b K v w9); [rewrite Em; exact K4|exact HB]|] end.
      eapply colon_eq; [eapply inv_wl; eassumption|eapply same_data_kept; eassumption|exact C5]. }
    intros ? ? ? w3 (-> & -> & E3 & ad & HA & ->) J3. match goal with J9 : inv _ (4 :: _) _ _ _ _ ?w9 |- _ => rewrite (proj1 (proj2 J9)) in E3 end.
    apply written_16 in HA; [|lia]. cbn [app] in J3. pose proof (same_data_trans _ _ _ K4 E3) as K5. set (m3 := v_ds w3) in *.
    pose proof (same_data_ok _ _ K5 HD) as HD3. by_num.
    seqs. eapply wp_emit; [known_word|eassumption|lia|]. intros w4 J4.
    act (@space_lib E) K; [eapply same_data_kept; eassumption|exact HD3|exact Logic.I|].
    intros ? ? w5 (-> & E5 & ->) J5. rewrite (proj1 (proj2 J4)) in E5. rewrite E5 in J5. cbn [app] in J5. by_num. by_is (two_dup_effect (a + 8 * k) 8).
    seqs. match goal with J9 : inv _ (8 :: _ :: 8 :: _) _ _ _ _ ?w9 |- _ => rename J9 into J6; rename w9 into w6 end. assert (E6 : v_ds w6 = m3) by apply J6.
    eapply (wp_run K) with (1 := dump1_run (a + 8 * k) 8 bounds count hdot_r hex b ltac:(lia));
      [eassumption|exact C8|eapply same_data_kept; eassumption|cbn [app]; eassumption|wlen|wlen|wlen|assumption| |].
    { assert (EW : v_wl w6 = v_wl v) by (eapply inv_wl; eassumption). assert (HKK : kept K v w6) by (eapply same_data_kept; eassumption).
      split; [eapply colon_eq; [exact EW|exact HKK|exact C1]|]. split; [eapply colon_eq; [exact EW|exact HKK|exact C2]|].
      split; [eapply colon_eq; [exact EW|exact HKK|exact C4]|]. split; [eapply colon_eq; [exact EW|exact HKK|exact C5]|].
      split; [apply (same_data_base b K v w6); [rewrite E6; exact K5|exact HB]|]. destruct K5 as ((Z1 & Z2 & Z3) & Z4).
      rewrite E6. split; [|rewrite Z1, Z2; lia]. intros i Hi. rewrite Z3 by lia. apply HM. lia. }
    intros ? ? ? w7 (-> & -> & E7 & HH) J7. rewrite E6 in E7, HH. cbn [app] in J7. pose proof (same_data_trans _ _ _ K5 E7) as K7. set (m7 := v_ds w7) in *.
    pose proof (same_data_ok _ _ K7 HD) as HD7. rename text into hx.
    act (@space_lib E) K; [eapply same_data_kept; eassumption|exact HD7|exact Logic.I|].
    intros ? ? w8 (-> & E8 & ->) J8. rewrite (proj1 (proj2 J7)) in E8. fold m7 in E8. rewrite E8 in J8. cbn [app] in J8.
    act (@space_lib E) K; [eapply same_data_kept; eassumption|exact HD7|exact Logic.I|].
    intros ? ? w9 (-> & E9 & ->) J9. rewrite (proj1 (proj2 J8)) in E9. rewrite E9 in J9. cbn [app] in J9.
    by_is (two_dup_effect (a + 8 * k) 8). match goal with J9 : inv _ (8 :: _ :: 8 :: _) _ _ m7 _ ?w9 |- _ => rename J9 into J10; rename w9 into w10 end. assert (E10 : v_ds w10 = m7) by apply J10.
    seqs. eapply (wp_run K) with (1 := type_run (a + 8 * k) 8 bounds count to_char bl ltac:(lia));
      [eassumption|exact C9|eapply same_data_kept; eassumption|cbn [app]; eassumption|wlen|wlen|wlen|assumption| |].
    { assert (EW : v_wl w10 = v_wl v) by (eapply inv_wl; eassumption). assert (HKK : kept K v w10) by (eapply same_data_kept; eassumption).
      split; [eapply colon_eq; [exact EW|exact HKK|exact C1]|]. split; [eapply colon_eq; [exact EW|exact HKK|exact C2]|].
      split; [eapply colon_eq; [exact EW|exact HKK|exact C3]|].
      split; [apply (same_data_const bl 32 v w10); [rewrite E10; exact K7|exact EW|exact CB]|]. destruct K7 as ((Z1 & Z2 & Z3) & Z4).
      rewrite E10, Z1, Z2. lia. }
    intros ? ? tx w11 (-> & -> & E11 & HT) J11. rewrite E10 in E11, HT. rewrite E11 in J11. cbn [app] in J11.
    by_effect (plus_spec (a + 8 * k) 8). wraps.
    act (@cr_lib E) K; [eapply same_data_kept; eassumption|exact HD7|exact Logic.I|].
    match goal with J9 : inv _ (a + 8 * k + 8 :: _) _ _ m7 _ ?w9 |- _ => rename J9 into J12 end.
    intros ? ? w13 (-> & E13 & ->) J13. rewrite (proj1 (proj2 J12)) in E13. rewrite E13 in J13. cbn [app] in J13. rewrite !said_app in J13.
    exists (k + 1), (t ++ (field 4 ad ++ [58; 32] ++ hx ++ [32; 32] ++ tx ++ [10])), m7. split; [lia|]. split; [lia|]. split; [reflexivity|]. split; [|split; [exact K7|]].
    + intros r0 HR0. rewrite <- app_assoc. apply K3. apply DR_row; [lia| |replace (a + 8 * k + 8) with (a + 8 * (k + 1)) by lia; exact HR0].
      exists ad, hx, tx. split; [exact HA|]. split; [|split; [|reflexivity]].
      * destruct HH as (ts & Y1 & Y2 & Y3). exists ts. split; [exact Y1|]. split; [exact Y2|]. intros i x Hx. destruct (Y3 i x Hx) as (q & Q1 & Q2).
        exists q. rewrite (same_data_byte _ _ (a + 8 * k + Z.of_nat i) K5 ltac:(lia)) in Q1. auto.
      * destruct HT as (Y1 & Y2). split; [exact Y1|]. intros i x Hx. rewrite <- (same_data_byte _ _ (a + 8 * k + Z.of_nat i) K7 ltac:(lia)). apply Y2. exact Hx.
    + replace (a + 8 * (k + 1)) with (a + 8 * k + 8) by lia. cbn [app] in J13 |- *. rewrite <- ?app_assoc in J13. cbn [app] in J13. exact J13.
Qed.
End W.
