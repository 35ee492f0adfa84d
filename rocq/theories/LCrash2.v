(** Code made of harmless words runs without a crash: the return stack and the inner interpreter (C40). *)
From Coq Require Import ZArith List Bool Lia ZifyBool ZifyNat.
From Verif Require Import Base Stack Mem Parser Flt State CoreM IoM FloatM FileM Exec.
From Verif Require Import LBase LStack Spec Spec4 Spec5 Spec10 Spec11 Spec23 LState LMem LMon LStep LTask LCode LCtl LTame LCrash.
Import ListNotations.
Open Scope Z_scope.
Open Scope m_scope.

(** ** Return addresses *)
Section R.
Variable C : Z -> Prop.
Implicit Types (s : stack Z).
Definition okr (x : Z) : Prop := to_u64 x = 0 \/ C (to_u64 x).
(** either every slot is fine, or the newest [d] are, the oldest of which ends the run *)
Definition ret_ok s : Prop :=
  (forall k, 0 <= k < 256 -> okr (sget s k)) \/
  (exists d, 1 <= d < 256 /\ (forall k, 1 <= k <= d -> okr (sget s ((len s - k) mod 256))) /\ to_u64 (sget s ((len s - d) mod 256)) = 0).

Lemma mod_shift l k : (((l + 1) mod 256) - k) mod 256 = (l + 1 - k) mod 256.
Proof. rewrite Zminus_mod_idemp_l. reflexivity. Qed.
Lemma mod_back l k : (((l - 1) mod 256) - k) mod 256 = (l - 1 - k) mod 256.
Proof. rewrite Zminus_mod_idemp_l. reflexivity. Qed.
Lemma mod_apart l k : 1 <= k < 256 -> (l - k) mod 256 <> l mod 256.
Proof. intros H K. pose proof (Z.div_mod (l - k) 256). pose proof (Z.div_mod l 256). lia. Qed.

Definition push_ra s x : stack Z := sset (set_len s (w8add (len s) 1)) (w8sub (w8add (len s) 1) 1) x.
Lemma push_slot s x : push_ra s x = sset (set_len s ((len s + 1) mod 256)) (len s mod 256) x.
Proof. unfold push_ra, w8add, w8sub. rewrite mod_shift. do 2 f_equal. lia. Qed.
Lemma push_get s x j : 0 <= j < 256 -> sget (push_ra s x) j = x \/ (j <> len s mod 256 /\ sget (push_ra s x) j = sget s j).
Proof.
  intro Hj. rewrite push_slot. pose proof (Z.mod_pos_bound (len s) 256). destruct (Z.eq_dec j (len s mod 256)) as [->|N].
  - left. apply sget_sset_same.
  - right. split; [exact N|]. rewrite sget_sset_other by lia. reflexivity.
Qed.
Lemma push_top s x : sget (push_ra s x) ((len (push_ra s x) - 1) mod 256) = x.
Proof.
  rewrite push_slot. rewrite len_sset, len_set_len, mod_shift. replace (len s + 1 - 1) with (len s) by lia. apply sget_sset_same.
Qed.
Lemma push_below s x k : 1 <= k < 256 -> sget (push_ra s x) ((len (push_ra s x) - (k + 1)) mod 256) = sget s ((len s - k) mod 256).
Proof.
  intro Hk. rewrite push_slot. rewrite len_sset, len_set_len, mod_shift. replace (len s + 1 - (k + 1)) with (len s - k) by lia.
  pose proof (Z.mod_pos_bound (len s) 256). pose proof (Z.mod_pos_bound (len s - k) 256). pose proof (mod_apart (len s) k Hk).
  rewrite sget_sset_other by lia. reflexivity.
Qed.
Lemma push_first s x : to_u64 x = 0 -> ret_ok (push_ra s x).
Proof.
  intro Hx. right. exists 1. split; [lia|]. split.
  - intros k Hk. replace k with 1 by lia. rewrite push_top. left. exact Hx.
  - rewrite push_top. exact Hx.
Qed.
Lemma push_more s x : ret_ok s -> okr x -> ret_ok (push_ra s x).
Proof.
  intros [A|(d & Hd & A & B)] Hx.
  - left. intros k Hk. destruct (push_get s x k Hk) as [-> |(_ & ->)]; auto.
  - destruct (Z.eq_dec d 255) as [->|N].
    + left. intros k Hk. destruct (push_get s x k Hk) as [-> |(NK & ->)]; [exact Hx|].
      set (j := (len s - k) mod 256). assert (Hj : 0 <= j < 256) by (apply Z.mod_pos_bound; lia).
      assert (EK : (len s - j) mod 256 = k).
      { unfold j. rewrite Zminus_mod_idemp_r. replace (len s - (len s - k)) with k by lia. apply Z.mod_small. lia. }
      assert (j <> 0). { intro J. rewrite J in EK. rewrite Z.sub_0_r in EK. congruence. }
      rewrite <- EK. apply A. lia.
    + right. exists (d + 1). split; [lia|]. split.
      * intros k Hk. destruct (Z.eq_dec k 1) as [->|N1]; [rewrite push_top; exact Hx|].
        replace k with (k - 1 + 1) by lia. rewrite push_below by lia. apply A. lia.
      * rewrite push_below by lia. exact B.
Qed.
Lemma pop_ra s : ret_ok s -> let l := w8sub (len s) 1 in to_u64 (sget s l) = 0 \/ (C (to_u64 (sget s l)) /\ ret_ok (set_len s l)).
Proof.
  cbv zeta. unfold w8sub. intros [A|(d & Hd & A & B)].
  - destruct (A ((len s - 1) mod 256)) as [K|K]; [apply Z.mod_pos_bound; lia|left; exact K|right]. split; [exact K|]. left. exact A.
  - destruct (Z.eq_dec d 1) as [->|N]; [left; exact B|].
    destruct (A 1) as [K|K]; [lia|left; exact K|]. right. split; [exact K|]. right. exists (d - 1). split; [lia|].
    cbn [len set_len]. split.
    + intros k Hk. rewrite mod_back, sget_set_len. replace (len s - 1 - k) with (len s - (k + 1)) by lia. apply A. lia.
    + rewrite mod_back, sget_set_len. replace (len s - 1 - (d - 1)) with (len s - d) by lia. exact B.
Qed.
End R.

Section T.
Context {E : Env}.
Implicit Types (v u : vm).

(** what running code keeps *)
Definition core v u : Prop :=
  v_cur u = v_cur v /\ v_ds u = v_ds v /\ v_wl u = v_wl v /\ v_refs u = v_refs v /\ v_handler u = v_handler v /\ v_tkn u = v_tkn v /\
  t_inbuf (cur u) = t_inbuf (cur v) /\ t_lines (cur u) = t_lines (cur v) /\
  st_sid (st u) = st_sid (st v) /\ st_idx (st u) = st_idx (st v) /\ st_compiling (st u) = false.
Lemma core_inv v u w : core v u -> inv u w -> core v w.
Proof.
  intros (A1 & A2 & A3 & A4 & A5 & A6 & A8 & A9 & B1 & B2 & B3) (C1 & C2 & C3 & C4 & C5 & C6 & C7 & C8 & C9 & D1 & D2 & D3 & D4).
  unfold core. repeat split; congruence.
Qed.
Lemma core_trans v u w : core v u -> core u w -> core v w.
Proof.
  intros (A1 & A2 & A3 & A4 & A5 & A6 & A8 & A9 & B1 & B2 & B3) (C1 & C2 & C3 & C4 & C5 & C6 & C8 & C9 & D1 & D2 & D3).
  unfold core. repeat split; congruence.
Qed.
Lemma core_good v u : good v -> core v u -> good u.
Proof.
  intros (G1 & (G2 & G3) & G4) (A1 & A2 & A3 & A4 & A5 & A6 & A8 & A9 & B1 & B2 & B3). unfold good, word_is. rewrite A2, A3, A5. auto.
Qed.
Lemma core_at v u j a : core v u -> core v (at_ j a u).
Proof. unfold core. rewrite st_at. rewrite cur_at. exact (fun H => H). Qed.
Lemma core_s v u s : core v u -> core v (set_s s u).
Proof. unfold core, st. rewrite cur_set_s. exact (fun H => H). Qed.
Lemma core_f v u s : core v u -> core v (set_f s u).
Proof. unfold core, st. rewrite cur_set_f. exact (fun H => H). Qed.
Lemma core_r v u s : core v u -> core v (set_r s u).
Proof. unfold core, st. rewrite cur_set_r. exact (fun H => H). Qed.

Lemma core_ip v u x : core v u -> core v (set_ip x u).
Proof. unfold core, st, set_ip. rewrite cur_set_st. exact (fun H => H). Qed.
Lemma core_wp v u x : core v u -> core v (set_wp x u).
Proof. unfold core, st, set_wp. rewrite cur_set_st. exact (fun H => H). Qed.

Section Run.
Variables (v : vm) (H : Z -> Prop).
Hypothesis HG : good v.
Hypothesis HH : harmless v H.
Hypothesis HA : addressable v.

Notation C := (code v H).
Definition rs u : Prop := ip u = 0 \/ (C (ip u) /\ ret_ok C (t_r (cur u))).
Definition okay {A} (r : res (A * vm)) : Prop := match r with Ok (_, u) => core v u /\ rs u | OutOfFuel => True | _ => False end.

Lemma core_addressable u : core v u -> addressable u.
Proof. intros (_ & A2 & _). unfold addressable. rewrite A2. exact HA. Qed.
Lemma core_cell u a x : core v u -> code_cell (fun _ => True) v a x -> code_cell (fun _ => True) u a x.
Proof. intros (_ & A2 & _). unfold code_cell. rewrite A2. exact (fun H => H). Qed.
Lemma core_text u a x : core v u -> code_text (fun _ => True) v a x -> code_text (fun _ => True) u a x.
Proof. intros (_ & A2 & _). unfold code_text. rewrite A2. exact (fun H => H). Qed.
Lemma core_word_is u i p : core v u -> word_is v i p -> word_is u i p.
Proof. intros (_ & _ & A3 & _). unfold word_is. rewrite A3. exact (fun H => H). Qed.
Lemma core_code_word u a p : core v u -> code_word (fun _ => True) v a p -> code_word (fun _ => True) u a p.
Proof. intros HC (i & C1 & C2 & C3). exists i. split; [apply core_cell; assumption|]. split; [apply core_word_is; assumption|exact C3]. Qed.

(** a word of [H] executed where the next instruction is [a], either in code or at the end *)
Lemma op_okay f i u : core v u -> rs u -> H i -> okay (execute_word f i u).
Proof.
  intros HC HR HI. destruct f as [|f]; [exact I|].
  assert (HGu := core_good v u HG HC).
  assert (CW := core_at v u i (ip u) HC).
  destruct (HH i HI) as [(p & HP & W)|[W|[(W & B1 & B2)|(W & HB)]]].
  - rewrite (execute_word_eq _ _ _ p) by (apply core_word_is; assumption).
    assert (HI0 : inv u (set_wp i u)) by (apply inv_wp, inv_refl; apply HC).
    pose proof (tame_plain (execute_word f) (execute_handler f) f p HP u (set_wp i u) HGu HI0) as K.
    destruct (exec_prim f (execute_word f) p (set_wp i u)) as [([], w)| | |]; try exact K. cbn. split; [exact (core_inv v u w HC K)|].
    destruct K as (_ & _ & _ & _ & _ & _ & KR & _ & _ & _ & _ & _ & KI). destruct KI as [KI|KI]; [|left; exact KI].
    unfold rs. rewrite KI, KR. exact HR.
  - rewrite (execute_word_eq _ _ _ P_p_var) by (apply core_word_is; assumption). cbn [exec_prim]. unfold p_var. rewrite bind_gets.
    assert (EW : st_wp (st (set_wp i u)) = i) by (unfold set_wp, st; rewrite cur_set_st; reflexivity). rewrite EW.
    assert (EA : word_at i (set_wp i u) = Ok (wl_get (v_wl u) i, set_wp i u)).
    { unfold word_at. change (v_wl (set_wp i u)) with (v_wl u). destruct (core_word_is u i _ HC W) as (W1 & _). replace (0 <=? i) with true by lia. replace (i <? wl_len (v_wl u)) with true by lia. reflexivity. }
    rewrite (bind_Ok _ _ _ _ _ EA). unfold s_push, modify. cbn.
    assert (HI0 : inv u (set_s (push (s_stk (set_wp i u)) (to_i64 (w_dfa (wl_get (v_wl u) i)))) (set_wp i u))) by (apply inv_s, inv_wp, inv_refl; apply HC).
    split; [exact (core_inv v u _ HC HI0)|].
    destruct HI0 as (_ & _ & _ & _ & _ & _ & KR & _ & _ & _ & _ & _ & KI). destruct KI as [KI|KI]; [|left; exact KI]. unfold rs. rewrite KI, KR. exact HR.
  - rewrite (execute_word_eq _ _ _ P_p_const) by (apply core_word_is; assumption). cbn [exec_prim]. unfold p_const. rewrite bind_gets.
    assert (EW : st_wp (st (set_wp i u)) = i) by (unfold set_wp, st; rewrite cur_set_st; reflexivity). rewrite EW.
    assert (EA : word_at i (set_wp i u) = Ok (wl_get (v_wl u) i, set_wp i u)).
    { unfold word_at. change (v_wl (set_wp i u)) with (v_wl u). destruct (core_word_is u i _ HC W) as (W1 & _). replace (0 <=? i) with true by lia. replace (i <? wl_len (v_wl u)) with true by lia. reflexivity. }
    rewrite (bind_Ok _ _ _ _ _ EA). unfold bind, ds_get, get_isize, get_usize. change (v_ds (set_wp i u)) with (v_ds u).
    destruct HC as (E1 & E2 & E3 & HC). assert (HC' : core v u) by (unfold core; auto). rewrite E2, E3. unfold word_of in *.
    replace (in_ds (v_ds v) (w_dfa (wl_get (v_wl v) i)) 8) with true by (symmetry; apply in_ds_true; lia). cbn.
    match goal with |- core v (set_s ?s ?w) /\ _ => assert (HI0 : inv u (set_s s w)) by (apply inv_s, inv_wp, inv_refl; apply HC) end.
    split; [exact (core_inv v u _ HC' HI0)|].
    destruct HI0 as (_ & _ & _ & _ & _ & _ & KR & _ & _ & _ & _ & _ & KI). destruct KI as [KI|KI]; [|left; exact KI]. unfold rs. rewrite KI, KR. exact HR.
  - rewrite (execute_word_eq _ _ _ P_nest) by (apply core_word_is; assumption). cbn [exec_prim]. unfold nest. rewrite bind_modify, bind_gets.
    set (s' := sset _ _ _). assert (ES : s' = push_ra (t_r (cur u)) (to_i64 (ip u))).
    { unfold s', push_ra, r_stk, ip, set_wp, st. rewrite cur_set_st. reflexivity. }
    assert (EW : st_wp (st (set_r s' (set_wp i u))) = i) by (unfold set_wp, st; rewrite cur_set_r, cur_set_st; reflexivity). rewrite EW.
    assert (EA : word_at i (set_r s' (set_wp i u)) = Ok (wl_get (v_wl u) i, set_r s' (set_wp i u))).
    { unfold word_at. change (v_wl (set_r s' (set_wp i u))) with (v_wl u). destruct (core_word_is u i _ HC W) as (W1 & _). replace (0 <=? i) with true by lia. replace (i <? wl_len (v_wl u)) with true by lia. reflexivity. }
    rewrite (bind_Ok _ _ _ _ _ EA). unfold put_ip, modify. cbn.
    assert (E3 : v_wl u = v_wl v) by apply HC. rewrite E3. fold (word_of v i).
    assert (HD := code_entry v H i HI W HB). split.
    + apply core_ip, core_r, core_wp. exact HC.
    + right. unfold ip, st, set_ip, set_wp. rewrite cur_set_st, cur_set_r, cur_set_st. cbn [t_r t_state set_t_state set_t_r st_ip set_st_ip]. split; [exact HD|].
      rewrite ES. destruct HR as [HR|(HR1 & HR2)].
      * apply push_first. rewrite HR. reflexivity.
      * apply push_more; [exact HR2|]. destruct (code_range v H _ HA HR1). right.
        rewrite to_i64_id by (unfold imin, imax, two63, two64; lia). rewrite to_u64_id by (unfold two64; lia). exact HR1.
Qed.

Lemma step_none u a p : addressable u -> continues u a u -> code_word (fun _ => True) u a p -> okay (run_step 0 u).
Proof.
  intros A1 A2 (i & C1 & (C2 & _) & C3). destruct (step_cell _ u a i u A1 A2 C1 ltac:(lia)) as (_ & R). rewrite R. exact I.
Qed.
Lemma step_okay f u : core v u -> C (ip u) -> ret_ok C (t_r (cur u)) -> running u = Ok (true, u) /\ okay (run_step f u).
Proof.
  intros HC HI HR. set (q := ip u) in *. assert (HAu := core_addressable u HC). destruct (code_range v H q HA HI) as (Q1 & Q2).
  assert (CS := continues_self u). change (st_ip (st u)) with q in CS.
  assert (RI : forall w a, core v w -> ip w = a -> C a -> ret_ok C (t_r (cur w)) -> core v w /\ rs w).
  { intros w a W1 W2 W3 W4. split; [exact W1|]. right. rewrite W2. auto. }
  destruct (code_ins v H q HI) as [i CC HB HO HS|i CC HB HX|n CC C2 C3 HS|x CC C2 C3 HS|s CC C2 C3 HS|t CC C2 HS HS'|t CC C2 HS].
  - destruct (step_cell _ u q i u HAu CS (core_cell u q i HC CC) HB) as (R1 & R2). split; [exact R1|]. rewrite R2.
    rewrite <- (ew_wp f i 0), set_wp_ip. apply op_okay; [apply core_at; exact HC| |exact HO]. right. rewrite ip_at, r_at. auto.
  - destruct (step_cell _ u q i u HAu CS (core_cell u q i HC CC) HB) as (R1 & R2). split; [exact R1|]. rewrite R2. destruct f as [|f]; [exact I|].
    rewrite (execute_word_eq _ _ _ P_exit) by (apply (core_word_is u i P_exit HC HX)). rewrite set_wp_ip. cbn [exec_prim]. unfold exit, modify. cbn [okay].
    unfold r_stk. rewrite r_at. set (s := t_r (cur u)) in *. rewrite set_ip_at. split; [apply core_r, core_at; exact HC|].
    unfold rs. rewrite cur_set_r. cbn [t_r set_t_r].
    assert (EI : forall y z, ip (set_r y (at_ i z u)) = z) by (intros; unfold ip, st; rewrite cur_set_r; cbn [t_state set_t_r]; fold (st (at_ i z u)); apply ip_at).
    rewrite EI. exact (pop_ra C s HR).
  - destruct (step_word _ u q _ u HAu CS (core_code_word u q _ HC CC)) as (i & R1 & R2). split; [exact R1|]. destruct f as [|f]; [exact (step_none u q _ HAu CS (core_code_word u q _ HC CC))|]. rewrite R2. cbn [exec_prim].
    unfold lit, get_ip. rewrite bind_gets, ip_at. rewrite (bind_Ok _ _ _ _ _ (get_code _ u (q + 8) n i (q + 8) HAu (core_cell u _ _ HC C2) C3)).
    unfold on_s. rewrite bind_modify, set_s_at. destruct C2 as (D1 & D2 & _). destruct HA. rewrite skip_eq by lia. cbn [okay].
    apply (RI _ (q + 16)); [apply core_at, core_s; exact HC|rewrite ip_at; lia|exact HS|]. rewrite r_at, cur_set_s. exact HR.
  - destruct (step_word _ u q _ u HAu CS (core_code_word u q _ HC CC)) as (i & R1 & R2). split; [exact R1|]. destruct f as [|f]; [exact (step_none u q _ HAu CS (core_code_word u q _ HC CC))|]. rewrite R2. cbn [exec_prim].
    unfold flit, get_ip. rewrite bind_gets, ip_at. rewrite round8_eq in *. pose proof (align8_range (q + 8)). pose proof C2 as (D1 & D2 & D3 & _). pose proof HA as (D5 & D6).
    rewrite (bind_Ok _ _ _ (align8 (q + 8)) (at_ i (q + 8) u)) by (apply lift_eq, aligned8_ok; unfold two64; lia).
    rewrite (bind_Ok _ _ _ x (at_ i (q + 8) u)).
    2:{ apply ds_get_eq. rewrite ds_at. destruct HC as (_ & -> & _). unfold get_f64. apply get_usize_ok; [apply in_ds_true; lia|exact D3|unfold two64; lia]. }
    rewrite bind_modify. cbv zeta. rewrite set_f_at.
    rewrite (bind_Ok _ _ _ (align8 (q + 8) + 8) _) by (apply chk_u64_ok; unfold two64; lia). unfold put_ip, modify. rewrite set_ip_at. cbn [okay].
    apply (RI _ (align8 (q + 8) + 8)); [apply core_at, core_f; exact HC|apply ip_at|exact HS|]. rewrite r_at, cur_set_f. exact HR.
  - destruct (step_word _ u q _ u HAu CS (core_code_word u q _ HC CC)) as (i & R1 & R2). split; [exact R1|]. destruct f as [|f]; [exact (step_none u q _ HAu CS (core_code_word u q _ HC CC))|]. rewrite R2. cbn [exec_prim].
    unfold p_s_quote, get_ip. rewrite bind_gets, ip_at. pose proof (core_cell u _ _ HC C2) as (D1 & D2 & D3 & _). pose proof (core_text u _ _ HC C3) as (T1 & T2 & T3). pose proof HAu as (D5 & D6). pose proof (zlen_nonneg s).
    rewrite (bind_Ok _ _ _ s (at_ i (q + 8) u)).
    2:{ apply ds_get_eq. rewrite ds_at. apply get_str_ok; [apply in_ds_true; lia|lia|lia|exact D3|].
        intros k x Hk. replace (q + 8 + 8) with (q + 16) by lia. apply T3. exact Hk. }
    cbv zeta. unfold on_s. rewrite bind_modify. rewrite set_s_at.
    rewrite (bind_Ok _ _ _ (q + 8 + 8) _) by (apply chk_u64_ok; unfold two64; lia).
    rewrite (bind_Ok _ _ _ (q + 8 + 8 + zlen s) _) by (apply chk_u64_ok; unfold two64; lia).
    rewrite (bind_Ok _ _ _ (align8 (q + 8 + 8 + zlen s)) _) by (apply lift_eq, aligned8_ok; unfold two64; lia).
    unfold put_ip, modify. rewrite set_ip_at. cbn [okay].
    apply (RI _ (align8 (q + 16 + zlen s))); [apply core_at, core_s; exact HC|rewrite ip_at; f_equal; lia|exact HS|]. rewrite r_at, cur_set_s. exact HR.
  - destruct (step_word _ u q _ u HAu CS (core_code_word u q _ HC CC)) as (i & R1 & R2). split; [exact R1|]. destruct f as [|f]; [exact (step_none u q _ HAu CS (core_code_word u q _ HC CC))|]. rewrite R2. cbn [exec_prim].
    unfold zero_branch, bind at 1, s_pop. destruct (pop (s_stk (at_ i (q + 8) u))) as (y, s). rewrite set_s_at.
    assert (HC1 : core v (set_s s u)) by (apply core_s; exact HC). assert (D1 := code_range v H t HA HS). pose proof C2 as (D3 & D4 & _). pose proof HA as (D5 & D6).
    destruct (y =? 0).
    + rewrite (branch_eq _ (set_s s u) (q + 8) t i (core_addressable _ HC1) (core_cell _ _ _ HC1 C2) ltac:(lia)). cbn [okay].
      apply (RI _ t); [apply core_at; exact HC1|apply ip_at|exact HS|]. rewrite r_at, cur_set_s. exact HR.
    + rewrite skip_eq by lia. cbn [okay]. apply (RI _ (q + 16)); [apply core_at; exact HC1|rewrite ip_at; lia|exact HS'|]. rewrite r_at, cur_set_s. exact HR.
  - destruct (step_word _ u q _ u HAu CS (core_code_word u q _ HC CC)) as (i & R1 & R2). split; [exact R1|]. destruct f as [|f]; [exact (step_none u q _ HAu CS (core_code_word u q _ HC CC))|]. rewrite R2. cbn [exec_prim].
    assert (D1 := code_range v H t HA HS).
    rewrite (branch_eq _ u (q + 8) t i HAu (core_cell _ _ _ HC C2) ltac:(lia)). cbn [okay].
    apply (RI _ t); [apply core_at; exact HC|apply ip_at|exact HS|]. rewrite r_at. exact HR.
Qed.

Lemma run_okay : forall f u, core v u -> rs u -> match run f u with Ok (_, w) => core v w /\ ip w = 0 | OutOfFuel => True | _ => False end.
Proof.
  induction f as [|f IH]; intros u HC HR; [exact I|]. cbn [run]. destruct HR as [HR|(HI & HR)].
  - assert (RN : running u = Ok (false, u)).
    { unfold running, get_ip. rewrite !bind_gets, HR. destruct (core_addressable u HC). replace (start (v_ds u) <=? 0) with false by lia. reflexivity. }
    rewrite (bind_Ok _ _ _ _ _ RN). cbn. split; assumption.
  - destruct (step_okay f u HC HI HR) as (RN & K). rewrite (bind_Ok _ _ _ _ _ RN). unfold bind.
    destruct (run_step f u) as [([], w)| | |]; try exact K. destruct K. apply IH; assumption.
Qed.
End Run.
End T.
