(** The terminal program: a line obeyed (C87, C88). *)
From Coq Require Import ZArith List Bool Lia String ZifyBool ZifyNat.
From Verif Require Import Base Stack Mem Parser State CoreM IoM FileM Exec LBase LStack Spec Spec2 Spec4 Spec5 Spec6 Spec7 Spec9 Spec10 Spec11 Spec14 Spec15 Spec16 Spec17 Spec19 Spec24 Spec25
  LState LMem LMon LMemWords LTask LFuel LCode LComp LRun LCtl LFloat LWords LSay LLib LLibWords LDefine LDefine2 LNoInput LSource LEval LNest Spec27.
Import ListNotations.
Open Scope list_scope.
Open Scope Z_scope.
Open Scope m_scope.

Section L.
Context {E : Env}.
Implicit Types (v w u : vm).

(** ** The instruction and word pointers do not matter *)
Ltac aeq := rewrite ?at_upd; gnorm; apply upd_ext; cbn;
  match goal with |- context [cur ?v] => destruct (cur v) as [? [? ? ? ? ? ?] ? ? ? ? ? ? ? ?] end; reflexivity.
Lemma cur_set_idx x v : cur (set_idx x v) = set_t_state (set_st_idx x (t_state (cur v))) (cur v).
Proof. unfold set_idx, set_st. rewrite cur_upd. reflexivity. Qed.
Lemma idx_at_ x j a v : set_idx x (at_ j a v) = at_ j a (set_idx x v).
Proof. aeq. Qed.
Definition pw_out v : res (bytes * option Z) :=
  match v_tkn v with
  | None => Panic PExpect
  | Some _ =>
    rbind (if 0 <? st_sid (st v) then match nth_opt (t_lines (cur v)) (st_sid (st v) - 1) with Some o => Ok o | None => Panic PIndex end
           else Ok (t_inbuf (cur v))) (fun o =>
    match o with
    | Some buf =>
      if st_idx (st v) <? zlen buf then
        match slice_from buf (st_idx (st v)) with
        | Some src =>
          let p := pw_loop (chars_of src) 0 (zlen src) [] in
          let n := st_idx (st v) + snd p in
          if in_u64 n then Ok (fst p, Some n) else if chk then Panic POverflow else Ok (fst p, Some (to_u64 n))
        | None => Panic PSlice
        end
      else Ok ([], None)
    | None => Ok ([], None)
    end)
  end.
Lemma parse_word_pure v : parse_word v =
  rbind (pw_out v) (fun '(t, o) => Ok (tt, set_v_tkn (Some t) (match o with Some n => set_idx n v | None => v end))).
Proof.
  unfold parse_word, pw_out, bind at 1, take_token. destruct (v_tkn v); [|reflexivity].
  unfold bind at 1, get_inbuf. change (st (set_v_tkn None v)) with (st v). change (cur (set_v_tkn None v)) with (cur v).
  assert (H : forall o, match o with
      | Some buf => (i <- gets (fun v => st_idx (st v)) ;;
          if i <? zlen buf then
            src <- slice_or_panic buf i ;;
            (let p := pw_loop (chars_of src) 0 (zlen src) [] in
             n <- chk_u64 (i + snd p) ;; modify (set_idx n) ;;; set_token (fst p))
          else set_token [])
      | None => set_token [] end (set_v_tkn None v) =
    rbind (match o with
    | Some buf =>
      if st_idx (st v) <? zlen buf then
        match slice_from buf (st_idx (st v)) with
        | Some src =>
          let p := pw_loop (chars_of src) 0 (zlen src) [] in
          let n := st_idx (st v) + snd p in
          if in_u64 n then Ok (fst p, Some n) else if chk then Panic POverflow else Ok (fst p, Some (to_u64 n))
        | None => Panic PSlice
        end
      else Ok ([], None)
    | None => Ok ([], None)
    end) (fun '(t, o) => Ok (tt, set_v_tkn (Some t) (match o with Some n => set_idx n v | None => v end)))).
  { intros [buf|]; [|reflexivity]. rewrite bind_gets. change (st (set_v_tkn None v)) with (st v).
    destruct (st_idx (st v) <? zlen buf); [|reflexivity]. unfold slice_or_panic. destruct (slice_from buf (st_idx (st v))) as [src|]; [|reflexivity].
    unfold bind at 1, ret at 1. cbv zeta. unfold chk_u64. destruct (in_u64 _); [reflexivity|]. destruct chk; reflexivity. }
  destruct (0 <? st_sid (st v)); [destruct (nth_opt _ _) as [o|]; [exact (H o)|reflexivity]|exact (H _)].
Qed.
Lemma pw_out_at j c v : pw_out (at_ j c v) = pw_out v.
Proof. unfold pw_out. rewrite st_at, cur_at. reflexivity. Qed.
Lemma reads_form v t v1 : reads v t v1 ->
  (exists n, v1 = set_v_tkn (Some t) (set_idx n v) \/ v1 = set_v_tkn (Some t) v) /\
  forall f ew j c, exec_prim f ew P_parse_word (at_ j c v) = Ok (tt, at_ j c v1).
Proof.
  intros [HQ HT]. specialize (HQ (fun _ => ret tt)). cbn [exec_prim] in HQ |- *. rewrite parse_word_pure in HQ.
  destruct (pw_out v) as [(t0, o)| | |] eqn:EP; cbn [rbind] in HQ; try discriminate HQ. injection HQ as <-. cbn in HT. injection HT as ->. split.
  - destruct o as [n|]; [exists n; left; reflexivity|exists 0; right; reflexivity].
  - intros f ew j c. rewrite parse_word_pure, pw_out_at, EP. cbn [rbind]. destruct o as [n|]; [|reflexivity].
    rewrite idx_at_. reflexivity.
Qed.

(** ** Steps *)
Section K.
Variable K : Z -> Prop.

Lemma goes_prim fuel v a i p u : addressable v -> code_cell K v a i -> 0 <= i < 2 ^ 63 -> word_is v i p ->
  (forall ew j, exec_prim fuel ew p (at_ j (a + 8) v) = Ok (tt, at_ j (a + 8) u)) -> goes v a u (a + 8).
Proof.
  intros HA C Hi W H w HC. destruct (step_cell K v a i w HA HC C Hi) as [R1 R2].
  exists (at_ i (a + 8) u). split; [|apply continues_at]. apply one_step. split; [exact R1|]. exists (S fuel).
  rewrite R2, (execute_word_eq fuel i (set_ip (a + 8) v) p W), set_wp_ip. apply H.
Qed.
Definition xp (p : prog) v u : Prop := forall a, holds K v p a -> part K v a u (fin p a).
Lemma xp_seq p q v u w : xp p v u -> xp q u w -> xp (Seq p q) v w.
Proof.
  intros A B a HH. destruct (holds_seq _ _ _ _ _ HH) as [H1 H2]. pose proof (A a H1) as P1. eapply part_trans; [exact P1|].
  apply (B (fin p a)). eapply holds_kept; [apply P1|exact H2].
Qed.
Lemma xp_prim fuel i p v u : word_is v i p -> kept K v u ->
  (forall ew j c, exec_prim fuel ew p (at_ j c v) = Ok (tt, at_ j c u)) -> xp (Op i) v u.
Proof.
  intros W HK H a (HA & Ha & C & Hi). split; [|exact HK]. cbn [fin]. eapply goes_prim; [exact HA|exact C|exact Hi|exact W|]. intros. apply H.
Qed.
Lemma xp_num n v : 0 <= len (t_s (cur v)) < 255 -> xp (Num n) v (add_s n v).
Proof. intros H a HH. apply num_run; assumption. Qed.

(** Pushing and printing *)
Lemma push_at x j a v : 0 <= len (t_s (cur v)) < 255 -> s_push x (at_ j a v) = Ok (tt, at_ j a (add_s x v)).
Proof. clear K.
  intro H. unfold s_push, modify, s_stk. rewrite s_at, set_s_at, add_item_push by exact H. reflexivity.
Qed.
Lemma xp_push fuel i p v x : word_is v i p -> 0 <= len (t_s (cur v)) < 255 ->
  (forall ew j c, exec_prim fuel ew p (at_ j c v) = s_push x (at_ j c v)) -> xp (Op i) v (add_s x v).
Proof.
  intros W H HE. eapply xp_prim; [exact W|apply kept_eq; reflexivity|]. intros ew j c. rewrite HE. apply push_at. exact H.
Qed.
Lemma pop_add (s : stack Z) x : 0 <= len s < 255 -> pop (add_item s x) = (x, set_len (add_item s x) (len s)).
Proof. clear K.
  intro H. unfold pop, add_item. rewrite len_set_len. replace (w8sub (len s + 1) 1) with (len s) by (unfold w8sub; rewrite Z.mod_small; lia).
  f_equal. rewrite sget_set_len. apply sget_sset_same.
Qed.
Lemma add_over (s : stack Z) x y : add_item (set_len (add_item s x) (len s)) y = add_item s y.
Proof. clear K. unfold add_item, set_len, sset. cbn. f_equal. apply tset_tset. Qed.
Lemma xp_not i v x : word_is v i P_zero_equals -> 0 <= len (t_s (cur v)) < 255 -> xp (Op i) (add_s x v) (add_s (if x =? 0 then -1 else 0) v).
Proof.
  intros W H. eapply (xp_prim 0); [exact W|apply kept_eq; reflexivity|]. intros ew j c. cbn [exec_prim].
  unfold on_s, modify, zero_equals_, un_, s_stk. rewrite s_at, set_s_at. do 3 f_equal.
  unfold add_s. rewrite cur_set_s. cbn [t_s set_t_s]. rewrite set_s_set_s, pop_add, add_item_push, add_over by (rewrite ?len_set_len; exact H). reflexivity.
Qed.

(** ** The check of the stacks *)
Definition sound v : Prop :=
  s_overflow v = false /\ s_underflow v = false /\ r_overflow v = false /\ r_underflow v = false /\
  c_overflow v = false /\ c_underflow v = false /\ f_overflow v = false /\ f_underflow v = false.
Lemma check_iff v : quiet 0 P_check_stacks v v <-> sound v.
Proof. clear K.
  unfold quiet, sound. cbn [exec_prim]. unfold check_stacks, get, bind. split.
  - intro H. specialize (H (fun _ _ => UB)). unfold abort_with, clear_stacks, set_error, modify, gets, bind in H.
    repeat match type of H with (if ?c then _ else _) _ = _ => destruct c; [discriminate H|] end. repeat split.
  - intros (-> & -> & -> & -> & -> & -> & -> & ->) ew. reflexivity.
Qed.
Lemma check_at v : quiet 0 P_check_stacks v v -> forall f ew j c, exec_prim f ew P_check_stacks (at_ j c v) = Ok (tt, at_ j c v).
Proof. clear K.
  rewrite check_iff. intros H f ew j c. apply (proj2 (check_iff (at_ j c v))). unfold sound in *.
  unfold s_overflow, s_underflow, r_overflow, r_underflow, c_overflow, c_underflow, f_overflow, f_underflow, s_stk, r_stk, c_stk, f_stk in *.
  rewrite cur_at. exact H.
Qed.
Lemma sound_s v v' : sound v -> t_r (cur v') = t_r (cur v) -> t_c (cur v') = t_c (cur v) -> t_f (cur v') = t_f (cur v) ->
  canary (t_s (cur v')) = canary (t_s (cur v)) -> sget (t_s (cur v')) 64 = sget (t_s (cur v)) 64 -> sget (t_s (cur v')) 255 = sget (t_s (cur v)) 255 ->
  len (t_s (cur v')) <= 64 -> sound v'.
Proof. clear K.
  unfold sound, s_overflow, s_underflow, r_overflow, r_underflow, c_overflow, c_underflow, f_overflow, f_underflow, s_stk, r_stk, c_stk, f_stk.
  intros (A & B & H) -> -> -> C D F L. split; [|split; [|exact H]].
  - unfold overflow in *. rewrite C, D. apply orb_false_elim in A. rewrite (proj1 A). cbn [orb]. lia.
  - unfold underflow in *. rewrite C, F. apply orb_false_elim in B. rewrite (proj1 B). cbn [orb]. lia.
Qed.
Lemma sound_slot v : sound v -> sget (t_s (cur v)) 255 = canary (t_s (cur v)).
Proof. clear K. intros (_ & B & _). unfold s_underflow, underflow, s_stk in B. apply orb_false_elim in B. lia. Qed.
Lemma len_add_s x v : len (t_s (cur (add_s x v))) = len (t_s (cur v)) + 1.
Proof. clear K. unfold add_s. rewrite cur_set_s. reflexivity. Qed.
Lemma sget_add_s x v k : k <> len (t_s (cur v)) -> 0 <= k -> 0 <= len (t_s (cur v)) -> sget (t_s (cur (add_s x v))) k = sget (t_s (cur v)) k.
Proof. clear K. intros H H1 H2. unfold add_s. rewrite cur_set_s. cbn [t_s set_t_s]. unfold add_item. rewrite sget_set_len. apply sget_sset_other; lia. Qed.
Lemma sget_drop_s x v k : sget (t_s (cur (drop_s x v))) k = sget (t_s (cur v)) k.
Proof. clear K. unfold drop_s. rewrite cur_set_s. reflexivity. Qed.
Lemma len_drop_s x v : len (t_s (cur (drop_s x v))) = len (t_s (cur v)) - x.
Proof. clear K. unfold drop_s. rewrite cur_set_s. reflexivity. Qed.
Lemma cur_put s v : cur (put s v) = cur v.
Proof. clear K. unfold put. destruct (v_out v); reflexivity. Qed.

Lemma has_push v x d : stack_has (t_s (cur v)) d -> zlen d < 255 -> stack_has (t_s (cur (add_s x v))) (x :: d).
Proof. clear K.
  intros H L. pose proof (stack_has_len _ _ H). pose proof (zlen_nonneg d). unfold add_s. rewrite cur_set_s. cbn [t_s set_t_s].
  rewrite <- add_item_push by lia. apply push_has; assumption.
Qed.
Lemma has_drop v l d : stack_has (t_s (cur v)) (l ++ d) -> stack_has (t_s (cur (drop_s (zlen l) v))) d.
Proof. clear K. intro H. unfold drop_s. rewrite cur_set_s. cbn [t_s set_t_s]. apply drop_has. exact H. Qed.
Lemma cur_rest_s s v : t_r (cur (set_s s v)) = t_r (cur v) /\ t_c (cur (set_s s v)) = t_c (cur v) /\ t_f (cur (set_s s v)) = t_f (cur v) /\
  t_inbuf (cur (set_s s v)) = t_inbuf (cur v) /\ st (set_s s v) = st v.
Proof. clear K. unfold st. rewrite cur_set_s. repeat split. Qed.
Lemma has_shown x v d : stack_has (t_s (cur v)) d -> zlen d < 255 -> stack_has (t_s (cur (shown x v))) d.
Proof. clear K. intros H L. apply (has_drop _ [x]). apply has_push; assumption. Qed.
Lemma has_spoken a s v d : stack_has (t_s (cur v)) d -> zlen d < 254 -> stack_has (t_s (cur (spoken a s v))) d.
Proof. clear K. intros H L. unfold spoken. rewrite cur_put. apply (has_drop _ [zlen s; a]). apply has_push; [apply has_push; [exact H|lia]|rewrite zlen_cons; lia]. Qed.
Lemma steady_same {sid} v u : steady_on sid v -> cur u = cur v -> steady_on sid u.
Proof. clear K.
  intros (A & B & C & D) H. apply check_iff in A. unfold steady_on. rewrite check_iff. unfold sound, st in *.
  unfold s_overflow, s_underflow, r_overflow, r_underflow, c_overflow, c_underflow, f_overflow, f_underflow, s_stk, r_stk, c_stk, f_stk in *.
  rewrite H. auto.
Qed.
Lemma steady_shown {sid} x v : steady_on sid v -> steady_on sid (shown x v).
Proof. clear K.
  intros (A & (d & B & L) & C & D). apply check_iff in A. pose proof (stack_has_len _ _ B). pose proof (zlen_nonneg d). unfold steady_on. rewrite check_iff.
  split; [|split; [exists d; split; [apply has_shown; [exact B|lia]|exact L]|]].
  - apply (sound_s v); try exact A; try (unfold shown, drop_s, add_s; rewrite ?cur_set_s; reflexivity).
    + unfold shown. rewrite sget_drop_s. apply sget_add_s; lia.
    + unfold shown. rewrite sget_drop_s. apply sget_add_s; lia.
    + unfold shown. rewrite len_drop_s, len_add_s. lia.
  - unfold shown, drop_s, add_s, st. rewrite !cur_set_s. exact (conj C D).
Qed.
Lemma steady_spoken {sid} a s v : steady_on sid v -> steady_on sid (spoken a s v).
Proof. clear K.
  intros (A & (d & B & L) & C & D). apply check_iff in A. pose proof (stack_has_len _ _ B). pose proof (zlen_nonneg d). unfold steady_on. rewrite check_iff.
  split; [|split; [exists d; split; [apply has_spoken; [exact B|lia]|exact L]|]].
  - unfold spoken. apply (sound_s v); try exact A; rewrite ?cur_put; try (unfold drop_s, add_s; rewrite ?cur_set_s; reflexivity).
    + rewrite sget_drop_s. rewrite sget_add_s; rewrite ?len_add_s; try lia. apply sget_add_s; lia.
    + rewrite sget_drop_s. rewrite sget_add_s; rewrite ?len_add_s; try lia. apply sget_add_s; lia.
    + rewrite len_drop_s, !len_add_s. lia.
  - unfold spoken, st. rewrite cur_put. unfold drop_s, add_s. rewrite !cur_set_s. exact (conj C D).
Qed.
Lemma reads_state v t v1 : reads v t v1 -> v_ds v1 = v_ds v /\ v_wl v1 = v_wl v /\ t_r (cur v1) = t_r (cur v) /\ (forall sid, steady_on sid v -> steady_on sid v1) /\
  st_compiling (st v1) = st_compiling (st v) /\ v_tkn v1 = Some t.
Proof. clear K.
  intro H. destruct (reads_form _ _ _ H) as [[n [->| ->]] _].
  - split; [reflexivity|split; [reflexivity|]]. unfold st.
    change (cur (set_v_tkn (Some t) (set_idx n v))) with (cur (set_idx n v)). rewrite cur_set_idx.
    split; [reflexivity|]. split; [|split; reflexivity].
    intros sid HS. apply (steady_same (set_idx n v)); [|reflexivity]. destruct HS as (A & B & C & D). apply check_iff in A. unfold steady_on. rewrite check_iff. unfold sound, st in *.
    unfold s_overflow, s_underflow, r_overflow, r_underflow, c_overflow, c_underflow, f_overflow, f_underflow, s_stk, r_stk, c_stk, f_stk in *.
    rewrite cur_set_idx. exact (conj A (conj B (conj C D))).
  - split; [reflexivity|split; [reflexivity|split; [reflexivity|]]]. split; [|split; reflexivity]. intros sid HS. apply (steady_same v); [exact HS|reflexivity].
Qed.

(** ** The words of the terminal program stay *)
Lemma intact_refl n v : intact K n v v.
Proof. split; [apply kept_refl|]. intros i _ H. split; [lia|reflexivity]. Qed.
Lemma intact_trans n v1 v2 v3 : intact K n v1 v2 -> intact K n v2 v3 -> intact K n v1 v3.
Proof.
  intros [A B] [C D]. split; [eapply kept_trans; eassumption|]. intros i Hi Hw. destruct (B i Hi Hw) as [L1 E1]. destruct (D i Hi ltac:(lia)) as [L2 E2].
  split; [exact L2|congruence].
Qed.
Lemma intact_eq n v v' : v_ds v' = v_ds v -> v_wl v' = v_wl v -> intact K n v v'.
Proof.
  intros A B. split; [apply kept_eq; assumption|]. intros i _ H. unfold words, word_of in *. rewrite B. split; [lia|reflexivity].
Qed.
Lemma word_stays n v v' i p : intact K n v v' -> In i (numbers n) -> word_is v i p -> word_is v' i p.
Proof. intros [_ H] Hi [W1 W2]. destruct (H i Hi W1) as [L EQ]. split; [unfold words in L; lia|]. unfold word_of in EQ. rewrite EQ. exact W2. Qed.
Lemma In_prim n p : In p shell_prims -> In (ix n p) (numbers n).
Proof. intro H. apply in_or_app. right. apply in_or_app. left. apply in_map. exact H. Qed.
Lemma colon_stays n v v' i p : intact K n v v' -> In i (numbers n) -> colon_word K v i p (ix n P_exit) -> colon_word K v' i p (ix n P_exit).
Proof.
  intros HI Hi (A & B & C). split; [eapply word_stays; eassumption|]. split; [eapply word_stays; [exact HI|apply In_prim; cbn; tauto|exact B]|].
  destruct HI as [HK HW]. destruct (HW i Hi (proj1 A)) as [_ EQ]. rewrite EQ. eapply holds_kept; [exact HK|exact C].
Qed.
Lemma shell_stays n v v' : intact K n v v' -> shell K n v -> shell K n v'.
Proof.
  intros HI (A & B1 & B2 & B3 & B4 & B5 & B6 & B7 & C & D).
  split; [intros p Hp; eapply word_stays; [exact HI|apply In_prim; exact Hp|apply A; exact Hp]|].
  repeat (split; [eapply colon_stays; [exact HI|cbn; tauto|eassumption]|]). split; [eapply word_stays; [exact HI|cbn; tauto|exact C]|exact D].
Qed.
Lemma shell_prim n v p : shell K n v -> In p shell_prims -> word_is v (ix n p) p.
Proof. intros H. apply H. Qed.

(** ** EVALUATE-INPUT *)
Definition xa (a : Z) (p : prog) v u : Prop := holds K v p a -> part K v a u (fin p a).
Lemma xa_seq a p q v u w : xa a p v u -> xa (fin p a) q u w -> xa a (Seq p q) v w.
Proof.
  intros A B HH. destruct (holds_seq _ _ _ _ _ HH) as [H1 H2]. pose proof (A H1) as P1. eapply part_trans; [exact P1|].
  apply B. eapply holds_kept; [apply P1|exact H2].
Qed.
Lemma xa_xp a p v u : xp p v u -> xa a p v u. Proof. intros H. exact (H a). Qed.
Lemma shown_add x y v : add_s y (shown x v) = add_s y v.
Proof. clear K.
  unfold shown, drop_s, add_s. rewrite !cur_set_s. cbn [t_s set_t_s]. rewrite !set_s_set_s. f_equal. unfold drop_items.
  change (len (add_item (t_s (cur v)) x)) with (len (t_s (cur v)) + 1). replace (len (t_s (cur v)) + 1 - 1) with (len (t_s (cur v))) by lia. apply add_over.
Qed.
Definition no_text (t : bytes) : bool := match t with [] => true | _ => false end.
Definition reading n : prog := block [op n P_parse_word; op n P_token_empty; op n P_zero_equals].
Definition branches n : prog := IfElse (block [op n P_compile_token; op n P_check_stacks]) (block [op n P_interpret_token; op n P_check_stacks]).
Lemma eval_held n v : shell K n v -> holds K v (d_evaluate n) (w_dfa (word_of v (n_eval n))).
Proof. intros (_ & (_ & _ & HE) & _). apply (holds_seq _ _ _ _ _ HE). Qed.
Lemma reading_part {sid} n v t v1 a : steady_on sid v -> reads v t v1 -> shell K n v -> holds K v (d_evaluate n) a ->
  part K v a (add_s (if no_text t then 0 else -1) v1) (fin (reading n) a).
Proof.
  intros HS HR HSh HH. destruct (reads_form _ _ _ HR) as [_ EP]. destruct (reads_state _ _ _ HR) as (D1 & D2 & D3 & D4 & D5 & D6). specialize (D4 _ HS).
  pose proof (intact_eq n v v1 D1 D2) as I1. destruct (D4) as (_ & (d & HD & LD) & _). pose proof (stack_has_len _ _ HD) as L1. pose proof (zlen_nonneg d).
  assert (HP : holds K v (reading n) a) by (destruct HH as (A & B & C); split; [exact A|]; split; [exact B|apply C]).
  revert HP. unfold reading. cbn [block]. eapply xa_seq; [apply xa_xp; eapply (xp_prim 0); [apply (shell_prim n); [exact HSh|cbn; tauto]|apply I1|intros; apply EP]|].
  pose proof (shell_stays _ _ _ I1 HSh) as HSh1.
  eapply xa_seq; [apply xa_xp; eapply (xp_push 0 _ _ _ (if no_text t then -1 else 0)); [apply (shell_prim n); [exact HSh1|cbn; tauto]|lia|]|].
  - intros ew j c. cbn [exec_prim]. unfold token_empty. rewrite bind_gets. change (v_tkn (at_ j c v1)) with (v_tkn v1). rewrite D6. destruct t; reflexivity.
  - apply xa_xp. replace (if no_text t then 0 else -1) with (if (if no_text t then -1 else 0) =? 0 then -1 else 0) by (destruct t; reflexivity).
    apply xp_not; [apply (shell_prim n); [exact HSh1|cbn; tauto]|lia].
Qed.
Lemma noted_facts {sid} n v t v1 : steady_on sid v -> reads v t v1 -> intact K n v (noted v1) /\ t_r (cur (noted v1)) = t_r (cur v) /\ st_compiling (st (noted v1)) = st_compiling (st v1).
Proof.
  intros HS HR. destruct (reads_state _ _ _ HR) as (D1 & D2 & D3 & D4 & D5 & D6). split; [apply intact_eq; [exact D1|exact D2]|].
  unfold noted, shown, drop_s, add_s, st. rewrite !cur_set_s. split; [exact D3|reflexivity].
Qed.
Lemma token_reached {sid} n v t v1 : steady_on sid v -> reads v t v1 -> t <> [] -> shell K n v ->
  part K v (w_dfa (word_of v (n_eval n))) (noted v1) (token_addr n (noted v1)) /\
  holds K (noted v1) (Seq (op n (token_word (noted v1))) (op n P_check_stacks)) (token_addr n (noted v1)).
Proof.
  intros HS HR Ht HSh. pose proof (eval_held n v HSh) as HH. destruct (noted_facts n _ _ _ HS HR) as (I0 & _ & EC). pose proof HSh as (_ & (WE & _) & _).
  unfold token_addr, token_word. rewrite EC, (proj2 (proj2 I0 (n_eval n) ltac:(cbn; tauto) (proj1 WE))). set (a := w_dfa (word_of v (n_eval n))) in *.
  pose proof (reading_part n v t v1 a HS HR HSh HH) as P1. destruct (reads_state _ _ _ HR) as (D1 & D2 & D3 & D4 & D5 & D6). specialize (D4 _ HS).
  destruct (D4) as (_ & (d & HD & LD) & _). pose proof (stack_has_len _ _ HD) as L1. pose proof (zlen_nonneg d).
  unfold noted in *. set (c := flag_of (st_compiling (st v1))) in *. replace (if no_text t then 0 else -1) with (-1) in P1 by (destruct t; [congruence|reflexivity]).
  assert (T : takes (add_s (-1) v1) (-1) (shown (-1) v1)) by (exists d; split; [apply has_push; [exact HD|lia]|reflexivity]).
  pose proof (while_round K _ _ v a _ (-1) _ HH P1 T) as P2. cbn [Z.eqb] in P2. clear P1 T.
  assert (I3 : intact K n v (shown (-1) v1)) by (apply intact_eq; [exact D1|exact D2]). pose proof (shell_stays _ _ _ I3 HSh) as HSh3.
  assert (HB : holds K (shown (-1) v1) (Seq (op n P_p_compiling) (branches n)) (a + 40)).
  { eapply holds_kept; [apply P2|]. destruct HH as (A & B & C). cbn [d_evaluate laid] in C; cbv zeta in C. destruct C as (C1 & C2 & C3 & C4 & _).
    fold (reading n) in C1, C2, C3, C4. assert (EF : fin (reading n) a + 16 = a + 40) by (unfold reading; cbn [block op fin]; lia).
    pose proof (cell_top _ _ _ _ C3) as Ct. pose proof (laid_range K _ _ _ C1 ltac:(lia)) as R. split; [exact A|]. split; [lia|]. rewrite <- EF. exact C4. }
  replace (fin (block [op n P_parse_word; op n P_token_empty; op n P_zero_equals]) a + 16) with (a + 40) in P2 by (cbn [block op fin]; lia).
  destruct (holds_seq _ _ _ _ _ HB) as [HB1 HB2]. replace (fin (op n P_p_compiling) (a + 40)) with (a + 48) in HB2 by (cbn [op fin]; lia).
  assert (P3 : part K (shown (-1) v1) (a + 40) (add_s c v1) (a + 48)).
  { replace (a + 48) with (fin (op n P_p_compiling) (a + 40)) by (cbn [op fin]; lia). revert HB1. rewrite <- (shown_add (-1) c v1). apply xa_xp. eapply (xp_push 0); [apply (shell_prim n); [exact HSh3|cbn; tauto]| |].
    + pose proof (stack_has_len _ _ (has_shown (-1) v1 d HD ltac:(lia))). lia.
    + intros ew j c0. cbn [exec_prim]. unfold p_compiling. rewrite bind_gets.
      replace (st_compiling (st (at_ j c0 (shown (-1) v1)))) with (st_compiling (st v1)); [unfold c; destruct (st_compiling (st v1)); reflexivity|].
      rewrite st_at. cbn [st_compiling set_st_ip set_st_wp]. unfold shown, drop_s, add_s, st. rewrite !cur_set_s. reflexivity. }
  assert (T : takes (add_s c v1) c (shown c v1)) by (exists d; split; [apply has_push; [exact HD|lia]|reflexivity]).
  pose proof (holds_kept K _ _ _ _ (proj2 P3) HB2) as (HA & Ha & L). unfold branches in L. cbn [laid] in L; cbv zeta in L. destruct L as (W & C & L & W' & C' & L').
  pose proof (cell_top _ _ _ _ C) as Ct. pose proof (cell_top _ _ _ _ C') as Ct'. pose proof (laid_range K _ _ _ L ltac:(lia)) as R.
  assert (HKK : kept K (add_s c v1) (shown c v1)) by (apply kept_eq; reflexivity).
  assert (P4 : part K (add_s c v1) (a + 48) (shown c v1) (a + (if st_compiling (st v1) then 64 else 96))).
  { split; [|exact HKK]. pose proof (goes_zero K _ (a + 48) _ c _ HA W C ltac:(destruct HA; cbn [block op fin] in *; lia) T) as G.
    replace (a + (if st_compiling (st v1) then 64 else 96)) with (if c =? 0 then fin (block [op n P_compile_token; op n P_check_stacks]) (a + 48 + 16) + 16 else a + 48 + 16); [exact G|].
    unfold c, flag_of. destruct (st_compiling (st v1)); cbn [Z.eqb block op fin]; lia. }
  split; [eapply part_trans; [exact P2|]; eapply part_trans; [exact P3|exact P4]|].
  eapply holds_kept; [exact HKK|]. destruct (st_compiling (st v1)); (split; [exact HA|split; [cbn [block op fin] in *; lia|]]).
  - replace (a + 64) with (a + 48 + 16) by lia. exact L.
  - replace (a + 96) with (fin (block [op n P_compile_token; op n P_check_stacks]) (a + 48 + 16) + 16) by (cbn [block op fin]; lia). exact L'.
Qed.
Lemma loop_back n v (c : bool) : shell K n v -> part K v (w_dfa (word_of v (n_eval n)) + (if c then 64 else 96) + 16) v (w_dfa (word_of v (n_eval n))).
Proof.
  intros HSh. pose proof (eval_held n v HSh) as HH. set (a := w_dfa (word_of v (n_eval n))) in *.
  pose proof (while_back K _ _ _ _ HH) as PB. destruct HH as (HA & Ha & HL). cbn [d_evaluate laid] in HL; cbv zeta in HL. destruct HL as (L & W & C & (_ & L') & _).
  cbn [block laid] in L'; cbv zeta in L'. destruct L' as (W1 & C1 & L1 & W2 & C2 & L2).
  cbn [block op fin] in PB, W2, C2. destruct c.
  - eapply part_trans; [|exact PB]. split; [|apply kept_refl]. replace (a + 64 + 16) with (a + 8 + 8 + 8 + 16 + 8 + 16 + 8 + 8) by lia.
    apply (goes_branch K); [exact HA|exact W2|exact C2|]. pose proof (cell_top _ _ _ _ C2). cbn [op fin laid block] in L2. destruct L2 as (_ & (CX & _)). pose proof (cell_top _ _ _ _ CX). destruct HA. lia.
  - replace (a + 96 + 16) with (a + 8 + 8 + 8 + 16 + 8 + 16 + 8 + 8 + 16 + 8 + 8) by lia. exact PB.
Qed.
Lemma token_run n v t fuel u : at_token fuel v t -> shell K n v -> performs fuel t (dispatched n v) u ->
  execute_word (S fuel) (ix n (token_word v)) (set_ip (token_addr n v + 8) v) = Ok (tt, u).
Proof.
  intros HT HSh PF. unfold dispatched in PF. assert (AT : at_token fuel (at_ (ix n (token_word v)) (token_addr n v + 8) v) t) by exact HT.
  apply (performs_iff fuel _ _ _ AT) in PF. rewrite st_at in PF. cbn [st_compiling set_st_ip set_st_wp] in PF.
  rewrite (execute_word_eq fuel _ _ (token_word v)), set_wp_ip; [unfold token_word at 1; exact PF|].
  apply (shell_prim n); [exact HSh|]. unfold token_word. destruct (st_compiling (st v)); cbn; tauto.
Qed.
Lemma token_part n v t fuel v2 a : at_token fuel v t -> shell K n v -> acts K n fuel t v v2 -> a = token_addr n v -> holds K v (op n (token_word v)) a -> part K v a v2 (a + 8).
Proof.
  intros HT HSh (IA & _ & u & PF & GU) -> (HA & Hb & C & Hi). split; [|apply IA]. intros w HC. destruct (step_cell K _ _ _ w HA HC C Hi) as [R1 R2].
  destruct (GU u (continues_self u)) as (w' & S1 & C1). exists w'. split; [|exact C1].
  econstructor; [split; [exact R1|]; exists (S fuel)|exact S1]. rewrite R2. apply (token_run n v t); assumption.
Qed.
Lemma word_part {sid} n v t v1 fuel v2 : steady_on sid v -> reads v t v1 -> t <> [] -> at_token fuel v1 t -> acts K n fuel t (noted v1) v2 -> steady_on sid v2 -> shell K n v ->
  part K v (w_dfa (word_of v (n_eval n))) v2 (w_dfa (word_of v (n_eval n))) /\ intact K n v v2 /\ (forall rs, stack_has (t_r (cur v)) rs -> stack_has (t_r (cur v2)) rs).
Proof.
  intros HS HR Ht HT HA S2 HSh. destruct (token_reached n v t v1 HS HR Ht HSh) as [P1 HH]. destruct (noted_facts n _ _ _ HS HR) as (I0 & ER & EC).
  assert (AT : at_token fuel (noted v1) t) by exact HT. pose proof (shell_stays _ _ _ I0 HSh) as Sh1. pose proof (intact_trans _ _ _ _ I0 (proj1 HA)) as I2.
  pose proof (shell_stays _ _ _ I2 HSh) as Sh2. split; [|split; [exact I2|intros rs; rewrite <- ER; apply HA]].
  pose proof HSh as (_ & (WE & _) & _). pose proof (proj2 (proj2 I0 (n_eval n) ltac:(cbn; tauto) (proj1 WE))) as E1. pose proof (proj2 (proj2 I2 (n_eval n) ltac:(cbn; tauto) (proj1 WE))) as E2.
  pose proof (loop_back n v2 (st_compiling (st (noted v1))) Sh2) as PB. rewrite E2 in PB. unfold token_addr in *. rewrite E1 in *. 
  destruct (holds_seq _ _ _ _ _ HH) as [H1 H2]. pose proof (token_part n _ t fuel v2 _ AT Sh1 HA ltac:(unfold token_addr; rewrite E1; reflexivity) H1) as P2.
  revert AT P1 HH Sh1 H1 H2 P2 PB. generalize (noted v1). intros y AT P1 HH Sh1 H1 H2 P2 PB.
  eapply part_trans; [exact P1|]. eapply part_trans; [exact P2|]. cbn [op fin] in H2. pose proof (holds_kept K _ _ _ _ (proj2 P2) H2) as H3.
  assert (HK2 : xp (Op (ix n P_check_stacks)) v2 v2).
  { eapply (xp_prim 0); [apply (shell_prim n); [exact Sh2|cbn; tauto]|apply kept_refl|]. intros. apply check_at. apply S2. }
  pose proof (HK2 _ H3) as P3. cbn [fin] in P3. eapply part_trans; [exact P3|].
  set (z := w_dfa (word_of v (n_eval n)) + _) in *. replace (z + 8 + 8) with (z + 16) by lia. exact PB.
Qed.
Lemma obeyed_part {sid} n v ts v' : obeyed_on sid K n v ts v' -> shell K n v ->
  part K v (w_dfa (word_of v (n_eval n))) v' (w_dfa (word_of v (n_eval n))) /\ intact K n v v' /\ steady_on sid v' /\ (forall rs, stack_has (t_r (cur v)) rs -> stack_has (t_r (cur v')) rs).
Proof.
  induction 1 as [v HS|v t v1 fuel v2 ts v' HS HR Ht HT HA HO IH]; intros HSh.
  - split; [split; [|apply kept_refl]|split; [apply intact_refl|split; [exact HS|tauto]]]. intros w HC. exists w. split; [constructor|exact HC].
  - assert (S2 : steady_on sid v2) by (inversion HO; assumption). destruct (word_part n v t v1 fuel v2 HS HR Ht HT HA S2 HSh) as (P1 & I1 & R1).
    destruct (IH (shell_stays _ _ _ I1 HSh)) as (P2 & I2 & S3 & R2). pose proof HSh as (_ & (WE & _) & _).
    rewrite (proj2 (proj2 I1 (n_eval n) ltac:(cbn; tauto) (proj1 WE))) in P2.
    split; [eapply part_trans; eassumption|split; [eapply intact_trans; eassumption|split; [exact S3|intros rs Hrs; apply R2, R1, Hrs]]].
Qed.
Lemma evaluate_part {sid} n v ts v' : obeys_on sid K n v ts v' -> shell K n v -> 
  part K v (w_dfa (word_of v (n_eval n))) v' (fin (d_evaluate n) (w_dfa (word_of v (n_eval n)))) /\ intact K n v v' /\ steady_on sid v' /\ (forall rs, stack_has (t_r (cur v)) rs -> stack_has (t_r (cur v')) rs).
Proof.
  intros (v0 & v1 & HO & HR & ->) HSh. destruct (obeyed_part n v ts v0 HO HSh) as (P0 & I0 & S0 & R0). pose proof (shell_stays _ _ _ I0 HSh) as Sh0.
  destruct (reads_state _ _ _ HR) as (D1 & D2 & D3 & D4 & D5 & D6). specialize (D4 _ S0).
  destruct (D4) as (_ & (d & HD & LD) & _). pose proof (stack_has_len _ _ HD) as L1. pose proof (zlen_nonneg d).
  assert (I2 : intact K n v0 (shown 0 v1)) by (apply intact_eq; [exact D1|exact D2]).
  split; [|split; [eapply intact_trans; eassumption|split; [apply steady_shown; exact D4|]]].
  2:{ intros rs H1. unfold shown, drop_s, add_s. rewrite !cur_set_s. cbn [t_r set_t_s]. rewrite D3. apply R0, H1. }
  pose proof (eval_held n v0 Sh0) as HH. pose proof HSh as (_ & (WE & _) & _). rewrite (proj2 (proj2 I0 (n_eval n) ltac:(cbn; tauto) (proj1 WE))) in HH.
  set (a := w_dfa (word_of v (n_eval n))) in *. pose proof (reading_part n v0 [] v1 a S0 HR Sh0 HH) as P1. cbn [no_text] in P1.
  assert (T : takes (add_s 0 v1) 0 (shown 0 v1)) by (exists d; split; [apply has_push; [exact HD|lia]|reflexivity]).
  pose proof (while_round K _ _ v0 a _ 0 _ HH P1 T) as P2. eapply part_trans; [exact P0|exact P2].
Qed.
End K.
End L.
