(** Simulation of structured programs by compiled code. *)
From Coq Require Import ZArith List Bool Lia ZifyBool ZifyNat.
From Verif Require Import Base Stack Mem State CoreM Exec LBase LStack Spec Spec2 Spec4 Spec5
  LState LMem LMon LMemWords LTask LFuel.
Import ListNotations.
Open Scope Z_scope.
Open Scope m_scope.
Ltac Zify.zify_post_hook ::= Z.div_mod_to_equations.

(** Normalise a state expression in the goal only *)
Ltac gnorm :=
  unfold set_ip, set_wp, set_awp, set_idx, set_sid, set_compiling, ip;
  unfold set_s, set_r, set_c, set_f, set_st, s_stk, r_stk, c_stk, f_stk, st;
  repeat first [rewrite upd_upd | rewrite cur_upd];
  cbn [t_s t_r t_c t_f t_state t_awake t_inbuf t_files t_sources t_lines
       set_t_s set_t_r set_t_c set_t_f set_t_state set_t_awake set_t_inbuf set_t_files set_t_sources set_t_lines
       st_compiling st_ip st_wp st_awp st_idx st_sid
       set_st_compiling set_st_ip set_st_wp set_st_awp set_st_idx set_st_sid].

Section C.
Context {E : Env}.
Implicit Types (v w : vm).

Lemma upd_ext f g v : f (cur v) = g (cur v) -> upd_cur f v = upd_cur g v.
Proof. intro H. unfold upd_cur. rewrite H. reflexivity. Qed.

(** Normal form: word pointer [j], instruction pointer [a] *)
Definition at_ (j a : Z) v : vm := set_ip a (set_wp j v).

Lemma at_upd j a v : at_ j a v =
  upd_cur (fun t => set_t_state (set_st_ip a (set_st_wp j (t_state t))) t) v.
Proof.
  unfold at_. gnorm. apply upd_ext. unfold upd_cur. cbn.
  destruct (cur v) as [aw [? ? ? ? ? ?] ? ? ? ? ? ? ? ?]. reflexivity.
Qed.
Ltac aeq := rewrite ?at_upd; gnorm; apply upd_ext; cbn;
  match goal with |- context [cur ?v] => destruct (cur v) as [? [? ? ? ? ? ?] ? ? ? ? ? ? ? ?] end; reflexivity.
Lemma set_ip_at x j a v : set_ip x (at_ j a v) = at_ j x v.
Proof. aeq. Qed.
Lemma set_wp_at x j a v : set_wp x (at_ j a v) = at_ x a v.
Proof. aeq. Qed.
Lemma set_wp_ip i a v : set_wp i (set_ip a v) = at_ i a v.
Proof. aeq. Qed.
Lemma set_ip_wp_at i a v : set_ip a (set_wp i v) = at_ i a v.
Proof. reflexivity. Qed.
Lemma set_wp_set_wp i j v : set_wp i (set_wp j v) = set_wp i v.
Proof. aeq. Qed.
Lemma set_s_at s j a v : set_s s (at_ j a v) = at_ j a (set_s s v).
Proof. aeq. Qed.
Lemma set_r_at s j a v : set_r s (at_ j a v) = at_ j a (set_r s v).
Proof. aeq. Qed.
Lemma set_f_at s j a v : set_f s (at_ j a v) = at_ j a (set_f s v).
Proof. aeq. Qed.
Lemma set_s_set_s s s' v : set_s s (set_s s' v) = set_s s v.
Proof. aeq. Qed.
Lemma set_r_set_r s s' v : set_r s (set_r s' v) = set_r s v.
Proof. aeq. Qed.
Lemma at_at j a k c v : at_ j a (at_ k c v) = at_ j a v.
Proof. aeq. Qed.
Lemma cur_at j a v : cur (at_ j a v) = set_t_state (set_st_ip a (set_st_wp j (t_state (cur v)))) (cur v).
Proof. rewrite at_upd, cur_upd. reflexivity. Qed.
Lemma ds_at j a v : v_ds (at_ j a v) = v_ds v. Proof. reflexivity. Qed.
Lemma wl_at j a v : v_wl (at_ j a v) = v_wl v. Proof. reflexivity. Qed.
Lemma st_at j a v : st (at_ j a v) = set_st_ip a (set_st_wp j (st v)).
Proof. unfold st. rewrite cur_at. reflexivity. Qed.
Lemma ip_at j a v : ip (at_ j a v) = a.
Proof. unfold ip. rewrite st_at. reflexivity. Qed.
Lemma s_at j a v : t_s (cur (at_ j a v)) = t_s (cur v). Proof. rewrite cur_at. reflexivity. Qed.
Lemma r_at j a v : t_r (cur (at_ j a v)) = t_r (cur v). Proof. rewrite cur_at. reflexivity. Qed.
Lemma f_at j a v : t_f (cur (at_ j a v)) = t_f (cur v). Proof. rewrite cur_at. reflexivity. Qed.

(** The word pointer does not matter to what follows *)
Lemma ew_wp f i j v : execute_word f i (set_wp j v) = execute_word f i v.
Proof.
  destruct f as [|f]; [reflexivity|]. cbn [execute_word]. rewrite !bind_modify, set_wp_set_wp. reflexivity.
Qed.


Lemma continues_at v a j : continues v a (at_ j a v).
Proof. split; [rewrite st_at; reflexivity|]. rewrite !set_ip_wp_at. apply at_at. Qed.
Lemma continues_self v : continues v (st_ip (st v)) v.
Proof. split; reflexivity. Qed.
Lemma continues_eq v a w : continues v a w -> forall j c, at_ j c w = at_ j c v.
Proof.
  intros [_ H] j c. rewrite !set_ip_wp_at in H. rewrite <- (at_at j c 0 0 w), H. apply at_at.
Qed.
Lemma continues_ds v a w : continues v a w -> v_ds w = v_ds v.
Proof. intros [_ H]. apply (f_equal v_ds) in H. exact H. Qed.
Lemma continues_wl v a w : continues v a w -> v_wl w = v_wl v.
Proof. intros [_ H]. apply (f_equal v_wl) in H. exact H. Qed.

(** ** One step *)
Lemma step_cell K v a i w : addressable v -> continues v a w -> code_cell K v a i -> 0 <= i < 2 ^ 63 ->
  running w = Ok (true, w) /\
  forall f, run_step f w = execute_word f i (set_ip (a + 8) v).
Proof.
  intros [H1 H2] HC (B1 & B2 & C & _) Hi. pose proof (continues_ds _ _ _ HC) as HD.
  pose proof (proj1 HC) as HI.
  assert (G : get_isize (v_ds v) a = Ok i).
  { apply get_isize_ok; [apply in_ds_true; lia|exact C|]. red. lia. }
  split.
  - unfold running, get_ip, ip. rewrite !bind_gets, HI, HD.
    replace (start (v_ds v) <=? a) with true by lia.
    rewrite (bind_Ok _ _ _ (a + 8) w) by (apply chk_u64_ok; unfold two64; lia).
    unfold ret. do 2 f_equal. lia.
  - intro f. unfold run_step, get_ip, ip. rewrite bind_gets, HI.
    rewrite (bind_Ok _ _ _ i w) by (apply ds_get_eq; rewrite HD; exact G).
    unfold skip_cell, get_ip, put_ip, ip. rewrite bind_bind, bind_gets, HI, bind_bind.
    rewrite (bind_Ok _ _ _ (a + 8) w) by (apply chk_u64_ok; unfold two64; lia).
    rewrite bind_modify, to_u64_id by (unfold two64; lia).
    rewrite <- (ew_wp f i 0 (set_ip (a + 8) v)), <- (ew_wp f i 0 (set_ip (a + 8) w)).
    f_equal. rewrite !set_wp_ip. apply (continues_eq _ _ _ HC).
Qed.

Lemma step_word K v a p w : addressable v -> continues v a w -> code_word K v a p ->
  exists i, running w = Ok (true, w) /\
  forall f, run_step (S f) w = exec_prim f (execute_word f) p (at_ i (a + 8) v).
Proof.
  intros HA HC (i & C & W & HL). exists i.
  assert (Hi : 0 <= i < 2 ^ 63) by (destruct W; lia).
  destruct (step_cell K v a i w HA HC C Hi) as [R1 R2]. split; [exact R1|].
  intro f. rewrite R2. rewrite (execute_word_eq _ _ _ p).
  - rewrite set_wp_ip. reflexivity.
  - exact W.
Qed.

(** ** The control words *)
Lemma get_code K v a x j c : addressable v -> code_cell K v a x -> is_cell x ->
  ds_get (fun d => get_isize d a) (at_ j c v) = Ok (x, at_ j c v).
Proof.
  intros [H1 H2] (B1 & B2 & C & _) Hi. apply ds_get_eq. rewrite ds_at.
  apply get_isize_ok; [apply in_ds_true; lia|exact C|exact Hi].
Qed.
Lemma skip_eq j a v : 0 <= a -> a + 8 < 2 ^ 63 -> skip_cell (at_ j a v) = Ok (tt, at_ j (a + 8) v).
Proof.
  intros H1 H2. unfold skip_cell, get_ip, put_ip. rewrite bind_gets, ip_at.
  rewrite (bind_Ok _ _ _ (a + 8) (at_ j a v)) by (apply chk_u64_ok; unfold two64; lia).
  unfold modify. rewrite set_ip_at. reflexivity.
Qed.
Lemma code_range K v a x : addressable v -> code_cell K v a x -> 0 < a /\ a + 8 < 2 ^ 63.
Proof. intros [? ?] (? & ? & _). lia. Qed.

Lemma branch_eq K v a x j : addressable v -> code_cell K v a x -> 0 <= x < 2 ^ 63 ->
  branch (at_ j a v) = Ok (tt, at_ j x v).
Proof.
  intros HA C Hx. unfold branch, get_ip, put_ip. rewrite bind_gets, ip_at.
  rewrite (bind_Ok _ _ _ _ _ (get_code K v a x j a HA C ltac:(red; lia))).
  unfold modify. rewrite set_ip_at, to_u64_id by (unfold two64; lia). reflexivity.
Qed.

Lemma takes_pop v x v' j a : takes v x v' -> s_pop (at_ j a v) = Ok (x, at_ j a v').
Proof.
  intros (rest & H & ->). pose proof (stack_has_len _ _ H) as HL. pose proof (stack_has_bound _ _ H) as HB.
  rewrite zlen_cons in HL. pose proof (zlen_nonneg rest).
  rewrite (s_pop_eq _ x (drop_items 1 (t_s (cur v)))).
  - rewrite set_s_at. reflexivity.
  - rewrite s_at. unfold pop, drop_items. rewrite w8sub_ok by lia. f_equal.
    pose proof (stack_has_nth _ _ 0 x H eq_refl) as Q. rewrite <- Q. f_equal. lia.
Qed.
Lemma drop_at n j a v : drop_s n (at_ j a v) = at_ j a (drop_s n v).
Proof. unfold drop_s. rewrite s_at, set_s_at. reflexivity. Qed.

Lemma zero_branch_eq K v a x j y v1 : addressable v -> code_cell K v a x -> 0 <= x < 2 ^ 63 -> takes v y v1 ->
  zero_branch (at_ j a v) = Ok (tt, at_ j (if y =? 0 then x else a + 8) v1).
Proof.
  intros HA C Hx HT. unfold zero_branch.
  rewrite (bind_Ok _ _ _ _ _ (takes_pop v y v1 j a HT)).
  pose proof (code_range _ _ _ _ HA C).
  assert (HD : v_ds v1 = v_ds v) by (destruct HT as (? & _ & ->); reflexivity).
  destruct (y =? 0).
  - apply (branch_eq K); [|  |exact Hx].
    + unfold addressable. rewrite HD. exact HA.
    + unfold code_cell. rewrite HD. exact C.
  - apply skip_eq; lia.
Qed.

Lemma add_item_push {T} (s : stack T) x : 0 <= len s < 255 -> push s x = add_item s x.
Proof.
  intro H. unfold push, add_item. rewrite w8add_ok by lia. rewrite w8sub_ok by lia.
  unfold sset, set_len. cbn. f_equal. f_equal. lia.
Qed.

Lemma lit_eq K v a x j : addressable v -> code_cell K v a x -> is_cell x -> 0 <= len (t_s (cur v)) < 255 ->
  lit (at_ j a v) = Ok (tt, at_ j (a + 8) (add_s x v)).
Proof.
  intros HA C Hx HL. unfold lit, get_ip. rewrite bind_gets, ip_at.
  rewrite (bind_Ok _ _ _ _ _ (get_code K v a x j a HA C Hx)).
  unfold on_s. rewrite bind_modify. unfold s_stk. rewrite s_at, set_s_at.
  pose proof (code_range _ _ _ _ HA C).
  rewrite skip_eq by lia. unfold add_s.
  rewrite <- (add_item_push _ x HL). unfold push. reflexivity.
Qed.

Lemma round8_eq a : round8 a = align8 a. Proof. reflexivity. Qed.

Lemma flit_eq K v a x j : addressable v -> code_cell K v (round8 a) x -> 0 <= a -> 0 <= x < 2 ^ 64 ->
  0 <= len (t_f (cur v)) < 255 ->
  flit (at_ j a v) = Ok (tt, at_ j (round8 a + 8) (add_f x v)).
Proof.
  intros HA C Ha Hx HL. pose proof (code_range _ _ _ _ HA C) as R. unfold flit, get_ip, put_ip.
  rewrite bind_gets, ip_at. rewrite round8_eq in *. pose proof (align8_range a).
  rewrite (bind_Ok _ _ _ (align8 a) (at_ j a v)) by (apply lift_eq, aligned8_ok; unfold two64; lia).
  rewrite (bind_Ok _ _ _ x (at_ j a v)).
  2:{ apply ds_get_eq. rewrite ds_at. destruct HA, C as (? & ? & C & _). unfold get_f64.
      apply get_usize_ok; [apply in_ds_true; lia|exact C|unfold two64; lia]. }
  rewrite bind_modify. unfold f_stk. rewrite f_at, set_f_at.
  rewrite (bind_Ok _ _ _ (align8 a + 8) _) by (apply chk_u64_ok; unfold two64; lia).
  unfold modify. rewrite set_ip_at. unfold add_f. rewrite <- (add_item_push _ x HL). reflexivity.
Qed.


Lemma pm_add_comm {A} : forall k l (x y : A) m, k <> l ->
  FMapPositive.PositiveMap.add k x (FMapPositive.PositiveMap.add l y m) =
  FMapPositive.PositiveMap.add l y (FMapPositive.PositiveMap.add k x m).
Proof.
  induction k as [k IH|k IH|]; intros [l|l|] x y [|m1 o m2] H; cbn; try reflexivity;
    try (rewrite IH by congruence; reflexivity); congruence.
Qed.
Lemma tset_comm {A} (m : tmap A) i j x y : 0 <= i -> 0 <= j -> i <> j ->
  tset (tset m i x) j y = tset (tset m j y) i x.
Proof. intros Hi Hj H. unfold tset. apply pm_add_comm. intro Q. apply H. symmetry. apply tkey_inj; assumption. Qed.

Lemma s_quote_eq K v a s j : addressable v -> code_cell K v a (zlen s) -> code_text K v (a + 8) s ->
  0 <= len (t_s (cur v)) < 254 ->
  p_s_quote (at_ j a v) = Ok (tt, at_ j (round8 (a + 8 + zlen s)) (add_s (zlen s) (add_s (a + 8) v))).
Proof.
  intros HA C CT HL. pose proof (code_range _ _ _ _ HA C) as R. destruct HA as [A1 A2].
  destruct C as (B1 & B2 & C & _), CT as (T1 & T2 & T3). pose proof (zlen_nonneg s).
  unfold p_s_quote, get_ip, put_ip. rewrite bind_gets, ip_at.
  rewrite (bind_Ok _ _ _ s (at_ j a v)).
  2:{ apply ds_get_eq. rewrite ds_at. apply get_str_ok; [apply in_ds_true; lia|lia|lia|exact C|].
      intros k x Hk. apply T3. exact Hk. }
  cbv zeta. unfold on_s. rewrite bind_modify. unfold s_stk. rewrite s_at, set_s_at.
  rewrite to_i64_id by (unfold imin, imax, two63, two64; lia).
  rewrite (bind_Ok _ _ _ (a + 8) _) by (apply chk_u64_ok; unfold two64; lia).
  rewrite (bind_Ok _ _ _ (a + 8 + zlen s) _) by (apply chk_u64_ok; unfold two64; lia).
  rewrite (bind_Ok _ _ _ (align8 (a + 8 + zlen s)) _) by (apply lift_eq, aligned8_ok; unfold two64; lia).
  unfold modify. rewrite set_ip_at. do 3 f_equal.
  unfold add_s. rewrite set_s_set_s, cur_set_s. cbn [t_s set_t_s]. f_equal.
  rewrite w8add_ok, !w8sub_ok by lia. unfold add_item, sset, set_len. cbn. f_equal; [|lia].
  rewrite tset_comm by lia. f_equal; [|lia]. f_equal. lia.
Qed.

Lemma r_pop_eq v x s : pop (t_r (cur v)) = (x, s) -> r_pop v = Ok (x, set_r s v).
Proof. intro H. unfold r_pop, r_stk. rewrite H. reflexivity. Qed.
Lemma r_pop2_eq v x s : pop2 (t_r (cur v)) = (x, s) -> r_pop2 v = Ok (x, set_r s v).
Proof. intro H. unfold r_pop2, r_stk. rewrite H. reflexivity. Qed.
Lemma r_pop3_eq v x s : pop3 (t_r (cur v)) = (x, s) -> r_pop3 v = Ok (x, set_r s v).
Proof. intro H. unfold r_pop3, r_stk. rewrite H. reflexivity. Qed.

Lemma pop_items {T} (s : stack T) x l : stack_has s (x :: l) -> pop s = (x, drop_items 1 s).
Proof.
  intro H. pose proof (stack_has_len _ _ H) as HL. pose proof (stack_has_bound _ _ H) as HB.
  rewrite zlen_cons in HL. pose proof (zlen_nonneg l).
  unfold pop, drop_items. rewrite w8sub_ok by lia. f_equal.
  pose proof (stack_has_nth _ _ 0 x H eq_refl) as Q. rewrite <- Q. f_equal. lia.
Qed.
Lemma pop2_items {T} (s : stack T) x y l : stack_has s (x :: y :: l) -> pop2 s = ((y, x), drop_items 2 s).
Proof.
  intro H. pose proof (stack_has_len _ _ H) as HL. pose proof (stack_has_bound _ _ H) as HB.
  rewrite !zlen_cons in HL. pose proof (zlen_nonneg l).
  unfold pop2, drop_items. rewrite !w8sub_ok by lia. f_equal.
  pose proof (stack_has_nth _ _ 0 x H eq_refl) as Q. pose proof (stack_has_nth _ _ 1 y H eq_refl) as Q'.
  rewrite <- Q, <- Q'. f_equal; f_equal; lia.
Qed.
Lemma pop3_items {T} (s : stack T) x y z l : stack_has s (x :: y :: z :: l) -> pop3 s = ((z, y, x), drop_items 3 s).
Proof.
  intro H. pose proof (stack_has_len _ _ H) as HL. pose proof (stack_has_bound _ _ H) as HB.
  rewrite !zlen_cons in HL. pose proof (zlen_nonneg l).
  unfold pop3, drop_items. rewrite !w8sub_ok by lia. f_equal.
  pose proof (stack_has_nth _ _ 0 x H eq_refl) as Q. pose proof (stack_has_nth _ _ 1 y H eq_refl) as Q'.
  pose proof (stack_has_nth _ _ 2 z H eq_refl) as Q''.
  rewrite <- Q, <- Q', <- Q''. f_equal; [f_equal|]; f_equal; lia.
Qed.

Lemma loop_first lim idx : to_i64 (to_i64 (imin + idx) - lim) = to_i64 (idx - lim - 2 ^ 63).
Proof.
  destruct (to_i64_mod (imin + idx)) as [k Hk]. apply (to_i64_congr _ _ (- k)).
  unfold imin, two63 in *. lia.
Qed.
Lemma loop_second lim idx : to_i64 (idx - to_i64 (idx - lim - 2 ^ 63)) = to_i64 (lim - 2 ^ 63).
Proof.
  destruct (to_i64_mod (idx - lim - 2 ^ 63)) as [k Hk]. apply (to_i64_congr _ _ (k + 1)). lia.
Qed.

Lemma add_r_push x j a v : 0 <= len (t_r (cur v)) < 255 -> 
  r_push x (at_ j a v) = Ok (tt, at_ j a (add_r x v)).
Proof.
  intro H. unfold r_push, modify, r_stk. rewrite r_at, set_r_at, add_item_push by assumption. reflexivity.
Qed.
Lemma add_r2_push x y j a v : 0 <= len (t_r (cur v)) < 254 -> 
  r_push2 x y (at_ j a v) = Ok (tt, at_ j a (add_r y (add_r x v))).
Proof.
  intro H. unfold r_push2, modify, r_stk. rewrite r_at, set_r_at. do 3 f_equal.
  unfold add_r. rewrite set_r_set_r, cur_set_r. cbn [t_r set_t_r]. f_equal.
  unfold push2, add_item, sset, set_len. cbn. rewrite w8add_ok, !w8sub_ok by lia. f_equal; [|lia].
  f_equal; [f_equal|]; lia.
Qed.

Lemma do_eq K v a e j lim idx rest : addressable v -> code_cell K v a e ->
  stack_has (t_s (cur v)) (idx :: lim :: rest) -> 0 <= len (t_r (cur v)) <= 252 ->
  _do (at_ j a v) = Ok (tt, at_ j (a + 8)
    (add_r (to_i64 (idx - lim - 2 ^ 63)) (add_r (to_i64 (lim - 2 ^ 63)) (add_r a (drop_s 2 v))))).
Proof.
  intros HA C H HR. pose proof (code_range _ _ _ _ HA C) as R. unfold _do, get_ip. rewrite bind_gets, ip_at.
  rewrite to_i64_id by (unfold imin, imax, two63, two64; lia).
  rewrite (bind_Ok _ _ _ _ _ (add_r_push a j a v ltac:(lia))).
  rewrite (bind_Ok _ _ _ _ _ (skip_eq j a (add_r a v) ltac:(lia) ltac:(lia))).
  rewrite (bind_Ok _ _ _ (lim, idx) (at_ j (a + 8) (add_r a (drop_s 2 v)))).
  2:{ rewrite (s_pop2_eq _ (lim, idx) (drop_items 2 (t_s (cur v)))).
      - rewrite set_s_at. do 3 f_equal. unfold add_r, drop_s. gnorm. apply upd_ext. reflexivity.
      - rewrite s_at. unfold add_r. rewrite cur_set_r. cbn [t_s set_t_r]. apply (pop2_items _ idx lim rest H). }
  cbv zeta. rewrite loop_first, loop_second.
  assert (HL : len (t_r (cur (add_r a (drop_s 2 v)))) = len (t_r (cur v)) + 1).
  { unfold add_r, drop_s. gnorm. reflexivity. }
  rewrite add_r2_push by lia. reflexivity.
Qed.

Lemma qdo_eq K v a e j lim idx rest : addressable v -> code_cell K v a e -> 0 <= e < 2 ^ 63 ->
  stack_has (t_s (cur v)) (idx :: lim :: rest) -> 0 <= len (t_r (cur v)) <= 252 -> lim <> idx ->
  _qdo (at_ j a v) = Ok (tt, at_ j (a + 8)
    (add_r (to_i64 (idx - lim - 2 ^ 63)) (add_r (to_i64 (lim - 2 ^ 63)) (add_r a (drop_s 2 v))))).
Proof.
  intros HA C He H HR Hn. pose proof (code_range _ _ _ _ HA C) as R. unfold _qdo, get_ip.
  rewrite (bind_Ok _ _ _ (lim, idx) (at_ j a (drop_s 2 v))).
  2:{ rewrite (s_pop2_eq _ (lim, idx) (drop_items 2 (t_s (cur v)))).
      - rewrite set_s_at. reflexivity.
      - rewrite s_at. apply (pop2_items _ idx lim rest H). }
  cbv beta iota. replace (lim =? idx) with false by lia. rewrite bind_gets, ip_at.
  rewrite to_i64_id by (unfold imin, imax, two63, two64; lia).
  assert (HL0 : len (t_r (cur (drop_s 2 v))) = len (t_r (cur v))).
  { unfold drop_s. gnorm. reflexivity. }
  rewrite (bind_Ok _ _ _ _ _ (add_r_push a j a (drop_s 2 v) ltac:(lia))).
  rewrite (bind_Ok _ _ _ _ _ (skip_eq j a (add_r a (drop_s 2 v)) ltac:(lia) ltac:(lia))).
  cbv zeta. rewrite loop_first, loop_second.
  assert (HL : len (t_r (cur (add_r a (drop_s 2 v)))) = len (t_r (cur v)) + 1).
  { unfold add_r, drop_s. gnorm. reflexivity. }
  rewrite add_r2_push by lia. reflexivity.
Qed.
Lemma qdo_skip_eq K v a e j x rest : addressable v -> code_cell K v a e -> 0 <= e < 2 ^ 63 ->
  stack_has (t_s (cur v)) (x :: x :: rest) ->
  _qdo (at_ j a v) = Ok (tt, at_ j e (drop_s 2 v)).
Proof.
  intros HA C He H. unfold _qdo.
  rewrite (bind_Ok _ _ _ (x, x) (at_ j a (drop_s 2 v))).
  2:{ rewrite (s_pop2_eq _ (x, x) (drop_items 2 (t_s (cur v)))).
      - rewrite set_s_at. reflexivity.
      - rewrite s_at. apply (pop2_items _ x x rest H). }
  cbv beta iota. rewrite Z.eqb_refl. apply (branch_eq K); assumption.
Qed.

Lemma cross_iff lim idx n : let x := to_i64 (idx - lim - 2 ^ 63) in
  (in_i64 (x + n) = true <-> ~ crosses lim idx n) /\
  (~ crosses lim idx n -> to_i64 (to_i64 (idx + n) - lim - 2 ^ 63) = x + n).
Proof.
  cbv zeta. assert (Hx : to_i64 (idx - lim - 2 ^ 63) = (idx - lim) mod 2 ^ 64 - 2 ^ 63).
  { apply (to_i64_unique _ _ ((idx - lim) / 2 ^ 64)).
    - unfold imin, imax, two63. pose proof (Z.mod_pos_bound (idx - lim) (2 ^ 64)). lia.
    - pose proof (Z.div_mod (idx - lim) (2 ^ 64)). lia. }
  rewrite Hx. split.
  - rewrite in_i64_true. unfold crosses, imin, imax, two63. cbv zeta. lia.
  - intro H. destruct (to_i64_mod (idx + n)) as [k Hk].
    apply (to_i64_unique _ _ ((idx - lim) / 2 ^ 64 - k)).
    + unfold crosses in H. cbv zeta in H. unfold imin, imax, two63. lia.
    + pose proof (Z.div_mod (idx - lim) (2 ^ 64)). lia.
Qed.

Lemma replace_top v x y l j a : stack_has (t_r (cur v)) (x :: l) ->
  r_push y (set_r (drop_items 1 (t_r (cur v))) (at_ j a v)) =
  Ok (tt, at_ j a (set_r (sset (t_r (cur v)) (len (t_r (cur v)) - 1) y) v)).
Proof.
  intro H. pose proof (stack_has_len _ _ H) as HL. pose proof (stack_has_bound _ _ H) as HB.
  rewrite zlen_cons in HL. pose proof (zlen_nonneg l).
  rewrite set_r_at. unfold r_push, modify. unfold r_stk. rewrite r_at, set_r_at. do 3 f_equal.
  rewrite set_r_set_r, cur_set_r. cbn [t_r set_t_r]. f_equal. rewrite add_item_push by (unfold drop_items; cbn; lia).
  unfold add_item, drop_items, sset, set_len. cbn. f_equal. lia.
Qed.

Lemma loop_end v x j a : r_pop (at_ j a v) = Ok (x, set_r (drop_items 1 (t_r (cur v))) (at_ j a v)) ->
  forall y z l, stack_has (t_r (cur v)) (x :: y :: z :: l) -> 0 <= a -> a + 8 < 2 ^ 63 ->
  forall v0, v0 = set_r (drop_items 1 (t_r (cur v))) (at_ j a v) ->
  bind r_pop2 (fun _ => skip_cell) v0 = Ok (tt, at_ j (a + 8) (drop_r 3 v)).
Proof.
  intros _ y z l H Ha Ha' v0 ->.
  pose proof (stack_has_len _ _ H) as HL. pose proof (stack_has_bound _ _ H) as HB.
  rewrite !zlen_cons in HL. pose proof (zlen_nonneg l).
  unfold r_pop2, bind, r_stk, pop2. rewrite !set_r_at, r_at. cbv beta iota zeta.
  rewrite skip_eq by lia. do 3 f_equal.
  unfold drop_r. rewrite set_r_set_r, cur_set_r. cbn [t_r set_t_r]. f_equal. unfold drop_items. cbn. unfold set_len. cbn.
  rewrite w8sub_ok by lia. f_equal. lia.
Qed.

Lemma loop_tail K v a e j n z lim idx rest : addressable v -> code_cell K v a e -> 0 <= e < 2 ^ 63 ->
  stack_has (t_r (cur v)) (frame z lim idx ++ rest) ->
  let rt := to_i64 (idx - lim - 2 ^ 63) in
  let w := set_r (drop_items 1 (t_r (cur v))) (at_ j a v) in
  (crosses lim idx n -> (if in_i64 (rt + n) then r_push (rt + n) ;;; branch else r_pop2 ;;; skip_cell) w =
     Ok (tt, at_ j (a + 8) (drop_r 3 v))) /\
  (~ crosses lim idx n -> forall v', new_index v lim (to_i64 (idx + n)) v' ->
     (if in_i64 (rt + n) then r_push (rt + n) ;;; branch else r_pop2 ;;; skip_cell) w = Ok (tt, at_ j e v')).
Proof.
  intros HA C He H rt w. destruct (cross_iff lim idx n) as [Q1 Q2]. cbv zeta in Q1, Q2.
  pose proof (code_range _ _ _ _ HA C) as R. cbn [frame app] in H.
  split.
  - intro X. replace (in_i64 (rt + n)) with false by (destruct (in_i64 (rt + n)) eqn:Y; [apply Q1 in Y; tauto|reflexivity]).
    apply (loop_end v rt j a) with (y := to_i64 (lim - 2 ^ 63)) (z := z) (l := rest); [|exact H|lia|lia|reflexivity].
    apply r_pop_eq. rewrite r_at. apply (pop_items _ _ _ H).
  - intros X v' ->. replace (in_i64 (rt + n)) with true by (symmetry; apply Q1; exact X).
    unfold w. rewrite (bind_Ok _ _ _ _ _ (replace_top v _ (rt + n) _ j a H)).
    rewrite (Q2 X). apply (branch_eq K); [exact HA|exact C|exact He].
Qed.

Lemma loop_eq K v a e j z lim idx rest : addressable v -> code_cell K v a e -> 0 <= e < 2 ^ 63 ->
  stack_has (t_r (cur v)) (frame z lim idx ++ rest) ->
  (crosses lim idx 1 -> _loop (at_ j a v) = Ok (tt, at_ j (a + 8) (drop_r 3 v))) /\
  (~ crosses lim idx 1 -> forall v', new_index v lim (to_i64 (idx + 1)) v' -> _loop (at_ j a v) = Ok (tt, at_ j e v')).
Proof.
  intros HA C He H. pose proof (loop_tail K v a e j 1 z lim idx rest HA C He H) as Q. cbv zeta in Q.
  unfold _loop. rewrite (bind_Ok _ _ _ _ _ (r_pop_eq (at_ j a v) _ _ (eq_trans (f_equal pop (r_at j a v)) (pop_items _ _ _ H)))).
  exact Q.
Qed.
Lemma plus_loop_eq K v a e j n v2 z lim idx rest : addressable v -> code_cell K v a e -> 0 <= e < 2 ^ 63 ->
  takes v n v2 ->
  stack_has (t_r (cur v2)) (frame z lim idx ++ rest) ->
  (crosses lim idx n -> _plus_loop (at_ j a v) = Ok (tt, at_ j (a + 8) (drop_r 3 v2))) /\
  (~ crosses lim idx n -> forall v', new_index v2 lim (to_i64 (idx + n)) v' -> _plus_loop (at_ j a v) = Ok (tt, at_ j e v')).
Proof.
  intros HA C He HT H.
  assert (HA2 : addressable v2) by (destruct HT as (? & _ & ->); exact HA).
  assert (HC2 : code_cell K v2 a e) by (destruct HT as (? & _ & ->); exact C).
  pose proof (loop_tail K v2 a e j n z lim idx rest HA2 HC2 He H) as Q. cbv zeta in Q.
  assert (HR : t_r (cur v2) = t_r (cur v)) by (destruct HT as (? & _ & ->); unfold drop_s; gnorm; reflexivity).
  unfold _plus_loop.
  rewrite (bind_Ok _ _ _ _ _ (r_pop_eq (at_ j a v) _ _ (eq_trans (f_equal pop (eq_trans (r_at j a v) (eq_sym HR))) (pop_items _ _ _ H)))).
  rewrite set_r_at.
  assert (HT' : takes (set_r (drop_items 1 (t_r (cur v2))) v) n (set_r (drop_items 1 (t_r (cur v2))) v2)).
  { destruct HT as (rs & HS & ->). exists rs. split.
    - rewrite cur_set_r. exact HS.
    - unfold drop_s. gnorm. apply upd_ext. reflexivity. }
  rewrite (bind_Ok _ _ _ _ _ (takes_pop _ _ _ j a HT')).
  rewrite <- set_r_at. exact Q.
Qed.

Lemma exit_eq v j a ra rest : stack_has (t_r (cur v)) (ra :: rest) ->
  exit (at_ j a v) = Ok (tt, at_ j (to_u64 ra) (drop_r 1 v)).
Proof.
  intros H. pose proof (stack_has_len _ _ H) as HL. pose proof (stack_has_bound _ _ H) as HB.
  rewrite zlen_cons in HL. pose proof (zlen_nonneg rest).
  unfold exit, modify. unfold r_stk. rewrite r_at, set_ip_at, set_r_at. cbv zeta. rewrite w8sub_ok by lia.
  pose proof (stack_has_nth _ _ 0 ra H eq_refl) as Q. do 3 f_equal. f_equal. rewrite <- Q. f_equal. lia.
Qed.

Lemma leave_eq K v ew j a x y z e rest : addressable v -> code_cell K v z e -> 0 <= e < 2 ^ 63 ->
  stack_has (t_r (cur v)) (x :: y :: z :: rest) ->
  zlen rest <= 128 -> sget (t_r (cur v)) 255 = canary (t_r (cur v)) ->
  leave ew (at_ j a v) = Ok (tt, at_ j e (drop_r 3 v)).
Proof.
  intros HA C He H HR HC. pose proof (code_range _ _ _ _ HA C) as R.
  pose proof (stack_has_len _ _ H) as HL. rewrite !zlen_cons in HL.
  unfold leave. rewrite (bind_Ok _ _ _ (z, y, x) (at_ j a (drop_r 3 v))).
  2:{ rewrite (r_pop3_eq _ (z, y, x) (drop_items 3 (t_r (cur v)))).
      - rewrite set_r_at. reflexivity.
      - rewrite r_at. apply (pop3_items _ x y z rest H). }
  cbv beta iota. rewrite bind_gets.
  replace (r_underflow (at_ j a (drop_r 3 v))) with false.
  2:{ symmetry. unfold r_underflow, r_stk. rewrite r_at. unfold drop_r. rewrite cur_set_r. cbn [t_r set_t_r].
      unfold underflow, drop_items. rewrite sget_set_len, canary_set_len, len_set_len, HC, Z.eqb_refl. cbn. lia. }
  rewrite (bind_Ok _ _ _ e (at_ j a (drop_r 3 v))).
  2:{ rewrite to_u64_id by (unfold two64; lia). apply (get_code K); [exact HA|exact C|red; lia]. }
  unfold put_ip, modify. rewrite set_ip_at, to_u64_id by (unfold two64; lia). reflexivity.
Qed.


(** ** Keeping the code *)
Section K.
Variable K : Z -> Prop.

Lemma kept_refl v : kept K v v.
Proof. repeat split; auto; apply H0. Qed.
Lemma kept_trans v1 v2 v3 : kept K v1 v2 -> kept K v2 v3 -> kept K v1 v3.
Proof.
  intros (A1 & A2 & A3 & A4) (B1 & B2 & B3 & B4). repeat split; try congruence.
  - intros a Ha. rewrite (B3 a Ha). auto.
  - destruct (B4 i p H (A4 i p H H0)); tauto.
  - destruct (B4 i p H (A4 i p H H0)); tauto.
  - destruct (B4 i p H (A4 i p H H0)); tauto.
Qed.
Lemma kept_eq v v' : v_ds v' = v_ds v -> v_wl v' = v_wl v -> kept K v v'.
Proof.
  intros HD HW. unfold kept, word_is. rewrite HD, HW. auto.
Qed.
Lemma kept_addressable v v' : kept K v v' -> addressable v -> addressable v'.
Proof. intros (A1 & A2 & _) [? ?]. unfold addressable. rewrite A1, A2. split; assumption. Qed.
Lemma kept_cell v v' a x : kept K v v' -> code_cell K v a x -> code_cell K v' a x.
Proof.
  intros (A1 & A2 & A3 & _) (B1 & B2 & B3 & B4). unfold code_cell. rewrite A1, A2. repeat split; auto.
  intros k Hk. rewrite A3 by auto. apply B3. exact Hk.
Qed.
Lemma kept_word v v' a p : In p control_words -> kept K v v' -> code_word K v a p -> code_word K v' a p.
Proof.
  intros Hp HK (i & C & W & L). exists i. split; [eapply kept_cell; eassumption|].
  split; [|exact L]. destruct HK as (_ & _ & _ & A4). auto.
Qed.
Lemma kept_text v v' a s : kept K v v' -> code_text K v a s -> code_text K v' a s.
Proof.
  intros (A1 & A2 & A3 & _) (B1 & B2 & B3). unfold code_text. rewrite A1, A2. split; [assumption|].
  split; [assumption|]. intros k x Hk. destruct (B3 k x Hk) as [Q1 Q2]. split; [|exact Q2].
  rewrite A3 by exact Q2. exact Q1.
Qed.
Lemma kept_laid v v' p : kept K v v' -> forall a, laid K v p a -> laid K v' p a.
Proof.
  intro HK. induction p; cbn [laid]; cbv zeta; intros a HL;
    repeat match goal with H : _ /\ _ |- _ => destruct H end;
    repeat match goal with |- _ /\ _ => split end;
    try (eapply kept_cell; eassumption); try (eapply kept_text; eassumption);
    try (eapply kept_word; [|eassumption|eassumption];
         try destruct skip; try destruct step; cbn; tauto);
    auto.
  destruct HK as (_ & -> & _). assumption.
Qed.

Lemma kept_takes v x v' : takes v x v' -> kept K v v'.
Proof. intros (? & _ & ->). apply kept_eq; reflexivity. Qed.
Lemma kept_step step v n v' : step_by step v n v' -> kept K v v'.
Proof. destruct step; cbn; [apply kept_takes|]. intros [_ ->]. apply kept_refl. Qed.

Lemma exec_kept_both :
  (forall p a v o v', exec K p a v o v' -> kept K v v') /\
  (forall step p a v o v', repeats K step p a v o v' -> kept K v v').
Proof.
  apply exec_repeats; intros; subst;
    repeat match goal with
    | H : takes _ _ _ |- _ => apply kept_takes in H
    | H : step_by _ _ _ _ |- _ => apply kept_step in H
    | H : new_index _ _ _ _ |- _ => red in H; subst
    end;
    try (apply kept_eq; reflexivity);
    eauto 6 using kept_trans, kept_refl.
  all: try (eapply kept_trans; [|eassumption]; first [apply kept_eq; reflexivity | idtac]).
  all: try (eapply kept_trans; [eassumption|]; eapply kept_trans; [eassumption|]; apply kept_eq; reflexivity).
Qed.
Lemma exec_kept p a v o v' : exec K p a v o v' -> kept K v v'.
Proof. apply exec_kept_both. Qed.
Lemma repeats_kept step p a v o v' : repeats K step p a v o v' -> kept K v v'.
Proof. apply exec_kept_both. Qed.

(** ** Code addresses stay in the data space *)
Lemma round8_ge a : a <= round8 a < a + 8. Proof. apply align8_range. Qed.
Lemma laid_range v p : forall a, laid K v p a -> a <= limit (v_ds v) -> a <= fin p a <= limit (v_ds v).
Proof.
  induction p; cbn [laid fin]; cbv zeta; intros a HL Ha;
    repeat match goal with H : _ /\ _ |- _ => destruct H end;
    unfold code_cell, code_text in *; repeat match goal with H : _ /\ _ |- _ => destruct H end;
    try (pose proof (zlen_nonneg s)); try (pose proof (round8_ge (a + 8))); try (pose proof (round8_ge (a + 16 + zlen s)));
    try lia.
  all: repeat match goal with
    | IH : forall a, laid _ ?v ?p a -> _, H : laid _ ?v ?p ?c |- _ =>
      assert (c <= fin p c <= limit (v_ds v)) by (apply IH; [exact H|lia]); revert H
    end; intros; lia.
Qed.

(** ** Simulation *)
Lemma steps_trans v1 v2 v3 : machine_steps v1 v2 -> machine_steps v2 v3 -> machine_steps v1 v3.
Proof. induction 1; intros; [assumption|]. econstructor; eauto. Qed.
Lemma one_step v v' : machine_step v v' -> machine_steps v v'.
Proof. intro H. econstructor; [exact H|constructor]. Qed.

Definition ends (o : outcome) (e : Z) (v' w : vm) : Prop :=
  match o with
  | Next => exists w', machine_steps w w' /\ continues v' e w'
  | Left z => forall x, code_cell K v' z x -> 0 <= x < 2 ^ 63 ->
                exists w', machine_steps w w' /\ continues v' x w'
  | Returned ra => exists w', machine_steps w w' /\ continues v' (to_u64 ra) w'
  end.
Lemma ends_more o e v' w w1 : machine_steps w w1 -> ends o e v' w1 -> ends o e v' w.
Proof.
  intro H. destruct o; cbn.
  - intros (w' & S1 & S2). exists w'. split; [eapply steps_trans; eassumption|exact S2].
  - intros Q x Hx1 Hx2. destruct (Q x Hx1 Hx2) as (w' & S1 & S2). exists w'. split; [eapply steps_trans; eassumption|exact S2].
  - intros (w' & S1 & S2). exists w'. split; [eapply steps_trans; eassumption|exact S2].
Qed.
Lemma ends_irrel o e e' v' w : o <> Next -> ends o e v' w -> ends o e' v' w.
Proof. destruct o; cbn; auto. congruence. Qed.

Lemma do_word v a p w e v' : addressable v -> continues v a w -> code_word K v a p ->
  (forall ew f i, exec_prim f ew p (at_ i (a + 8) v) = Ok (tt, at_ i e v')) ->
  exists w', machine_steps w w' /\ continues v' e w'.
Proof.
  intros HA HC HW H. destruct (step_word K v a p w HA HC HW) as (i & R1 & R2).
  exists (at_ i e v'). split; [|apply continues_at].
  apply one_step. split; [exact R1|]. exists (S O). rewrite R2, H. reflexivity.
Qed.


Lemma ends_next e v' w : (exists w', machine_steps w w' /\ continues v' e w') -> ends Next e v' w.
Proof. exact (fun H => H). Qed.

(** Follow a program part that ends normally, then continue *)
Lemma ends_seq v1 e1 o e v' w :
  ends Next e1 v1 w -> (forall w1, continues v1 e1 w1 -> ends o e v' w1) -> ends o e v' w.
Proof. intros (w1 & S1 & C1) H. eapply ends_more; [exact S1|]. apply H, C1. Qed.

Ltac split_and := repeat match goal with H : _ /\ _ |- _ => destruct H end.
Ltac bounds HA HB :=
  destruct HA as [? ?];
  repeat match goal with
  | H : laid K ?v ?p ?a |- _ =>
    let R := fresh "R" in
    assert (R : a <= fin p a <= limit (v_ds v)) by
      (apply (laid_range v p a H); unfold code_cell, code_word in *; split_and; lia); revert H
  end; intros.

Lemma cell_top v a x : code_cell K v a x -> a + 8 <= limit (v_ds v).
Proof. intros (_ & ? & _). assumption. Qed.
Lemma word_top v a p : code_word K v a p -> a + 8 <= limit (v_ds v).
Proof. intros (? & (_ & ? & _) & _). assumption. Qed.

Theorem simulation_both :
  (forall p a v o v', exec K p a v o v' -> addressable v -> start (v_ds v) <= a <= limit (v_ds v) ->
     laid K v p a ->
     forall w, continues v a w -> ends o (fin p a) v' w) /\
  (forall step p a v o v', repeats K step p a v o v' -> addressable v -> start (v_ds v) <= a ->
     forall skip, laid K v (Do skip step p) a ->
     forall w, continues v (a + 16) w -> ends o (fin p (a + 16) + 16) v' w).
Proof.
  apply exec_repeats.
  - (* skip *) intros a v HA Ha _ w HC. exists w. split; [constructor|exact HC].
  - (* seq *)
    intros p q a v v1 o v2 X1 IH1 X2 IH2 HA Ha HL w HC. cbn [laid fin] in *. destruct HL as [L1 L2].
    pose proof (exec_kept _ _ _ _ _ X1) as HK.
    pose proof (laid_range _ _ _ L1 (proj2 Ha)) as R. pose proof (proj1 (proj2 HK)) as EL. pose proof (proj1 HK) as ES.
    eapply ends_seq; [apply IH1; eassumption|]. intros w1 C1.
    apply IH2; [eapply kept_addressable; eassumption| |eapply kept_laid; eassumption|exact C1]. lia.
  - intros p q a v o v1 Ho X IH HA Ha HL w HC. cbn [laid fin] in *.
    eapply ends_irrel; [exact Ho|]. apply IH; try assumption. apply HL.
  - (* op *)
    intros i a v f v1 HE HI HK HA Ha [C Hi] w HC. cbn [fin].
    destruct (step_cell K v a i w HA HC C Hi) as [R1 R2].
    exists v1. split; [apply one_step; split; [exact R1|exists f; rewrite R2; exact HE]|].
    rewrite <- HI. apply continues_self.
  - (* call *)
    intros i a v f v1 body v2 HE HK HB HB' X IH HA Ha [C Hi] w HC. cbn [fin].
    destruct (step_cell K v a i w HA HC C Hi) as [R1 R2].
    eapply ends_more.
    { apply one_step. split; [exact R1|]. exists f. rewrite R2. exact HE. }
    pose proof (IH (kept_addressable _ _ HK HA) HB HB' v1 (continues_self v1)) as Q. cbn [ends] in Q |- *.
    pose proof (code_range K v a i HA C). rewrite to_u64_id in Q by (unfold two64; lia). exact Q.
  - (* leave *)
    intros i a v x y z rest HW HR Hz HCa HA Ha [C Hi] w HC e Ce He. cbn [fin].
    destruct (step_cell K v a i w HA HC C Hi) as [R1 R2].
    exists (at_ i e (drop_r 3 v)). split; [|apply continues_at].
    apply one_step. split; [exact R1|]. exists 1%nat. rewrite R2.
    rewrite (execute_word_eq O i (set_ip (a + 8) v) P_leave HW), set_wp_ip. cbn [exec_prim].
    apply (leave_eq K v _ i (a + 8) x y z e rest); assumption.
  - (* exit *)
    intros i a v ra rest HW HR HA Ha [C Hi] w HC. cbn [fin].
    destruct (step_cell K v a i w HA HC C Hi) as [R1 R2].
    exists (at_ i (to_u64 ra) (drop_r 1 v)). split; [|apply continues_at].
    apply one_step. split; [exact R1|]. exists 1%nat. rewrite R2.
    rewrite (execute_word_eq O i (set_ip (a + 8) v) P_exit HW), set_wp_ip. cbn [exec_prim].
    apply (exit_eq v i (a + 8) ra rest); assumption.
  - (* num *)
    intros n a v HL HA Ha (W & C & Hn) w HC. cbn [fin]. apply ends_next.
    apply (do_word v a P_lit); [exact HA|exact HC|exact W|]. intros ew f i. cbn [exec_prim].
    rewrite (lit_eq K v (a + 8) n i HA C Hn HL). do 3 f_equal. lia.
  - (* flo *)
    intros n a v HL HA Ha (W & C & Hn) w HC. cbn [fin]. apply ends_next.
    apply (do_word v a P_flit); [exact HA|exact HC|exact W|]. intros ew f i. cbn [exec_prim].
    apply (flit_eq K v (a + 8) n i HA C); try assumption. destruct HA; lia.
  - (* str *)
    intros s a v HL HA Ha (W & C & T & _) w HC. cbn [fin]. apply ends_next.
    apply (do_word v a P_p_s_quote); [exact HA|exact HC|exact W|]. intros ew f i. cbn [exec_prim].
    rewrite (s_quote_eq K v (a + 8) s i HA C); [|replace (a + 8 + 8) with (a + 16) by lia; exact T|exact HL].
    replace (a + 8 + 8) with (a + 16) by lia. reflexivity.
  - (* if *)
    intros p a v x v1 o v2 HT Hx X IH HA Ha (W & C & L) w HC. cbn [fin].
    pose proof (kept_takes _ _ _ HT) as HK. pose proof (cell_top _ _ _ C) as Ct.
    pose proof (laid_range _ _ _ L ltac:(lia)) as R. pose proof (proj1 (proj2 HK)) as EL. pose proof (proj1 HK) as ES.
    eapply ends_seq with (v1 := v1) (e1 := a + 16).
    + apply (do_word v a P_zero_branch); [exact HA|exact HC|exact W|]. intros ew f i. cbn [exec_prim].
      rewrite (zero_branch_eq K v (a + 8) _ i x v1 HA C); [|destruct HA; lia|exact HT].
      replace (x =? 0) with false by lia. do 3 f_equal. lia.
    + intros w1 C1. apply IH; [eapply kept_addressable; eassumption|lia|eapply kept_laid; eassumption|exact C1].
  - intros p a v v1 HT HA Ha (W & C & L) w HC. cbn [fin].
    pose proof (cell_top _ _ _ C) as Ct. pose proof (laid_range _ _ _ L ltac:(lia)) as R. apply ends_next.
    apply (do_word v a P_zero_branch); [exact HA|exact HC|exact W|]. intros ew f i. cbn [exec_prim].
    rewrite (zero_branch_eq K v (a + 8) _ i 0 v1 HA C); [reflexivity|destruct HA; lia|exact HT].
  - (* else *)
    intros p q a v x v1 o v2 HT Hx X IH HA Ha HL w HC. cbn [laid fin] in *. cbv zeta in HL.
    destruct HL as (W & C & L & W' & C' & L').
    pose proof (kept_takes _ _ _ HT) as HK. pose proof (cell_top _ _ _ C) as Ct. pose proof (cell_top _ _ _ C') as Ct'.
    pose proof (laid_range _ _ _ L ltac:(lia)) as R. pose proof (proj1 (proj2 HK)) as EL. pose proof (proj1 HK) as ES.
    pose proof (laid_range _ _ _ L' ltac:(lia)) as R'.
    eapply ends_seq with (v1 := v1) (e1 := a + 16).
    + apply (do_word v a P_zero_branch); [exact HA|exact HC|exact W|]. intros ew f i. cbn [exec_prim].
      rewrite (zero_branch_eq K v (a + 8) _ i x v1 HA C); [|destruct HA; lia|exact HT].
      replace (x =? 0) with false by lia. do 3 f_equal. lia.
    + intros w1 C1.
      assert (Q : ends o (fin p (a + 16)) v2 w1)
        by (apply IH; [eapply kept_addressable; eassumption|lia|eapply kept_laid; eassumption|exact C1]).
      destruct o; [|exact Q|exact Q].
      eapply ends_seq; [exact Q|]. intros w2 C2.
      pose proof (kept_trans _ _ _ HK (exec_kept _ _ _ _ _ X)) as HK2.
      apply ends_next. apply (do_word v2 (fin p (a + 16)) P_branch).
      * eapply kept_addressable; eassumption.
      * exact C2.
      * eapply kept_word; [cbn; tauto|exact HK2|exact W'].
      * intros ew f i. cbn [exec_prim]. apply (branch_eq K);
          [eapply kept_addressable; eassumption|eapply kept_cell; eassumption|destruct HA; lia].
  - intros p q a v v1 o v2 HT X IH HA Ha HL w HC. cbn [laid fin] in *. cbv zeta in HL.
    destruct HL as (W & C & L & W' & C' & L').
    pose proof (kept_takes _ _ _ HT) as HK. pose proof (cell_top _ _ _ C) as Ct. pose proof (cell_top _ _ _ C') as Ct'.
    pose proof (laid_range _ _ _ L ltac:(lia)) as R. pose proof (proj1 (proj2 HK)) as EL. pose proof (proj1 HK) as ES.
    pose proof (laid_range _ _ _ L' ltac:(lia)) as R'.
    eapply ends_seq with (v1 := v1) (e1 := fin p (a + 16) + 16).
    + apply (do_word v a P_zero_branch); [exact HA|exact HC|exact W|]. intros ew f i. cbn [exec_prim].
      rewrite (zero_branch_eq K v (a + 8) _ i 0 v1 HA C); [reflexivity|destruct HA; lia|exact HT].
    + intros w1 C1. apply IH; [eapply kept_addressable; eassumption|lia|eapply kept_laid; eassumption|exact C1].
  - (* until *)
    intros p a v v1 x v2 X IH HT Hx HA Ha HL w HC. cbn [laid fin] in *. cbv zeta in HL.
    destruct HL as (L & W & C). pose proof (exec_kept _ _ _ _ _ X) as HK.
    pose proof (kept_addressable _ _ HK HA) as HA1.
    eapply ends_seq; [apply IH; eassumption|]. intros w1 C1. apply ends_next.
    apply (do_word v1 (fin p a) P_zero_branch); [exact HA1|exact C1|eapply kept_word; [cbn; tauto|eassumption..]|].
    intros ew f i. cbn [exec_prim].
    rewrite (zero_branch_eq K v1 (fin p a + 8) a i x v2 HA1 (kept_cell _ _ _ _ HK C)); [|destruct HA; lia|exact HT].
    replace (x =? 0) with false by lia. do 3 f_equal. lia.
  - intros p a v v1 v2 o v3 X IH HT X2 IH2 HA Ha HL w HC. pose proof HL as HL0. cbn [laid fin] in *. cbv zeta in HL.
    destruct HL as (L & W & C). pose proof (exec_kept _ _ _ _ _ X) as HK.
    pose proof (kept_addressable _ _ HK HA) as HA1.
    pose proof (kept_trans _ _ _ HK (kept_takes _ _ _ HT)) as HK2.
    eapply ends_seq; [apply IH; eassumption|]. intros w1 C1.
    apply (ends_seq v2 a).
    + apply (do_word v1 (fin p a) P_zero_branch); [exact HA1|exact C1|eapply kept_word; [cbn; tauto|eassumption..]|].
      intros ew f i. cbn [exec_prim].
      rewrite (zero_branch_eq K v1 (fin p a + 8) a i 0 v2 HA1 (kept_cell _ _ _ _ HK C)); [|destruct HA; lia|exact HT].
      reflexivity.
    + intros w2 C2. apply IH2; [eapply kept_addressable; eassumption| |apply (kept_laid _ _ (Until p) HK2 a HL0)|exact C2].
      destruct HK2 as (-> & -> & _). exact Ha.
  - intros p a v o v1 Ho X IH HA Ha HL w HC. cbn [laid fin] in *.
    eapply ends_irrel; [exact Ho|]. apply IH; try assumption. apply HL.
  - (* while *)
    intros p q a v v1 x v2 v3 o v4 X IH HT Hx X2 IH2 X3 IH3 HA Ha HL w HC. pose proof HL as HL0.
    cbn [laid fin] in *. cbv zeta in HL. destruct HL as (L & W & C & L' & W' & C').
    pose proof (exec_kept _ _ _ _ _ X) as HK. pose proof (kept_addressable _ _ HK HA) as HA1.
    pose proof (kept_trans _ _ _ HK (kept_takes _ _ _ HT)) as HK2.
    pose proof (kept_trans _ _ _ HK2 (exec_kept _ _ _ _ _ X2)) as HK3.
    pose proof (cell_top _ _ _ C) as Ct. pose proof (cell_top _ _ _ C') as Ct'.
    pose proof (laid_range _ _ _ L ltac:(lia)) as R. pose proof (laid_range _ _ _ L' ltac:(lia)) as R'.
    eapply ends_seq; [apply IH; eassumption|]. intros w1 C1.
    apply (ends_seq v2 (fin p a + 16)).
    + apply (do_word v1 (fin p a) P_zero_branch); [exact HA1|exact C1|eapply kept_word; [cbn; tauto|eassumption..]|].
      intros ew f i. cbn [exec_prim].
      rewrite (zero_branch_eq K v1 (fin p a + 8) _ i x v2 HA1 (kept_cell _ _ _ _ HK C)); [|destruct HA; lia|exact HT].
      replace (x =? 0) with false by lia. do 3 f_equal. lia.
    + intros w2 C2. eapply ends_seq.
      { apply IH2; [eapply kept_addressable; eassumption| |eapply kept_laid; eassumption|exact C2].
        destruct HK2 as (-> & -> & _). lia. }
      intros w3 C3. apply (ends_seq v3 a).
      * apply (do_word v3 (fin q (fin p a + 16)) P_branch);
          [eapply kept_addressable; eassumption|exact C3|eapply kept_word; [cbn; tauto|exact HK3|eassumption]|].
        intros ew f i. cbn [exec_prim]. apply (branch_eq K);
          [eapply kept_addressable; eassumption|eapply kept_cell; eassumption|destruct HA; lia].
      * intros w4 C4. apply IH3; [eapply kept_addressable; eassumption| |apply (kept_laid _ _ (While p q) HK3 a HL0)|exact C4].
        destruct HK3 as (-> & -> & _). exact Ha.
  - intros p q a v v1 v2 X IH HT HA Ha HL w HC.
    cbn [laid fin] in *. cbv zeta in HL. destruct HL as (L & W & C & L' & W' & C').
    pose proof (exec_kept _ _ _ _ _ X) as HK. pose proof (kept_addressable _ _ HK HA) as HA1.
    pose proof (cell_top _ _ _ C) as Ct. pose proof (cell_top _ _ _ C') as Ct'.
    pose proof (laid_range _ _ _ L ltac:(lia)) as R. pose proof (laid_range _ _ _ L' ltac:(lia)) as R'.
    eapply ends_seq; [apply IH; eassumption|]. intros w1 C1. apply ends_next.
    apply (do_word v1 (fin p a) P_zero_branch); [exact HA1|exact C1|eapply kept_word; [cbn; tauto|eassumption..]|].
    intros ew f i. cbn [exec_prim].
    rewrite (zero_branch_eq K v1 (fin p a + 8) _ i 0 v2 HA1 (kept_cell _ _ _ _ HK C)); [reflexivity|destruct HA; lia|exact HT].
  - intros p q a v o v1 Ho X IH HA Ha HL w HC. cbn [laid fin] in *.
    eapply ends_irrel; [exact Ho|]. apply IH; try assumption. apply HL.
  - intros p q a v v1 x v2 o v3 Ho X IH HT Hx X2 IH2 HA Ha HL w HC.
    cbn [laid fin] in *. cbv zeta in HL. destruct HL as (L & W & C & L' & W' & C').
    pose proof (exec_kept _ _ _ _ _ X) as HK. pose proof (kept_addressable _ _ HK HA) as HA1.
    pose proof (kept_trans _ _ _ HK (kept_takes _ _ _ HT)) as HK2.
    pose proof (cell_top _ _ _ C) as Ct. pose proof (cell_top _ _ _ C') as Ct'.
    pose proof (laid_range _ _ _ L ltac:(lia)) as R. pose proof (laid_range _ _ _ L' ltac:(lia)) as R'.
    eapply ends_seq; [apply IH; eassumption|]. intros w1 C1.
    apply (ends_seq v2 (fin p a + 16)).
    + apply (do_word v1 (fin p a) P_zero_branch); [exact HA1|exact C1|eapply kept_word; [cbn; tauto|eassumption..]|].
      intros ew f i. cbn [exec_prim].
      rewrite (zero_branch_eq K v1 (fin p a + 8) _ i x v2 HA1 (kept_cell _ _ _ _ HK C)); [|destruct HA; lia|exact HT].
      replace (x =? 0) with false by lia. do 3 f_equal. lia.
    + intros w2 C2. eapply ends_irrel; [exact Ho|].
      apply IH2; [eapply kept_addressable; eassumption| |eapply kept_laid; eassumption|exact C2].
      destruct HK2 as (-> & -> & _). lia.
  - (* again *)
    intros p a v v1 o v2 X IH X2 IH2 HA Ha HL w HC. pose proof HL as HL0. cbn [laid fin] in *. cbv zeta in HL.
    destruct HL as (L & W & C). pose proof (exec_kept _ _ _ _ _ X) as HK.
    pose proof (kept_addressable _ _ HK HA) as HA1.
    eapply ends_seq; [apply IH; eassumption|]. intros w1 C1.
    apply (ends_seq v1 a).
    + apply (do_word v1 (fin p a) P_branch); [exact HA1|exact C1|eapply kept_word; [cbn; tauto|eassumption..]|].
      intros ew f i. cbn [exec_prim].
      apply (branch_eq K); [exact HA1|eapply kept_cell; eassumption|destruct HA; lia].
    + intros w2 C2. apply IH2; [exact HA1| |apply (kept_laid _ _ (Again p) HK a HL0)|exact C2].
      destruct HK as (-> & -> & _). exact Ha.
  - intros p a v o v1 Ho X IH HA Ha HL w HC. cbn [laid fin] in *.
    eapply ends_irrel; [exact Ho|]. apply IH; try assumption. apply HL.
  - (* do *)
    intros skip step p a v lim idx rest v1 o v2 HS Hi Hl Hn HR Hv X IH HA Ha HL w HC. pose proof HL as HL0.
    cbn [laid fin] in *. cbv zeta in HL. destruct HL as (W & C & L & W' & C').
    pose proof (cell_top _ _ _ C) as Ct. pose proof (cell_top _ _ _ C') as Ct'.
    pose proof (laid_range _ _ _ L ltac:(lia)) as R.
    assert (HK : kept K v v1) by (subst v1; apply kept_eq; reflexivity).
    apply (ends_seq v1 (a + 16)).
    + apply (do_word v a (if skip then P__qdo else P__do)); [exact HA|exact HC|exact W|].
      intros ew f i. subst v1. replace (a + 16) with (a + 8 + 8) by lia.
      destruct skip; cbn [exec_prim].
      * apply (qdo_eq K v (a + 8) _ i lim idx rest HA C); try assumption; [destruct HA; lia|auto].
      * apply (do_eq K v (a + 8) _ i lim idx rest HA C); assumption.
    + intros w1 C1. apply (IH (kept_addressable _ _ HK HA)) with (skip := skip).
      * destruct HK as (-> & _). lia.
      * apply (kept_laid _ _ (Do skip step p) HK a HL0).
      * exact C1.
  - intros step p a v x rest HS HA Ha HL w HC.
    cbn [laid fin] in *. cbv zeta in HL. destruct HL as (W & C & L & W' & C').
    pose proof (cell_top _ _ _ C) as Ct. pose proof (cell_top _ _ _ C') as Ct'.
    pose proof (laid_range _ _ _ L ltac:(lia)) as R. apply ends_next.
    apply (do_word v a P__qdo); [exact HA|exact HC|exact W|].
    intros ew f i. cbn [exec_prim]. apply (qdo_skip_eq K v (a + 8) _ i x rest HA C); [destruct HA; lia|exact HS].
  - (* next round *)
    intros step p a v v1 n v2 z lim idx rest v3 o v4 X IH HS Hn HR Hlim Hidx Hx HN X2 IH2 HA Ha skip HL w HC.
    pose proof HL as HL0. cbn [laid fin] in *. cbv zeta in HL. destruct HL as (W & C & L & W' & C').
    pose proof (exec_kept _ _ _ _ _ X) as HK. pose proof (kept_addressable _ _ HK HA) as HA1.
    pose proof (kept_trans _ _ _ HK (kept_step _ _ _ _ HS)) as HK2.
    assert (HK3 : kept K v v3) by (eapply kept_trans; [exact HK2|]; rewrite HN; apply kept_eq; reflexivity).
    pose proof (cell_top _ _ _ C) as Ct. pose proof (cell_top _ _ _ C') as Ct'.
    pose proof (laid_range _ _ _ L ltac:(lia)) as R.
    eapply ends_seq; [apply IH; try eassumption; lia|]. intros w1 C1.
    apply (ends_seq v3 (a + 16)).
    + apply (do_word v1 (fin p (a + 16)) (if step then P__plus_loop else P__loop));
        [exact HA1|exact C1|eapply kept_word; [destruct step; cbn; tauto|eassumption..]|].
      intros ew f i. destruct step; cbn [exec_prim step_by] in *.
      * apply (plus_loop_eq K v1 (fin p (a + 16) + 8) (a + 16) i n v2 z lim idx rest HA1
                 (kept_cell _ _ _ _ HK C') ltac:(destruct HA; lia) HS HR); assumption.
      * destruct HS as [-> ->].
        apply (loop_eq K v1 (fin p (a + 16) + 8) (a + 16) i z lim idx rest HA1
                 (kept_cell _ _ _ _ HK C') ltac:(destruct HA; lia) HR); assumption.
    + intros w2 C2. apply (IH2 (kept_addressable _ _ HK3 HA)) with (skip := skip).
      * destruct HK3 as (-> & _). exact Ha.
      * apply (kept_laid _ _ (Do skip step p) HK3 a HL0).
      * exact C2.
  - (* end of loop *)
    intros step p a v v1 n v2 z lim idx rest X IH HS Hn HR Hlim Hidx Hx HA Ha skip HL w HC.
    cbn [laid fin] in *. cbv zeta in HL. destruct HL as (W & C & L & W' & C').
    pose proof (exec_kept _ _ _ _ _ X) as HK. pose proof (kept_addressable _ _ HK HA) as HA1.
    pose proof (cell_top _ _ _ C) as Ct. pose proof (cell_top _ _ _ C') as Ct'.
    pose proof (laid_range _ _ _ L ltac:(lia)) as R.
    eapply ends_seq; [apply IH; try eassumption; lia|]. intros w1 C1. apply ends_next.
    apply (do_word v1 (fin p (a + 16)) (if step then P__plus_loop else P__loop));
        [exact HA1|exact C1|eapply kept_word; [destruct step; cbn; tauto|eassumption..]|].
    intros ew f i. replace (fin p (a + 16) + 16) with (fin p (a + 16) + 8 + 8) by lia.
    destruct step; cbn [exec_prim step_by] in *.
    + apply (plus_loop_eq K v1 (fin p (a + 16) + 8) (a + 16) i n v2 z lim idx rest HA1
                 (kept_cell _ _ _ _ HK C') ltac:(destruct HA; lia) HS HR); assumption.
    + destruct HS as [-> ->].
      apply (loop_eq K v1 (fin p (a + 16) + 8) (a + 16) i z lim idx rest HA1
                 (kept_cell _ _ _ _ HK C') ltac:(destruct HA; lia) HR); assumption.
  - (* leave *)
    intros step p a v v1 X IH HA Ha skip HL w HC.
    cbn [laid fin] in *. cbv zeta in HL. destruct HL as (W & C & L & W' & C').
    pose proof (cell_top _ _ _ C) as Ct. pose proof (cell_top _ _ _ C') as Ct'.
    pose proof (laid_range _ _ _ L ltac:(lia)) as R.
    pose proof (exec_kept _ _ _ _ _ X) as HK.
    assert (Q : ends (Left (a + 8)) (fin p (a + 16)) v1 w) by (apply IH; try eassumption; lia).
    apply Q; [eapply kept_cell; eassumption|destruct HA; lia].
  - intros step p a v ra v1 X IH HA Ha skip HL w HC.
    cbn [laid fin] in *. cbv zeta in HL. destruct HL as (W & C & L & W' & C').
    pose proof (cell_top _ _ _ C) as Ct. 
    assert (Q : ends (Returned ra) (fin p (a + 16)) v1 w) by (apply IH; try eassumption; lia).
    exact Q.
Qed.

Theorem simulation p a v o v' w : exec K p a v o v' -> addressable v ->
  start (v_ds v) <= a <= limit (v_ds v) -> laid K v p a -> continues v a w -> ends o (fin p a) v' w.
Proof. intros X HA Ha HL HC. apply (proj1 simulation_both p a v o v' X HA Ha HL w HC). Qed.

End K.
End C.
