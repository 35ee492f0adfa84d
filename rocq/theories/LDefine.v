(** Defining words. *)
From Coq Require Import ZArith List Bool Lia String ZifyBool ZifyNat.
From Verif Require Import Base Stack Mem State CoreM IoM Exec LBase LStack Spec Spec2 Spec4 Spec5 Spec6 Spec7 Spec9 Spec10 Spec11 Spec14 Spec15 Spec16
  LState LMem LMon LMemWords LTask LFuel LCode LComp LRun LCtl LFloat LWords LSay LDict LDict2 LDict3 LDict4 LDict5 LParse LText LLib LLibWords.
Import ListNotations.
Open Scope list_scope.
Open Scope Z_scope.
Open Scope m_scope.

Section L.
Context {E : Env}.
Implicit Types (v w u : vm).

Lemma zlen_lower t : zlen (map lower t) = zlen t. Proof. unfold zlen. rewrite map_length. reflexivity. Qed.
Lemma tkn_same {A} (o : option A) : o <> None -> exists x, o = Some x.
Proof. destruct o; [eauto|congruence]. Qed.

(** From [v] to [u]: the token and the position in the input; text may have been printed *)
Definition input_only v u : Prop :=
  v_wl u = v_wl v /\ v_ds u = v_ds v /\ v_err u = v_err v /\ v_cur u = v_cur v /\
  t_s (cur u) = t_s (cur v) /\ t_r (cur u) = t_r (cur v) /\ t_f (cur u) = t_f (cur v) /\ t_c (cur u) = t_c (cur v) /\
  st_ip (st u) = st_ip (st v) /\ st_compiling (st u) = st_compiling (st v).
Lemma token_read_only v t n u : token_read v t n u -> input_only v (set_v_tkn None u).
Proof.
  intros [->|[_ ->]]; [|repeat split].
  unfold input_only, st. cbn [v_wl v_ds v_err v_cur set_v_tkn]. change (cur (set_v_tkn None (set_v_tkn (Some t) (set_idx n v)))) with (cur (set_idx n v)).
  unfold set_idx, set_st. rewrite cur_upd. repeat split.
Qed.

Lemma define_ok fuel a c v s cs t ts : rest_of_input v s -> utf8_text s cs -> v_tkn v <> None -> tokens s (t :: ts) ->
  dict_ok v -> words v < Z.of_nat fuel -> room_for v t 0 -> a <> P_unmark ->
  exists v', (forall ew, define fuel ew a c v = Ok (tt, v')) /\ makes a t v v' /\ same_stacks v v' /\ here (v_ds v') = body v' (words v) /\ st_ip (st v') = st_ip (st v).
Proof.
  intros HR HU HT HK HD Hf Hroom Ha. pose proof HD as ((D1 & D2 & D3) & D4 & _).
  destruct (next_word v s cs (t :: ts) HR HU HT HK fuel) as (n & r & cs' & v1 & Q1 & T1 & _). cbn [hd] in T1.
  assert (Tt : v_tkn v1 = Some t) by (destruct T1 as [->|[_ ->]]; reflexivity).
  set (v2 := set_v_tkn None v1). pose proof (token_read_only _ _ _ _ T1) as I2. fold v2 in I2.
  set (t' := map lower t). assert (Zt : zlen t' = zlen t) by apply zlen_lower.
  assert (HD2 : dict_ok v2) by (destruct I2 as (A & B & _); unfold dict_ok, words, named, word_of in *; rewrite A, B; exact HD).
  assert (Hf2 : words v2 < Z.of_nat fuel) by (destruct I2 as (A & _); unfold words in *; rewrite A; exact Hf).
  destruct (find_newest fuel t' v2 HD2 Hf2) as (f & EF & _).
  set (v3 := match f with Some _ => (match v_out v2 with Some o => set_v_out (Some (o ++ (b "Redefining "%string ++ t'))) v2 | None => v2 end) | None => v2 end).
  assert (I3 : input_only v v3).
  { unfold v3. destruct f; [|exact I2]. destruct (v_out v2); exact I2. }
  assert (Ht : t <> []) by (inversion HK; subst; assumption).
  assert (Ht' : t' <> []) by (unfold t'; destruct t; [congruence|discriminate]).
  pose proof I3 as (A1 & A2 & A3 & A4 & A5 & A6 & A7 & A8 & A9 & A10). unfold room_for in Hroom.
  pose proof (zlen_nonneg t) as Z0.
  destruct (compile_str_ok (v_ds v) t' (proj1 HD) ltac:(lia)) as (d1 & E1 & S1 & H1 & _).
  assert (G1 : grows (v_ds v) d1 /\ name_field d1 (here (v_ds v)) t') by (destruct (compile_str_grows _ _ _ _ (proj1 HD) E1) as (X & _ & _ & Y); auto).
  destruct G1 as [G1 N1]. pose proof S1 as (S11 & S12 & _).
  set (d2 := moved d1 (align8 (here d1))). pose proof (align8_range (here d1)) as AR.
  assert (E2 : ds_align chk d1 = Ok d2).
  { unfold ds_align. rewrite aligned8_ok by (unfold two64; lia). cbn [rbind]. rewrite set_here_ok by (rewrite ?S11, ?S12; lia). reflexivity. }
  assert (H2 : here d2 = align8 (here d1)) by apply here_moved.
  set (v' := set_v_tkn (Some t') (set_v_wl (wl_push t' (word_new a c (here (v_ds v)) (here d2)) (v_wl v3)) (set_v_ds d2 (set_v_ds d1 v3)))).
  assert (G2 : grows d1 d2).
  { apply (align_grows chk); [apply G1|exact E2]. }
  assert (HF : defined a t' v v').
  { exists c, (here d2). unfold v'. cbn [v_ds v_wl set_v_ds set_v_wl set_v_tkn]. pose proof G2 as (K1 & K2 & K3 & K4 & K5).
    split; [eapply grows_trans; eassumption|]. split; [lia|]. split; [lia|]. split; [|rewrite A1; reflexivity].
    eapply name_field_kept; [exact N1|exact K2|exact K4|]. intros i Hi. destruct N1 as (M1 & M2 & _). apply K5. lia. }
  destruct (defined_new a t' v v' HD Ht' A3 HF) as (NW & W1 & W2); [intro; contradiction|].
  assert (EW : word_of v' (words v) = set_w_link (tget 0 (wl_buckets (v_wl v)) (hash t' mod 64)) (set_w_hash (hash t') (word_new a c (here (v_ds v)) (here d2)))).
  { unfold word_of, words, v'. cbn [v_wl set_v_tkn set_v_wl]. rewrite A1. apply wl_push_new. }
  exists v'. split; [|split; [|split; [split; [exact A5|split; [exact A6|exact A7]]|split; [unfold body; rewrite EW; reflexivity|exact A9]]]].
  - intro ew. unfold define. rewrite (bind_Ok _ _ _ tt v1) by (exact (Q1 ew)).
    rewrite (bind_Ok _ _ _ t v2) by (unfold take_token, v2; rewrite Tt; reflexivity).
    cbv zeta. fold t'. rewrite (bind_Ok _ _ _ _ _ EF).
    rewrite (bind_Ok _ _ _ tt v3) by (unfold v3; destruct f; reflexivity).
    destruct t' as [|b0 t1] eqn:Et; [congruence|].
    rewrite (bind_Ok _ _ _ (here (v_ds v)) (set_v_ds d1 v3)) by (rewrite A2, E1; reflexivity).
    rewrite (bind_Ok _ _ _ tt (set_v_ds d2 (set_v_ds d1 v3))) by (unfold ds_upd; cbn [v_ds set_v_ds]; rewrite E2; reflexivity).
    rewrite bind_gets, bind_modify. reflexivity.
  - destruct NW as (N2 & N3 & N4 & N5 & N6 & _ & N8). unfold makes. cbv zeta. split; [exact N2|]. split; [exact N3|]. split; [exact N4|]. split.
    + intros name Hn. split; [pose proof (proj1 (proj2 N2)); lia|]. split.
      * split; [exact W2|]. exists t'. split; [exact N5|]. eapply same_text_trans; [apply same_text_lower|exact Hn].
      * intros j Hj. lia.
    + split; [exact N6|]. rewrite EW. cbn [w_imm w_co w_dfa set_w_link set_w_hash word_new]. split; [reflexivity|]. split; [reflexivity|].
      split; [lia|]. split; [rewrite H2; destruct (align8_mult (here d1)) as [k ->]; rewrite Z.mul_comm; apply Z.mod_mul; lia|].
      split; [exact N8|]. split; [exact A4|]. split; [exact A10|]. auto.
Qed.
Lemma next_at v t j c : next_is v t -> next_is (at_ j c v) t.
Proof.
  intros (H & s & cs & ts & (buf & pre & HI & H1 & H2 & H3) & H4). split; [exact H|]. exists s, cs, ts. split; [|exact H4].
  exists buf, pre. unfold input_text. rewrite st_at, cur_at. auto.
Qed.
Lemma create_ok fuel v t : next_is v t -> dict_ok v -> words v < Z.of_nat fuel -> room_for v t 0 ->
  exists v', quiet fuel P_create v v' /\ makes P_p_var t v v' /\ same_stacks v v' /\ here (v_ds v') = body v' (words v) /\ st_ip (st v') = st_ip (st v).
Proof.
  intros (HT & s & cs & ts & HR & HU & HK) HD Hf Hr.
  destruct (define_ok fuel P_p_var CS_compile_var v s cs t ts HR HU HT HK HD Hf Hr ltac:(discriminate)) as (v' & A & B & C).
  exists v'. split; [intro ew; apply A|auto].
Qed.
Lemma alike_at v j c : alike v (at_ j c v). Proof. unfold alike. rewrite st_at, cur_at. repeat split. Qed.
Lemma alike_r v s : alike v (set_r s v). Proof. unfold alike, st. rewrite cur_set_r. repeat split. Qed.
Lemma alike_s v s : alike v (set_s s v). Proof. unfold alike, st. rewrite cur_set_s. repeat split. Qed.
Lemma makes_from a t v v0 v' : alike v v0 -> makes a t v0 v' -> makes a t v v'.
Proof.
  intros (E1 & E2 & E3 & E4 & E5 & E6). unfold makes, older_kept, words, word_of. rewrite E1, E2, E3, E4, E5, E6. auto.
Qed.
Lemma makes_to a t v u u' : alike u u' -> makes a t v u -> makes a t v u'.
Proof.
  intros (E1 & E2 & E3 & E4 & E5 & E6). unfold makes, dict_ok, older_kept, newest, visible, named, words, word_of. rewrite E1, E2, E3, E4, E5, E6. auto.
Qed.
Lemma makes_grows a t v v1 v' : makes a t v v1 -> v_wl v' = v_wl v1 -> grows (v_ds v1) (v_ds v') -> v_err v' = v_err v1 -> v_cur v' = v_cur v1 ->
  st_compiling (st v') = st_compiling (st v1) -> t_c (cur v') = t_c (cur v1) -> makes a t v v'.
Proof.
  unfold makes. cbv zeta. intros (M1 & M2 & M3 & M4 & M5 & M6 & M7 & M8 & M9 & M10 & M11 & M12 & M13) EW G E1 E2 E3 E4.
  assert (HG : goes_on v1 v') by (apply grows_goes_on; assumption).
  assert (EO : word_of v' (words v) = word_of v1 (words v)) by (unfold word_of; rewrite EW; reflexivity). rewrite EO.
  split; [eapply goes_on_dict; eassumption|]. split; [eapply older_trans; [exact M2|apply older_grows; assumption]|].
  split; [unfold words in *; rewrite EW; exact M3|]. split; [intros name Hn; apply (goes_on_newest v1 v' name _ M1 HG); apply M4; exact Hn|].
  split; [exact M5|]. split; [exact M6|]. split; [exact M7|]. split; [exact M8|]. split; [exact M9|].
  repeat split; congruence.
Qed.
Lemma makes_calm a t v w u : makes a t v w -> calm w u -> grows (v_ds w) (v_ds u) -> makes a t v u.
Proof.
  intros M C G. eapply makes_grows; [exact M| |exact G|..]; apply C.
Qed.

(** CONSTANT *)
Lemma constant_ok fuel v t x l : next_is v t -> dict_ok v -> words v < Z.of_nat fuel -> room_for v t 8 -> v_err v = None ->
  stack_has (t_s (cur v)) (x :: l) ->
  exists v', quiet fuel P_constant v v' /\ makes P_p_const t v v' /\ same_stacks (drop_s 1 v) v' /\ constant_is v' (words v) x /\
    here (v_ds v') = body v' (words v) + 8.
Proof.
  intros (HT & s & cs & ts & HR & HU & HK) HD Hf Hr He HS. unfold room_for in Hr.
  assert (EP : s_pop v = Ok (x, drop_s 1 v)) by (apply s_pop_eq, (pop_items _ _ _ HS)).
  assert (HR0 : rest_of_input (drop_s 1 v) s).
  { destruct HR as (buf & pre & HI & R1 & R2 & R3). exists buf, pre. unfold input_text, drop_s, st. rewrite cur_set_s. auto. }
  destruct (define_ok fuel P_p_const CS_compile_const (drop_s 1 v) s cs t ts HR0 HU HT HK HD Hf ltac:(unfold room_for; cbn [v_ds]; change (v_ds (drop_s 1 v)) with (v_ds v); lia) ltac:(discriminate))
    as (v1 & A & B & SS & C & _).
  pose proof B as (B1 & B2 & B3 & B4 & B5 & _ & _ & B8 & B9 & B10 & _). change (words (drop_s 1 v)) with (words v) in *. change (v_ds (drop_s 1 v)) with (v_ds v) in *.
  pose proof B2 as (_ & S1 & S2 & _). change (v_ds (drop_s 1 v)) with (v_ds v) in *. change (body v1 (words v)) with (w_dfa (word_of v1 (words v))) in *.
  destruct (compile_cell_ok (v_ds v1) x (proj1 B1) ltac:(rewrite S2, C; lia)) as (d3 & E3 & C3 & S3 & H3 & _ & _).
  destruct (compile_cell_grows (v_ds v1) x d3 (proj1 B1) E3) as (G3 & _ & _).
  exists (set_v_ds d3 v1).
  assert (ME : makes P_p_const t v (set_v_ds d3 v1)).
  { apply (makes_from _ _ v (drop_s 1 v)); [apply alike_s|]. eapply makes_grows; [exact B| |exact G3|..]; reflexivity. }
  split; [|split; [exact ME|split; [exact SS|]]].
  - intro ew. cbn [exec_prim]. unfold constant. rewrite (bind_Ok _ _ _ _ _ EP), (bind_Ok _ _ _ _ _ (A ew)), bind_gets, B10.
    change (v_err (drop_s 1 v)) with (v_err v). rewrite He. unfold ds_upd. rewrite E3. reflexivity.
  - change (body (set_v_ds d3 v1) (words v)) with (w_dfa (word_of v1 (words v))). cbn [v_ds set_v_ds]. split; [|lia].
    unfold constant_is. change (body (set_v_ds d3 v1) (words v)) with (w_dfa (word_of v1 (words v))). cbn [v_ds set_v_ds].
    destruct S3 as (X1 & X2 & _). pose proof (zlen_nonneg t). pose proof HD as ((D1 & D2 & D3) & D4 & _).
    split; [split; [|exact B5]|].
    + change (wl_len (v_wl (set_v_ds d3 v1))) with (words v1). unfold words in *. lia.
    + split; [rewrite X1, S1; lia|]. split; [rewrite X2, S2; lia|]. rewrite <- C. exact C3.
Qed.

(** ** Created words and constants in use *)
Lemma does_prim K v i p (Q : vm -> Prop) : word_is v i p ->
  (forall c fuel ew, exists u, exec_prim fuel ew p (at_ i c v) = Ok (tt, u) /\ st_ip (st u) = c /\ kept K v u /\ Q u) -> does K v i Q.
Proof.
  intros W H r Hr. destruct (H r 0%nat (execute_word 0)) as (u & E1 & I1 & K1 & q). exists 1%nat, u, u.
  split; [rewrite (execute_word_eq O i (set_ip r v) p W), set_wp_ip; exact E1|]. split; [rewrite I1; apply goes_refl|]. auto.
Qed.
Lemma pushes_of v i p x : word_is v i p -> (forall fuel ew c, exec_prim fuel ew p (at_ i c v) = s_push x (at_ i c v)) -> pushes v i x.
Proof.
  intros W H K d rs fs HS Hd. eapply does_prim; [exact W|]. intros c fuel ew. rewrite H.
  pose proof (inv_at _ _ _ _ _ _ _ i c (inv_start v d rs fs HS)) as HI.
  assert (HP : s_push x (at_ i c v) = Ok (tt, add_s x (at_ i c v))).
  { unfold s_push, modify, add_s, s_stk. do 3 f_equal. apply add_item_push. rewrite (stack_has_len _ _ (proj1 (proj1 HI))). pose proof (zlen_nonneg d). lia. }
  pose proof (inv_push _ x _ _ _ _ _ _ HI Hd) as I2. exists (add_s x (at_ i c v)). split; [exact HP|].
  split; [unfold add_s, st; rewrite cur_set_s; cbn [t_state set_t_s]; rewrite cur_at; reflexivity|].
  split; [apply kept_eq; reflexivity|]. destruct I2 as (J1 & J2 & J3 & J4). auto.
Qed.
Lemma created_pushes v i : word_is v i P_p_var -> 0 <= body v i < 2 ^ 63 -> pushes v i (body v i).
Proof.
  intros W Hb. eapply pushes_of; [exact W|]. intros fuel ew c. cbn [exec_prim]. unfold p_var. rewrite bind_gets, st_at. cbn [st_wp set_st_ip set_st_wp].
  rewrite (bind_Ok _ _ _ _ _ (word_at_eq (at_ i c v) i (proj1 W))). change (w_dfa (wl_get (v_wl (at_ i c v)) i)) with (body v i).
  rewrite to_i64_id by (unfold imin, imax, two63; lia). reflexivity.
Qed.
Lemma constant_pushes v i x : ds_ok (v_ds v) -> constant_is v i x -> is_cell x -> pushes v i x.
Proof.
  intros (D1 & D2 & D3) (W & H1 & H2 & H3) Hx. eapply pushes_of; [exact W|]. intros fuel ew c. cbn [exec_prim]. unfold p_const. rewrite bind_gets, st_at. cbn [st_wp set_st_ip set_st_wp].
  rewrite (bind_Ok _ _ _ _ _ (word_at_eq (at_ i c v) i (proj1 W))). change (w_dfa (wl_get (v_wl (at_ i c v)) i)) with (body v i).
  rewrite (bind_Ok _ _ _ x (at_ i c v)); [reflexivity|].
  unfold ds_get. change (v_ds (at_ i c v)) with (v_ds v). rewrite (get_isize_ok (v_ds v) (body v i) x); [reflexivity|apply in_ds_true; lia|assumption|assumption].
Qed.
Lemma untouched_constant v v' i x : constant_is v i x -> untouched v v' i 8 -> constant_is v' i x.
Proof.
  intros ((W1 & W2) & H1 & H2 & H3) (U1 & U2 & U3 & U4 & U5). unfold constant_is, word_is, body, word_of, words in *. rewrite U2, U3, U4.
  split; [split; [lia|exact W2]|]. split; [exact H1|]. split; [exact H2|]. intros k Hk. rewrite U5 by lia. apply H3. exact Hk.
Qed.
Lemma untouched_created v v' i n : word_is v i P_p_var -> untouched v v' i n -> word_is v' i P_p_var /\ body v' i = body v i.
Proof.
  intros (W1 & W2) (U1 & U2 & _). unfold word_is, body, word_of, words in *. rewrite U2. split; [split; [lia|exact W2]|reflexivity].
Qed.
Lemma older_untouched v v' i n : 0 <= i < words v -> start (v_ds v) <= body v i -> body v i + n <= here (v_ds v) -> older_kept v v' -> untouched v v' i n.
Proof.
  intros Hi H1 H2 (O1 & O2 & O3 & O4 & O5 & O6). split; [exact O1|]. split; [apply O5; exact Hi|]. split; [exact O2|]. split; [exact O3|].
  intros k Hk. apply O6. lia.
Qed.
Lemma history_untouched fuel i n v v' : dict_ok v -> 0 <= i < words v -> start (v_ds v) <= body v i -> body v i + n <= here (v_ds v) ->
  history fuel i n v v' -> untouched v v' i n /\ dict_ok v' /\ here (v_ds v) <= here (v_ds v').
Proof.
  intros HD Hi H1 H2. induction 1 as [|v1 v2 H IH HR|v1 v2 H IH HU HD2 HH].
  - split; [repeat split; lia|]. split; [exact HD|lia].
  - destruct IH as ((U1 & U2 & U3 & U4 & U5) & D1 & L1). destruct (redefinitions_older fuel v1 v2 D1 HR) as (D2 & _ & O).
    assert (EB : body v1 i = body v i) by (unfold body; rewrite U2; reflexivity).
    destruct (older_untouched v1 v2 i n ltac:(lia) ltac:(lia) ltac:(lia) O) as (T1 & T2 & T3 & T4 & T5).
    split; [|split; [exact D2|destruct O as (_ & _ & _ & O & _); lia]].
    split; [lia|]. split; [congruence|]. split; [congruence|]. split; [congruence|]. intros k Hk. rewrite EB in T5. rewrite T5 by exact Hk. apply U5. exact Hk.
  - destruct IH as ((U1 & U2 & U3 & U4 & U5) & D1 & L1). destruct HU as (T1 & T2 & T3 & T4 & T5).
    assert (EB : body v1 i = body v i) by (unfold body; rewrite U2; reflexivity).
    split; [|split; [exact HD2|lia]]. split; [lia|]. split; [congruence|]. split; [congruence|]. split; [congruence|]. intros k Hk. rewrite EB in T5. rewrite T5 by exact Hk. apply U5. exact Hk.
Qed.
Lemma constant_forever fuel v v' i x : dict_ok v -> constant_is v i x -> body v i + 8 <= here (v_ds v) -> is_cell x -> history fuel i 8 v v' ->
  constant_is v' i x /\ pushes v' i x.
Proof.
  intros HD HC HB Hx HH. pose proof HC as (W & H1 & _).
  destruct (history_untouched fuel i 8 v v' HD (proj1 W) ltac:(lia) HB HH) as (U & D & _).
  pose proof (untouched_constant _ _ _ _ HC U) as C. split; [exact C|]. apply constant_pushes; [apply D|exact C|exact Hx].
Qed.
Lemma created_forever fuel v v' i : dict_ok v -> word_is v i P_p_var -> start (v_ds v) <= body v i <= here (v_ds v) -> history fuel i 0 v v' ->
  body v' i = body v i /\ pushes v' i (body v i).
Proof.
  intros HD HC HB HH. destruct (history_untouched fuel i 0 v v' HD (proj1 HC) ltac:(lia) ltac:(lia) HH) as (U & D & _).
  destruct (untouched_created _ _ _ _ HC U) as (W & EB). split; [exact EB|]. rewrite <- EB. apply created_pushes; [exact W|]. rewrite EB.
  pose proof (proj1 HD) as (D1 & D2 & D3). lia.
Qed.
Lemma bodies_disjoint a a' t t' v0 v1 v2 v3 : 0 <= words v0 -> makes a t v0 v1 -> older_kept v1 v2 -> makes a' t' v2 v3 ->
  body v3 (words v0) = body v1 (words v0) /\ here (v_ds v2) < body v3 (words v2).
Proof.
  intros H0 (A1 & A2 & A3 & _) (O1 & _ & _ & _ & O5 & _) (B1 & B2 & B3 & _ & _ & _ & _ & B8 & _). pose proof (zlen_nonneg t').
  destruct B2 as (P1 & _ & _ & _ & P5 & _). unfold body.
  rewrite P5 by lia. rewrite O5 by lia. split; [reflexivity|lia].
Qed.

(** ** Colon definitions that create *)
Lemma older_word v u i p : older_kept v u -> word_is v i p -> word_is u i p.
Proof.
  intros (O1 & _ & _ & _ & O5 & _) (W1 & W2). unfold words in *. split; [lia|]. fold (word_of u i). rewrite (O5 i W1). exact W2.
Qed.
Section K.
Variable K : Z -> Prop.
Lemma makes_kept a t v u : makes a t v u -> old_code K v -> 0 <= words v -> kept K v u.
Proof.
  intros (_ & (O1 & O2 & O3 & O4 & O5 & O6) & _) HK H0. split; [exact O2|]. split; [exact O3|]. split; [intros k Hk; apply O6, HK, Hk|].
  intros i p _ (W1 & W2). unfold words in *. split; [lia|]. fold (word_of u i). rewrite (O5 i W1). exact W2.
Qed.
Lemma old_code_older v u : old_code K v -> older_kept v u -> old_code K u.
Proof. intros H (_ & O2 & _ & O4 & _) k Hk. specialize (H k Hk). lia. Qed.
Lemma wp_create i v t (Q : vm -> Prop) : word_is v i P_create -> next_is v t -> dict_ok v -> room_for v t 0 -> old_code K v ->
  (forall u, makes P_p_var t v u -> same_stacks v u -> here (v_ds u) = body u (words v) -> Q u) -> wp K (Op i) Q v.
Proof.
  intros W HN HD HR HK HQ. pose proof HD as (_ & H1 & _). apply (wp_prim_f K (S (Z.to_nat (words v))) i P_create v Q W). intros ew j c.
  destruct (create_ok (S (Z.to_nat (words v))) (at_ j c v) t) as (u & A & B & C & D & I).
  - apply next_at. exact HN.
  - exact HD.
  - change (words (at_ j c v)) with (words v). lia.
  - exact HR.
  - assert (M : makes P_p_var t v u) by (apply (makes_from _ _ _ _ _ (alike_at v j c) B)).
    exists u. split; [apply A|]. split; [rewrite I, st_at; reflexivity|]. split; [eapply makes_kept; [exact M|exact HK|lia]|].
    apply HQ; [exact M| |exact D]. unfold same_stacks in *. rewrite cur_at in C. exact C.
Qed.

Lemma set_word_newest v i (w : word) : dict_ok v -> 0 <= i < words v -> w_nfa w = w_nfa (word_of v i) -> w_hidden w = w_hidden (word_of v i) -> forall name r,
  newest v name r -> newest (set_word_at i w v) name r.
Proof.
  intros HD Hi E1 E2 name r.
  assert (HV : forall j, 0 <= j -> (visible (set_word_at i w v) j name <-> visible v j name)).
  { intros j Hj. unfold visible, named. rewrite set_word_of by lia. destruct (Z.eqb_spec i j) as [<-|N]; [rewrite E1, E2|]; reflexivity. }
  destruct r as [j|]; intro H; [destruct H as (H1 & H2 & H3); split; [exact H1|]; split; [apply HV; [lia|exact H2]|]|];
    intros k Hk HC; [apply (H3 k Hk)|apply (H k Hk)]; (apply HV; [lia|exact HC]).
Qed.
Lemma makes_does t v w e : makes P_p_var t v w -> 0 <= words v ->
  let u := set_word_at (words v) (set_w_doer e (set_w_action P_xdoes (word_of w (words v)))) w in
  makes P_xdoes t v u /\ w_doer (word_of u (words v)) = e /\ body u (words v) = body w (words v).
Proof.
  intros M H0 u. pose proof M as (M1 & M2 & M3 & M4 & M5 & M6 & M7 & M8 & M9 & M10 & M11 & M12 & M13).
  assert (EU : word_of u (words v) = set_w_doer e (set_w_action P_xdoes (word_of w (words v)))) by (unfold u; rewrite set_word_of, Z.eqb_refl by lia; reflexivity).
  unfold body. rewrite EU. split; [|split; reflexivity]. unfold makes. cbv zeta. rewrite EU.
  split; [apply set_word_dict; [exact M1|lia|]; repeat split; right; reflexivity|].
  split; [apply older_set_word; [exact M2|lia|lia]|]. split; [exact M3|].
  split; [intros name Hn; apply set_word_newest; [exact M1|lia|reflexivity|reflexivity|apply M4; exact Hn]|].
  split; [reflexivity|]. split; [exact M6|]. split; [exact M7|]. split; [exact M8|]. split; [exact M9|]. auto.
Qed.
Lemma wpz_prim i p v (Q : Z -> vm -> Prop) : word_is v i p ->
  (forall ew fuel j c, 8 <= c <= limit (v_ds v) -> exists u, exec_prim fuel ew p (at_ j c v) = Ok (tt, u) /\ st_ip (st u) = c /\ kept K v u /\ Q c u) ->
  wpz K (Op i) Q v.
Proof.
  intros W H a HH. pose proof (holds_fin K _ _ _ HH) as HF. destruct HH as (HA & Ha & C & Hi). pose proof (code_range _ _ _ _ HA C) as RA. cbn [fin] in *.
  destruct (H (execute_word 0) 0%nat i (a + 8)) as (u & E1 & I1 & K1 & Q1); [lia|]. exists u. split; [|exact Q1].
  split; [|exact K1]. intros w HC. exists u.
  destruct (step_cell K v a i w HA HC C Hi) as [R1 R2].
  split; [|rewrite <- I1; apply continues_self].
  apply one_step. split; [exact R1|]. exists 1%nat. rewrite R2, (execute_word_eq O i (set_ip (a + 8) v) p W), set_wp_ip. exact E1.
Qed.
Lemma wpz_does i v t w (Q : Z -> vm -> Prop) : word_is w i P__does -> makes P_p_var t v w -> 0 <= words v -> here (v_ds w) + 8 <= limit (v_ds w) -> old_code K w ->
  (forall e u, makes P_xdoes t v u -> same_stacks w u -> w_doer (word_of u (words v)) = e + 8 -> body u (words v) = body w (words v) ->
     grows (v_ds w) (v_ds u) -> here (v_ds u) = here (v_ds w) + 8 -> Q e u) -> wpz K (Op i) Q w.
Proof.
  intros W M H0 HL HK HQ. pose proof M as (M1 & _ & M3 & _). pose proof (proj1 M1) as DO. pose proof DO as (D1 & D2 & D3).
  eapply wpz_prim; [exact W|]. intros ew fuel j e He.
  destruct (compile_cell_ok (v_ds w) (e + 8) DO HL) as (d3 & E3 & C3 & S3 & G3 & _ & _).
  destruct (compile_cell_grows (v_ds w) (e + 8) d3 DO E3) as (GR & _ & _).
  assert (MW : makes P_p_var t v (set_v_ds d3 (at_ j e w))).
  { eapply makes_grows; [eapply makes_to; [apply alike_at|exact M]|reflexivity|exact GR|reflexivity..]. }
  destruct (makes_does t v _ (e + 8) MW H0) as (MU & DU & BU). set (u := set_word_at _ _ _) in *.
  assert (EL : wl_last (v_wl w) = words v) by (destruct M1 as (_ & _ & L & _); rewrite L, M3; lia).
  exists u. split; [|split; [|split]].
  - cbn [exec_prim]. unfold _does. unfold get_ip. rewrite bind_gets. unfold ip. rewrite st_at. cbn [st_ip set_st_ip set_st_wp].
    rewrite (bind_Ok _ _ _ (e + 8) (at_ j e w)) by (unfold chk_u64; replace (in_u64 (e + 8)) with true by (unfold in_u64, two64; lia); reflexivity).
    rewrite (bind_Ok _ _ _ tt (set_v_ds d3 (at_ j e w))) by (apply ds_upd_eq; exact E3).
    rewrite bind_gets. change (wl_last (v_wl (set_v_ds d3 (at_ j e w)))) with (wl_last (v_wl w)). rewrite EL. unfold upd_word.
    change (wl_len (v_wl (set_v_ds d3 (at_ j e w)))) with (words w). replace ((0 <=? words v) && (words v <? words w)) with true by lia. reflexivity.
  - change (st u) with (st (at_ j e w)). rewrite st_at. reflexivity.
  - split; [apply S3|]. split; [apply S3|]. split; [intros k Hk; apply GR; apply HK; exact Hk|].
    intros i0 p Hp (W1 & W2). split; [exact W1|]. change (w_action (word_of u i0) = p). unfold u. rewrite set_word_of by lia.
    destruct (Z.eqb_spec (words v) i0) as [<-|N]; [|exact W2]. exfalso. destruct M as (_ & _ & _ & _ & MA & _). unfold word_of in MA.
    rewrite MA in W2. subst p. revert Hp. unfold control_words. cbn [In]. intuition discriminate.
  - apply HQ; [exact MU| |exact DU|exact BU|exact GR|exact G3].
    unfold same_stacks. change (cur u) with (cur (at_ j e w)). rewrite cur_at. repeat split.
Qed.
End K.
End L.
