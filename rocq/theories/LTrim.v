(** The toolbox of LLib, LLibWords and LSource, with the cells from the 64th on under control (C90). *)
From Coq Require Import ZArith List Bool Lia String ZifyBool ZifyNat.
From Verif Require Import Base Stack Mem Parser State CoreM IoM FileM Exec LBase LStack Spec Spec2 Spec4 Spec5 Spec6 Spec7 Spec9 Spec10 Spec11 Spec12 Spec14 Spec15 Spec16 Spec17 Spec19 Spec24 Spec25
  LState LMem LMon LMemWords LTask LFuel LCode LComp LRun LCtl LFloat LWords LSay LFile LFile2 LFile5 LLib LLibWords LDefine LDefine2 LNoInput LSource LEval LNest Spec27 LShell LShell2 Spec28.
Import ListNotations.
Open Scope list_scope.
Open Scope Z_scope.
Open Scope m_scope.

Ltac room := match goal with H : ds_ok _ |- _ => pose proof (proj1 H); pose proof (proj1 (proj2 H)); pose proof (proj2 (proj2 H)) end.
Section L.
Context {E : Env}.
Variable K : Z -> Prop.
Implicit Types (v w u : vm).

Lemma upper_refl {T} (s : stack T) : upper s s. Proof. split; [reflexivity|auto]. Qed.
Lemma upper_trans {T} (a b c : stack T) : upper a b -> upper b c -> upper a c.
Proof. intros [A B] [C D]. split; [congruence|]. intros i Hi. rewrite D, B by assumption. reflexivity. Qed.
Lemma upper_high {T} (s s' : stack T) : high_slots_kept s s' -> len s <= 64 -> len s' <= 64 -> upper s s'.
Proof. intros [A B] H1 H2. split; [exact A|]. intros i Hi. apply B; lia. Qed.
Lemma trim_refl v : trim v v. Proof. split; [apply upper_refl|]. split; [apply upper_refl|reflexivity]. Qed.
Lemma trim_trans v u w : trim v u -> trim u w -> trim v w.
Proof. intros (A & B & C) (D & F & G). split; [eapply upper_trans; eassumption|]. split; [eapply upper_trans; eassumption|congruence]. Qed.
Lemma trim_eq v u : t_s (cur u) = t_s (cur v) -> t_r (cur u) = t_r (cur v) -> t_f (cur u) = t_f (cur v) -> trim v u.
Proof. intros A B C. unfold trim. rewrite A, B, C. apply trim_refl. Qed.
Lemma trim_data v u d d' : stack_has (t_s (cur v)) d -> stack_has (t_s (cur u)) d' -> zlen d <= 64 -> zlen d' <= 64 ->
  high_slots_kept (t_s (cur v)) (t_s (cur u)) -> t_r (cur u) = t_r (cur v) -> t_f (cur u) = t_f (cur v) -> trim v u.
Proof.
  intros A B C D F G H. pose proof (stack_has_len _ _ A). pose proof (stack_has_len _ _ B). unfold trim. rewrite G, H.
  split; [apply upper_high; [exact F|lia|lia]|]. split; [apply upper_refl|reflexivity].
Qed.

Lemma trim_add v x d : stack_has (t_s (cur v)) d -> zlen d < 64 -> trim v (add_s x v).
Proof.
  intros H Hr. pose proof (stack_has_len _ _ H) as HL. pose proof (zlen_nonneg d). unfold trim, add_s. rewrite !cur_set_s. cbn [t_s t_r t_f set_t_s].
  split; [|split; [apply upper_refl|reflexivity]]. rewrite <- add_item_push by lia. apply upper_high; [apply push_high; lia|lia|].
  pose proof (stack_has_len _ _ (push_has _ _ x H ltac:(lia))) as L2. rewrite zlen_cons in L2. lia.
Qed.

Definition tin v0 (d r f : list Z) (m : dspace) (o : option bytes) v : Prop := inv v0 d r f m o v /\ trim v0 v.
Lemma tin_at v0 d r f m o v i a : tin v0 d r f m o v -> tin v0 d r f m o (at_ i a v).
Proof. intros [A B]. split; [apply inv_at; exact A|]. unfold trim. rewrite s_at, r_at, f_at. exact B. Qed.
Lemma tin_word v0 d r f m o v i p : tin v0 d r f m o v -> word_is v0 i p -> word_is v i p.
Proof. intros [A _]. eapply inv_word; exact A. Qed.
Lemma tin_wl v0 d r f m o v : tin v0 d r f m o v -> v_wl v = v_wl v0.
Proof. intros [A _]. eapply inv_wl; exact A. Qed.
Lemma tin_start v d r f : stacks_are v d r f -> tin v d r f (v_ds v) (v_out v) v.
Proof. intro H. split; [apply inv_start; exact H|apply trim_refl]. Qed.

(** ** Primitives *)
Lemma tp_quiet i p v0 d d' r f m o v (Q : vm -> Prop) : word_is v0 i p -> tin v0 d r f m o v -> zlen d <= 64 -> zlen d' <= 64 ->
  (forall fuel ew u, inv v0 d r f m o u -> exists u', exec_prim fuel ew p u = Ok (tt, u') /\ stack_has (t_s (cur u')) d' /\ only_data_stack u u') ->
  (forall u, tin v0 d' r f m o u -> Q u) -> wp K (Op i) Q v.
Proof.
  intros W HI Hd Hd' H HQ. eapply wp_prim; [eapply tin_word; eassumption|]. intros ew fuel j c.
  pose proof (tin_at _ _ _ _ _ _ _ j c HI) as [HI' HT]. destruct (H fuel ew _ HI') as (u & E1 & S1 & O1).
  exists u. split; [exact E1|]. split; [rewrite (ip_kept _ _ O1), st_at; reflexivity|].
  split; [apply kept_eq; [apply O1|destruct O1 as [(_ & _ & _ & G & _) _]; exact G]|].
  apply HQ. split; [eapply inv_data; eassumption|]. eapply trim_trans; [exact HT|].
  eapply trim_data; [apply HI'|exact S1|exact Hd|exact Hd'|apply O1|apply O1|apply O1].
Qed.
Lemma tp_effect i p ins QQ v0 rest r f m o v (Q : vm -> Prop) : effect p ins QQ -> word_is v0 i p -> tin v0 (ins ++ rest) r f m o v ->
  zlen (ins ++ rest) <= 64 -> (forall outs, QQ outs -> zlen (outs ++ rest) <= 64) ->
  (forall outs u, QQ outs -> tin v0 (outs ++ rest) r f m o u -> Q u) -> wp K (Op i) Q v.
Proof.
  intros HE W HI Hd HL HQ. eapply wp_prim; [eapply tin_word; eassumption|]. intros ew fuel j c.
  pose proof (tin_at _ _ _ _ _ _ _ j c HI) as [HI' HT].
  destruct (HE fuel ew (at_ j c v) rest (proj1 (proj1 HI'))) as (outs & Q1 & H). pose proof (HL _ Q1) as HL1. destruct (H ltac:(lia)) as (u & E1 & S1 & O1).
  exists u. split; [exact E1|]. split; [rewrite (ip_kept _ _ O1), st_at; reflexivity|].
  split; [apply kept_eq; [apply O1|destruct O1 as [(_ & _ & _ & G & _) _]; exact G]|].
  eapply HQ; [exact Q1|]. split; [eapply inv_data; eassumption|]. eapply trim_trans; [exact HT|].
  eapply trim_data; [apply HI'|exact S1|exact Hd|exact HL1|apply O1|apply O1|apply O1].
Qed.
Lemma tp_memory i p v0 d d' r f m o v a n (P : dspace -> Prop) (Q : vm -> Prop) : word_is v0 i p -> tin v0 d r f m o v -> zlen d <= 64 -> zlen d' <= 64 ->
  (forall k, K k -> start m <= k /\ (k < a \/ a + n <= k)) ->
  (forall fuel ew u, inv v0 d r f m o u -> exists u', exec_prim fuel ew p u = Ok (tt, u') /\ stack_has (t_s (cur u')) d' /\
     same_memory_but m (v_ds u') a n /\ P (v_ds u') /\ only_data_memory u u') ->
  (forall u m', same_memory_but m m' a n -> P m' -> tin v0 d' r f m' o u -> Q u) -> wp K (Op i) Q v.
Proof.
  intros W HI Hd Hd' HK H HQ. eapply wp_prim; [eapply tin_word; eassumption|]. intros ew fuel j c.
  pose proof (tin_at _ _ _ _ _ _ _ j c HI) as [HI' HT]. destruct (H fuel ew _ HI') as (u & E1 & S1 & M1 & P1 & O1).
  exists u. split; [exact E1|]. assert (HM : v_ds v = m) by apply (proj1 HI).
  split; [destruct O1 as (_ & _ & (_ & A & _) & _); unfold st; rewrite A, cur_at; reflexivity|].
  split.
  - destruct O1 as ((_ & _ & _ & G & _) & _). unfold kept. rewrite HM. split; [apply M1|]. split; [apply M1|].
    split; [intros k Hk; apply M1; apply HK; exact Hk|]. intros i0 p0 _ W0. unfold word_is. rewrite G. exact W0.
  - eapply HQ; [exact M1|exact P1|]. split; [eapply inv_memory; eassumption|]. eapply trim_trans; [exact HT|].
    eapply trim_data; [apply HI'|exact S1|exact Hd|exact Hd'|apply O1|apply O1|apply O1].
Qed.
Lemma tp_num x v0 d r f m o v (Q : vm -> Prop) : tin v0 d r f m o v -> zlen d < 64 ->
  (forall u, tin v0 (x :: d) r f m o u -> Q u) -> wp K (Num x) Q v.
Proof.
  intros [HI HT] Hd HQ a HH. pose proof (zlen_nonneg d). exists (add_s x v). split.
  - apply num_run; [exact HH|]. destruct (inv_len _ _ _ _ _ _ _ HI) as [-> _]. lia.
  - apply HQ. split; [apply inv_push; [exact HI|lia]|]. eapply trim_trans; [exact HT|].
    eapply trim_add; [apply HI|exact Hd].
Qed.
Lemma tp_fetch i v0 a x d r f m o v (Q : vm -> Prop) : word_is v0 i P_fetch -> tin v0 (a :: d) r f m o v -> zlen d < 64 -> ds_ok m ->
  start m < a -> a + 8 <= limit m -> cell_at m a x -> is_cell x ->
  (forall u, tin v0 (x :: d) r f m o u -> Q u) -> wp K (Op i) Q v.
Proof.
  intros W HI Hd HD H1 H2 HC Hx HQ. eapply tp_quiet; [exact W|exact HI|wlen|idtac|idtac|exact HQ]; [wlen|]. intros fuel ew u J.
  assert (EM : v_ds u = m) by apply J. room. eapply fetch_ok; rewrite ?EM; try eassumption; [apply J|apply addr_of_id; lia].
Qed.
Lemma tp_cell_plus i v0 a d r f m o v (Q : vm -> Prop) : word_is v0 i P_cell_plus -> tin v0 (a :: d) r f m o v -> zlen d < 64 -> is_cell (a + 8) ->
  (forall u, tin v0 (a + 8 :: d) r f m o u -> Q u) -> wp K (Op i) Q v.
Proof.
  intros W HI Hd Hx HQ. eapply tp_quiet; [exact W|exact HI|wlen|idtac|idtac|exact HQ]; [wlen|]. intros fuel ew u J. apply cell_plus_ok; [apply J|exact Hx].
Qed.
Lemma tp_store i v0 a x d r f m o v (Q : vm -> Prop) : word_is v0 i P_store -> tin v0 (a :: x :: d) r f m o v -> zlen d <= 62 -> ds_ok m ->
  start m < a -> a + 8 <= limit m -> (forall k, K k -> start m <= k /\ (k < a \/ a + 8 <= k)) ->
  (forall u m', same_memory_but m m' a 8 -> cell_at m' a x -> here m' = here m -> tin v0 d r f m' o u -> Q u) -> wp K (Op i) Q v.
Proof.
  intros W HI Hd HD H1 H2 HK HQ.
  eapply (tp_memory i P_store v0 _ d r f m o v a 8 (fun m' => cell_at m' a x /\ here m' = here m)); [exact W|exact HI|wlen|lia|exact HK| |].
  - intros fuel ew u J. assert (EM : v_ds u = m) by apply J. room.
    destruct (store_ok fuel ew u x a a d) as (u' & E1 & S1 & C1 & M1 & G1 & O1); rewrite ?EM in *; try assumption; [apply J|apply addr_of_id; lia|].
    exists u'. split; [exact E1|]. split; [exact S1|]. split; [exact M1|]. split; [auto|exact O1].
  - intros u m' S1 [C1 G1] I1. eapply HQ; eassumption.
Qed.
Lemma tp_part i p g v0 d r f m o v (Q : vm -> Prop) : word_is v0 i p ->
  (forall fuel ew, exec_prim fuel ew p = (x <- gets g ;; s_push x)) -> (forall u, calm v0 u -> g u = g v0) -> tin v0 d r f m o v ->
  zlen d < 64 -> (forall u, tin v0 (g v0 :: d) r f m o u -> Q u) -> wp K (Op i) Q v.
Proof.
  intros W Hp Hg HI H1 HQ. eapply tp_quiet; [exact W|exact HI|lia|idtac|idtac|exact HQ]; [wlen|].
  intros fuel ew u J. rewrite Hp, bind_gets, (Hg u) by apply J.
  assert (HS : stack_has (t_s (cur u)) d) by apply J. pose proof (stack_has_len _ _ HS). pose proof (zlen_nonneg d).
  unfold s_push, modify, s_stk. eexists. split; [reflexivity|].
  rewrite cur_set_s. cbn [t_s set_t_s]. split; [apply push_has; [assumption|lia]|]. apply only_data_set_s. apply push_high. lia.
Qed.
Lemma trim_pop v s d d' : stack_has (t_s (cur v)) d -> stack_has s d' -> zlen d <= 64 -> zlen d' <= 64 -> high_slots_kept (t_s (cur v)) s -> trim v (set_s s v).
Proof. intros A B C D F. eapply trim_data; rewrite ?cur_set_s; cbn [t_s t_r t_f set_t_s]; try eassumption; reflexivity. Qed.
Lemma trim_both v u v' u' : trim v u -> t_s (cur v') = t_s (cur v) -> t_r (cur v') = t_r (cur v) -> t_f (cur v') = t_f (cur v) ->
  t_s (cur u') = t_s (cur u) -> t_r (cur u') = t_r (cur u) -> t_f (cur u') = t_f (cur u) -> trim v' u'.
Proof. unfold trim. intros H -> -> -> -> -> ->. exact H. Qed.
Lemma tp_set_idx i v0 x d r f m o u (Q : vm -> Prop) : word_is v0 i P_p_set_source_idx -> tin v0 (x :: d) r f m o u -> zlen d < 64 ->
  (forall u', tin (set_idx (to_u64 x) v0) d r f m o u' -> Q u') -> wp K (Op i) Q u.
Proof.
  intros W HI Hd HQ. eapply wp_prim; [eapply tin_word; eassumption|]. intros ew fuel j c.
  pose proof (tin_at _ _ _ _ _ _ _ j c HI) as [HI' HT]. cbn [exec_prim]. unfold p_set_source_idx.
  destruct (pop_then _ x d (proj1 (proj1 HI'))) as (s1 & EP & S1 & S2 & HL). rewrite EP. unfold modify. eexists. split; [reflexivity|].
  split; [gnorm; rewrite cur_at; reflexivity|]. split; [apply kept_eq; reflexivity|]. apply HQ.
  assert (J : tin v0 d r f m o (set_s s1 (at_ j c u))).
  { split; [eapply inv_data; [exact HI'|rewrite cur_set_s; exact S1|]; apply only_data_set_s; exact S2|]. eapply trim_trans; [exact HT|].
    eapply trim_pop; [apply HI'|exact S1|wlen|lia|exact S2]. }
  split; [apply inv_idx; apply J|]. eapply trim_both; [apply J|..]; gnorm; reflexivity.
Qed.
Lemma tp_set_sid i v0 x d r f m o u (Q : vm -> Prop) : word_is v0 i P_p_set_source_id -> tin v0 (x :: d) r f m o u -> zlen d < 64 -> selectable v0 x ->
  (forall u', tin (set_sid x v0) d r f m o u' -> Q u') -> wp K (Op i) Q u.
Proof.
  intros W HI Hd HX HQ. eapply wp_prim; [eapply tin_word; eassumption|]. intros ew fuel j c.
  pose proof (tin_at _ _ _ _ _ _ _ j c HI) as [HI' HT]. cbn [exec_prim]. unfold p_set_source_id.
  destruct (pop_then _ x d (proj1 (proj1 HI'))) as (s1 & EP & S1 & S2 & HL). rewrite EP.
  assert (J : tin v0 d r f m o (set_s s1 (at_ j c u))).
  { split; [eapply inv_data; [exact HI'|rewrite cur_set_s; exact S1|]; apply only_data_set_s; exact S2|]. eapply trim_trans; [exact HT|].
    eapply trim_pop; [apply HI'|exact S1|wlen|lia|exact S2]. }
  rewrite (select_ok K) by (eapply selectable_calm; [apply (proj1 J)|exact HX]). eexists. split; [reflexivity|].
  split; [gnorm; rewrite cur_at; reflexivity|]. split; [apply kept_eq; reflexivity|]. apply HQ.
  split; [apply inv_sid; apply J|]. eapply trim_both; [apply J|..]; gnorm; reflexivity.
Qed.
Lemma trim_drop v x d : stack_has (t_s (cur v)) (x :: d) -> zlen d < 64 -> trim v (drop_s 1 v).
Proof.
  intros H Hd. eapply trim_pop; [exact H|apply (drop_has _ [x]); exact H|wlen|lia|]. split; [reflexivity|]. intros i _ _ _. reflexivity.
Qed.
Lemma tp_if_else p q x v0 d r f m o v (Q : vm -> Prop) : tin v0 (x :: d) r f m o v -> zlen d < 64 ->
  (x <> 0 -> forall u, tin v0 d r f m o u -> wp K p Q u) -> (x = 0 -> forall u, tin v0 d r f m o u -> wp K q Q u) ->
  wp K (IfElse p q) Q v.
Proof.
  intros [HI HT] Hd H1 H2 a HH. pose proof (inv_pop _ _ _ _ _ _ _ _ HI) as IP. pose proof (trim_drop _ _ _ (proj1 (proj1 HI)) Hd) as TD.
  assert (J : tin v0 d r f m o (drop_s 1 v)) by (split; [exact IP|eapply trim_trans; eassumption]).
  pose proof (takes_has _ _ _ (proj1 (proj1 HI))) as T.
  assert (HK : kept K v (drop_s 1 v)) by (apply kept_eq; reflexivity).
  pose proof (holds_kept K _ _ _ _ HK HH) as HH1.
  assert (HS : holds K (drop_s 1 v) p (a + 16) /\ holds K (drop_s 1 v) q (fin p (a + 16) + 16)).
  { destruct HH1 as (A & B & L). cbn [laid] in L; cbv zeta in L. destruct L as (W & C & L & W' & C' & L').
    pose proof (cell_top _ _ _ _ C) as Ct. pose proof (cell_top _ _ _ _ C') as Ct'. pose proof (laid_range K _ _ _ L ltac:(lia)) as R.
    split; (split; [exact A|split; [lia|assumption]]). }
  destruct HS as [HS1 HS2].
  destruct (Z.eq_dec x 0) as [Hx|Hx].
  - destruct (H2 Hx _ J _ HS2) as (v' & P & q'). exists v'. split; [|exact q']. eapply if_else_run; [exact HH|exact T|tauto|intros _; exact P].
  - destruct (H1 Hx _ J _ HS1) as (v' & P & q'). exists v'. split; [|exact q']. eapply if_else_run; [exact HH|exact T|intros _; exact P|tauto].
Qed.

(** One round of a loop *)
Lemma tp_while_round p q (Q : vm -> Prop) v : wp K p (fun u => exists v0 x d r f m o, tin v0 (x :: d) r f m o u /\ zlen d < 64 /\
     (x = 0 -> forall u', tin v0 d r f m o u' -> Q u') /\
     (x <> 0 -> forall u', tin v0 d r f m o u' -> wp K q (wp K (While p q) Q) u')) v -> wp K (While p q) Q v.
Proof.
  intros H a HH.
  assert (HS : holds K v p a /\ holds K v q (fin p a + 16)).
  { destruct HH as (A & B & L). cbn [laid] in L; cbv zeta in L. destruct L as (L & W & C & L' & W' & C').
    pose proof (cell_top _ _ _ _ C) as Ct. pose proof (cell_top _ _ _ _ C') as Ct'. pose proof (laid_range K _ _ _ L ltac:(lia)) as R.
    split; (split; [exact A|split; [lia|assumption]]). }
  destruct HS as [HS1 HS2]. destruct (H a HS1) as (u & P1 & v0 & x & d & r & f & m & o & [HU HT] & Hd & HZ & HN).
  pose proof (takes_has _ _ _ (proj1 (proj1 HU))) as T. pose proof (inv_pop _ _ _ _ _ _ _ _ HU) as HU1.
  assert (J : tin v0 d r f m o (drop_s 1 u)) by (split; [exact HU1|eapply trim_trans; [exact HT|eapply trim_drop; [apply HU|exact Hd]]]).
  pose proof (while_round K p q v a u x _ HH P1 T) as P2.
  destruct (x =? 0) eqn:Hx.
  - exists (drop_s 1 u). split; [exact P2|]. apply HZ; [lia|exact J].
  - destruct (HN ltac:(lia) _ J _ (holds_kept K _ _ _ _ (proj2 P2) HS2)) as (v1 & P3 & HI1).
    pose proof (part_trans K _ _ _ _ _ _ P2 P3) as P4. pose proof (holds_kept K _ _ _ _ (proj2 P4) HH) as HH1.
    destruct (HI1 a HH1) as (v2 & P5 & Q2). exists v2. split; [|exact Q2].
    eapply part_trans; [exact P4|]. eapply part_trans; [apply (while_back K p q); exact HH1|exact P5].
Qed.

(** Calling a colon definition *)
Lemma trim_add_r v x r : stack_has (t_r (cur v)) r -> zlen r < 64 -> trim v (add_r x v).
Proof.
  intros H Hr. pose proof (stack_has_len _ _ H) as HL. pose proof (zlen_nonneg r). unfold trim, add_r. rewrite !cur_set_r. cbn [t_s t_r t_f set_t_r].
  split; [apply upper_refl|]. split; [|reflexivity]. rewrite <- add_item_push by lia. apply upper_high; [apply push_high; lia|lia|].
  pose proof (stack_has_len _ _ (push_has _ _ x H ltac:(lia))) as L2. rewrite zlen_cons in L2. lia.
Qed.
Lemma trim_drop_r v x r : stack_has (t_r (cur v)) (x :: r) -> zlen r < 64 -> trim v (drop_r 1 v).
Proof.
  intros H Hr. unfold trim, drop_r. rewrite !cur_set_r. cbn [t_s t_r t_f set_t_r]. split; [apply upper_refl|]. split; [|reflexivity].
  split; [reflexivity|]. intros i _. reflexivity.
Qed.
Lemma tin_rpush v0 x d r f m o v : tin v0 d r f m o v -> zlen r < 64 -> tin v0 d (x :: r) f m o (add_r x v).
Proof. intros [HI HT] Hr. split; [apply inv_rpush; [exact HI|lia]|]. eapply trim_trans; [exact HT|eapply trim_add_r; [apply HI|exact Hr]]. Qed.
Lemma tin_rdrop v0 x d r f m o v : tin v0 d (x :: r) f m o v -> zlen r < 64 -> tin v0 d r f m o (drop_r 1 v).
Proof. intros [HI HT] Hr. split; [apply (inv_rdrop v0 [x]); exact HI|]. eapply trim_trans; [exact HT|eapply trim_drop_r; [apply HI|exact Hr]]. Qed.
Lemma tp_call i p x v0 d r f m o v (Q : vm -> Prop) : colon_word K v0 i p x -> kept K v0 v -> tin v0 d r f m o v -> zlen r < 64 ->
  (forall ra u, tin v0 d (ra :: r) f m o u -> kept K v0 u -> wp K p (fun u' => exists v1 d' m' o', v_wl v1 = v_wl v0 /\ tin v1 d' (ra :: r) f m' o' u' /\
     (forall u'', tin v1 d' r f m' o' u'' -> Q u'')) u) -> wp K (Op i) Q v.
Proof.
  intros HC HK HI Hr H. pose proof (tin_wl _ _ _ _ _ _ _ HI) as Ew. apply wp_call. eapply colon_does; [eapply colon_eq; [exact Ew|exact HK|exact HC]|apply (proj1 HI)|lia|].
  intros ra Hra. eapply wp_conseq; [|apply (H ra); [apply tin_rpush; [exact HI|exact Hr]|eapply kept_trans; [exact HK|apply kept_eq; reflexivity]]].
  intros u (v1 & d' & m' & o' & E1 & J & HQ). split; [rewrite (tin_wl _ _ _ _ _ _ _ J), Ew; exact E1|]. exists r. split; [apply (proj1 J)|].
  apply HQ. apply tin_rdrop with (x := ra); assumption.
Qed.
(** Variables and constants *)
Lemma wp_prim_i i p v (Q : vm -> Prop) : word_is v i p ->
  (forall ew c, exists u, exec_prim 0 ew p (at_ i c v) = Ok (tt, u) /\ st_ip (st u) = c /\ kept K v u /\ Q u) -> wp K (Op i) Q v.
Proof.
  intros W H a (HA & Ha & C & Hi). cbn [fin].
  destruct (H (execute_word 0) (a + 8)) as (u & E1 & I1 & K1 & Q1). exists u. split; [|exact Q1].
  split; [|exact K1]. intros w HC. exists u.
  destruct (step_cell K v a i w HA HC C Hi) as [R1 R2].
  split; [|rewrite <- I1; apply continues_self].
  apply one_step. split; [exact R1|]. exists 1%nat. rewrite R2, (execute_word_eq O i (set_ip (a + 8) v) p W), set_wp_ip. exact E1.
Qed.
Lemma tp_push_i i p x v0 d r f m o u (Q : vm -> Prop) : word_is v0 i p -> tin v0 d r f m o u -> zlen d < 64 ->
  (forall ew c, exec_prim 0 ew p (at_ i c u) = s_push x (at_ i c u)) ->
  (forall u', tin v0 (x :: d) r f m o u' -> Q u') -> wp K (Op i) Q u.
Proof.
  intros W HI Hd HX HQ. apply (wp_prim_i i p); [eapply tin_word; eassumption|]. intros ew c. pose proof (tin_at _ _ _ _ _ _ _ i c HI) as [HI' HT'].
  assert (HS : stack_has (t_s (cur (at_ i c u))) d) by apply HI'. pose proof (stack_has_len _ _ HS). pose proof (zlen_nonneg d).
  rewrite HX. unfold s_push, modify, s_stk. eexists. split; [reflexivity|]. rewrite add_item_push by lia. change (set_s _ ?w) with (add_s x w).
  split; [unfold add_s; gnorm; rewrite cur_at; reflexivity|]. split; [apply kept_eq; reflexivity|]. apply HQ.
  split; [apply inv_push; [exact HI'|lia]|]. eapply trim_trans; [exact HT'|eapply trim_add; eassumption].
Qed.
Lemma tp_var i v0 d r f m o u (Q : vm -> Prop) : word_is v0 i P_p_var -> 0 <= body v0 i < 2 ^ 63 -> tin v0 d r f m o u -> zlen d < 64 ->
  (forall u', tin v0 (body v0 i :: d) r f m o u' -> Q u') -> wp K (Op i) Q u.
Proof.
  intros W Hb HI Hd HQ. eapply (tp_push_i i P_p_var); [exact W|exact HI|exact Hd| |exact HQ]. intros ew c.
  pose proof (tin_word _ _ _ _ _ _ _ _ _ HI W) as W'. pose proof (tin_wl _ _ _ _ _ _ _ HI) as Ew.
  cbn [exec_prim]. unfold p_var. rewrite bind_gets, st_at. cbn [st_wp set_st_ip set_st_wp].
  rewrite (bind_Ok _ _ _ _ _ (word_at_eq (at_ i c u) i (proj1 W'))). change (w_dfa (wl_get (v_wl (at_ i c u)) i)) with (w_dfa (wl_get (v_wl u) i)). rewrite Ew.
  change (w_dfa (wl_get (v_wl v0) i)) with (body v0 i). rewrite to_i64_id by (unfold imin, imax, two63; lia). reflexivity.
Qed.
Lemma tp_const i x v0 d r f m o u (Q : vm -> Prop) : word_is v0 i P_p_const -> ds_ok m -> start m < body v0 i -> body v0 i + 8 <= limit m -> cell_at m (body v0 i) x -> is_cell x ->
  tin v0 d r f m o u -> zlen d < 64 -> (forall u', tin v0 (x :: d) r f m o u' -> Q u') -> wp K (Op i) Q u.
Proof.
  intros W (D1 & D2 & D3) H1 H2 H3 Hx HI Hd HQ. eapply (tp_push_i i P_p_const); [exact W|exact HI|exact Hd| |exact HQ]. intros ew c.
  pose proof (tin_word _ _ _ _ _ _ _ _ _ HI W) as W'. pose proof (tin_wl _ _ _ _ _ _ _ HI) as Ew. assert (Em : v_ds u = m) by apply (proj1 HI).
  cbn [exec_prim]. unfold p_const. rewrite bind_gets, st_at. cbn [st_wp set_st_ip set_st_wp].
  rewrite (bind_Ok _ _ _ _ _ (word_at_eq (at_ i c u) i (proj1 W'))). change (w_dfa (wl_get (v_wl (at_ i c u)) i)) with (w_dfa (wl_get (v_wl u) i)). rewrite Ew.
  change (w_dfa (wl_get (v_wl v0) i)) with (body v0 i).
  rewrite (bind_Ok _ _ _ x (at_ i c u)); [reflexivity|].
  unfold ds_get. change (v_ds (at_ i c u)) with (v_ds u). rewrite Em. rewrite (get_isize_ok m (body v0 i) x); [reflexivity|apply in_ds_true; lia|assumption|assumption].
Qed.
End L.

Ltac t_is lem := seqs; eapply (tp_effect _ _ _ _ _ _ _ _ _ _ _ _ _ lem); [known_word|cbn [app]; eassumption|wlen|wlen|];
  let o := fresh "outs" in let u := fresh "u" in let I := fresh "I" in intros o u <- I; cbn [app] in I.
Ltac t_effect lem := seqs; eapply (tp_effect _ _ _ _ _ _ _ _ _ _ _ _ _ lem); [known_word|cbn [app]; eassumption|wlen|intros ? (? & -> & _); wlen|];
  let o := fresh "outs" in let u := fresh "u" in let I := fresh "I" in let y := fresh "y" in let H := fresh "H" in
  intros o u (y & -> & H) I; cbn [app] in I.
Ltac t_num := seqs; eapply tp_num; [eassumption|wlen|]; let u := fresh "u" in let I := fresh "I" in intros u I.
Ltac t_var := seqs; eapply tp_var; [eassumption|lia|eassumption|wlen|]; let u := fresh "u" in let I := fresh "I" in intros u I.

(** ** Words of core.fth *)
Section W.
Context {E : Env}.
Variable K : Z -> Prop.
Implicit Types (v w u : vm).

Lemma plus_store_tp ix i a k x v0 d r f m o u (Q : vm -> Prop) : library ix v0 -> colon_word K v0 i (d_plus_store ix) (ix P_exit) -> kept K v0 u ->
  tin v0 (a :: k :: d) r f m o u -> zlen d <= 60 -> zlen r < 64 -> ds_ok m -> start m < a -> a + 8 <= limit m -> (forall k, K k -> start m <= k /\ (k < a \/ a + 8 <= k)) ->
  cell_at m a x -> is_cell x ->
  (forall y m' u', wraps_to (x + k) y -> cell_at m' a y -> same_memory_but m m' a 8 -> here m' = here m -> tin v0 d r f m' o u' -> Q u') -> wp K (Op i) Q u.
Proof.
  intros L HC HK HI Hd Hr HD H1 H2 H3 H4 H5 HQ. pose proof (zlen_nonneg d). eapply tp_call; [exact HC|exact HK|exact HI|exact Hr|]. intros ra w I KW. unfold d_plus_store. room.
  t_is (dup_effect a).
  seqs. eapply tp_fetch with (x := x); [known_word|eassumption|wlen|assumption|lia|lia|assumption|assumption|]. intros ?u ?I.
  t_is (rot_effect k a x). t_effect (plus_spec x k). t_is (swap_effect a y).
  seqs. eapply tp_store; [known_word|eassumption|lia|assumption|lia|lia|exact H3|]. intros ?u m4 S4 C4 G4 J4.
  exists v0, d, m4, o. split; [reflexivity|]. split; [exact J4|]. intros u'' J. eapply HQ; eassumption.
Qed.
End W.
