(** Defining words of core.fth and their children. *)
From Coq Require Import ZArith List Bool Lia ZifyBool ZifyNat.
From Verif Require Import Base Stack Mem State CoreM IoM Exec LBase LStack Spec Spec2 Spec4 Spec5 Spec6 Spec7 Spec9 Spec10 Spec11 Spec14 Spec15 Spec16
  LState LMem LMon LMemWords LTask LFuel LCode LComp LRun LCtl LFloat LWords LSay LDict LDict2 LDict3 LDict4 LDict5 LParse LText LLib LLibWords LDefine.
Import ListNotations.
Open Scope Z_scope.
Open Scope m_scope.

Section L.
Context {E : Env}.
Implicit Types (v w u : vm).
Lemma library_older ix v w : library ix v -> older_kept v w -> library ix w.
Proof. intros L O p Hp. eapply older_word; [exact O|apply L; exact Hp]. Qed.
Lemma next_set_r v t s : next_is v t -> next_is (set_r s v) t.
Proof.
  intros (H & s0 & cs & ts & (buf & pre & HI & H1 & H2 & H3) & H4). split; [exact H|]. exists s0, cs, ts. split; [|exact H4].
  exists buf, pre. unfold input_text, st. rewrite cur_set_r. auto.
Qed.
Lemma same_grows m m' n : ds_ok m -> 0 <= n -> same_memory_but m m' (here m) n -> here m' = here m + n -> here m + n <= limit m -> grows m m'.
Proof.
  intros (D1 & D2 & D3) Hn (S1 & S2 & S3) H HL. split; [unfold ds_ok; rewrite S1, S2, H; lia|]. split; [exact S1|]. split; [exact S2|]. split; [lia|].
  intros a Ha. apply S3; lia.
Qed.
Section K.
Variable K : Z -> Prop.
Lemma wp_comma i v0 x d r f m o v (Q : vm -> Prop) : word_is v0 i P_comma -> inv v0 (x :: d) r f m o v -> ds_ok m -> here m + 8 <= limit m ->
  (forall k, K k -> start m <= k < here m) ->
  (forall u m', grows m m' -> cell_at m' (here m) x -> here m' = here m + 8 -> inv v0 d r f m' o u -> Q u) -> wp K (Op i) Q v.
Proof.
  intros W HI HD HL HK HQ.
  eapply (wp_memory K i P_comma v0 _ d r f m o v (here m) 8 (fun m' => cell_at m' (here m) x /\ here m' = here m + 8)); [exact W|exact HI| | |].
  - intros k Hk. specialize (HK k Hk). lia.
  - intros fuel ew u J. assert (EM : v_ds u = m) by apply J.
    destruct (comma_ok P_comma fuel ew u x d) as (u' & E1 & S1 & C1 & M1 & G1 & O1); rewrite ?EM in *; try assumption; [left; reflexivity|apply J|].
    exists u'. split; [exact E1|]. split; [exact S1|]. split; [exact M1|]. split; [auto|exact O1].
  - intros u m' S1 [C1 G1] I1. eapply HQ; [|exact C1|exact G1|exact I1]. eapply same_grows; [exact HD| |exact S1|exact G1|exact HL]. lia.
Qed.
Lemma wp_to_body i v0 k d r f m o v (Q : vm -> Prop) : word_is v0 i P_to_body -> inv v0 (k :: d) r f m o v -> 0 <= k < words v0 -> k < 2 ^ 63 -> 0 <= body v0 k < 2 ^ 63 ->
  (forall u, inv v0 (body v0 k :: d) r f m o u -> Q u) -> wp K (Op i) Q v.
Proof.
  intros W HI Hk Hk' HB HQ. eapply wp_quiet; [exact W|exact HI| |exact HQ]. intros fuel ew u J. pose proof (inv_wl _ _ _ _ _ _ _ J) as EW.
  pose proof (proj1 (proj1 J)) as HS. destruct (pop_then u k d HS) as (s1 & EP & S1 & S2 & HL). cbn [exec_prim]. unfold to_body, to_field. rewrite EP.
  pose proof (stack_has_len _ _ HS) as L0. pose proof (stack_has_bound _ _ HS) as B0. rewrite zlen_cons in L0. cbv zeta.
  rewrite to_u64_id by (unfold two64; lia). rewrite bind_gets. change (wl_len (v_wl (set_s s1 u))) with (words u).
  assert (EWU : words u = words v0) by (unfold words; rewrite EW; reflexivity). replace (k <? words u) with true by lia.
  rewrite (bind_Ok _ _ _ _ _ (word_at_eq (set_s s1 u) k ltac:(unfold words in *; change (v_wl (set_s s1 u)) with (v_wl u); lia))).
  change (w_dfa (wl_get (v_wl (set_s s1 u)) k)) with (body u k). assert (EB : body u k = body v0 k) by (unfold body, word_of; rewrite EW; reflexivity).
  rewrite EB, to_i64_id by (unfold imin, imax, two63; lia).
  eexists. split; [reflexivity|]. unfold s_push, modify, s_stk. rewrite cur_set_s. cbn [t_s set_t_s]. rewrite set_s_set_s.
  rewrite cur_set_s. cbn [t_s set_t_s]. split; [apply push_has; [exact S1|lia]|].
  apply only_data_set_s. pose proof (stack_has_len _ _ S1) as L1. pose proof (zlen_nonneg d).
  pose proof (push_high s1 (body v0 k) ltac:(lia)) as [H1 H2]. split; [rewrite H1; apply S2|].
  pose proof (push_has s1 d (body v0 k) S1 ltac:(lia)) as P. pose proof (stack_has_len _ _ P) as LP. rewrite zlen_cons in LP.
  intros j I1 I2 I3. rewrite H2 by lia. apply S2; lia.
Qed.
(** EXECUTE performs the word whose number is on the stack *)
Lemma wp_execute i v x d (Q : vm -> Prop) : word_is v i P_execute -> stack_has (t_s (cur v)) (x :: d) -> 0 <= x < 2 ^ 63 ->
  does K (drop_s 1 v) x Q -> wp K (Op i) Q v.
Proof.
  intros W HS Hx D a (HA & Ha & C & Hi). cbn [fin]. pose proof (code_range _ _ _ _ HA C) as RA.
  destruct (D (a + 8) ltac:(lia)) as (f & u & v' & E1 & G & KK & q). exists v'. split; [|exact q].
  split; [|eapply kept_trans; [apply (kept_eq K v (drop_s 1 v)); reflexivity|exact KK]].
  intros w HC. destruct (step_cell K v a i w HA HC C Hi) as [R1 R2].
  destruct (G u (continues_self u)) as (w' & S1 & C1). exists w'. split; [|exact C1].
  econstructor; [split; [exact R1|]|exact S1]. destruct f as [|f]; [discriminate E1|]. exists (S (S f)). rewrite R2.
  rewrite (execute_word_eq (S f) i (set_ip (a + 8) v) P_execute W), set_wp_ip. rewrite <- E1.
  cbn [exec_prim]. unfold execute.
  assert (EP : s_pop (at_ i (a + 8) v) = Ok (x, drop_s 1 (at_ i (a + 8) v))).
  { apply s_pop_eq, (pop_items _ _ d). rewrite s_at. exact HS. }
  rewrite (bind_Ok _ _ _ _ _ EP), to_u64_id by (unfold two64; lia).
  assert (EX : set_wp x (drop_s 1 (at_ i (a + 8) v)) = set_wp x (set_ip (a + 8) (drop_s 1 v))).
  { unfold drop_s. rewrite s_at, set_s_at, set_wp_at, set_wp_ip. reflexivity. }
  cbn [execute_word]. rewrite !bind_modify, EX. reflexivity.
Qed.

(** ** Colon definitions that create a word *)
Lemma colon_makes a v i p x d rs fs t (R : Z -> list Z -> dspace -> wordlist -> Prop) : colon_word K v i p x -> next_is v t -> stacks_are v d rs fs -> zlen rs < 255 ->
  (forall r w, alike v w -> stacks_are w d (r :: rs) fs -> next_is w t ->
     wpz K p (fun e w' => exists d', R e d' (v_ds w') (v_wl w') /\ makes a t w w' /\ stacks_are w' d' (r :: rs) fs) w) ->
  does K v i (fun v' => exists d', R (fin p (body v i)) d' (v_ds v') (v_wl v') /\ makes a t v v' /\ stacks_are v' d' rs fs).
Proof.
  intros HC HN HS Hl H.
  apply (colon_does_z K v i p x (fun e v' => exists d', R e d' (v_ds v') (v_wl v') /\ makes a t v v' /\ stacks_are v' d' rs fs) rs HC (proj1 (proj2 HS)) Hl).
  intros r Hr. intros a0 HH. pose proof (inv_rpush v r _ _ _ _ _ _ (inv_start v _ _ _ HS) Hl) as HI.
  destruct (H r (add_r r v) (alike_r v _) (proj1 HI) (next_set_r _ _ _ HN) a0 HH) as (w' & P & d' & HR & M & S). exists w'. split; [exact P|].
  pose proof (makes_from _ _ _ _ _ (alike_r v _) M) as M'. split; [eapply older_word; [apply M'|apply HC]|]. exists rs. split; [apply S|].
  exists d'. split; [exact HR|]. split; [eapply makes_to; [apply alike_r|exact M']|].
  destruct S as (S1 & S2 & S3). unfold stacks_are, drop_r. rewrite cur_set_r. cbn [t_s t_r t_f set_t_r]. split; [exact S1|]. split; [|exact S3].
  apply (drop_has _ [r]). exact S2.
Qed.
Lemma dict_alike v w : alike v w -> dict_ok v -> dict_ok w.
Proof. intros (E1 & E2 & _). unfold dict_ok, words, named, word_of. rewrite E1, E2. auto. Qed.
Lemma library_alike ix v w : alike v w -> library ix v -> library ix w.
Proof. intros (_ & E2 & _). apply library_eq. exact E2. Qed.
Lemma old_alike v w : alike v w -> old_code K v -> old_code K w.
Proof. intros (E1 & _) H k Hk. rewrite E1. apply H. exact Hk. Qed.
Lemma same_stacks_are v w d r f : same_stacks v w -> stacks_are v d r f -> stacks_are w d r f.
Proof. intros (A & B & C). unfold stacks_are. rewrite A, B, C. auto. Qed.
Lemma makes_room t v w n : makes P_p_var t v w -> here (v_ds w) = body w (words v) -> room_for v t n -> here (v_ds w) + n <= limit (v_ds w).
Proof.
  intros (_ & (_ & _ & O3 & _) & _ & _ & _ & _ & _ & M8 & _) H HR. unfold room_for in HR. unfold body in H. rewrite O3. lia.
Qed.

Lemma variable_does ix v i t d rs fs : library ix v -> colon_word K v i (d_variable ix) (ix P_exit) -> old_code K v ->
  next_is v t -> dict_ok v -> room_for v t 8 -> stacks_are v d rs fs -> zlen d < 255 -> zlen rs < 255 ->
  does K v i (fun v' => makes P_p_var t v v' /\ stacks_are v' d rs fs /\ cell_at (v_ds v') (body v' (words v)) 0 /\ here (v_ds v') = body v' (words v) + 8).
Proof.
  intros L HC HK HN HD HR HS Hd Hr. pose proof HD as (_ & D4 & _).
  eapply does_conseq; [|eapply (colon_makes P_p_var v i _ _ d rs fs t
    (fun _ d' m wl => d' = d /\ cell_at m (w_dfa (wl_get wl (words v))) 0 /\ here m = w_dfa (wl_get wl (words v)) + 8) HC HN HS Hr)].
  - intros u (d' & (-> & R2 & R3) & M & S). split; [exact M|]. split; [exact S|]. split; [exact R2|exact R3].
  - intros r w A SW NW. apply wpz_wp. pose proof (library_alike _ _ _ A L) as LW.
    assert (EW : words w = words v) by (destruct A as (_ & A & _); unfold words; rewrite A; reflexivity).
    assert (RW : room_for w t 8) by (destruct A as (A & _); unfold room_for; rewrite A; exact HR).
    unfold d_variable. seqs. eapply wp_create; [known_word|exact NW|eapply dict_alike; eassumption|unfold room_for in *; lia|eapply old_alike; eassumption|].
    intros u M SS HB. pose proof (library_older _ _ _ LW (proj1 (proj2 M))) as LU. pose proof (makes_room _ _ _ _ M HB RW) as RU.
    pose proof (old_code_older _ _ _ (old_alike _ _ A HK) (proj1 (proj2 M))) as KU. pose proof (proj1 (proj1 M)) as DU.
    pose proof (inv_start u _ _ _ (same_stacks_are _ _ _ _ _ SS SW)) as I. by_num.
    seqs. eapply wp_comma; [known_word|eassumption|exact DU|exact RU|exact KU|]. intros u1 m' G C1 H1 I1.
    exists d. assert (Em : v_ds u1 = m') by apply I1. assert (El : v_wl u1 = v_wl u) by (eapply inv_wl; exact I1).
    rewrite Em, El. rewrite EW in *. change (w_dfa (wl_get (v_wl u) (words v))) with (body u (words v)). rewrite <- HB.
    split; [auto|]. split; [|apply I1]. eapply makes_calm; [exact M|apply I1|rewrite Em; exact G].
Qed.

Lemma two_variable_does ix v i t d rs fs : library ix v -> colon_word K v i (d_two_variable ix) (ix P_exit) -> old_code K v ->
  next_is v t -> dict_ok v -> room_for v t 16 -> stacks_are v d rs fs -> zlen d < 255 -> zlen rs < 255 ->
  does K v i (fun v' => makes P_p_var t v v' /\ stacks_are v' d rs fs /\ cell_at (v_ds v') (body v' (words v)) 0 /\
    cell_at (v_ds v') (body v' (words v) + 8) 0 /\ here (v_ds v') = body v' (words v) + 16).
Proof.
  intros L HC HK HN HD HR HS Hd Hr. pose proof HD as (_ & D4 & _).
  eapply does_conseq; [|eapply (colon_makes P_p_var v i _ _ d rs fs t
    (fun _ d' m wl => d' = d /\ cell_at m (w_dfa (wl_get wl (words v))) 0 /\ cell_at m (w_dfa (wl_get wl (words v)) + 8) 0 /\ here m = w_dfa (wl_get wl (words v)) + 16) HC HN HS Hr)].
  - intros u (d' & (-> & R2 & R3 & R4) & M & S). split; [exact M|]. split; [exact S|]. split; [exact R2|]. split; [exact R3|exact R4].
  - intros r w A SW NW. apply wpz_wp. pose proof (library_alike _ _ _ A L) as LW.
    assert (EW : words w = words v) by (destruct A as (_ & A & _); unfold words; rewrite A; reflexivity).
    assert (RW : room_for w t 16) by (destruct A as (A & _); unfold room_for; rewrite A; exact HR).
    unfold d_two_variable. seqs. eapply wp_create; [known_word|exact NW|eapply dict_alike; eassumption|unfold room_for in *; lia|eapply old_alike; eassumption|].
    intros u M SS HB. pose proof (library_older _ _ _ LW (proj1 (proj2 M))) as LU. pose proof (makes_room _ _ _ _ M HB RW) as RU.
    pose proof (old_code_older _ _ _ (old_alike _ _ A HK) (proj1 (proj2 M))) as KU. pose proof (proj1 (proj1 M)) as DU.
    pose proof (inv_start u _ _ _ (same_stacks_are _ _ _ _ _ SS SW)) as I. by_num.
    seqs. eapply wp_comma; [known_word|eassumption|exact DU|lia|exact KU|]. intros u1 m' G C1 H1 I1.
    pose proof G as (G0 & G1 & G2 & G3 & G4). by_num.
    seqs. eapply wp_comma; [known_word|eassumption|exact G0|lia|intros k Hk; specialize (KU k Hk); lia|]. intros u3 m2 G' C2 H2 I3.
    exists d. assert (Em : v_ds u3 = m2) by apply I3. assert (El : v_wl u3 = v_wl u) by (eapply inv_wl; exact I3).
    rewrite Em, El. rewrite EW in *. change (w_dfa (wl_get (v_wl u) (words v))) with (body u (words v)). rewrite <- HB.
    split.
    + split; [reflexivity|]. split; [|split; [rewrite <- H1; exact C2|lia]]. intros k Hk. rewrite <- (C1 k Hk). apply G'. destruct DU. lia.
    + split; [|apply I3]. eapply makes_calm; [exact M|apply I3|rewrite Em; eapply grows_trans; eassumption].
Qed.

(** ** DOES> *)
Lemma defining_does v i p c x d rs fs t (R : list Z -> dspace -> Z -> Prop) : defining_word K v i p c x -> next_is v t -> old_code K v -> dict_ok v -> room_for v t 0 ->
  stacks_are v d rs fs -> zlen rs < 255 ->
  (forall r w, alike v w -> stacks_are w d (r :: rs) fs -> next_is w t ->
     wpz K p (fun e w' => exists d', R d' (v_ds w') (body w' (words v)) /\ w_doer (word_of w' (words v)) = e + 8 /\
       makes P_xdoes t w w' /\ stacks_are w' d' (r :: rs) fs) w) ->
  does K v i (fun v' => exists d', R d' (v_ds v') (body v' (words v)) /\ makes P_xdoes t v v' /\ child K v' (words v) c x /\ stacks_are v' d' rs fs).
Proof.
  intros (HC & HH) HN HK HD HR HS Hr H. pose proof HD as ((D1 & D2 & D3) & D4 & _).
  eapply does_conseq; [|eapply (colon_makes P_xdoes v i _ _ d rs fs t
    (fun e d' m wl => R d' m (w_dfa (wl_get wl (words v))) /\ w_doer (wl_get wl (words v)) = e + 8) HC HN HS Hr)].
  - intros u (d' & (R1 & R2) & M & S). exists d'. split; [exact R1|]. split; [exact M|]. split; [|exact S].
    pose proof M as (_ & O & M3 & _ & M5 & _ & _ & M8 & _). unfold room_for in HR. pose proof (zlen_nonneg t).
    split; [split; [unfold words in *; lia|exact M5]|]. split; [eapply older_word; [exact O|apply HC]|].
    split; [|unfold body; lia]. eapply holds_kept; [eapply makes_kept; [exact M|exact HK|lia]|].
    change (w_doer (word_of u (words v)) = fin p (body v i) + 8) in R2. rewrite R2. exact HH.
  - intros r w A SW NW a0 Ha0. destruct (H r w A SW NW a0 Ha0) as (w' & P & d' & R1 & R2 & M & S). exists w'. split; [exact P|]. exists d'. auto.
Qed.
Lemma child_does v i p x d rs fs (Q : vm -> Prop) : child K v i p x -> stacks_are v d rs fs -> zlen d < 255 -> zlen rs < 255 ->
  (forall r u, 0 <= r < 2 ^ 63 -> inv v (body v i :: d) (r :: rs) fs (v_ds v) (v_out v) u ->
     wp K p (fun u' => word_is u' x P_exit /\ exists l, stack_has (t_r (cur u')) (r :: l) /\ Q (drop_r 1 u')) u) -> does K v i Q.
Proof.
  intros (W & X & HH & HB) HS Hd Hl H r Hr.
  set (w := add_r r (add_s (body v i) v)). set (u := at_ i (w_doer (word_of v i)) w).
  assert (HI : inv v (body v i :: d) (r :: rs) fs (v_ds v) (v_out v) w) by (apply inv_rpush; [apply inv_push; [apply inv_start; exact HS|exact Hd]|exact Hl]).
  assert (E1 : execute_word 1 i (set_ip r v) = Ok (tt, u)).
  { pose proof (stack_has_len _ _ (proj1 HS)) as HN. pose proof (stack_has_len _ _ (proj1 (proj2 HS))) as HN2. pose proof (zlen_nonneg d). pose proof (zlen_nonneg rs).
    rewrite (execute_word_eq O i (set_ip r v) P_xdoes W), set_wp_ip. cbn [exec_prim].
    unfold xdoes. unfold gets. unfold bind at 1. rewrite st_at. cbn [st_wp set_st_ip set_st_wp].
    rewrite (bind_Ok _ _ _ _ _ (word_at_eq (at_ i r v) i (proj1 W))). change (w_dfa (wl_get (v_wl (at_ i r v)) i)) with (body v i).
    change (w_doer (wl_get (v_wl (at_ i r v)) i)) with (w_doer (word_of v i)).
    rewrite to_i64_id by (unfold imin, imax, two63; lia).
    rewrite (bind_Ok _ _ _ tt (at_ i r (add_s (body v i) v))).
    - rewrite (bind_Ok _ _ _ r (at_ i r (add_s (body v i) v))) by (unfold get_ip, gets; rewrite ip_at; reflexivity).
      rewrite (bind_Ok _ _ _ tt (at_ i r w)).
      + unfold put_ip, modify. rewrite set_ip_at. reflexivity.
      + unfold r_push, modify. rewrite to_i64_id by (unfold imin, imax, two63; lia). unfold r_stk. rewrite r_at, set_r_at. do 3 f_equal. unfold w, add_r. f_equal.
        unfold add_s. rewrite cur_set_s. cbn [t_r set_t_s]. apply add_item_push. lia.
    - unfold s_push, modify, s_stk. rewrite s_at, set_s_at. do 3 f_equal. unfold add_s. f_equal. apply add_item_push. lia. }
  assert (HK : kept K v w) by (apply kept_eq; reflexivity).
  destruct (holds_seq _ _ _ _ _ (holds_kept K _ _ _ _ HK HH)) as [H1 H2].
  destruct (H r w Hr HI _ H1) as (v' & P1 & X' & l & HS' & Q1).
  pose proof (holds_kept K _ _ _ _ (proj2 P1) H2) as (A & B & C & Hx).
  destruct (exit_run K v' x _ r l A C ltac:(lia) X' HS') as [P2 S2].
  rewrite to_u64_id in P2 by (unfold two64; lia).
  exists 1%nat, u, (drop_r 1 v'). split; [exact E1|].
  pose proof (part_trans K _ _ _ _ _ _ P1 P2) as P3. split; [|split; [eapply kept_trans; [exact HK|apply P3]|exact Q1]].
  intros z HC. unfold u in HC. rewrite st_at in HC. cbn [st_ip set_st_ip] in HC.
  apply (proj1 P3). destruct HC as [C1 C2]. split; [exact C1|]. rewrite C2. rewrite !set_ip_wp_at. apply at_at.
Qed.
(** The same with the form of [lib_does] *)
Lemma child_lib v i p x d rs fs (R : list Z -> dspace -> option bytes -> Prop) : child K v i p x -> stacks_are v d rs fs -> zlen d < 255 -> zlen rs < 255 ->
  (forall r u, inv v (body v i :: d) (r :: rs) fs (v_ds v) (v_out v) u ->
     wp K p (fun v' => exists d' m o, R d' m o /\ inv v d' (r :: rs) fs m o v') u) ->
  does K v i (fun v' => exists d' m o, R d' m o /\ inv v d' rs fs m o v').
Proof.
  intros HC HS Hd Hl H. eapply child_does; [exact HC|exact HS|exact Hd|exact Hl|]. intros r u Hr HI.
  eapply wp_conseq; [|apply (H r u HI)]. intros u' (d' & m & o & HR & J). split; [eapply inv_word; [exact J|apply HC]|]. exists rs. split; [apply J|].
  exists d', m, o. split; [exact HR|]. apply (inv_rdrop v [r]). exact J.
Qed.

(** ** +FIELD *)
Lemma field_does ix v i t d rs fs n k : library ix v -> defining_word K v i (d_field ix) (c_field ix) (ix P_exit) -> old_code K v ->
  next_is v t -> dict_ok v -> room_for v t 16 -> stacks_are v (k :: n :: d) rs fs -> zlen d < 250 -> zlen rs < 255 -> is_cell n -> is_cell k ->
  does K v i (fun v' => exists s, wraps_to (n + k) s /\ makes P_xdoes t v v' /\ child K v' (words v) (c_field ix) (ix P_exit) /\
    cell_at (v_ds v') (body v' (words v)) n /\ stacks_are v' (s :: d) rs fs /\ here (v_ds v') = body v' (words v) + 16).
Proof.
  intros L HC HK HN HD HR HS Hd Hr Hn Hk. pose proof HD as (_ & D4 & _).
  eapply does_conseq; [|eapply (defining_does v i _ _ _ (k :: n :: d) rs fs t
    (fun d' m b => (exists s, wraps_to (n + k) s /\ d' = s :: d) /\ cell_at m b n /\ here m = b + 16) HC HN HK HD)].
  - intros u (d' & ((s & R0 & ->) & R2 & R3) & M & CH & S). exists s. split; [exact R0|]. split; [exact M|]. split; [exact CH|]. split; [exact R2|]. split; [exact S|exact R3].
  - unfold room_for in *; lia.
  - exact HS.
  - exact Hr.
  - intros r w A SW NW. pose proof (library_alike _ _ _ A L) as LW.
    assert (EW : words w = words v) by (destruct A as (_ & A & _); unfold words; rewrite A; reflexivity).
    assert (RW : room_for w t 16) by (destruct A as (A & _); unfold room_for; rewrite A; exact HR).
    unfold d_field. cbn [block]. apply wpz_seq. eapply wp_create; [known_word|exact NW|eapply dict_alike; eassumption|unfold room_for in *; lia|eapply old_alike; eassumption|].
    intros u M SS HB. pose proof (library_older _ _ _ LW (proj1 (proj2 M))) as LU. pose proof (makes_room _ _ _ _ M HB RW) as RU.
    pose proof (old_code_older _ _ _ (old_alike _ _ A HK) (proj1 (proj2 M))) as KU. pose proof (proj1 (proj1 M)) as DU.
    pose proof (inv_start u _ _ _ (same_stacks_are _ _ _ _ _ SS SW)) as I.
    apply wpz_seq. by_is (over_effect n k).
    apply wpz_seq. eapply wp_comma; [known_word|eassumption|exact DU|lia|exact KU|]. intros u1 m' G C1 H1 I1.
    apply wpz_seq. by_effect (plus_spec n k).
    pose proof G as (G0 & G1 & G2 & G3 & G4). assert (Em : v_ds u2 = m') by apply I2. assert (El : v_wl u2 = v_wl u) by (eapply inv_wl; exact I2).
    assert (M2 : makes P_p_var t w u2) by (eapply makes_calm; [exact M|apply I2|rewrite Em; exact G]).
    eapply (wpz_does K _ w t u2); [eapply inv_word; [exact I2|known_word]|exact M2|lia|rewrite Em; lia|intros j Hj; rewrite Em; specialize (KU j Hj); lia|].
    rewrite EW in *. intros e u3 M3 SS3 D3 B3 GR3 H3. exists (y :: d). rewrite B3.
    assert (EB : body u2 (words v) = here (v_ds u)) by (rewrite HB; unfold body, word_of; rewrite El; reflexivity). rewrite EB. rewrite Em in GR3, H3.
    split; [|split; [exact D3|split; [exact M3|eapply same_stacks_are; [exact SS3|apply I2]]]].
    split; [exists y; auto|]. split; [|lia]. intros j Hj. rewrite <- (C1 j Hj). apply GR3. destruct DU. lia.
Qed.
Lemma field_child ix v i d rs fs n a : library ix v -> child K v i (c_field ix) (ix P_exit) -> ds_ok (v_ds v) ->
  start (v_ds v) < body v i -> body v i + 8 <= limit (v_ds v) -> cell_at (v_ds v) (body v i) n -> is_cell n -> is_cell a ->
  stacks_are v (a :: d) rs fs -> zlen d < 250 -> zlen rs < 255 ->
  does K v i (fun v' => exists s, wraps_to (a + n) s /\ stacks_are v' (s :: d) rs fs /\ v_ds v' = v_ds v /\ v_out v' = v_out v /\ calm v v').
Proof.
  intros L HC HD H1 H2 H3 Hn Ha HS Hd Hr.
  eapply does_conseq; [|eapply (child_lib v i _ _ (a :: d) rs fs (fun d' m o => exists s, wraps_to (a + n) s /\ d' = s :: d /\ m = v_ds v /\ o = v_out v) HC HS)].
  - intros u (d' & m & o & (s & R1 & -> & -> & ->) & J1 & J2 & J3 & J4). exists s. auto 6.
  - wlen.
  - exact Hr.
  - intros r u I. unfold c_field. seqs. eapply wp_fetch; [known_word|eassumption|exact HD|exact H1|exact H2|exact H3|exact Hn|]. intros ?u ?I.
    by_effect (plus_spec a n). exists (y :: d), (v_ds v), (v_out v). split; [exists y; auto|exact I1].
Qed.

(** ** Deferred words *)
Lemma child_eq v u i p x : v_wl u = v_wl v -> kept K v u -> child K v i p x -> child K u i p x.
Proof.
  intros EW HK (W & X & HH & HB). unfold child, word_is, body, word_of in *. rewrite EW. split; [exact W|]. split; [exact X|]. split; [|exact HB].
  eapply holds_kept; eassumption.
Qed.
Lemma defer_does ix nop v i t d rs fs : library ix v -> word_is v nop P_noop -> defining_word K v i (d_defer ix nop) (c_defer ix) (ix P_exit) -> old_code K v ->
  next_is v t -> dict_ok v -> room_for v t 16 -> stacks_are v d rs fs -> zlen d < 250 -> zlen rs < 255 -> words v < 2 ^ 63 ->
  does K v i (fun v' => makes P_xdoes t v v' /\ deferred K ix v' (words v) nop /\ stacks_are v' d rs fs /\ here (v_ds v') = body v' (words v) + 16).
Proof.
  intros L WN HC HK HN HD HR HS Hd Hr Hw. pose proof HD as ((D1 & D2 & D3) & D4 & _).
  eapply does_conseq; [|eapply (defining_does v i _ _ _ d rs fs t
    (fun d' m b => d' = d /\ cell_at m b nop /\ here m = b + 16) HC HN HK HD)].
  - intros u (d' & (-> & R2 & R3) & M & CH & S). split; [exact M|]. split; [|split; [exact S|exact R3]].
    destruct M as (MD & O & _ & _ & _ & _ & _ & M8 & _). pose proof (zlen_nonneg t). pose proof (proj1 MD) as (X1 & X2 & X3). destruct O as (_ & O2 & O3 & _).
    change (w_dfa (word_of u (words v))) with (body u (words v)) in M8.
    split; [exact CH|]. split; [rewrite O2; lia|]. split; [lia|]. split; [exact R2|].
    destruct WN as [WN _]. unfold words in *. lia.
  - unfold room_for in *; lia.
  - exact HS.
  - exact Hr.
  - intros r w A SW NW. pose proof (library_alike _ _ _ A L) as LW.
    assert (EW : words w = words v) by (destruct A as (_ & A & _); unfold words; rewrite A; reflexivity).
    assert (RW : room_for w t 16) by (destruct A as (A & _); unfold room_for; rewrite A; exact HR).
    unfold d_defer. cbn [block]. apply wpz_seq. eapply wp_create; [known_word|exact NW|eapply dict_alike; eassumption|unfold room_for in *; lia|eapply old_alike; eassumption|].
    intros u M SS HB. pose proof (library_older _ _ _ LW (proj1 (proj2 M))) as LU. pose proof (makes_room _ _ _ _ M HB RW) as RU.
    pose proof (old_code_older _ _ _ (old_alike _ _ A HK) (proj1 (proj2 M))) as KU. pose proof (proj1 (proj1 M)) as DU.
    pose proof (inv_start u _ _ _ (same_stacks_are _ _ _ _ _ SS SW)) as I.
    apply wpz_seq. by_num.
    apply wpz_seq. eapply wp_comma; [known_word|eassumption|exact DU|lia|exact KU|]. intros u2 m' G C1 H1 I2.
    pose proof G as (G0 & G1 & G2 & G3 & G4). assert (Em : v_ds u2 = m') by apply I2. assert (El : v_wl u2 = v_wl u) by (eapply inv_wl; exact I2).
    assert (M2 : makes P_p_var t w u2) by (eapply makes_calm; [exact M|apply I2|rewrite Em; exact G]).
    eapply (wpz_does K _ w t u2); [eapply inv_word; [exact I2|known_word]|exact M2|lia|rewrite Em; lia|intros j Hj; rewrite Em; specialize (KU j Hj); lia|].
    rewrite EW in *. intros e u3 M3 SS3 D3' B3 GR3 H3. exists d. rewrite B3.
    assert (EB : body u2 (words v) = here (v_ds u)) by (rewrite HB; unfold body, word_of; rewrite El; reflexivity). rewrite EB. rewrite Em in GR3, H3.
    split; [|split; [exact D3'|split; [exact M3|eapply same_stacks_are; [exact SS3|apply I2]]]].
    split; [reflexivity|]. split; [|lia]. intros j Hj. rewrite <- (C1 j Hj). apply GR3. destruct DU. lia.
Qed.
Lemma deferred_kept ix v u i xt : v_wl u = v_wl v -> kept K v u -> (forall k, 0 <= k < 8 -> byte_at (v_ds u) (body v i + k) = byte_at (v_ds v) (body v i + k)) ->
  deferred K ix v i xt -> deferred K ix u i xt.
Proof.
  intros EW HK HB (A & B & C & D & F). assert (EB : body u i = body v i) by (unfold body, word_of; rewrite EW; reflexivity).
  pose proof HK as (K1 & K2 & _). unfold deferred. rewrite EB, K1, K2. split; [eapply child_eq; eassumption|]. split; [exact B|]. split; [exact C|]. split; [|exact F].
  intros k Hk. rewrite HB by exact Hk. apply D. exact Hk.
Qed.
Lemma deferred_acts ix v i xt n d fs R : library ix v -> deferred K ix v i xt -> ds_ok (v_ds v) -> zlen d < 255 -> n < 255 ->
  acts K n v xt d fs R -> acts K (n - 1) v i d fs R.
Proof.
  intros L (HC & H1 & H2 & H3 & Hx) HD Hd Hn HA u rs HS Hr Em Eo CU.
  assert (EW : v_wl u = v_wl v) by apply CU. assert (EB : body u i = body v i) by (unfold body, word_of; rewrite EW; reflexivity).
  pose proof (library_eq _ _ _ EW L) as LU. assert (KK : kept K v u) by (apply kept_eq; assumption).
  eapply child_does; [eapply child_eq; [exact EW|exact KK|exact HC]|exact HS|exact Hd|lia|]. intros r w Hr' I. rewrite EB, Em in I.
  unfold c_defer. seqs. eapply wp_fetch; [known_word|eassumption|exact HD|exact H1|exact H2|exact H3|red; lia|]. intros w1 I1.
  eapply (wp_execute _ w1 xt d); [eapply inv_word; [exact I1|known_word]|apply I1|exact Hx|].
  pose proof (inv_pop _ _ _ _ _ _ _ _ I1) as (S2 & D2 & O2 & C2).
  eapply does_conseq; [|apply (HA (drop_s 1 w1) (r :: rs)); [exact S2|rewrite zlen_cons; lia|exact D2|congruence|eapply calm_trans; eassumption]].
  intros z (d' & fs' & HR & HS' & HCz). assert (CZ : calm u z) by (eapply calm_trans; eassumption).
  split; [unfold word_is; replace (v_wl z) with (v_wl u) by (symmetry; apply CZ); rewrite EW; apply HC|]. exists rs. split; [apply HS'|].
  pose proof (inv_rdrop u [r] d' rs fs' (v_ds z) (v_out z) z (conj HS' (conj eq_refl (conj eq_refl CZ)))) as (J1 & J2 & J3 & J4).
  exists d', fs'. split; [exact HR|]. split; [exact J1|exact J4].
Qed.
Lemma acts_effect p ins (QQ : list Z -> Prop) v i rest fs n : effect p ins QQ -> word_is v i p -> (forall outs, QQ outs -> zlen (outs ++ rest) <= 255) ->
  acts K n v i (ins ++ rest) fs (fun d' fs' m o => (exists outs, QQ outs /\ d' = outs ++ rest) /\ fs' = fs /\ m = v_ds v /\ o = v_out v).
Proof.
  intros HE W HL u rs HS _ Em Eo CU. assert (EW : v_wl u = v_wl v) by apply CU.
  eapply does_prim; [unfold word_is; rewrite EW; exact W|]. intros c fuel ew.
  pose proof (inv_at _ _ _ _ _ _ _ i c (inv_start u _ _ _ HS)) as HI.
  destruct (HE fuel ew (at_ i c u) rest (proj1 (proj1 HI))) as (outs & Q1 & H). destruct (H (HL _ Q1)) as (z & E1 & S1 & O1).
  exists z. split; [exact E1|]. split; [rewrite (ip_kept _ _ O1), st_at; reflexivity|].
  split; [apply kept_eq; [apply O1|destruct O1 as [(_ & _ & _ & G & _) _]; exact G]|].
  pose proof (inv_data _ _ _ _ _ _ _ _ _ HI S1 O1) as (J1 & J2 & J3 & J4). exists (outs ++ rest), fs. split; [|split; [exact J1|exact J4]].
  split; [exists outs; auto|]. split; [reflexivity|]. split; congruence.
Qed.
Lemma defer_fetch_does ix v j i xt d rs fs : library ix v -> colon_word K v j (d_defer_fetch ix) (ix P_exit) -> deferred K ix v i xt -> ds_ok (v_ds v) ->
  stacks_are v (i :: d) rs fs -> zlen rs < 255 -> i < 2 ^ 63 ->
  does K v j (fun v' => stacks_are v' (xt :: d) rs fs /\ v_ds v' = v_ds v /\ v_out v' = v_out v /\ calm v v').
Proof.
  intros L HC (HCH & H1 & H2 & H3 & Hx) HD HS Hr Hi. pose proof HCH as (W & _ & _ & HB).
  eapply does_conseq; [|eapply (lib_does K v j _ _ (i :: d) rs fs (fun d' m o => d' = xt :: d /\ m = v_ds v /\ o = v_out v) HC HS Hr)].
  - intros u (d' & m & o & (-> & -> & ->) & J1 & J2 & J3 & J4). auto.
  - intros r u I. unfold d_defer_fetch. seqs. eapply wp_to_body; [known_word|eassumption|apply W|exact Hi|exact HB|]. intros ?u ?I.
    eapply wp_fetch; [known_word|eassumption|exact HD|exact H1|exact H2|exact H3|red; lia|]. intros ?u ?I. exists (xt :: d), (v_ds v), (v_out v). auto.
Qed.
Lemma defer_store_does ix v j i xt xt' d rs fs : library ix v -> colon_word K v j (d_defer_store ix) (ix P_exit) -> deferred K ix v i xt -> ds_ok (v_ds v) ->
  free_of K v (body v i) 8 -> 0 <= xt' < 2 ^ 63 -> stacks_are v (i :: xt' :: d) rs fs -> zlen rs < 255 -> i < 2 ^ 63 ->
  does K v j (fun v' => deferred K ix v' i xt' /\ stacks_are v' d rs fs /\ same_memory_but (v_ds v) (v_ds v') (body v i) 8 /\ v_out v' = v_out v /\ calm v v').
Proof.
  intros L HC HDf HD (F1 & F2 & F3) Hxt' HS Hr Hi. pose proof HDf as (HCH & H1 & H2 & H3 & Hx). pose proof HCH as (W & _ & _ & HB).
  eapply does_conseq; [|eapply (lib_does K v j _ _ (i :: xt' :: d) rs fs (fun d' m o => d' = d /\ same_memory_but (v_ds v) m (body v i) 8 /\ cell_at m (body v i) xt' /\ o = v_out v) HC HS Hr)].
  - intros u (d' & m & o & (-> & R1 & R2 & ->) & J1 & J2 & J3 & J4). rewrite J2.
    assert (EW : v_wl u = v_wl v) by apply J4. split; [|auto]. assert (EB : body u i = body v i) by (unfold body, word_of; rewrite EW; reflexivity).
    assert (KK : kept K v u) by (eapply kept_same; [rewrite J2; exact R1|exact EW|intros k Hk; specialize (F3 k Hk); lia]).
    unfold deferred. rewrite EB, J2. destruct R1 as (S1 & S2 & S3). rewrite S1, S2. split; [eapply child_eq; [exact EW|exact KK|exact HCH]|]. auto.
  - intros r u I. unfold d_defer_store. seqs. eapply wp_to_body; [known_word|eassumption|apply W|exact Hi|exact HB|]. intros ?u ?I.
    eapply wp_store; [known_word|eassumption|exact HD|exact H1|exact H2|exact F3|]. intros ?u ?m S1 C1 G1 I1. exists d, m, (v_out v). auto.
Qed.

(** ** 2CONSTANT *)
Lemma colon_older v u i p x : older_kept v u -> kept K v u -> colon_word K v i p x -> colon_word K u i p x.
Proof.
  intros O HK (W & X & H). split; [eapply older_word; eassumption|]. split; [eapply older_word; eassumption|].
  destruct O as (_ & _ & _ & _ & O5 & _). unfold words in O5. rewrite (O5 i (proj1 W)). eapply holds_kept; eassumption.
Qed.
Lemma two_constant_does ix tc ts tf v i t d rs fs x y : library ix v -> defining_word K v i (d_two_constant ix tc) (c_two_constant tf) (ix P_exit) ->
  colon_word K v tc (d_two_comma ix ts) (ix P_exit) -> colon_word K v ts (d_two_store ix) (ix P_exit) -> old_code K v ->
  next_is v t -> dict_ok v -> room_for v t 24 -> stacks_are v (x :: y :: d) rs fs -> zlen d <= 230 -> zlen rs <= 230 ->
  does K v i (fun v' => makes P_xdoes t v v' /\ child K v' (words v) (c_two_constant tf) (ix P_exit) /\
    cell_at (v_ds v') (body v' (words v)) x /\ cell_at (v_ds v') (body v' (words v) + 8) y /\ stacks_are v' d rs fs /\ here (v_ds v') = body v' (words v) + 24).
Proof.
  intros L HC HTC HTS HK HN HD HR HS Hd Hr. pose proof HD as (_ & D4 & _). pose proof (zlen_nonneg d). pose proof (zlen_nonneg rs).
  eapply does_conseq; [|eapply (defining_does v i _ _ _ (x :: y :: d) rs fs t
    (fun d' m b => d' = d /\ cell_at m b x /\ cell_at m (b + 8) y /\ here m = b + 24) HC HN HK HD)].
  - intros u (d' & (-> & R2 & R3 & R4) & M & CH & S). split; [exact M|]. split; [exact CH|]. split; [exact R2|]. split; [exact R3|]. split; [exact S|exact R4].
  - unfold room_for in *; lia.
  - exact HS.
  - lia.
  - intros r w A SW NW. pose proof (library_alike _ _ _ A L) as LW.
    assert (EW : words w = words v) by (destruct A as (_ & A & _); unfold words; rewrite A; reflexivity).
    assert (RW : room_for w t 24) by (destruct A as (A & _); unfold room_for; rewrite A; exact HR).
    assert (OW : older_kept v w) by (destruct A as (A1 & A2 & _); unfold older_kept, words, word_of; rewrite A1, A2; repeat split; lia).
    assert (KW : kept K v w) by (destruct A as (A1 & A2 & _); apply kept_eq; assumption).
    unfold d_two_constant. cbn [block]. apply wpz_seq. eapply wp_create; [known_word|exact NW|eapply dict_alike; eassumption|unfold room_for in *; lia|eapply old_alike; eassumption|].
    intros u M SS HB. pose proof (library_older _ _ _ LW (proj1 (proj2 M))) as LU. pose proof (makes_room _ _ _ _ M HB RW) as RU.
    pose proof (old_code_older _ _ _ (old_alike _ _ A HK) (proj1 (proj2 M))) as KU. pose proof (proj1 (proj1 M)) as DU.
    assert (OU : older_kept v u) by (eapply older_trans; [exact OW|apply M]).
    assert (KKU : kept K v u) by (eapply kept_trans; [exact KW|eapply makes_kept; [exact M|eapply old_alike; eassumption|lia]]).
    pose proof (same_stacks_are _ _ _ _ _ SS SW) as SU.
    apply wpz_seq. apply wp_call. pose proof DU as (DU1 & DU2 & DU3).
    eapply does_conseq; [|apply (two_comma_lib ts x y K ix u tc d (r :: rs) fs LU (colon_older _ _ _ _ _ OU KKU HTC) SU); [lia|rewrite zlen_cons; lia|exact DU|]].
    + intros u2 (outs & text & (-> & C1 & C2 & H1 & S1 & ->) & S2 & O2 & CM).
      assert (G : grows (v_ds u) (v_ds u2)) by (eapply same_grows; [exact DU| |exact S1|exact H1|lia]; lia).
      assert (M2 : makes P_p_var t w u2) by (eapply makes_calm; [exact M|exact CM|exact G]).
      pose proof G as (G0 & G1 & G2 & G3 & G4). assert (El : v_wl u2 = v_wl u) by apply CM.
      eapply (wpz_does K _ w t u2); [eapply (library_eq _ _ _ El LU); unfold lib_prims; cbn; tauto|exact M2|lia|lia|intros j Hj; specialize (KU j Hj); lia|].
      rewrite EW in *. intros e u3 M3 SS3 D3' B3 GR3 H3. exists d. rewrite B3.
      assert (EB : body u2 (words v) = here (v_ds u)) by (rewrite HB; unfold body, word_of; rewrite El; reflexivity). rewrite EB.
      split; [|split; [exact D3'|split; [exact M3|eapply same_stacks_are; [exact SS3|exact S2]]]].
      split; [reflexivity|]. destruct GR3 as (_ & _ & _ & _ & GR3).
      split; [|split; [|lia]]; intros j Hj; [rewrite <- (C1 j Hj)|rewrite <- (C2 j Hj)]; apply GR3; lia.
    + rewrite (stack_has_len _ _ (proj1 SU)), (stack_has_len _ _ (proj1 (proj2 SU))), !zlen_cons. split; [lia|]. split; [lia|].
      split; [|exists ix; split; [exact LU|eapply colon_older; eassumption]].
      unfold free_of. split; [|split; [lia|intros k Hk; specialize (KU k Hk); lia]].
      destruct M as (_ & (_ & O2 & _) & _ & _ & _ & _ & _ & M8 & _). unfold body in HB. rewrite HB, O2. pose proof (zlen_nonneg t).
      pose proof (proj1 (dict_alike _ _ A HD)) as (_ & Z2 & _). lia.
Qed.
Lemma two_constant_child ix tf v i d rs fs x y : library ix v -> child K v i (c_two_constant tf) (ix P_exit) -> colon_word K v tf (d_two_fetch ix) (ix P_exit) -> ds_ok (v_ds v) ->
  start (v_ds v) < body v i -> body v i + 16 <= limit (v_ds v) -> cell_at (v_ds v) (body v i) x -> cell_at (v_ds v) (body v i + 8) y -> is_cell x -> is_cell y ->
  stacks_are v d rs fs -> zlen d <= 230 -> zlen rs <= 230 ->
  does K v i (fun v' => stacks_are v' (x :: y :: d) rs fs /\ v_ds v' = v_ds v /\ v_out v' = v_out v /\ calm v v').
Proof.
  intros L HC HF HD H1 H2 H3 H4 Hx Hy HS Hd Hr. pose proof (zlen_nonneg d). pose proof (zlen_nonneg rs).
  eapply does_conseq; [|eapply (child_lib v i _ _ d rs fs (fun d' m o => d' = x :: y :: d /\ m = v_ds v /\ o = v_out v) HC HS)].
  - intros u (d' & m & o & (-> & -> & ->) & J1 & J2 & J3 & J4). auto.
  - lia.
  - lia.
  - intros r u I. unfold c_two_constant. apply wp_call. assert (EW : v_wl u = v_wl v) by (eapply inv_wl; exact I). assert (Em : v_ds u = v_ds v) by apply I.
    assert (KK : kept K v u) by (apply kept_eq; assumption). assert (Eo : v_out u = v_out v) by apply I.
    eapply does_conseq; [|apply (two_fetch_lib (body v i) x y K ix u tf d (r :: rs) fs (library_eq _ _ _ EW L) (colon_eq K _ _ _ _ _ EW KK HF) (proj1 I)); [lia|rewrite zlen_cons; lia|rewrite Em; exact HD|rewrite Em; auto 8]].
    intros u2 (outs & text & (-> & E2 & ->) & S2 & O2 & CM). exists (x :: y :: d), (v_ds v), (v_out v). split; [auto|].
    split; [exact S2|]. split; [congruence|]. split; [|eapply calm_trans; [apply I|exact CM]].
    rewrite O2, Eo. destruct (v_out v); cbn; rewrite ?app_nil_r; reflexivity.
Qed.
End K.
End L.
