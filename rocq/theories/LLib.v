(** Running words defined by colon definitions. *)
From Coq Require Import ZArith List Bool Lia ZifyBool ZifyNat.
From Verif Require Import Base Stack Mem State CoreM Exec LBase LStack Spec Spec2 Spec4 Spec5 Spec6 Spec7 Spec10 Spec15
  LState LMem LMon LMemWords LTask LFuel LCode LComp LRun LCtl LFloat LWords Spec9 Spec14 LSay.
Import ListNotations.
Open Scope Z_scope.
Open Scope m_scope.

Section L.
Context {E : Env}.
Implicit Types (v w u : vm).

(** ** The frame *)
Lemma calm_refl v : calm v v.
Proof. repeat split; try (intros i _ _ _; reflexivity). Qed.
Lemma calm_trans v v1 v2 : calm v v1 -> calm v1 v2 -> calm v v2.
Proof.
  unfold calm. intros H1 H2. repeat match goal with H : _ /\ _ |- _ => destruct H end.
  repeat split; try congruence. eapply same_other_trans; eassumption.
Qed.
Lemma calm_at v0 v i a : calm v0 v -> calm v0 (at_ i a v).
Proof.
  intro H. eapply calm_trans; [exact H|]. unfold calm. unfold st. rewrite !cur_at. cbn.
  repeat split. rewrite at_upd. apply same_other_upd.
Qed.
Lemma slot255 {T} (s s' : stack T) : high_slots_kept s s' -> len s <= 255 -> len s' <= 255 -> sget s' 255 = sget s 255.
Proof. intros [_ H] H1 H2. apply H; lia. Qed.

Definition inv v0 (d r f : list Z) (m : dspace) (o : option bytes) v : Prop :=
  stacks_are v d r f /\ v_ds v = m /\ v_out v = o /\ calm v0 v.

Lemma inv_at v0 d r f m o v i a : inv v0 d r f m o v -> inv v0 d r f m o (at_ i a v).
Proof.
  intros (S & D & O & C). split; [|split; [exact D|split; [exact O|apply calm_at; exact C]]].
  unfold stacks_are. rewrite s_at, r_at, f_at. exact S.
Qed.
Lemma inv_wl v0 d r f m o v : inv v0 d r f m o v -> v_wl v = v_wl v0.
Proof. intros (_ & _ & _ & C). apply C. Qed.
Lemma inv_word v0 d r f m o v i p : inv v0 d r f m o v -> word_is v0 i p -> word_is v i p.
Proof. intros H W. unfold word_is. rewrite (inv_wl _ _ _ _ _ _ _ H). exact W. Qed.
Lemma inv_start v d r f : stacks_are v d r f -> inv v d r f (v_ds v) (v_out v) v.
Proof. intro H. split; [exact H|]. split; [reflexivity|]. split; [reflexivity|apply calm_refl]. Qed.
Lemma inv_len v0 d r f m o v : inv v0 d r f m o v -> len (t_s (cur v)) = zlen d /\ len (t_r (cur v)) = zlen r.
Proof. intros ((S & R & F) & _). split; [apply (stack_has_len _ _ S)|apply (stack_has_len _ _ R)]. Qed.

Ltac calm_close := repeat split; try congruence; try (eapply slot255; [eassumption|lia|lia]).
Lemma inv_data v0 d r f m o v d' v' : inv v0 d r f m o v -> stack_has (t_s (cur v')) d' -> only_data_stack v v' ->
  inv v0 d' r f m o v'.
Proof.
  intros (S & D & O & C) S' (G & D' & T & (A1 & A2 & A3 & A4 & A5 & A6 & A7) & R' & F' & H).
  destruct S as (S & R & F). split; [split; [exact S'|split; [rewrite R'; exact R|rewrite F'; exact F]]|].
  split; [congruence|]. destruct G as (G1 & G2 & G3 & G4 & G5 & G6 & G7 & G8 & G9 & G10 & G11 & G12 & G13 & G14 & G15).
  split; [congruence|]. eapply calm_trans; [exact C|]. pose proof (proj1 H) as HC.
  pose proof (stack_has_len _ _ S). pose proof (stack_has_bound _ _ S). pose proof (stack_has_len _ _ S'). pose proof (stack_has_bound _ _ S').
  unfold calm, st. rewrite A2, R', D'. calm_close. exact T.
Qed.
Lemma inv_stacks v0 d r f m o v d' r' f' v' : inv v0 d r f m o v -> stacks_are v' d' r' f' -> only_stacks v v' ->
  inv v0 d' r' f' m o v'.
Proof.
  intros (S & D & O & C) S' (G & D' & T & (A1 & A2 & A3 & A4 & A5 & A6 & A7) & H & H' & H'').
  destruct S as (S & R & F), S' as (S' & R' & F'). split; [split; [exact S'|split; assumption]|].
  split; [congruence|]. destruct G as (G1 & G2 & G3 & G4 & G5 & G6 & G7 & G8 & G9 & G10 & G11 & G12 & G13 & G14 & G15).
  split; [congruence|]. eapply calm_trans; [exact C|]. pose proof (proj1 H) as HC. pose proof (proj1 H') as HC'.
  pose proof (stack_has_len _ _ S). pose proof (stack_has_bound _ _ S). pose proof (stack_has_len _ _ S'). pose proof (stack_has_bound _ _ S').
  pose proof (stack_has_len _ _ R). pose proof (stack_has_bound _ _ R). pose proof (stack_has_len _ _ R'). pose proof (stack_has_bound _ _ R').
  unfold calm, st. rewrite A2, D'. calm_close. exact T.
Qed.
Lemma inv_memory v0 d r f m o v d' v' : inv v0 d r f m o v -> stack_has (t_s (cur v')) d' -> only_data_memory v v' ->
  inv v0 d' r f (v_ds v') o v'.
Proof.
  intros (S & D & O & C) S' (G & T & (A1 & A2 & A3 & A4 & A5 & A6 & A7) & R' & F' & H & I1 & I2).
  destruct S as (S & R & F). split; [split; [exact S'|split; [rewrite R'; exact R|rewrite F'; exact F]]|].
  split; [congruence|]. destruct G as (G1 & G2 & G3 & G4 & G5 & G6 & G7 & G8 & G9 & G10 & G11 & G12 & G13 & G14 & G15).
  split; [congruence|]. eapply calm_trans; [exact C|]. pose proof (proj1 H) as HC.
  pose proof (stack_has_len _ _ S). pose proof (stack_has_bound _ _ S). pose proof (stack_has_len _ _ S'). pose proof (stack_has_bound _ _ S').
  unfold calm, st. rewrite A2, R'. calm_close. exact T.
Qed.
Lemma inv_out v0 d r f m o v s v' : inv v0 d r f m o v -> printed v s v' ->
  inv v0 d r f m (match o with Some x => Some (x ++ s) | None => None end) v'.
Proof.
  intros H ->. destruct H as (S & D & O & C). rewrite <- O. destruct (v_out v) eqn:Q.
  - split; [exact S|]. split; [exact D|]. split; [reflexivity|]. eapply calm_trans; [exact C|].
    repeat split; try (intros i _ _ _; reflexivity).
  - split; [exact S|]. split; [exact D|]. split; [exact Q|exact C].
Qed.
Lemma inv_pop v0 x d r f m o v : inv v0 (x :: d) r f m o v -> inv v0 d r f m o (drop_s 1 v).
Proof.
  intro H. assert (HS : stack_has (t_s (cur v)) (x :: d)) by apply H.
  eapply inv_data; [exact H| |].
  - unfold drop_s. rewrite cur_set_s. cbn [t_s set_t_s]. apply (drop_has _ [x]). exact HS.
  - apply only_data_set_s. split; [reflexivity|]. intros i _ _ _. reflexivity.
Qed.
Lemma inv_push v0 x d r f m o v : inv v0 d r f m o v -> zlen d < 255 -> inv v0 (x :: d) r f m o (add_s x v).
Proof.
  intros H Hd. assert (HS : stack_has (t_s (cur v)) d) by apply H.
  pose proof (stack_has_len _ _ HS) as HL. pose proof (zlen_nonneg d).
  eapply inv_data; [exact H| |].
  - unfold add_s. rewrite cur_set_s. cbn [t_s set_t_s]. rewrite <- add_item_push by lia. apply push_has; assumption.
  - apply only_data_set_s. split; [reflexivity|]. intros i H1 H2 H3. unfold add_item in *. rewrite sget_set_len. rewrite len_set_len in H2.
    rewrite sget_sset_other by lia. reflexivity.
Qed.
Lemma inv_setr v0 d r f m o v s r' : inv v0 d r f m o v -> stack_has s r' -> canary s = canary (t_r (cur v)) -> sget s 255 = sget (t_r (cur v)) 255 ->
  inv v0 d r' f m o (set_r s v).
Proof.
  intros (S & D & O & C) H1 H2 H3. destruct S as (S & R & F). split.
  - unfold stacks_are. rewrite cur_set_r. split; [exact S|split; [exact H1|exact F]].
  - split; [exact D|]. split; [exact O|]. eapply calm_trans; [exact C|]. unfold calm, st. rewrite cur_set_r. cbn.
    repeat split; try assumption. apply same_other_upd.
Qed.
Lemma inv_rpush v0 x d r f m o v : inv v0 d r f m o v -> zlen r < 255 -> inv v0 d (x :: r) f m o (add_r x v).
Proof.
  intros H Hd. assert (HS : stack_has (t_r (cur v)) r) by apply H.
  pose proof (stack_has_len _ _ HS) as HL. pose proof (zlen_nonneg r). unfold add_r.
  eapply inv_setr; [exact H| |reflexivity|].
  - rewrite <- add_item_push by lia. apply push_has; assumption.
  - unfold add_item. rewrite sget_set_len, sget_sset_other by lia. reflexivity.
Qed.
Lemma inv_rdrop v0 l d r f m o v : inv v0 d (l ++ r) f m o v -> inv v0 d r f m o (drop_r (zlen l) v).
Proof.
  intro H. unfold drop_r. eapply inv_setr; [exact H| |reflexivity|reflexivity]. apply drop_has. apply H.
Qed.

(** ** Programs *)
Section K.
Variable K : Z -> Prop.
Definition wp (p : prog) (Q : vm -> Prop) v : Prop :=
  forall a, holds K v p a -> exists v', part K v a v' (fin p a) /\ Q v'.

Lemma wp_conseq p (Q Q' : vm -> Prop) v : (forall u, Q u -> Q' u) -> wp p Q v -> wp p Q' v.
Proof. intros H W a HH. destruct (W a HH) as (v' & P & q). exists v'. auto. Qed.
Lemma wp_skip (Q : vm -> Prop) v : Q v -> wp Skip Q v.
Proof. intros H a _. exists v. split; [split; [apply goes_refl|apply kept_refl]|exact H]. Qed.
Lemma wp_seq p q Q v : wp p (wp q Q) v -> wp (Seq p q) Q v.
Proof.
  intros W a HH. destruct (holds_seq _ _ _ _ _ HH) as [H1 H2]. destruct (W a H1) as (v1 & P1 & W1).
  destruct (W1 _ (holds_kept K _ _ _ _ (proj2 P1) H2)) as (v2 & P2 & q2). exists v2.
  split; [eapply part_trans; eassumption|exact q2].
Qed.

(** One primitive *)
Lemma wp_prim i p v (Q : vm -> Prop) : word_is v i p ->
  (forall ew fuel j c, exists u, exec_prim fuel ew p (at_ j c v) = Ok (tt, u) /\ st_ip (st u) = c /\ kept K v u /\ Q u) ->
  wp (Op i) Q v.
Proof.
  intros W H a (HA & Ha & C & Hi). cbn [fin].
  destruct (H (execute_word 0) 0%nat i (a + 8)) as (u & E1 & I1 & K1 & Q1). exists u. split; [|exact Q1].
  split; [|exact K1]. intros w HC. exists u.
  destruct (step_cell K v a i w HA HC C Hi) as [R1 R2].
  split; [|rewrite <- I1; apply continues_self].
  apply one_step. split; [exact R1|]. exists 1%nat. rewrite R2, (execute_word_eq O i (set_ip (a + 8) v) p W), set_wp_ip. exact E1.
Qed.
Lemma wp_prim_f fuel i p v (Q : vm -> Prop) : word_is v i p ->
  (forall ew j c, exists u, exec_prim fuel ew p (at_ j c v) = Ok (tt, u) /\ st_ip (st u) = c /\ kept K v u /\ Q u) ->
  wp (Op i) Q v.
Proof.
  intros W H a (HA & Ha & C & Hi). cbn [fin].
  destruct (H (execute_word fuel) i (a + 8)) as (u & E1 & I1 & K1 & Q1). exists u. split; [|exact Q1].
  split; [|exact K1]. intros w HC. exists u.
  destruct (step_cell K v a i w HA HC C Hi) as [R1 R2].
  split; [|rewrite <- I1; apply continues_self].
  apply one_step. split; [exact R1|]. exists (S fuel). rewrite R2, (execute_word_eq fuel i (set_ip (a + 8) v) p W), set_wp_ip. exact E1.
Qed.
Lemma calm_kept v v' : v_ds v' = v_ds v -> v_wl v' = v_wl v -> kept K v v'.
Proof. apply kept_eq. Qed.
Lemma ip_kept v v' : only_data_stack v v' -> st_ip (st v') = st_ip (st v).
Proof. intros (_ & _ & _ & (_ & A & _) & _). unfold st. rewrite A. reflexivity. Qed.

Lemma wp_effect i p ins QQ v0 rest r f m o v (Q : vm -> Prop) : effect p ins QQ -> word_is v0 i p -> inv v0 (ins ++ rest) r f m o v ->
  (forall outs, QQ outs -> zlen (outs ++ rest) <= 255) ->
  (forall outs u, QQ outs -> inv v0 (outs ++ rest) r f m o u -> Q u) -> wp (Op i) Q v.
Proof.
  intros HE W HI HL HQ. eapply wp_prim; [eapply inv_word; eassumption|]. intros ew fuel j c.
  pose proof (inv_at _ _ _ _ _ _ _ j c HI) as HI'.
  destruct (HE fuel ew (at_ j c v) rest (proj1 (proj1 HI'))) as (outs & Q1 & H). destruct (H (HL _ Q1)) as (u & E1 & S1 & O1).
  exists u. split; [exact E1|]. split; [rewrite (ip_kept _ _ O1), st_at; reflexivity|].
  split; [apply kept_eq; [apply O1|destruct O1 as [(_ & _ & _ & G & _) _]; exact G]|].
  eapply HQ; [exact Q1|]. eapply inv_data; eassumption.
Qed.
Lemma wp_word_effect i p d r f d' r' f' v0 dr rr fr m o v (Q : vm -> Prop) : word_effect p d r f d' r' f' -> word_is v0 i p ->
  inv v0 (d ++ dr) (r ++ rr) (f ++ fr) m o v -> zlen (d' ++ dr) <= 255 -> zlen (r' ++ rr) <= 255 -> zlen (f' ++ fr) <= 255 ->
  (forall u, inv v0 (d' ++ dr) (r' ++ rr) (f' ++ fr) m o u -> Q u) -> wp (Op i) Q v.
Proof.
  intros HE W HI L1 L2 L3 HQ. eapply wp_prim; [eapply inv_word; eassumption|]. intros ew fuel j c.
  pose proof (inv_at _ _ _ _ _ _ _ j c HI) as HI'.
  destruct (HE fuel ew (at_ j c v) dr rr fr (proj1 HI') L1 L2 L3) as (u & E1 & S1 & O1).
  exists u. split; [exact E1|]. destruct O1 as (G & D & T & A & H1 & H2 & H3).
  split; [destruct A as (_ & A & _); unfold st; rewrite A; rewrite cur_at; reflexivity|].
  split; [apply kept_eq; [exact D|destruct G as (_ & _ & _ & G & _); exact G]|].
  apply HQ. eapply inv_stacks; [exact HI'|exact S1|]. repeat split; try assumption; apply G || apply A || apply H1 || apply H2 || apply H3.
Qed.
Lemma wp_num n v0 d r f m o v (Q : vm -> Prop) : inv v0 d r f m o v -> zlen d < 255 ->
  (forall u, inv v0 (n :: d) r f m o u -> Q u) -> wp (Num n) Q v.
Proof.
  intros HI Hd HQ a HH. exists (add_s n v). split.
  - apply num_run; [exact HH|]. destruct (inv_len _ _ _ _ _ _ _ HI) as [-> _]. pose proof (zlen_nonneg d). lia.
  - apply HQ. apply inv_push; assumption.
Qed.

(** Conditionals *)
Lemma wp_if_else p q x v0 d r f m o v (Q : vm -> Prop) : inv v0 (x :: d) r f m o v ->
  (x <> 0 -> forall u, inv v0 d r f m o u -> wp p Q u) -> (x = 0 -> forall u, inv v0 d r f m o u -> wp q Q u) ->
  wp (IfElse p q) Q v.
Proof.
  intros HI H1 H2 a HH. pose proof (takes_has _ _ _ (proj1 (proj1 HI))) as T.
  assert (HK : kept K v (drop_s 1 v)) by (apply kept_eq; reflexivity).
  pose proof (holds_kept K _ _ _ _ HK HH) as HH1.
  assert (HS : holds K (drop_s 1 v) p (a + 16) /\ holds K (drop_s 1 v) q (fin p (a + 16) + 16)).
  { destruct HH1 as (A & B & L). cbn [laid] in L; cbv zeta in L. destruct L as (W & C & L & W' & C' & L').
    pose proof (cell_top _ _ _ _ C) as Ct. pose proof (cell_top _ _ _ _ C') as Ct'. pose proof (laid_range K _ _ _ L ltac:(lia)) as R.
    split; (split; [exact A|split; [lia|assumption]]). }
  destruct HS as [HS1 HS2]. pose proof (inv_pop _ _ _ _ _ _ _ _ HI) as HI1.
  destruct (Z.eq_dec x 0) as [Hx|Hx].
  - destruct (H2 Hx _ HI1 _ HS2) as (v' & P & q'). exists v'. split; [|exact q']. eapply if_else_run; [exact HH|exact T|tauto|intros _; exact P].
  - destruct (H1 Hx _ HI1 _ HS1) as (v' & P & q'). exists v'. split; [|exact q']. eapply if_else_run; [exact HH|exact T|intros _; exact P|tauto].
Qed.
Lemma wp_if_then p x v0 d r f m o v (Q : vm -> Prop) : inv v0 (x :: d) r f m o v ->
  (x <> 0 -> forall u, inv v0 d r f m o u -> wp p Q u) -> (x = 0 -> forall u, inv v0 d r f m o u -> Q u) ->
  wp (IfThen p) Q v.
Proof.
  intros HI H1 H2 a HH. pose proof (takes_has _ _ _ (proj1 (proj1 HI))) as T.
  assert (HK : kept K v (drop_s 1 v)) by (apply kept_eq; reflexivity).
  pose proof (holds_kept K _ _ _ _ HK HH) as HH1.
  assert (HS : holds K (drop_s 1 v) p (a + 16)).
  { destruct HH1 as (A & B & L). cbn [laid] in L. destruct L as (W & C & L).
    pose proof (cell_top _ _ _ _ C) as Ct. split; [exact A|split; [lia|assumption]]. }
  pose proof (inv_pop _ _ _ _ _ _ _ _ HI) as HI1.
  destruct (Z.eq_dec x 0) as [Hx|Hx].
  - exists (drop_s 1 v). split; [|apply H2; assumption]. eapply if_then_run; [exact HH|exact T|tauto|reflexivity].
  - destruct (H1 Hx _ HI1 _ HS) as (v' & P & q'). exists v'. split; [|exact q']. eapply if_then_run; [exact HH|exact T|intros _; exact P|tauto].
Qed.

(** begin P while Q repeat, with a variant *)
Lemma wp_while p q (I : nat -> vm -> Prop) (Q : vm -> Prop) :
  (forall n v, I n v -> wp p (fun u => exists v0 x d r f m o, inv v0 (x :: d) r f m o u /\
     (x = 0 -> forall u', inv v0 d r f m o u' -> Q u') /\
     (x <> 0 -> exists n', (n' < n)%nat /\ forall u', inv v0 d r f m o u' -> wp q (I n') u')) v) ->
  forall n v, I n v -> wp (While p q) Q v.
Proof.
  intros H n. induction n as [n IH] using (well_founded_induction Wf_nat.lt_wf). intros v HI a HH.
  assert (HS : holds K v p a /\ holds K v q (fin p a + 16)).
  { destruct HH as (A & B & L). cbn [laid] in L; cbv zeta in L. destruct L as (L & W & C & L' & W' & C').
    pose proof (cell_top _ _ _ _ C) as Ct. pose proof (cell_top _ _ _ _ C') as Ct'. pose proof (laid_range K _ _ _ L ltac:(lia)) as R.
    split; (split; [exact A|split; [lia|assumption]]). }
  destruct HS as [HS1 HS2]. destruct (H n v HI a HS1) as (u & P1 & v0 & x & d & r & f & m & o & HU & HZ & HN).
  pose proof (takes_has _ _ _ (proj1 (proj1 HU))) as T. pose proof (inv_pop _ _ _ _ _ _ _ _ HU) as HU1.
  pose proof (while_round K p q v a u x _ HH P1 T) as P2.
  destruct (x =? 0) eqn:Hx.
  - exists (drop_s 1 u). split; [exact P2|]. apply HZ; [lia|exact HU1].
  - destruct (HN ltac:(lia)) as (n' & Hn & HB). destruct (HB _ HU1 _ (holds_kept K _ _ _ _ (proj2 P2) HS2)) as (v1 & P3 & HI1).
    pose proof (part_trans K _ _ _ _ _ _ P2 P3) as P4. pose proof (holds_kept K _ _ _ _ (proj2 P4) HH) as HH1.
    destruct (IH n' Hn v1 HI1 a HH1) as (v2 & P5 & Q2). exists v2. split; [|exact Q2].
    eapply part_trans; [exact P4|]. eapply part_trans; [apply (while_back K p q); exact HH1|exact P5].
Qed.

(** do P loop *)
Lemma frame_set (s : stack Z) z lim idx idx' r : stack_has s (frame z lim idx ++ r) ->
  stack_has (sset s (len s - 1) (to_i64 (idx' - lim - 2 ^ 63))) (frame z lim idx' ++ r).
Proof.
  intros (H1 & H2 & H3). unfold frame in *. cbn [app] in *. rewrite !zlen_cons in *. pose proof (zlen_nonneg r).
  split; [rewrite !zlen_cons; exact H1|]. split; [rewrite !zlen_cons; exact H2|]. intros [|k] x Hk; cbn [nth_error] in Hk.
  - injection Hk as <-. rewrite len_sset. replace (len s - 1 - Z.of_nat 0) with (len s - 1) by lia. apply sget_sset_eq; lia.
  - assert (k < length ((to_i64 (lim - 2 ^ 63)) :: z :: r))%nat by (apply nth_error_Some; congruence).
    cbn [length] in H0. unfold zlen in *.
    rewrite len_sset, sget_sset_other by lia. apply (H3 (S k) x). exact Hk.
Qed.
Lemma wp_do p lim first v0 d r f m o v (J : Z -> list Z -> dspace -> option bytes -> Prop) :
  inv v0 (first :: lim :: d) r f m o v -> is_cell lim -> is_cell first -> zlen r <= 252 -> J 0 d m o ->
  (forall k z d m o u, 0 <= k < loop_count lim first -> J k d m o ->
     inv v0 d (frame z lim (index_at first k) ++ r) f m o u ->
     wp p (fun u' => exists d' m' o', J (k + 1) d' m' o' /\ inv v0 d' (frame z lim (index_at first k) ++ r) f m' o' u') u) ->
  wp (Do false false p) (fun v' => exists d' m' o', J (loop_count lim first) d' m' o' /\ inv v0 d' r f m' o' v') v.
Proof.
  intros HI Hl Hf Hr HJ HB a HH. destruct (inv_len _ _ _ _ _ _ _ HI) as [L1 L2].
  pose proof (zlen_nonneg r).
  pose proof (enter_run K false false p v a lim first d HH (proj1 (proj1 HI)) ltac:(lia) ltac:(discriminate)) as P0.
  set (N := loop_count lim first) in *.
  assert (HN : 1 <= N) by (unfold N, loop_count; cbv zeta; destruct ((lim - first) mod 2 ^ 64 =? 0) eqn:Q; lia).
  assert (HF : forall u, holds K u (Do false false p) a -> holds K u p (a + 16)).
  { intros u (A & B & L). cbn [laid] in L; cbv zeta in L. destruct L as (W & C & L & W' & C').
    pose proof (cell_top _ _ _ _ C) as Ct. split; [exact A|split; [lia|exact L]]. }
  assert (G : forall n k d m o u, 0 <= k -> k + Z.of_nat n = N - 1 -> J k d m o -> inv v0 d (frame (a + 8) lim (index_at first k) ++ r) f m o u ->
    holds K u (Do false false p) a ->
    exists v', part K u (a + 16) v' (fin (Do false false p) a) /\ exists d' m' o', J N d' m' o' /\ inv v0 d' r f m' o' v').
  { induction n as [|n IH]; intros k d1 m1 o1 u Hk Hn HJk HIu HHu;
      destruct (HB k (a + 8) d1 m1 o1 u ltac:(lia) HJk HIu _ (HF _ HHu)) as (u1 & P1 & d2 & m2 & o2 & J2 & I2);
      pose proof (holds_kept K _ _ _ _ (proj2 P1) HHu) as HH1;
      destruct (loop_round K false false p u1 a 1 u1 (a + 8) lim _ r HH1 (conj eq_refl eq_refl) (proj1 (proj2 (proj1 I2)))) as [X1 X2].
    - assert (HC : crosses lim (index_at first k) 1) by (apply crosses_count; try assumption; fold N; lia).
      exists (drop_r 3 u1). split; [eapply part_trans; [exact P1|exact (X1 HC)]|]. exists d2, m2, o2.
      split; [replace N with (k + 1) by lia; exact J2|]. apply (inv_rdrop v0 (frame (a + 8) lim (index_at first k))). exact I2.
    - assert (HC : ~ crosses lim (index_at first k) 1) by (rewrite crosses_count by (assumption || (fold N; lia)); fold N; lia).
      specialize (X2 HC).
      assert (EI : index_at first (k + 1) = to_i64 (index_at first k + 1)).
      { unfold index_at. destruct (to_i64_mod (first + k)) as [j Hj]. apply (to_i64_congr _ _ j). lia. }
      rewrite <- EI in X2.
      assert (I3 : inv v0 d2 (frame (a + 8) lim (index_at first (k + 1)) ++ r) f m2 o2 (with_index lim (index_at first (k + 1)) u1)).
      { destruct (inv_len _ _ _ _ _ _ _ I2) as [_ L4].
        assert (HB2 : zlen (frame (a + 8) lim (index_at first k) ++ r) <= 255) by (rewrite <- L4; apply (stack_has_bound _ _ (proj1 (proj2 (proj1 I2))))).
        rewrite zlen_app in *. change (zlen (frame (a + 8) lim (index_at first k))) with 3 in *.
        unfold with_index. eapply inv_setr; [exact I2| |reflexivity|rewrite sget_sset_other by lia; reflexivity].
        apply frame_set with (idx := index_at first k). apply I2. }
      pose proof (part_trans K _ _ _ _ _ _ P1 X2) as P2.
      destruct (IH (k + 1) d2 m2 o2 _ ltac:(lia) ltac:(lia) J2 I3 (holds_kept K _ _ _ _ (proj2 P2) HHu)) as (v' & P3 & R3).
      exists v'. split; [eapply part_trans; eassumption|exact R3]. }
  assert (I0 : inv v0 d (frame (a + 8) lim (index_at first 0) ++ r) f m o (enter_loop (a + 8) lim first v)).
  { unfold index_at. rewrite Z.add_0_r, to_i64_id by (unfold is_cell, imin, imax, two63 in *; lia).
    unfold enter_loop, frame. cbn [app]. repeat apply inv_rpush; rewrite ?zlen_cons; try lia.
    assert (HS : stack_has (t_s (cur v)) ([first; lim] ++ d)) by apply HI.
    eapply inv_data; [exact HI| |].
    - unfold drop_s. rewrite cur_set_s. cbn [t_s set_t_s]. apply (drop_has _ [first; lim]). exact HS.
    - apply only_data_set_s. split; [reflexivity|]. intros i _ _ _. reflexivity. }
  destruct (G (Z.to_nat (N - 1)) 0 d m o _ ltac:(lia) ltac:(lia) HJ I0 (holds_kept K _ _ _ _ (proj2 P0) HH)) as (v' & P1 & R1).
  exists v'. split; [eapply part_trans; eassumption|exact R1].
Qed.

(** ** Colon definitions *)
Lemma does_conseq v i (Q Q' : vm -> Prop) : (forall u, Q u -> Q' u) -> does K v i Q -> does K v i Q'.
Proof. intros H D r Hr. destruct (D r Hr) as (f & u & v' & E1 & G & KK & q). exists f, u, v'. auto. Qed.

Definition wpz (p : prog) (Q : Z -> vm -> Prop) v : Prop :=
  forall a, holds K v p a -> exists v', part K v a v' (fin p a) /\ Q (fin p a) v'.
Lemma wpz_wp p (Q : vm -> Prop) v : wp p Q v -> wpz p (fun _ => Q) v.
Proof. intros W a HH. exact (W a HH). Qed.
Lemma wpz_seq p q Q v : wp p (wpz q Q) v -> wpz (Seq p q) Q v.
Proof.
  intros W a HH. destruct (holds_seq _ _ _ _ _ HH) as [H1 H2]. destruct (W a H1) as (v1 & P1 & W1).
  destruct (W1 _ (holds_kept K _ _ _ _ (proj2 P1) H2)) as (v2 & P2 & q2). exists v2.
  split; [eapply part_trans; eassumption|exact q2].
Qed.
(** The address of the end of the body is known to [Q] *)
Lemma colon_does_z v i p x (Q : Z -> vm -> Prop) rs : colon_word K v i p x -> stack_has (t_r (cur v)) rs -> zlen rs < 255 ->
  (forall r, 0 <= r < 2 ^ 63 -> wpz p (fun e v' => word_is v' x P_exit /\ exists l, stack_has (t_r (cur v')) (r :: l) /\ Q e (drop_r 1 v')) (add_r r v)) ->
  does K v i (Q (fin p (w_dfa (word_of v i)))).
Proof.
  intros (W & X & HH) HR Hl H r Hr.
  set (u := at_ i (w_dfa (word_of v i)) (add_r r v)).
  assert (E1 : execute_word 1 i (set_ip r v) = Ok (tt, u)).
  { pose proof (stack_has_len _ _ HR) as HN. pose proof (zlen_nonneg rs).
    rewrite (execute_word_eq O i (set_ip r v) P_nest W), set_wp_ip. cbn [exec_prim].
    unfold nest. rewrite (bind_Ok _ _ _ tt (at_ i r (add_r r v))).
    - unfold gets. unfold bind at 1. rewrite st_at. cbn [st_wp set_st_ip set_st_wp].
      rewrite (bind_Ok _ _ _ _ _ (word_at_eq (at_ i r (add_r r v)) i (proj1 W))).
      unfold put_ip, modify. rewrite set_ip_at. reflexivity.
    - unfold modify. cbv zeta. rewrite ip_at, to_i64_id by (unfold imin, imax, two63; lia).
      unfold r_stk. rewrite r_at, set_r_at. do 3 f_equal. unfold add_r. f_equal.
      change (push (t_r (cur v)) r = add_item (t_r (cur v)) r). apply add_item_push. lia. }
  assert (HK : kept K v (add_r r v)) by (apply kept_eq; reflexivity).
  destruct (holds_seq _ _ _ _ _ (holds_kept K _ _ _ _ HK HH)) as [H1 H2].
  destruct (H r Hr _ H1) as (v' & P1 & X' & l & HS & Q1).
  pose proof (holds_kept K _ _ _ _ (proj2 P1) H2) as (A & B & C & Hx).
  destruct (exit_run K v' x _ r l A C ltac:(lia) X' HS) as [P2 S2].
  rewrite to_u64_id in P2 by (unfold two64; lia).
  exists 1%nat, u, (drop_r 1 v'). split; [exact E1|].
  pose proof (part_trans K _ _ _ _ _ _ P1 P2) as P3. split; [|split; [eapply kept_trans; [exact HK|apply P3]|exact Q1]].
  intros w HC. unfold u in HC. rewrite st_at in HC. cbn [st_ip set_st_ip] in HC.
  apply (proj1 P3). destruct HC as [C1 C2]. split; [exact C1|]. rewrite C2. rewrite !set_ip_wp_at. apply at_at.
Qed.
Lemma colon_does v i p x (Q : vm -> Prop) rs : colon_word K v i p x -> stack_has (t_r (cur v)) rs -> zlen rs < 255 ->
  (forall r, 0 <= r < 2 ^ 63 -> wp p (fun v' => v_wl v' = v_wl v /\ exists l, stack_has (t_r (cur v')) (r :: l) /\ Q (drop_r 1 v')) (add_r r v)) ->
  does K v i Q.
Proof.
  intros HC HR Hl H. apply (colon_does_z v i p x (fun _ => Q) rs HC HR Hl). intros r Hr. apply wpz_wp. eapply wp_conseq; [|exact (H r Hr)].
  intros u (EW & l & HS & q). split; [|exists l; auto]. unfold word_is. rewrite EW. apply HC.
Qed.
Lemma lib_does v i p x d rs fs (R : list Z -> dspace -> option bytes -> Prop) : colon_word K v i p x -> stacks_are v d rs fs -> zlen rs < 255 ->
  (forall r u, inv v d (r :: rs) fs (v_ds v) (v_out v) u ->
     wp p (fun v' => exists d' m o, R d' m o /\ inv v d' (r :: rs) fs m o v') u) ->
  does K v i (fun v' => exists d' m o, R d' m o /\ inv v d' rs fs m o v').
Proof.
  intros HC HS Hl H. eapply colon_does; [exact HC|apply HS|exact Hl|]. intros r Hr.
  eapply wp_conseq; [|apply (H r); apply inv_rpush; [apply inv_start; exact HS|exact Hl]].
  intros u (d' & m & o & HR & HI). split; [eapply inv_wl; exact HI|]. exists rs. split; [apply HI|].
  exists d', m, o. split; [exact HR|]. apply (inv_rdrop v [r]). exact HI.
Qed.

(** Calling a word *)
Lemma wp_call v i (Q : vm -> Prop) : does K v i Q -> wp (Op i) Q v.
Proof.
  intros D a (HA & Ha & C & Hi). cbn [fin]. pose proof (code_range _ _ _ _ HA C) as RA.
  destruct (D (a + 8) ltac:(lia)) as (f & u & v' & E1 & G & KK & q). exists v'. split; [|exact q].
  split; [|exact KK]. intros w HC. destruct (step_cell K v a i w HA HC C Hi) as [R1 R2].
  destruct (G u (continues_self u)) as (w' & S1 & C1). exists w'. split; [|exact C1].
  econstructor; [split; [exact R1|]; exists f; rewrite R2; exact E1|exact S1].
Qed.

(** From the interpreter: execute the word, then run until control returns *)
Lemma does_run v i (Q : vm -> Prop) : does K v i Q -> addressable v ->
  exists fuel v' w, (execute_word fuel i ;;; run fuel) (set_ip 0 v) = Ok (tt, w) /\ continues v' 0 w /\ Q v'.
Proof.
  intros D HA. destruct (D 0 ltac:(lia)) as (f & u & v' & E1 & G & KK & q).
  destruct (goes_run u _ v' 0 u G (continues_self u)) as (w & C1 & R1).
  assert (RW : run 1 w = Ok (tt, w)).
  { cbn [run]. assert (RN : running w = Ok (false, w)).
    { unfold running, get_ip, ip. rewrite !bind_gets. rewrite (proj1 C1), (continues_ds _ _ _ C1).
      destruct (kept_addressable K _ _ KK HA) as [A1 A2]. replace (start (v_ds v') <=? 0) with false by lia. reflexivity. }
    rewrite (bind_Ok _ _ _ _ _ RN). reflexivity. }
  destruct (proj2 (R1 (Ok (tt, w)) ltac:(discriminate)) (ex_intro _ 1%nat RW)) as [f2 F2].
  exists (f + f2)%nat, v', w. split; [|split; [exact C1|exact q]].
  rewrite (bind_Ok _ _ _ tt u).
  - rewrite <- F2. apply run_mle; [lia|rewrite F2; discriminate].
  - rewrite <- E1. apply execute_word_mle; [lia|rewrite E1; discriminate].
Qed.
End K.
End L.
