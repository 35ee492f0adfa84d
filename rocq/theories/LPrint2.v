(** The text, literal and dump words of core.fth. *)
From Coq Require Import ZArith List Bool Lia ZifyBool ZifyNat.
From Verif Require Import Base Stack Mem Flt State CoreM IoM Exec LBase LStack Spec Spec2 Spec4 Spec5 Spec6 Spec7 Spec9 Spec10 Spec11 Spec14 Spec15 Spec16 Spec17 Spec24 Spec25
  LState LMem LMon LMemWords LSafe LTask LFuel LCode LComp LRun LCtl LFloat LWords LSay LLib LLibWords LDefine LDefine2 LSource LNum2 LSys LSys2 LPrint.
From Verif Require Import Spec21 LReal4 LReal5 LReal6.
Import ListNotations.
Import Spec14.
Open Scope list_scope.
Open Scope Z_scope.
Open Scope m_scope.

Section L.
Context {E : Env}.
Implicit Types (v w u : vm).
Ltac calm_close := repeat split; try congruence; try (eapply slot255; [eassumption|lia|lia]).
Section K.
Variable K : Z -> Prop.
Lemma inv_stacks_memory v0 d r f m o v d' r' f' v' : inv v0 d r f m o v -> stacks_are v' d' r' f' -> only_stacks_memory v v' ->
  inv v0 d' r' f' (v_ds v') o v'.
Proof.
  intros (S & D & O & C) S' (G & T & (A1 & A2 & A3 & A4 & A5 & A6 & A7) & H & H' & H'' & I1 & I2).
  destruct S as (S & R & F), S' as (S' & R' & F'). split; [split; [exact S'|split; assumption]|].
  split; [congruence|]. destruct G as (G1 & G2 & G3 & G4 & G5 & G6 & G7 & G8 & G9 & G10 & G11 & G12 & G13 & G14 & G15).
  split; [congruence|]. eapply calm_trans; [exact C|]. pose proof (proj1 H) as HC. pose proof (proj1 H') as HC'.
  pose proof (stack_has_len _ _ S). pose proof (stack_has_bound _ _ S). pose proof (stack_has_len _ _ S'). pose proof (stack_has_bound _ _ S').
  pose proof (stack_has_len _ _ R). pose proof (stack_has_bound _ _ R). pose proof (stack_has_len _ _ R'). pose proof (stack_has_bound _ _ R').
  unfold calm, st. rewrite A2. calm_close. exact T.
Qed.
Lemma wp_fstore i v0 a t x d r f m o v (Q : vm -> Prop) : word_is v0 i P_fstore -> inv v0 (a :: d) r (x :: f) m o v -> ds_ok m ->
  0 <= a -> least_multiple 8 a t -> start m <= t -> t + 8 <= limit m -> (forall k, K k -> start m <= k /\ (k < t \/ t + 8 <= k)) ->
  (forall u m', same_memory_but m m' t 8 -> cell_at m' t x -> here m' = here m -> inv v0 d r f m' o u -> Q u) -> wp K (Op i) Q v.
Proof.
  intros W HI HD Ha HT H1 H2 HK HQ. eapply wp_prim; [eapply inv_word; eassumption|]. intros ew fuel j c.
  pose proof (inv_at _ _ _ _ _ _ _ j c HI) as HI'. assert (EM : v_ds (at_ j c v) = m) by apply HI'. assert (HM : v_ds v = m) by apply HI.
  room. pose proof (proj1 HT).
  destruct (fstore_ok fuel ew (at_ j c v) a a t x d r f) as (u & E1 & S1 & C1 & M1 & G1 & O1); rewrite ?EM in *; try assumption;
    [apply HI'|apply addr_of_id; lia|lia|].
  exists u. split; [exact E1|]. split; [destruct O1 as (_ & _ & (_ & A & _) & _); unfold st; rewrite A, cur_at; reflexivity|].
  split.
  - destruct O1 as ((_ & _ & _ & G & _) & _). unfold kept. rewrite HM. split; [apply M1|]. split; [apply M1|].
    split; [intros k Hk; apply M1; apply HK; exact Hk|]. intros i0 p0 _ W0. unfold word_is. rewrite G. exact W0.
  - eapply HQ; [exact M1|exact C1|exact G1|]. eapply inv_stacks_memory; [exact HI'|exact S1|exact O1].
Qed.
Lemma wp_move i v0 a1 a2 n d r f m o v (Q : vm -> Prop) : word_is v0 i P_p_move -> inv v0 (n :: a2 :: a1 :: d) r f m o v -> ds_ok m ->
  0 < n -> start m < a1 -> a1 + n <= limit m -> start m < a2 -> a2 + n <= limit m ->
  (forall k, K k -> start m <= k /\ (k < a2 \/ a2 + n <= k)) ->
  (forall u m', copied m m' a1 a2 n -> inv v0 d r f m' o u -> Q u) -> wp K (Op i) Q v.
Proof.
  intros W HI HD H1 H2 H3 H4 H5 HK HQ.
  eapply (wp_memory K i P_p_move v0 _ d r f m o v a2 n (fun m' => copied m m' a1 a2 n)); [exact W|exact HI|exact HK| |].
  - intros fuel ew u J. assert (EM : v_ds u = m) by apply J. room.
    destruct (move_ok fuel ew u a1 a2 n a1 a2 d) as (u' & E1 & S1 & C1 & O1); rewrite ?EM in *; try assumption; [apply J|apply addr_of_id; lia|apply addr_of_id; lia|].
    exists u'. split; [exact E1|]. split; [exact S1|]. split; [|split; [exact C1|exact O1]].
    destruct C1 as (X1 & X2 & X3 & X4). unfold same_memory_but, start, limit in *. split; [congruence|]. split; [congruence|]. intros i0 Hi D. rewrite X4 by assumption.
    replace ((a2 <=? i0) && (i0 <? a2 + n)) with false by lia. reflexivity.
  - intros u m' S1 C1 I1. eapply HQ; eassumption.
Qed.
Lemma wp_aligned i v0 a t d r f m o v (Q : vm -> Prop) : word_is v0 i P_aligned -> inv v0 (a :: d) r f m o v -> 0 <= a -> a + 7 < 2 ^ 63 -> least_multiple 8 a t ->
  (forall u, inv v0 (t :: d) r f m o u -> Q u) -> wp K (Op i) Q v.
Proof.
  intros W HI Ha H7 HT HQ. eapply wp_quiet; [exact W|exact HI| |exact HQ]. intros fuel ew u J.
  destruct (aligned_word_ok P_aligned fuel ew u a a d) as (v' & x & E1 & S1 & W1 & O1); [cbn; tauto|apply J|apply addr_of_id; lia|lia|].
  exists v'. apply least8 in HT. subst t. assert (x = align8 a) as ->; [|auto].
  pose proof (align8_range a). destruct W1 as [Hc [q Hq]]. unfold is_cell in Hc. lia.
Qed.
Lemma wp_const i c v0 d r f m o u (Q : vm -> Prop) : pushes u i c -> inv v0 d r f m o u -> zlen d < 255 ->
  (forall u', inv v0 (c :: d) r f m o u' -> Q u') -> wp K (Op i) Q u.
Proof.
  intros HP HI Hd HQ. assert (Ed : v_ds u = m) by apply HI. apply wp_call.
  eapply does_conseq; [|exact (HP K d r f (proj1 HI) Hd)]. intros u' (S & M & O & C). apply HQ.
  rewrite <- Ed, <- M. eapply inv_after; [exact HI|exact S| |exact C]. rewrite O. apply HI.
Qed.
End K.
End L.

Section W.
Context {E : Env}.
Lemma f_greater_run x y : double x -> double y -> lib_run 240 d_f_greater [] [y; x] (fun _ _ _ => True)
  (fun v outs fouts m text => (exists fl, outs = [fl] /\ Spec.truth fl (less y x)) /\ fouts = [] /\ m = v_ds v /\ text = []).
Proof.
  intros Hx Hy. runs_. by_stacks (fswap_eff x y) rest (r :: rs) fs; [wlen|]. by_stacks (fless_eff y x) rest (r :: rs) fs; [wlen|].
  exists [flag (flt y x)], [], (v_ds v), []. split; [|eassumption]. split; [|auto]. eexists. split; [reflexivity|]. pose proof (flt_less y x Hy Hx) as HF. unfold flag. destruct (flt y x); [left; tauto|right]. split; [reflexivity|]. intro Q. apply HF in Q. discriminate.
Qed.
Lemma f_comma_run x : lib_run 240 d_f_comma [] [x]
  (fun K ix v => exists t, least_multiple 8 (here (v_ds v)) t /\ t + 8 <= limit (v_ds v) /\ forall k, K k -> start (v_ds v) <= k /\ (k < t \/ t + 8 <= k))
  (fun v outs fouts m text => outs = [] /\ fouts = [] /\ text = [] /\ here m = here (v_ds v) + 8 /\
     exists t, least_multiple 8 (here (v_ds v)) t /\ cell_at m t x /\ same_memory_but (v_ds v) m t 8).
Proof.
  runs_. destruct HP as (t & HT & H3 & HK). room. pose proof (proj1 HT).
  seqs. eapply wp_here; [known_word|eassumption|assumption|wlen|]. intros ?u ?I. by_num.
  seqs. eapply (wp_word_effect _ _ _ [1] [] [] [8] [] [] _ (here (v_ds v) :: rest) (r :: rs) (x :: fs)); [|known_word|cbn [app]; eassumption|wlen|wlen|wlen|].
  { apply (unit_eff P_floats (fun x => x * 8)); [intros ? ?; reflexivity|red; lia]. }
  intros ?u ?I. cbn [app] in I2.
  seqs. eapply wp_allot; [known_word|eassumption|assumption|lia|intros k Hk; apply (HK k Hk)|]. intros ?u m1 S1 G1 J1.
  pose proof S1 as (X1 & X2 & X3). assert (HD1 : ds_ok m1) by (unfold ds_ok; rewrite X1, X2, G1; lia).
  eapply wp_fstore; [known_word|eassumption|assumption|lia|exact HT|lia|lia|intros k Hk; rewrite X1; apply HK; exact Hk|]. intros w m S2 C2 G2 J2.
  exists [], [], m, []. split; [|exact J2]. split; [reflexivity|]. split; [reflexivity|]. split; [reflexivity|]. split; [lia|].
  exists t. split; [exact HT|]. split; [exact C2|]. destruct S2 as (Y1 & Y2 & Y3). split; [congruence|]. split; [congruence|].
  intros i Hi D. rewrite Y3 by lia. apply X3; lia.
Qed.
End W.
