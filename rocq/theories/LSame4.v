(** Interpreting a line and compiling it (C59): the whole line. *)
From Coq Require Import ZArith List Bool Lia String ZifyBool ZifyNat.
From Verif Require Import Base Stack Mem Parser Flt State CoreM IoM FloatM FileM Exec.
From Verif Require Import LBase LStack Spec Spec2 Spec4 Spec5 Spec6 Spec7 Spec9 Spec10 Spec11 Spec15 Spec16 Spec19 Spec20
  LState LMem LMon LStep LTask LHist LCheck LFuel LCode LComp LRun LCtl LDict LDict2 LDict3 LDict4 LDict5 LParse LNum LNum2 LText LLib LDefine LEval LSame LSame2 LSame3.
Import ListNotations.
Open Scope list_scope.
Open Scope Z_scope.
Open Scope m_scope.

Section A.
Context {E : Env}.
Implicit Types (v u w : vm).

Lemma cur_set_wp i v : cur (set_wp i v) = set_t_state (set_st_wp i (st v)) (cur v).
Proof. apply cur_upd. Qed.
Lemma set_wp_sbc i v : same_but_code v (set_wp i v).
Proof.
  unfold same_but_code, st. rewrite cur_set_wp. cbn. repeat match goal with |- _ /\ _ => split end; try reflexivity. apply (same_other_upd (set_t_state (set_st_wp i (st v)))).
Qed.
Lemma dict_words v : dict_ok v -> words v <= 2 ^ 63.
Proof.
  intros ((D1 & D2 & D3) & H1 & _ & _ & HN & _).
  assert (K : forall k, (Z.of_nat k < words v) -> start (v_ds v) + 8 * Z.of_nat k <= w_nfa (word_of v (Z.of_nat k))).
  { induction k as [|k IH]; intro Hk.
    - destruct (HN 0 ltac:(lia)) as (n & (N1 & _) & _). change (Z.of_nat 0) with 0. lia.
    - specialize (IH ltac:(lia)). destruct (HN (Z.of_nat k) ltac:(lia)) as (n & (N1 & _) & _ & N3). pose proof (zlen_nonneg n).
      replace (Z.of_nat (S k)) with (Z.of_nat k + 1) by lia. specialize (N3 ltac:(lia)). lia. }
  destruct (HN (words v - 1) ltac:(lia)) as (n & (N1 & N2 & _) & _). pose proof (zlen_nonneg n). specialize (K (Z.to_nat (words v - 1)) ltac:(lia)).
  rewrite Z2Nat.id in K by lia. lia.
Qed.
Lemma compiled_from u u1 p u2 : same_but_code u u1 -> v_ds u1 = v_ds u -> t_c (cur u1) = t_c (cur u) -> compiled p u1 u2 -> compiled p u u2.
Proof.
  intros HS HD HC (A1 & A2 & A3 & A4 & A5 & A6 & A7 & A8 & A9). rewrite HD, ?HC in *. unfold compiled. cbv zeta. repeat (split; [assumption|]). eapply sbc_trans; eassumption.
Qed.

Section U.
Variable U : Z -> Prop.

(** the machine before the colon *)
Definition before v (rs : list Z) c u : Prop := ready U v c rs u /\ v_fwd u = [] /\ stack_has (t_c (cur u)) [].

Lemma colon_cinv v rs c u i nm u2 fuel : waiting U v -> before v rs c u -> quiet fuel P_colon (set_wp i u) u2 -> opened (set_wp i u) nm u2 -> cinv v u2 /\ later U v u2.
Proof.
  intros HW (HR & HF & HC) Hq HO. destruct (ready_reading U v c rs u HW HR) as ((R1 & R2 & R3 & R4 & R5 & R6) & ID & LA & DO).
  destruct HR as (H1 & H2 & H3 & H4 & H5 & H6 & H7 & H8 & H9 & H10 & H11 & H12 & H13 & H14).
  assert (HN : forall t r, newest v t r -> newest u2 t r).
  { intros t r Ht. apply R2 in Ht. apply (colon_newest fuel (set_wp i u) u2 t r); [exact R1|exact H7|exact Hq|]. exact Ht. }
  destruct HO as (O1 & O2 & O3 & O4 & O5 & O6 & O7 & O8 & O9 & O10 & O11 & O12 & O13 & O14 & O15 & O16 & O17 & O18 & O19 & O20 & O21).
  rewrite cur_set_wp in *. unfold st in O20. rewrite cur_set_wp in O20. fold (st u2) in O20. cbn in O10, O12, O13, O14, O15, O16, O17, O18, O20.
  change (words (set_wp i u)) with (words u) in *. destruct O2 as (P1 & P2 & P3 & P4 & P5 & P6). cbn in P2, P3, P4, P6. change (words (set_wp i u)) with (words u) in *. change (word_of (set_wp i u)) with (word_of u) in *.
  pose proof HW as (W1 & (W2 & W2c) & W2b & W3 & W4 & W5 & W6 & W7 & W8 & W9 & W10 & W11 & W12 & W13 & W14 & W15).
  assert (BB : base_addr (v_ds u) + 8 <= here (v_ds u)) by (unfold base_addr, start in *; lia).
  pose proof DO as (D1 & D2 & D3).
  assert (WU : words u = words v) by (unfold words; congruence).
  assert (WO : forall k, 0 <= k < words v -> word_of u2 k = word_of v k) by (intros k Hk; rewrite P5 by lia; apply R6; exact Hk).
  split.
  - unfold cinv. split.
    { split; [exact O1|]. split; [exact HN|]. split.
      - intros b Hb. apply R3 in Hb. revert Hb. apply base_kept; [congruence|congruence|]. intros a Ha. apply P6. unfold base_addr, start in *. lia.
      - split; [congruence|]. split; [lia|exact WO]. }
    split; [exact O11|]. split; [congruence|]. split; [exact O19|]. split; [unfold idle in *; rewrite O20, P2, P3; exact ID|].
    split; [rewrite O17; exact HC|]. split; [apply (intact_same u); congruence|]. split; [exact O21|]. split.
    + split; [exact (dict_words u2 O1)|]. intros f p Hp. apply W2c in Hp as (A & B). split; [rewrite O10, H2; fold (words u2) (words v) in *; unfold words in *; lia|]. rewrite O10, H2.
      change (w_action (word_of u2 (f (v_refs v))) = p). rewrite WO by exact A. exact B.
    + unfold base_addr, start in *. lia.
  - unfold later. split; [lia|]. split; [exact WO|]. split; [congruence|]. split; [congruence|]. split; [congruence|]. split; [lia|]. split; [apply O1|].
    intros a Ha HU. rewrite P6 by lia. apply H6. split; [|exact HU]. rewrite H3, H4, H5 in *. lia.
Qed.

Lemma compiled_goes u p u' : dict_ok u -> compiled p u u' -> fin p (here (v_ds u)) <= limit (v_ds u) -> goes_on u u'.
Proof. clear U.
  intros HD (A1 & A2 & A3 & A4 & _ & _ & _ & _ & A9) HF. pose proof HD as ((D1 & D2 & D3) & _). pose proof (fin_ge u p (here (v_ds u))) as G.
  assert (EW : v_wl u' = v_wl u) by apply A9. split; [unfold same_words, words, word_of; rewrite EW; repeat split|]. split; [unfold ds_ok; lia|]. split; [exact A2|]. split; [exact A3|].
  split; [lia|]. intros a Ha. apply A4. apply protected_below; assumption.
Qed.

(** the machine after the semicolon: the line is the code of the newest word *)
Definition closed v items nm (u0 u4 : vm) base : Prop :=
  newest u4 nm (Some (words v)) /\ w_co (word_of u4 (words v)) = false /\ dict_ok u4 /\ base_is u4 base /\ v_refs u4 = v_refs v /\ v_err u4 = None /\
  st_compiling (st u4) = false /\ idle u4 /\ later U v u4 /\ colon_word (outside U u4) u4 (words v) (seqs items) (idx_exit (v_refs v)) /\
  t_s (cur u4) = t_s (cur u0) /\ t_r (cur u4) = t_r (cur u0) /\ t_f (cur u4) = t_f (cur u0) /\ v_out u4 = v_out u0 /\ v_cur u4 = v_cur u0 /\
  stacks_intact u4 /\ v_tkn u4 <> None /\
  forall a, start (v_ds v) <= a < here (v_ds v) -> byte_at (v_ds u4) a = byte_at (v_ds u0) a.

Lemma semicolon_closed v rs c u0 nm u2 u3 items base k fuel ff jj : waiting U v -> base_is v base -> before v rs c u0 -> quiet ff P_colon (set_wp jj u0) u2 -> opened (set_wp jj u0) nm u2 ->
  cinv v u3 -> compiled (seqs items) u2 u3 -> fin (seqs items) (here (v_ds u2)) + 8 <= limit (v_ds u2) ->
  exists u4, quiet fuel P_semicolon (set_wp k u3) u4 /\ closed v items nm u0 u4 base /\
    st_idx (st u4) = st_idx (st u3) /\ st_sid (st u4) = st_sid (st u3) /\ t_inbuf (cur u4) = t_inbuf (cur u3) /\ t_lines (cur u4) = t_lines (cur u3).
Proof.
  intros HW HBase HB Hq HO HC3 HCo HFin. pose proof HO as HO'. destruct (colon_cinv v rs c u0 jj nm u2 ff HW HB Hq HO) as (HC2 & L2).
  destruct HB as (HR & _ & _). destruct HO as (O1 & O2 & O3 & O4 & O5 & O6 & O7 & O8 & (nm' & O9a & O9b) & O10 & O11 & O12 & O13 & O14 & O15 & O16 & O17 & O18 & O19 & O20 & O21).
  rewrite cur_set_wp in *. unfold st in O20. rewrite cur_set_wp in O20. fold (st u2) in O20. cbn in O10, O12, O13, O14, O15, O16, O17, O18, O20.
  destruct O2 as (P1 & P2 & P3 & P4 & P5 & P6). cbn in P2, P3, P4, P6.
  change (words (set_wp jj u0)) with (words u0) in *. change (word_of (set_wp jj u0)) with (word_of u0) in *.
  destruct HR as (H1 & H2 & H3 & H4 & H5 & H6 & H7 & H8 & H9 & H10 & H11 & H12 & H13 & H14).
  assert (WU : words u0 = words v) by (unfold words; congruence). rewrite WU in *.
  pose proof HW as (W1 & (W2 & W2c) & W2b & W3 & W4 & W5 & W6 & W7 & W8 & W9 & W10 & W11 & W12 & W13 & W14 & W15).
  pose proof HC2 as ((R2a & R2b & R2c & R2d & R2e & R2f) & _). pose proof HC3 as ((R3a & R3b & R3c & R3d & R3e & R3f) & E3 & F3 & G3 & I3 & T3 & S3 & K3 & CR3 & BB3).
  pose proof HCo as (C1 & C2 & C3 & C4 & C5 & _ & _ & _ & C9). assert (EW3 : v_wl u3 = v_wl u2) by apply C9.
  assert (Q3 : words u3 = words v + 1) by (unfold words in *; congruence).
  pose proof (fin_ge u2 (seqs items) (here (v_ds u2))) as GF.
  set (w3 := set_wp k u3).
  assert (CC : can_compile false 0 w3).
  { destruct (cinv_can v u3 HC3) as (X1 & X2 & X3 & X4). unfold can_compile, w3. rewrite cur_set_wp. cbn. auto. }
  assert (XE : word_is v (idx_exit (v_refs v)) P_exit) by (apply (W2c idx_exit); unfold compiler_words; cbn [In]; tauto).
  assert (EX : idx_exit (v_refs w3) = idx_exit (v_refs v)) by (change (v_refs w3) with (v_refs u3); congruence).
  destruct (semicolon_closes fuel w3 R3a CC F3) as (d & D1 & D2).
  { unfold w3. rewrite cur_set_wp. cbn. rewrite (stack_has_len _ _ T3). reflexivity. }
  { change (words w3) with (words u3). destruct W1 as (_ & W1 & _). lia. }
  { rewrite EX. change (word_of w3) with (word_of u3). rewrite R3f by (exact (proj1 XE)). exact W2b. }
  { change (v_ds w3) with (v_ds u3). rewrite C1, C3. exact HFin. }
  rewrite EX in D1. change (words w3) with (words u3) in D2. change (word_of w3) with (word_of u3) in D2. rewrite Q3 in D2. replace (words v + 1 - 1) with (words v) in D2 by lia.
  set (w4 := set_word_at (words v) (set_w_hidden false (word_of u3 (words v))) (set_v_ds d w3)) in *. set (u4 := set_compiling false w4) in *.
  assert (D1' : compiled (Op (idx_exit (v_refs v))) u3 (set_v_ds d w3)) by (apply (compiled_from u3 w3); [apply set_wp_sbc|reflexivity|unfold w3; rewrite cur_set_wp; reflexivity|exact D1]).
  pose proof (compiled_seq _ _ _ _ _ HCo D1' (proj1 O1)) as DS. pose proof D1' as (B1 & B2 & B3 & B4 & _). cbn [v_ds set_v_ds fin] in B1, B2, B3, B4. rewrite C1 in B1.
  pose proof W1 as ((V1 & V2 & V3) & V4 & _).
  assert (WL4 : forall j, 0 <= j -> word_of u4 j = if words v =? j then set_w_hidden false (word_of u2 (words v)) else word_of u2 j).
  { intros j Hj. change (word_of u4 j) with (word_of w4 j). unfold w4. rewrite set_word_of by lia. change (word_of (set_v_ds d w3) j) with (word_of u3 j). unfold word_of. rewrite EW3. reflexivity. }
  assert (WN : word_of u4 (words v) = set_w_hidden false (word_of u2 (words v))) by (rewrite WL4 by lia; rewrite Z.eqb_refl; reflexivity).
  assert (WV : forall j, 0 <= j < words v -> word_of u4 j = word_of v j) by (intros j Hj; rewrite WL4 by lia; replace (words v =? j) with false by lia; apply R2f; exact Hj).
  assert (WW4 : words u4 = words v + 1) by exact Q3.
  assert (CU4 : cur u4 = set_t_state (set_st_compiling false (set_st_wp k (st u3))) (cur u3)).
  { unfold u4. rewrite cur_compiling. unfold st. change (cur w4) with (cur w3). unfold w3. rewrite cur_set_wp. reflexivity. }
  assert (ST4 : st u4 = set_st_compiling false (set_st_wp k (st u3))) by (unfold st at 1; rewrite CU4; reflexivity).
  assert (BY : forall a, start (v_ds v) <= a < here (v_ds v) -> byte_at (v_ds u4) a = byte_at (v_ds u0) a).
  { intros a Ha. change (v_ds u4) with d. rewrite B4 by (rewrite C1, C2; destruct L2 as (_ & _ & _ & -> & _ & Z6 & _); lia).
    rewrite C4 by (destruct L2 as (_ & _ & _ & -> & _ & Z6 & _); lia). apply P6. rewrite H3, H5. exact Ha. }
  (* newest *)
  assert (NM3 : named w3 (words w3 - 1) nm').
  { change (words w3) with (words u3). rewrite Q3. replace (words v + 1 - 1) with (words v) by lia. change (named w3) with (named u3).
    eapply goes_on_named; [apply (compiled_goes u2 (seqs items)); [exact O1|exact HCo|lia]|lia|exact O9a]. }
  assert (HH3 : w_hidden (word_of w3 (words w3 - 1)) = true).
  { change (words w3) with (words u3). rewrite Q3. replace (words v + 1 - 1) with (words v) by lia. change (word_of w3) with (word_of u3). unfold word_of in *. rewrite EW3. exact O5. }
  destruct (semicolon_newest fuel w3 u4 nm' nm (Some (words v)) R3a ltac:(change (words w3) with (words u3); lia) NM3 HH3 D2) as (N1 & N2 & N3 & _).
  change (words w3) with (words u3) in *. rewrite Q3 in N3. replace (words v + 1 - 1) with (words v) in N3 by lia.
  assert (LA4 : later U v u4).
  { destruct L2 as (Y1 & Y2 & Y3 & Y4 & Y5 & Y6 & Y7 & Y8). unfold later. change (v_ds u4) with d. split; [lia|]. split; [exact WV|].
    split; [change (v_refs u4) with (v_refs u3); exact R3d|]. split; [congruence|]. split; [congruence|]. split; [lia|]. split; [apply N1|].
    intros a Ha HU. change d with (v_ds u4). rewrite BY by exact Ha. apply H6. split; [lia|exact HU]. }
  exists u4. split; [exact D2|]. split; [|rewrite ST4, CU4; repeat split].
  unfold closed. split; [apply N3; [exact O9b|reflexivity]|]. split; [rewrite WN; exact O6|]. split; [exact N1|]. split.
  { assert (X := R3c _ HBase). revert X. change (base_is u3 base -> base_is u4 base). apply (base_kept u3 u4).
    - exact B2.
    - exact B3.
    - intros a Ha. change (v_ds u4) with d. apply B4. pose proof R3a as ((? & ? & ?) & _). unfold base_addr, start in *. lia. }
  split; [change (v_refs u4) with (v_refs u3); exact R3d|]. split; [exact E3|]. split; [rewrite ST4; reflexivity|].
  split; [unfold idle in *; rewrite ST4; change (v_ds u4) with d; rewrite B2, B3; exact I3|]. split; [exact LA4|]. split.
  { split; [|split].
    - split; [change (wl_len (v_wl u4)) with (words u4); lia|]. change (w_action (word_of u4 (words v)) = P_nest). rewrite WN. exact O4.
    - split; [change (wl_len (v_wl u4)) with (words u4); unfold words in *; destruct XE; lia|]. change (w_action (word_of u4 (idx_exit (v_refs v))) = P_exit). rewrite WV by (exact (proj1 XE)). exact (proj2 XE).
    - pose proof LA4 as (Y1 & Y2 & Y3 & Y4 & Y5 & Y6 & Y7 & Y8). pose proof L2 as (_ & _ & _ & Z4 & Z5 & Z6 & (_ & Z7 & _) & _).
      unfold holds. rewrite WN. cbn [w_dfa set_w_hidden]. rewrite O7. split; [unfold addressable; destruct Y7 as (? & ? & ?); lia|]. split; [rewrite Y4, Y5; lia|].
      destruct DS as (_ & _ & _ & _ & DS & _). apply (laid_mono (fun i => here (v_ds u2) <= i < fin (Seq (seqs items) (Op (idx_exit (v_refs v)))) (here (v_ds u2)))).
      + intros i Hi. cbn [fin] in Hi. split; [rewrite Y4, Y5; lia|]. intro KU. apply W15 in KU. lia.
      + eapply laid_move; [exact DS| |intros i Hi; exact Hi]. unfold kept. change (v_ds u4) with d. cbn [v_ds set_v_ds]. split; [reflexivity|]. split; [reflexivity|]. split; [reflexivity|].
        intros j p _ (J1 & J2). split; [exact J1|]. change (wl_len (v_wl (set_v_ds d w3))) with (words u3) in J1. change (w_action (word_of u4 j) = p). rewrite WL4 by lia.
        change (w_action (word_of u3 j) = p) in J2. unfold word_of in *. rewrite EW3 in J2. destruct (Z.eqb_spec (words v) j) as [<-|N]; exact J2. }
  assert (SB : t_s (cur u3) = t_s (cur u2) /\ t_r (cur u3) = t_r (cur u2) /\ t_f (cur u3) = t_f (cur u2) /\ v_out u3 = v_out u2 /\ v_cur u3 = v_cur u2).
  { unfold same_but_code in C9. repeat match goal with H : _ /\ _ |- _ => destruct H end. auto 10. }
  destruct SB as (SB1 & SB2 & SB3 & SB4 & SB5). rewrite CU4. cbn [t_s t_r t_f set_t_state].
  split; [congruence|]. split; [congruence|]. split; [congruence|]. split; [change (v_out u4) with (v_out u3); congruence|]. split; [change (v_cur u4) with (v_cur u3); congruence|].
  split; [apply (intact_same u3); [exact S3|rewrite CU4; reflexivity..]|]. split; [exact K3|exact BY].
Qed.

(** the line is the code of a word, which is then called *)
Lemma compiled_line v n items c c' ts nm s cs rs u base ic isc : waiting U v -> base_is v base -> n <= 64 -> chain U v n items c c' -> Forall2 (stands_for v) ts items ->
  before v rs c u -> rest_of_input u s -> utf8_text s cs -> tokens s (b ":"%string :: nm :: ts ++ [b ";"%string; nm]) -> zlen rs < n ->
  newest v nm None -> newest v (b ":"%string) (Some ic) -> w_action (word_of v ic) = P_colon -> w_co (word_of v ic) = false ->
  newest v (b ";"%string) (Some isc) -> w_action (word_of v isc) = P_semicolon -> w_imm (word_of v isc) = true ->
  here (v_ds v) + 24 + zlen nm + 24 * zlen items <= limit (v_ds v) ->
  evals u (fun v' => shows U c' v' /\ same_apart U v v' rs).
Proof.
  intros HW HBase Hn HC HF HB HI HU HK HZ HN N1 N1a N1b N2 N2a N2b HRoom.
  assert (HFL : idx_flit (v_refs v) <> 0) by apply HW. pose proof HW as (W1 & _). pose proof W1 as (DV & _).
  pose proof HB as (HR & HFw & HCs). destruct (ready_reading U v c rs u HW HR) as ((R1 & R2 & R3 & R4 & R5 & R6) & ID & LA & DO).
  assert (Hic : 0 <= ic < words v) by (destruct N1 as (N1 & _); lia). assert (His : 0 <= isc < words v) by (destruct N2 as (N2 & _); lia).
  set (t1 := b ":"%string) in *. set (t2 := b ";"%string) in *. clearbody t1 t2.
  apply (plain_evals u s cs t1 (nm :: ts ++ [t2; nm]) base _ HI HU ltac:(apply HR) HK R1 (R3 _ HBase) ltac:(congruence)). intros k u1 r1 cs1 B1 I1 U1 K1.
  assert (HR1 : ready U v c rs u1) by exact (ready_read U v c rs u t1 k u1 HR B1).
  destruct (token_read_same u t1 k u1 B1) as (_ & _ & _ & _ & X5 & _ & _ & _ & _ & X10 & _).
  assert (HB1 : before v rs c u1) by (split; [exact HR1|split; [congruence|rewrite X10; exact HCs]]).
  destruct (ready_reading U v c rs u1 HW HR1) as ((Q1 & Q2 & Q3 & Q4 & Q5 & Q6) & ID1 & LA1 & DO1).
  pose proof HR1 as (H1 & H2 & H3 & H4 & H5 & H6 & H7 & H8 & H9 & H10 & H11 & H12 & H13 & H14).
  assert (WU : words u1 = words v) by (unfold words; congruence).
  set (f := (Z.to_nat (words v) + 1)%nat).
  destruct (colon_opens f (set_wp ic u1) r1 cs1 nm (ts ++ [t2; nm])) as (u2 & r2 & cs2 & Cq & Co & I2 & U2 & K2).
  { apply (rest_kept u1); [exact I1|..]; unfold st; rewrite cur_set_wp; reflexivity. }
  { exact U1. } { exact H11. } { exact K1. } { exact Q1. }
  { change (words (set_wp ic u1)) with (words u1). unfold f. pose proof W1 as (_ & ? & _). lia. }
  { unfold room_for. change (v_ds (set_wp ic u1)) with (v_ds u1). rewrite H4, H5. pose proof (zlen_nonneg items). lia. }
  { exact (Q2 nm None HN). } { exact H7. }
  destruct (colon_cinv v rs c u1 ic nm u2 f HW HB1 Cq Co) as (CI2 & LA2).
  exists (S f), u2. split; [|split; [apply CI2|split; [apply CI2|split; [apply CI2|]]]].
  { intros m' Hm. apply (A_executed m' t1 u1 u2 ic (Q2 _ _ N1)); [rewrite H8, Q6 by exact Hic; exact N1b|].
    refine (mle_ok (execute_word (S f) ic) (execute_word m' ic) u1 (tt, u2) (execute_word_mle _ _ ic Hm) _). rewrite (execute_word_eq f ic u1 P_colon); [apply Cq|]. split; [unfold words in *; lia|].
    change (w_action (word_of u1 ic) = P_colon). rewrite Q6 by exact Hic. exact N1a. }
  assert (HFin : fin (seqs items) (here (v_ds u2)) + 8 <= limit (v_ds u2)).
  { pose proof (seqs_bound u2 items (here (v_ds u2))). destruct Co as (_ & (_ & _ & P3 & _) & _ & _ & _ & _ & _ & O8 & _). cbn in O8, P3. rewrite P3, H4. rewrite H5 in O8. lia. }
  apply (compile_chain v [t2; nm] _ base HBase HFL ts items HF u2 r2 cs2 CI2 I2 U2 K2 ltac:(lia)). intros u3 r3 cs3 I3 U3 K3 CI3 Cc.
  pose proof CI3 as ((Z1 & Z2 & Z3 & Z4 & Z5 & Z6) & _ & _ & _ & _ & _ & _ & ZT & _).
  apply (plain_evals u3 r3 cs3 t2 [nm] base _ I3 U3 ZT K3 Z1 (Z3 _ HBase) ltac:(congruence)). intros k3 u3' r4 cs4 B3 I4 U4 K4.
  assert (CI3' : cinv v u3') by exact (cinv_read _ _ _ _ _ CI3 B3).
  assert (Cc' : compiled (seqs items) u2 u3').
  { destruct (token_read_same u3 t2 k3 u3' B3) as (Y1 & Y2 & Y3 & Y4 & Y5 & Y6 & Y7 & Y8 & Y9 & Y10 & _). destruct Cc as (A1 & A2 & A3 & A4 & A5 & A6 & A7 & A8 & A9). unfold compiled. cbv zeta. rewrite Y2, Y10.
    split; [exact A1|]. split; [exact A2|]. split; [exact A3|]. split; [exact A4|]. split; [eapply laid_move; [exact A5|apply kept_of; [congruence|congruence|exact Y1|intros; rewrite Y2; reflexivity]|intros i Hi; exact Hi]|].
    split; [exact A6|]. split; [exact A7|]. split; [exact A8|]. eapply sbc_trans; [exact A9|exact (token_read_sbc _ _ _ _ B3)]. }
  pose proof CI3' as ((Z1' & Z2' & Z3' & Z4' & Z5' & Z6') & _ & _ & ZC' & _).
  destruct (semicolon_closed v rs c u1 nm u2 u3' items base isc 0%nat f ic HW HBase HB1 Cq Co CI3' Cc' HFin) as (u4 & Sq & CL & J1 & J2 & J3 & J4).
  pose proof CL as (L1 & L2 & L3 & L4 & L5 & L6 & L7 & L8 & L9 & L10 & L11 & L12 & L13 & L14 & L15 & L16 & L17 & L18).
  exists 1%nat, u4. split; [|split; [exact L6|split; [exact L8|split; [exact L16|]]]].
  { intros m' Hm. apply (A_executed m' t2 u3' u4 isc (Z2' _ _ N2)); [rewrite ZC', Z6' by exact His; exact N2b|].
    refine (mle_ok (execute_word 1 isc) (execute_word m' isc) u3' (tt, u4) (execute_word_mle _ _ isc Hm) _). rewrite (execute_word_eq 0 isc u3' P_semicolon); [apply Sq|]. split; [unfold words in *; lia|].
    change (w_action (word_of u3' isc) = P_semicolon). rewrite Z6' by exact His. exact N2a. }
  assert (I4' : rest_of_input u4 r4) by (apply (rest_kept u3'); assumption).
  assert (SH4 : shows U c u4).
  { destruct H12 as (A1 & A2 & A3 & A4). unfold shows. rewrite L11, L13, L14. split; [exact A1|]. split; [exact A2|]. split; [|exact A4].
    intros a Ha. rewrite L18; [apply A3; exact Ha|]. destruct HW as (_ & _ & _ & _ & _ & _ & _ & _ & _ & _ & _ & _ & _ & _ & _ & W15). apply W15. exact Ha. }
  destruct (call_round U u4 r4 cs4 nm [] base (words v) (fun u' => shows U c' u' /\ stack_has (t_r (cur u')) rs /\ here (v_ds u') = here (v_ds u4)) I4' U4 L17 K4 L6 L7 L8 L3 L4 ltac:(congruence) L1 L2)
    as (g & w & u5 & k5 & u' & r6 & cs6 & E1 & B5 & CA & CO & KP & (F1 & F2 & F3) & SI & I6 & U6 & K6).
  { intros k5 u5 B5. destruct (token_read_same u4 nm k5 u5 B5) as (Y1 & Y2 & Y3 & Y4 & Y5 & Y6 & Y7 & Y8 & Y9 & Y10 & Y11 & Y12 & Y13 & Y14 & Y15).
    assert (HL5 : calls U u5 (words v) (ran U v rs u5 c')).
    { apply (line_calls U v n items c c' u5 rs (words v) (idx_exit (v_refs v)) DV HC).
      - unfold colon_word, holds, addressable, outside, word_is, word_of in *. rewrite Y1, Y2. destruct L10 as (A1 & A2 & A3 & A4 & A5). split; [exact A1|]. split; [exact A2|]. split; [exact A3|]. split; [exact A4|].
        eapply laid_move; [exact A5|apply kept_of; [congruence|congruence|exact Y1|intros; rewrite Y2; reflexivity]|intros i Hi; exact Hi].
      - unfold later, words, word_of in *. rewrite Y1, Y2, Y3. exact L9.
      - unfold shows in *. rewrite Y2, Y7, Y8, Y11. exact SH4.
      - rewrite Y9, L12. exact H13.
      - exact HZ.
      - lia.
      - apply (intact_same u4); assumption. }
    intros r0 Hr0. destruct (HL5 r0 Hr0) as (f0 & w1 & w2 & A1 & A2 & A3 & A4 & (A5 & A6 & A7 & A8 & A9)). exists f0, w1, w2. rewrite Y2 in A7. auto 10. }
  apply (round_evals g u4 _ _ E1). destruct (continues_calm _ _ _ CO) as (CW & G1 & G2 & G3 & G4 & G5 & G6).
  destruct (token_read_same u4 nm k5 u5 B5) as (Y1 & Y2 & Y3 & Y4 & Y5 & Y6 & Y7 & Y8 & Y9 & Y10 & Y11 & Y12 & Y13 & Y14 & Y15).
  pose proof (calm_trans _ _ _ CA CW) as C2.
  assert (TK : v_tkn w <> None) by (assert (EQ : v_tkn w = v_tkn u5) by apply C2; rewrite EQ; destruct B5 as [->|(_ & ->)]; discriminate).
  apply (end_evals w r6 cs6); [exact I6|exact U6|exact TK|exact K6|]. intros k7 u7 B7.
  destruct (token_read_same w [] k7 u7 B7) as (V1 & V2 & V3 & V4 & V5 & V6 & V7 & V8 & V9 & V10 & V11 & V12 & V13 & V14 & V15).
  pose proof KP as (KP1 & KP2 & KP3 & _). pose proof L9 as (M1 & M2 & M3 & M4 & M5 & M6 & M7 & M8). pose proof DV as (DV1 & DV2 & DV3).
  assert (EE : v_err w = v_err u5) by apply C2. assert (EC : v_cur w = v_cur u5) by apply C2. assert (ES : st_compiling (st w) = st_compiling (st u5)) by apply C2.
  split.
  - unfold shows in *. rewrite V2, V7, V8, V11, G1, G3, G4, G5. exact F1.
  - unfold same_apart. split; [rewrite V9, G2; exact F2|]. split; [congruence|]. split; [congruence|]. split.
    + unfold idle in *. rewrite V2, V14, G4, G6, KP1, KP2. exact L8.
    + split; [congruence|]. intros a Ha HNU. rewrite V2, G4, KP3; [|split; [rewrite M4, M5; lia|exact HNU]]. apply M8; assumption.
Qed.

(** ** The two ways of giving the line to the interpreter *)
Lemma source_set v s c rs : waiting U v -> shows U c v -> stack_has (t_r (cur v)) rs -> zlen s < 2 ^ 63 ->
  exists u, set_source s v = Ok (tt, u) /\ before v rs c u /\ rest_of_input u s.
Proof.
  intros HW HS HR HL. destruct HW as (W1 & W2 & W2b & W3 & W4 & W5 & W6 & W7 & W8 & W9 & W10 & W11 & W12 & W13 & W14 & W15).
  destruct (t_inbuf (cur v)) as [b0|] eqn:EB; [|congruence].
  set (u := upd_cur (set_t_inbuf (Some s)) (set_idx 0 v)).
  assert (CU : cur u = set_t_inbuf (Some s) (set_t_state (set_st_idx 0 (st v)) (cur v))) by (unfold u; rewrite cur_upd, cur_set_idx; reflexivity).
  assert (SU : st u = set_st_idx 0 (st v)) by (unfold st at 1; rewrite CU; reflexivity).
  exists u. split; [|split].
  - unfold set_source, expect_inbuf. rewrite (bind_Ok _ _ v b0 v).
    + rewrite bind_modify. unfold put_inbuf. replace (0 <? st_sid (st (set_idx 0 v))) with false; [reflexivity|]. unfold st. rewrite cur_set_idx. cbn. fold (st v). lia.
    + rewrite (bind_Ok _ _ v (Some b0) v); [reflexivity|]. unfold get_inbuf. replace (0 <? st_sid (st v)) with false by lia. rewrite EB. reflexivity.
  - unfold before, ready, shows, stacks_intact in *. rewrite SU, CU. cbn. change (v_wl u) with (v_wl v). change (v_refs u) with (v_refs v). change (v_ds u) with (v_ds v). change (v_err u) with (v_err v).
    change (v_cur u) with (v_cur v). change (v_tkn u) with (v_tkn v). change (v_out u) with (v_out v). change (v_fwd u) with (v_fwd v).
    repeat match goal with |- _ /\ _ => split end; try reflexivity; try assumption; try apply HS; try apply W11.
  - exists s, []. unfold input_text. rewrite SU, CU. cbn. split; [left; split; [exact W14|reflexivity]|]. auto.
Qed.
Lemma load_evals v s u (Q : vm -> Prop) : set_source s v = Ok (tt, u) -> evals u Q -> exists fuel v', load_str fuel s v = Ok (tt, v') /\ Q v'.
Proof. intros H (n & u' & A & q). exists n, u'. split; [|exact q]. unfold load_str. rewrite (bind_Ok _ _ _ _ _ H). exact A. Qed.

Lemma ready_apart v c rs u : waiting U v -> ready U v c rs u -> shows U c u /\ same_apart U v u rs.
Proof.
  intros HW HR. destruct (ready_reading U v c rs u HW HR) as (_ & ID & LA & _). destruct HR as (H1 & H2 & H3 & H4 & H5 & H6 & H7 & H8 & H9 & H10 & H11 & H12 & H13 & H14).
  split; [exact H12|]. unfold same_apart. repeat (split; [assumption|]). apply LA.
Qed.

Lemma both_ways v n items c c' ts nm s cs s2 cs2 rs ic isc :
  waiting U v -> n <= 64 -> chain U v n items c c' -> Forall2 (stands_for v) ts items -> shows U c v -> stack_has (t_r (cur v)) rs -> zlen rs < n ->
  tokens s ts -> utf8_text s cs -> zlen s < 2 ^ 63 ->
  tokens s2 (b ":"%string :: nm :: ts ++ [b ";"%string; nm]) -> utf8_text s2 cs2 -> zlen s2 < 2 ^ 63 ->
  newest v nm None -> newest v (b ":"%string) (Some ic) -> w_action (word_of v ic) = P_colon -> w_co (word_of v ic) = false ->
  newest v (b ";"%string) (Some isc) -> w_action (word_of v isc) = P_semicolon -> w_imm (word_of v isc) = true ->
  here (v_ds v) + 24 + zlen nm + 24 * zlen items <= limit (v_ds v) ->
  (exists fuel v1, load_str fuel s v = Ok (tt, v1) /\ shows U c' v1 /\ same_apart U v v1 rs) /\
  (exists fuel v2, load_str fuel s2 v = Ok (tt, v2) /\ shows U c' v2 /\ same_apart U v v2 rs).
Proof.
  intros HW Hn HC HF HS HR HZ T1 U1 L1 T2 U2 L2 HN N1 N1a N1b N2 N2a N2b Hroom. pose proof HW as (_ & _ & _ & _ & (base & HB) & _). split.
  - destruct (source_set v s c rs HW HS HR L1) as (u & E1 & (RD & _) & I1). apply (load_evals v s u _ E1).
    destruct (interpret_chain U v n HW Hn items c c' HC ts u rs s cs HF RD I1 U1 T1 ltac:(lia)) as (m & u' & A & B). exists m, u'. split; [exact A|apply ready_apart; assumption].
  - destruct (source_set v s2 c rs HW HS HR L2) as (u & E1 & BE & I1). apply (load_evals v s2 u _ E1).
    apply (compiled_line v n items c c' ts nm s2 cs2 rs u base ic isc); assumption.
Qed.
End U.
End A.
