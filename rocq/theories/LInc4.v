(** INCLUDED and an empty file (C90). *)
From Coq Require Import ZArith List Bool Lia String ZifyBool ZifyNat.
From Verif Require Import Base Stack Mem Parser State CoreM IoM FileM Exec LBase LStack Spec Spec2 Spec4 Spec5 Spec6 Spec7 Spec9 Spec10 Spec11 Spec12 Spec14 Spec15 Spec16 Spec17 Spec19 Spec24 Spec25
  LState LMem LMon LMemWords LTask LFuel LCode LComp LRun LCtl LFloat LWords LLib LLibWords LSource LEval LNest LPrint Spec27 LShell LShell2 Spec28 LTrim LTrim2 LInc LInc2 Spec29.
Import ListNotations.
Open Scope list_scope.
Open Scope Z_scope.
Open Scope m_scope.

Section I.
Context {E : Env}.
Implicit Types (v w u : vm).
Lemma included_empty K R n m path o h l v xa x a d r f : shell K n v -> loader K n m v -> at_home m l v -> spare K n m v -> can_open R path o h [] a v ->
  stacks_are v (x :: xa :: d) r f -> addr_of xa a -> addr_of x (zlen path) -> zlen d <= 48 -> zlen r <= 56 ->
  (a + zlen path <= src_at m v \/ src_at m v + 272 <= a) ->
  does K v (l_included m) (fun v' => stacks_are v' d r f /\ source_of v' = source_of v /\ v_wl v' = v_wl v /\ v_out v' = v_out v /\
    st_compiling (st v') = st_compiling (st v) /\ here (v_ds v') = here (v_ds v) + 8 /\ cell_at (v_ds v') (here (v_ds v)) (ix n P_left_bracket)).
Proof.
  intros HSh HLo HA HSp HC HS Ha Hx Hd Hr HDj. pose proof HLo as (_ & _ & _ & _ & _ & _ & _ & _ & _ & _ & _ & _ & _ & (FS1 & FS2 & _) & (FL1 & FL2 & _) & DJ & _).
  eapply (does_conseq K); [|eapply (included_wp K R n m path o h [] l (fun u => exists id v1, opened n m o h path l d r f v id v1 /\ fetched R id [] [] v1 u)); try eassumption].
  - intros v' (id & w & _ & (id1 & v1 & HO & HF) & sr & d2 & ra2 & rb2 & r2 & f2 & C1 & C2 & C3 & C4 & C5 & C6 & C7 & C8 & C9). cbv beta.
    destruct HO as (fl & ss & ls & ra & rb & _ & _ & _ & _ & _ & _ & _ & A8 & _ & _ & A11 & A12 & A13 & A14 & _ & A15 & A16 & A17 & _).
    destruct HF as (sr1 & o1 & rd1 & _ & _ & F1 & F2 & F3 & F4 & _).
    match type of F4 with calm ?z _ => set (y := z) in * end.
    assert (SY : stacks_are y d (rb :: ra :: r) f) by (unfold stacks_are, y; rewrite cur_world; exact A15).
    destruct (stacks_inj _ _ _ _ _ _ _ (F1 _ _ _ SY) C2) as (<- & Er & <-). injection Er as <- <- <-.
    assert (DW : v_ds w = v_ds v1) by exact F2. assert (OW : v_out w = v_out v1) by exact F3. rewrite DW, OW in *.
    assert (WW : v_wl w = v_wl v) by (replace (v_wl w) with (v_wl y) by (symmetry; apply F4); change (v_wl y) with (v_wl v1); replace (v_wl v1) with (v_wl (set_sid id1 (world o fl ss ls v))) by (symmetry; apply A17); reflexivity).
    assert (SW : st_compiling (st w) = st_compiling (st v)).
    { replace (st_compiling (st w)) with (st_compiling (st y)) by (symmetry; apply F4). unfold y. rewrite st_world.
      replace (st_compiling (st v1)) with (st_compiling (st (set_sid id1 (world o fl ss ls v)))) by (symmetry; apply A17). unfold set_sid, set_st, st. rewrite cur_upd, cur_world. reflexivity. }
    assert (EA : src_at m w = src_at m v) by (unfold src_at, body, word_of; rewrite WW; reflexivity). rewrite EA in *.
    match type of C8 with calm ?z _ => set (zz := z) in * end.
    assert (SZ : st zz = set_st_sid (fst (source_of v)) (set_st_idx (snd (source_of v)) (st w))) by (unfold zz; rewrite st_world; unfold with_source; gnorm; reflexivity).
    split; [exact C3|]. split.
    { unfold source_of at 1. replace (st_sid (st v')) with (st_sid (st zz)) by (symmetry; apply C8). replace (st_idx (st v')) with (st_idx (st zz)) by (symmetry; apply C8). rewrite SZ. reflexivity. }
    split; [replace (v_wl v') with (v_wl zz) by (symmetry; apply C8); exact WW|]. split; [congruence|].
    split; [replace (st_compiling (st v')) with (st_compiling (st zz)) by (symmetry; apply C8); rewrite SZ; exact SW|].
    split; [congruence|]. destruct HSp as (_ & P2 & _). destruct A8 as (D1 & D2 & D3). eapply cell_keep; [exact C5| | |exact A12]; [rewrite A13; clear - P2 FS1; lia|clear - P2; lia].
  - intros id v1 HOp. constructor. intros u HF. exists id, v1. split; [exact HOp|exact HF].
Qed.
End I.
