(** Compiling control structures: one statement for each. *)
From Coq Require Import ZArith List Bool Lia ZifyBool ZifyNat.
From Verif Require Import Base Stack Mem State CoreM Exec LBase LStack Spec Spec2 Spec4 Spec5 Spec6 Spec7
  LState LMem LMon LMemWords LTask LFuel LCode LComp LRun.
Import ListNotations.
Open Scope Z_scope.
Open Scope m_scope.

Lemma crosses_plain lim idx n : is_cell lim -> is_cell idx -> is_cell n -> is_cell (idx + n) ->
  (crosses lim idx n <-> idx <= lim - 1 /\ lim <= idx + n \/ idx + n <= lim - 1 /\ lim <= idx).
Proof.
  unfold crosses, is_cell. intros H1 H2 H3 H4. cbv zeta.
  destruct (Z_lt_le_dec idx lim).
  - replace ((idx - lim) mod 2 ^ 64) with (idx - lim + 2 ^ 64); [lia|].
    apply (Z.mod_unique_pos _ _ (-1)); lia.
  - rewrite Z.mod_small by lia. lia.
Qed.

Section C.
Context {E : Env}.
Implicit Types (v w : vm).
Variables (fuel : nat) (ew : Z -> M unit).
Notation act := (exec_prim fuel ew).

Lemma to_in l n m p v : compiles_to l n m p -> compiles_in (v_wl v) (v_refs v) l n m p.
Proof. intros H w _ _. apply H. Qed.

Ltac begin_c v := intros v HC HF; destruct (can_J _ _ _ HC) as (open & HJ & Hn & Hl & HR).
Ltac finish L := destruct L as (v' & E1 & D1); exists v'; split; [exact E1|eapply done_compiled; eassumption].

Lemma if_then_compiles l n m p : 0 <= n -> compiles_to l n m p ->
  compiles_to l (n + 1) (act P_imm_if ;;; m ;;; act P_imm_then) (IfThen p).
Proof. intros Hn0 H1. begin_c v. finish (c_if v HR fuel ew l n p m open (to_in _ _ _ _ v H1) Hn0 HJ Hn Hl HF). Qed.
Lemma if_else_compiles l n m1 m2 p q : 0 <= n -> compiles_to l n m1 p -> compiles_to l n m2 q ->
  compiles_to l (n + 1) (act P_imm_if ;;; m1 ;;; act P_imm_else ;;; m2 ;;; act P_imm_then) (IfElse p q).
Proof. intros Hn0 H1 H2. begin_c v. finish (c_else v HR fuel ew l n p q m1 m2 open (to_in _ _ _ _ v H1) (to_in _ _ _ _ v H2) Hn0 HJ Hn Hl HF). Qed.
Lemma until_compiles l n m p : 0 <= n -> compiles_to l n m p ->
  compiles_to l (n + 1) (act P_imm_begin ;;; m ;;; act P_imm_until) (Until p).
Proof. intros Hn0 H1. begin_c v. finish (c_until v HR fuel ew l n p m open (to_in _ _ _ _ v H1) Hn0 HJ Hn Hl HF). Qed.
Lemma again_compiles l n m p : 0 <= n -> compiles_to l n m p ->
  compiles_to l (n + 1) (act P_imm_begin ;;; m ;;; act P_imm_again) (Again p).
Proof. intros Hn0 H1. begin_c v. finish (c_again v HR fuel ew l n p m open (to_in _ _ _ _ v H1) Hn0 HJ Hn Hl HF). Qed.
Lemma while_compiles l n m1 m2 p q : 0 <= n -> compiles_to l (n + 1) m1 p -> compiles_to l n m2 q ->
  compiles_to l (n + 2) (act P_imm_begin ;;; m1 ;;; act P_imm_while ;;; m2 ;;; act P_imm_repeat) (While p q).
Proof. intros Hn0 H1 H2. begin_c v. finish (c_while v HR fuel ew l n p q m1 m2 open (to_in _ _ _ _ v H1) (to_in _ _ _ _ v H2) Hn0 HJ Hn Hl HF). Qed.
Lemma do_compiles l n (skip step : bool) m p : 0 <= n -> compiles_to true n m p ->
  compiles_to l (n + 1) (act (if skip then P_imm_qdo else P_imm_do) ;;; m ;;;
                         act (if step then P_imm_plus_loop else P_imm_loop)) (Do skip step p).
Proof. intros Hn0 H1. begin_c v. finish (c_do v HR fuel ew l n skip step p m open (to_in _ _ _ _ v H1) Hn0 HJ Hn Hl HF). Qed.
Lemma seq_compiles l n m1 m2 p q : 0 <= n -> compiles_to l n m1 p -> compiles_to l n m2 q ->
  compiles_to l n (m1 ;;; m2) (Seq p q).
Proof. intros Hn0 H1 H2. begin_c v. finish (c_seq v HR ew l n p q m1 m2 open (to_in _ _ _ _ v H1) (to_in _ _ _ _ v H2) Hn0 HJ Hn Hl HF). Qed.
Lemma num_compiles l n x : is_cell x -> compiles_to l n (compile_integer x) (Num x).
Proof. clear fuel ew. intros Hx. begin_c v. finish (c_num v HR (fun _ => ret tt) x open HJ Hx HF). Qed.
Lemma flo_compiles l n x : 0 <= x < 2 ^ 64 -> compiles_to l n (compile_float x) (Flo x).
Proof. clear fuel ew. intros Hx. begin_c v. finish (c_flo v HR (fun _ => ret tt) x open HJ Hx HF). Qed.

Lemma recurse_compiles l n v : can_compile l n v -> 0 < wl_len (v_wl v) ->
  here (v_ds v) + 8 <= limit (v_ds v) ->
  exists v', act P_imm_recurse v = Ok (tt, v') /\ compiled (Op (wl_len (v_wl v) - 1)) v v'.
Proof.
  intros HC HL HF. destruct (can_J _ _ _ HC) as (open & HJ & Hn & Hl & HR).
  finish (c_op v HR ew (wl_len (v_wl v) - 1) open (act P_imm_recurse) HJ ltac:(lia) HF
    ltac:(cbn [exec_prim]; unfold imm_recurse, gets; unfold bind at 1;
          rewrite (bind_Ok _ _ _ _ _ (chk_u64_ok (wl_len (v_wl v) - 1) v ltac:(destruct HR as [R1 _]; unfold two64; lia))); reflexivity)).
Qed.

(** Code that has been compiled can be run *)
Lemma compiled_holds p v v' : ds_ok (v_ds v) -> compiled p v v' -> fin p (here (v_ds v)) <= limit (v_ds v) ->
  holds (fun i => here (v_ds v) <= i < fin p (here (v_ds v))) v' p (here (v_ds v)).
Proof. clear fuel ew.
  intros (H1 & H2 & H3) (C1 & C2 & C3 & C4 & C5 & _) HF. split; [|split; [|exact C5]].
  - unfold addressable. rewrite C2, C3. lia.
  - rewrite C2, C3. lia.
Qed.
Lemma compiled_can l n p v v' : can_compile l n v -> 0 <= n -> compiled p v v' -> fin p (here (v_ds v)) <= limit (v_ds v) ->
  can_compile l n v'.
Proof. clear fuel ew.
  intros (H1 & H2 & H3 & open & H4 & H5 & H6) Hn (C1 & C2 & C3 & C4 & C5 & C6 & C7 & C8 & C9) HF.
  split; [|split; [|split]].
  - destruct H1 as (A1 & A2 & A3). unfold ds_ok. rewrite C1, C2, C3. pose proof (fin_ge v p (here (v_ds v))). lia.
  - destruct H2 as [R1 R2]. assert (HW : v_wl v' = v_wl v) by apply C9. assert (HF' : v_refs v' = v_refs v) by apply C9.
    split; [rewrite HW; exact R1|]. intros f q Hi. unfold word_is. rewrite HW, HF'. apply R2. exact Hi.
  - rewrite C7, C6. exact H3.
  - exists open. split; [apply C8; [lia|exact H4]|]. split; assumption.
Qed.

Lemma nesting l n p m v : (65 <= fuel)%nat ->
  source (v_wl v) (idx_over (v_refs v)) (idx_equal (v_refs v)) (idx_drop (v_refs v)) fuel ew l n p m ->
  can_compile l n v -> fin p (here (v_ds v)) <= limit (v_ds v) ->
  exists v', m v = Ok (tt, v') /\ compiled p v v' /\
    let h := here (v_ds v) in let K i := h <= i < fin p h in
    holds K v' p h /\
    forall u u', kept K v' u -> exec K p h u Next u' -> part K u h u' (fin p h).
Proof.
  intros Hf HS HC HF. destruct (compile_source fuel ew l n p m v Hf HS HC HF) as (v' & E1 & C1).
  exists v'. split; [exact E1|]. split; [exact C1|]. cbv zeta.
  pose proof (compiled_holds p v v' (proj1 HC) C1 HF) as HH. split; [exact HH|].
  intros u u' HK X. split; [|eapply exec_kept; exact X]. intros w HW.
  destruct (holds_kept _ _ _ _ _ HK HH) as (H1 & H2 & H3).
  exact (simulation _ _ _ _ _ _ _ X H1 H2 H3 HW).
Qed.

Lemma case_compiles l n cs dflt m1 m2 v : (65 <= fuel)%nat ->
  let wl := v_wl v in
  let o := idx_over (v_refs v) in let e := idx_equal (v_refs v) in let d := idx_drop (v_refs v) in
  source_of wl o e d fuel ew l n cs m1 -> source wl o e d fuel ew l (n - zlen cs) dflt m2 ->
  can_compile l (n + 1) v -> fin (Case o e d cs dflt) (here (v_ds v)) <= limit (v_ds v) ->
  exists v', (act P_imm_case ;;; m1 ;;; m2 ;;; act P_imm_endcase) v = Ok (tt, v') /\
    compiled (Case o e d cs dflt) v v'.
Proof.
  intros Hf wl o e d H1 H2 HC HF. apply (compile_source fuel ew l (n + 1)); [exact Hf|apply S_case; assumption|exact HC|exact HF].
Qed.

(** A word that only changes the data stack *)
Lemma op_s_run (K : Z -> Prop) p f v a i : holds K v (Op i) a -> word_is v i p ->
  (forall ew fuel, exec_prim fuel ew p = on_s f) -> part K v a (set_s (f (t_s (cur v))) v) (a + 8).
Proof. clear fuel ew.
  intros (HA & Ha & HL & Hi) HW Hp. split; [|apply kept_eq; reflexivity].
  eapply goes_word; [exact HA|exists i; split; [exact HL|split; [exact HW|lia]]|].
  intros ew0 f0 j. rewrite Hp. unfold on_s, modify, s_stk. rewrite s_at, set_s_at. reflexivity.
Qed.
Lemma i_run (K : Z -> Prop) v a i z lim idx rest : holds K v (Op i) a -> word_is v i P_p_i ->
  in_frame v z lim idx rest -> is_cell idx -> 0 <= len (t_s (cur v)) < 255 -> part K v a (add_s idx v) (a + 8).
Proof. clear fuel ew.
  intros (HA & Ha & HL & Hi) HW HF Hx Hs. split; [|apply kept_eq; reflexivity].
  eapply goes_word; [exact HA|exists i; split; [exact HL|split; [exact HW|lia]]|].
  intros ew0 f0 j. rewrite (i_ok f0 ew0 _ z lim idx rest); [|unfold in_frame; rewrite r_at; exact HF|exact Hx|rewrite s_at; exact Hs].
  unfold add_s. rewrite s_at, set_s_at. reflexivity.
Qed.
Lemma seq_run (K : Z -> Prop) p q v a v1 v2 : holds K v (Seq p q) a ->
  part K v a v1 (fin p a) -> part K v1 (fin p a) v2 (fin q (fin p a)) -> part K v a v2 (fin (Seq p q) a).
Proof. clear fuel ew. intros _ H1 H2. eapply part_trans; eassumption. Qed.
Lemma holds_seq (K : Z -> Prop) p q v a : holds K v (Seq p q) a -> holds K v p a /\ holds K v q (fin p a).
Proof. clear fuel ew.
  intros (HA & Ha & L1 & L2). pose proof (laid_range K _ _ _ L1 ltac:(lia)) as R.
  split; split; try assumption; (split; [lia|assumption]).
Qed.
End C.
