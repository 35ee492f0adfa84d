(** Unbalanced control structures are rejected. *)
From Coq Require Import ZArith List Bool Lia.
From Verif Require Import Base Stack Mem State CoreM Exec Spec Spec4 Spec5 Spec6 Spec9
  LBase LStack LState LMem LMon LMemWords LTask LCode LLabel.
Import ListNotations.
Open Scope Z_scope.
Open Scope m_scope.

Section L.
Context {E : Env}.
Implicit Types (v u : vm).

(** [v] is [v0] with [n] bytes of code more and the open structures [S] *)
Definition adv v0 v (S : list control) n : Prop :=
  ds_ok (v_ds v) /\ start (v_ds v) = start (v_ds v0) /\ limit (v_ds v) = limit (v_ds v0) /\
  here (v_ds v) = here (v_ds v0) + n /\ v_wl v = v_wl v0 /\ v_refs v = v_refs v0 /\ v_handler v = v_handler v0 /\
  canary (t_c (cur v)) = CCanary /\ sget (t_c (cur v)) 255 = CCanary /\ stack_has (t_c (cur v)) S.

Lemma adv_emit v0 v S n x : adv v0 v S n -> here (v_ds v0) + n + 8 <= limit (v_ds v0) ->
  exists v', ds_upd (fun d => compile_cell d x) v = Ok (tt, v') /\ adv v0 v' S (n + 8).
Proof.
  intros (H1 & H2 & H3 & H4 & H5 & H6 & H7 & H8 & H9 & H10) HR.
  destruct (emit v x H1 ltac:(lia)) as (d & E1 & (G1 & G2 & G3 & G4 & _) & _). exists (set_v_ds d v). split; [exact E1|].
  unfold adv. cbn [v_ds set_v_ds]. repeat match goal with |- _ /\ _ => split end; first [assumption|congruence|lia].
Qed.
Lemma adv_emit2 v0 v S n f x : adv v0 v S n -> here (v_ds v0) + n + 16 <= limit (v_ds v0) ->
  exists v', (idx <- refs_get f ;; compile_word idx ;;; ds_upd (fun d => compile_cell d x)) v = Ok (tt, v') /\ adv v0 v' S (n + 16).
Proof.
  intros HA HR. unfold refs_get, compile_word. rewrite bind_gets.
  destruct (adv_emit v0 v S n (f (v_refs v)) HA ltac:(lia)) as (v1 & E1 & A1).
  rewrite (bind_Ok _ _ _ _ _ E1). destruct (adv_emit v0 v1 S (n + 8) x A1 ltac:(lia)) as (v2 & E2 & A2).
  exists v2. split; [exact E2|]. replace (n + 16) with (n + 8 + 8) by lia. exact A2.
Qed.
Lemma adv_emit2h v0 v S n f x {B} (k : Z -> M B) : adv v0 v S n -> here (v_ds v0) + n + 16 <= limit (v_ds v0) ->
  exists v', ((idx <- refs_get f ;; compile_word idx ;;; ds_upd (fun d => compile_cell d x) ;;; h <- gets (fun v => here (v_ds v)) ;; k h) v
    = k (here (v_ds v0) + n + 16) v') /\ adv v0 v' S (n + 16).
Proof.
  intros HA HR. unfold refs_get, compile_word. rewrite bind_gets.
  destruct (adv_emit v0 v S n (f (v_refs v)) HA ltac:(lia)) as (v1 & E1 & A1).
  destruct (adv_emit v0 v1 S (n + 8) x A1 ltac:(lia)) as (v2 & E2 & A2).
  exists v2. rewrite (bind_Ok _ _ _ _ _ E1), (bind_Ok _ _ _ _ _ E2), bind_gets.
  split; [|replace (n + 16) with (n + 8 + 8) by lia; exact A2].
  f_equal. destruct A2 as (_ & _ & _ & -> & _). lia.
Qed.
Lemma adv_branch v0 v S n f x {B} (k : Z -> M B) : adv v0 v S n -> here (v_ds v0) + n + 16 <= limit (v_ds v0) ->
  exists v', ((h <- (idx <- refs_get f ;; compile_word idx ;;; ds_upd (fun d => compile_cell d x) ;;; gets (fun v => here (v_ds v))) ;; k h) v
    = k (here (v_ds v0) + n + 16) v') /\ adv v0 v' S (n + 16).
Proof.
  intros HA HR. destruct (adv_emit2h v0 v S n f x ret HA HR) as (v1 & E1 & A1). exists v1. split; [|exact A1].
  assert (Q : (idx <- refs_get f ;; compile_word idx ;;; ds_upd (fun d => compile_cell d x) ;;; gets (fun v => here (v_ds v))) v
    = Ok (here (v_ds v0) + n + 16, v1)).
  { unfold ret in E1 at 2. rewrite <- E1. unfold bind. reflexivity. }
  apply (bind_Ok _ _ _ _ _ Q).
Qed.
Lemma adv_push v0 v S n x : adv v0 v S n -> zlen S < 255 ->
  exists v', c_push x v = Ok (tt, v') /\ adv v0 v' (x :: S) n.
Proof.
  intros (H1 & H2 & H3 & H4 & H5 & H6 & H7 & H8 & H9 & H10) HL. pose proof (stack_has_len _ _ H10) as HL'. pose proof (zlen_nonneg S).
  exists (set_c (push (t_c (cur v)) x) v). split; [reflexivity|].
  assert (Hp : push (t_c (cur v)) x = add_item (t_c (cur v)) x) by (apply add_item_push; lia).
  unfold adv. rewrite cur_set_c. cbn [t_c set_t_c]. do 7 (split; [assumption|]).
  rewrite Hp. split; [exact H8|]. split.
  - unfold add_item. rewrite sget_set_len. rewrite sget_sset_other by lia. exact H9.
  - rewrite <- Hp. apply push_has; assumption.
Qed.
Lemma adv_pop v0 v x S n : adv v0 v (x :: S) n ->
  exists v', c_pop v = Ok (x, v') /\ adv v0 v' S n /\ c_underflow v' = (128 <? zlen S).
Proof.
  intros (H1 & H2 & H3 & H4 & H5 & H6 & H7 & H8 & H9 & H10).
  pose proof (stack_has_len _ _ H10) as HL'. rewrite zlen_cons in HL'. pose proof (zlen_nonneg S).
  pose proof (pop_items _ _ _ H10) as P. destruct (pop_has _ _ _ H10) as (s' & P1 & P2 & _). rewrite P in P1. injection P1 as <-.
  exists (set_c (drop_items 1 (t_c (cur v))) v). split; [unfold c_pop, c_stk; rewrite P; reflexivity|]. split.
  - unfold adv. rewrite cur_set_c. cbn [t_c set_t_c]. do 7 (split; [assumption|]).
    split; [exact H8|]. split; [exact H9|exact P2].
  - unfold c_underflow, c_stk. rewrite cur_set_c. cbn [t_c set_t_c]. unfold underflow, drop_items. rewrite sget_set_len.
    cbn [canary set_len len]. rewrite H9, H8. cbn [control_eqb negb orb]. rewrite HL'. f_equal. lia.
Qed.
Lemma adv_pop0 v0 v n : adv v0 v [] n -> exists v', c_pop v = Ok (CCanary, v') /\ v_handler v' = v_handler v0.
Proof.
  intros (H1 & H2 & H3 & H4 & H5 & H6 & H7 & H8 & H9 & H10). pose proof (stack_has_len _ _ H10) as HL'. cbn in HL'.
  exists (set_c (set_len (t_c (cur v)) 255) v). split; [|exact H7]. unfold c_pop, c_stk, pop. rewrite HL'.
  change (w8sub 0 1) with 255. rewrite H9. reflexivity.
Qed.
Lemma adv_pop2 v0 v x y S n : adv v0 v (y :: x :: S) n ->
  exists v', c_pop2 v = Ok ((x, y), v') /\ adv v0 v' S n /\ c_underflow v' = (128 <? zlen S).
Proof.
  intros (H1 & H2 & H3 & H4 & H5 & H6 & H7 & H8 & H9 & H10).
  pose proof (stack_has_len _ _ H10) as HL'. rewrite !zlen_cons in HL'. pose proof (zlen_nonneg S).
  pose proof (pop2_items _ _ _ _ H10) as P. destruct (pop2_has _ _ _ _ H10) as (s' & P1 & P2 & _). rewrite P in P1. injection P1 as <-.
  exists (set_c (drop_items 2 (t_c (cur v))) v). split; [unfold c_pop2, c_stk; rewrite P; reflexivity|]. split.
  - unfold adv. rewrite cur_set_c. cbn [t_c set_t_c]. do 7 (split; [assumption|]).
    split; [exact H8|]. split; [exact H9|exact P2].
  - unfold c_underflow, c_stk. rewrite cur_set_c. cbn [t_c set_t_c]. unfold underflow, drop_items. rewrite sget_set_len.
    cbn [canary set_len len]. rewrite H9, H8. cbn [control_eqb negb orb]. rewrite HL'. f_equal. lia.
Qed.
(** with fewer than two items, one of those popped is the canary *)
Lemma adv_pop2_short v0 v S n : adv v0 v S n -> zlen S < 2 ->
  exists v' x y, c_pop2 v = Ok ((x, y), v') /\ v_handler v' = v_handler v0 /\ (x = CCanary \/ y = CCanary).
Proof.
  intros (H1 & H2 & H3 & H4 & H5 & H6 & H7 & H8 & H9 & H10) HS. pose proof (stack_has_len _ _ H10) as HL'.
  pose proof (zlen_nonneg S). unfold c_pop2, c_stk, pop2.
  eexists _, _, _. split; [reflexivity|]. split; [exact H7|]. rewrite HL'.
  assert (zlen S = 0 \/ zlen S = 1) as [-> | ->] by lia.
  - right. exact H9.
  - left. exact H9.
Qed.
Lemma adv_patch v0 v S n x p : adv v0 v S n -> start (v_ds v0) + 8 <= p <= here (v_ds v0) + n ->
  exists v', patch x p v = Ok (tt, v') /\ adv v0 v' S n.
Proof.
  intros (H1 & H2 & H3 & H4 & H5 & H6 & H7 & H8 & H9 & H10) Hp. pose proof H1 as (D1 & D2 & D3).
  destruct (put_cell_ok (v_ds v) x (p - 8)) as (d' & E1 & _ & (M1 & M2 & _) & Hh & _).
  { apply in_ds_true. lia. }
  exists (set_v_ds d' v). split.
  - unfold patch. rewrite (bind_Ok _ _ _ _ _ (chk_u64_ok (p - 8) v ltac:(unfold two64; lia))). apply ds_upd_eq. exact E1.
  - unfold adv. cbn [v_ds set_v_ds]. unfold ds_ok. rewrite M1, M2, Hh. repeat match goal with |- _ /\ _ => split end; first [assumption|lia].
Qed.

(** ** The outcomes of a word *)
Definition raises_m (m : (Z -> M unit) -> M unit) v0 v : Prop :=
  exists u v1 (k : (Z -> M unit) -> M unit), raised (-22) u v1 /\ v_handler u = v_handler v0 /\
    forall ew, m ew v = (ew (v_handler v0) ;;; k ew) v1.
Lemma bind_ret_r (m : M unit) v : (m ;;; ret tt) v = m v.
Proof. unfold bind. destruct (m v) as [[[] w]| | |]; reflexivity. Qed.
Lemma mismatch_raises v0 v : v_handler v = v_handler v0 -> raises_m (fun ew => mismatch ew) v0 v.
Proof.
  intro H. exists v, (aborted (-22) v), (fun _ => ret tt). split; [apply aborted_raised|]. split; [exact H|].
  intro ew. unfold mismatch. rewrite abort_with_eq, bind_ret_r, H. reflexivity.
Qed.
Definition valid v0 n (c : control) : Prop :=
  match c with
  | CIf p | CElse p | CWhile p | COf p | CEndof p => start (v_ds v0) + 8 <= p <= here (v_ds v0) + n
  | CDo p _ => start (v_ds v0) + 8 <= p <= here (v_ds v0) + n
  | _ => True
  end.
Definition fine v0 (m : (Z -> M unit) -> M unit) v S n : Prop :=
  exists v', (forall ew, m ew v = Ok (tt, v')) /\ adv v0 v' S n.
Lemma raises_step m m' v0 v v' : (forall ew, m ew v = m' ew v') -> raises_m m' v0 v' -> raises_m m v0 v.
Proof. intros H (u & v1 & k & A & B & C). exists u, v1, k. split; [exact A|]. split; [exact B|]. intro ew. rewrite H. apply C. Qed.
Lemma fine_step v0 m m' v v' S n : (forall ew, m ew v = m' ew v') -> fine v0 m' v' S n -> fine v0 m v S n.
Proof. intros H (w & A & B). exists w. split; [|exact B]. intro ew. rewrite H. apply A. Qed.


(** How the words change the open structures *)
Inductive trans : prim -> list control -> list control -> Prop :=
| T_if p S : trans P_imm_if S (CIf p :: S)
| T_else p q S : trans P_imm_else (CIf p :: S) (CElse q :: S)
| T_then p S : trans P_imm_then (CIf p :: S) S
| T_then' p S : trans P_imm_then (CElse p :: S) S
| T_begin p S : trans P_imm_begin S (CBegin p :: S)
| T_while p S : trans P_imm_while S (CWhile p :: S)
| T_repeat p q S : trans P_imm_repeat (CWhile p :: CBegin q :: S) S
| T_until p S : trans P_imm_until (CBegin p :: S) S
| T_again p S : trans P_imm_again (CBegin p :: S) S
| T_case S : trans P_imm_case S (CCase :: S)
| T_of c p S : c = CCase \/ (exists q, c = CEndof q) -> trans P_imm_of (c :: S) (COf p :: c :: S)
| T_endof p q S : trans P_imm_endof (COf p :: S) (CEndof q :: S)
| T_endcase rs S : trans P_imm_endcase (map CEndof rs ++ CCase :: S) S
| T_do p S : trans P_imm_do S (CDo p p :: S)
| T_qdo p S : trans P_imm_qdo S (CDo p p :: S)
| T_loop p q S : trans P_imm_loop (CDo p q :: S) S
| T_plus_loop p q S : trans P_imm_plus_loop (CDo p q :: S) S.

Inductive tag := TIf | TElse | TBegin | TWhile | TDo | TCase | TOf | TEndof | TBad.
Definition tags : list control -> list tag := map (fun c => match c with
  | CIf _ => TIf | CElse _ => TElse | CBegin _ => TBegin | CWhile _ => TWhile | CDo _ _ => TDo | CCase => TCase | COf _ => TOf
  | CEndof _ => TEndof | CDefault | CCanary => TBad end).
Fixpoint unclause (S : list tag) : option (list tag) :=
  match S with TEndof :: S' => unclause S' | TCase :: S' => Some S' | _ => None end.
Definition pstep (w : prim) (S : list tag) : option (list tag) :=
  match w, S with
  | P_imm_if, _ => Some (TIf :: S)
  | P_imm_else, TIf :: S' => Some (TElse :: S')
  | P_imm_then, (TIf | TElse) :: S' => Some S'
  | P_imm_begin, _ => Some (TBegin :: S)
  | P_imm_while, _ => Some (TWhile :: S)
  | P_imm_repeat, TWhile :: TBegin :: S' => Some S'
  | (P_imm_until | P_imm_again), TBegin :: S' => Some S'
  | P_imm_case, _ => Some (TCase :: S)
  | P_imm_of, (TCase | TEndof) :: _ => Some (TOf :: S)
  | P_imm_endof, TOf :: S' => Some (TEndof :: S')
  | P_imm_endcase, _ => unclause S
  | (P_imm_do | P_imm_qdo), _ => Some (TDo :: S)
  | (P_imm_loop | P_imm_plus_loop), TDo :: S' => Some S'
  | _, _ => None
  end.
Definition misfit (w : prim) (S : list control) : Prop := zlen S <= 64 -> pstep w (tags S) = None.
Lemma deep (S : list control) (P : Prop) : 64 < zlen S -> (zlen S <= 64 -> P).
Proof. intros H1 H2. exfalso. lia. Qed.
Definition outcome_of fuel (w : prim) v S : Prop :=
  (exists S' n, fine v (fun ew => exec_prim fuel ew w) v S' n /\ trans w S S' /\ 0 <= n /\ Forall (valid v n) S') \/
  raises_m (fun ew => exec_prim fuel ew w) v v /\ misfit w S.

Lemma valid_mono v n m c : n <= m -> valid v n c -> valid v m c.
Proof. intro H. destruct c; cbn; lia || auto. Qed.
Lemma valids_mono v n m S : n <= m -> Forall (valid v n) S -> Forall (valid v m) S.
Proof. intro H. apply Forall_impl. intro c. apply valid_mono. exact H. Qed.


(** The first step of a word that pops one item *)
Ltac popped HA S :=
  destruct S as [|c S];
  [ right; let w := fresh "w" in let E1 := fresh "E1" in let Hw := fresh "Hw" in
    destruct (adv_pop0 _ _ _ HA) as (w & E1 & Hw);
    (split; [|intros _; reflexivity]);
    eapply (raises_step _ (fun ew => mismatch ew)); [intro ew; cbn [exec_prim]; etransitivity; [apply (bind_Ok _ _ _ _ _ E1)|reflexivity]|apply mismatch_raises; exact Hw]
  | let w := fresh "w" in let E1 := fresh "E1" in let A1 := fresh "A1" in let U1 := fresh "U1" in
    destruct (adv_pop _ _ _ _ _ HA) as (w & E1 & A1 & U1);
    destruct c;
    try solve [right; split; [|intros _; reflexivity]; eapply (raises_step _ (fun ew => mismatch ew)); [intro ew; cbn [exec_prim]; etransitivity; [apply (bind_Ok _ _ _ _ _ E1)|reflexivity]|apply mismatch_raises; apply A1]];
    (destruct (128 <? zlen S) eqn:EL;
    [ right; split; [|solve [unfold misfit; apply deep; rewrite ?zlen_cons; clear -EL; lia]]; eapply (raises_step _ (fun ew => mismatch ew)); [|apply mismatch_raises; apply A1];
      intro ew; cbn [exec_prim]; etransitivity; [apply (bind_Ok _ _ _ _ _ E1)|]; cbv beta iota; rewrite bind_gets, U1; reflexivity
    | ]) ].


Ltac into E1 U1 := intro ew; cbn [exec_prim]; etransitivity; [apply (bind_Ok _ _ _ _ _ E1)|]; cbv beta iota; rewrite bind_gets, U1; reflexivity.

Section W.
Variables (fuel : nat) (v : vm).
Hypothesis HR : here (v_ds v) + 40 <= limit (v_ds v).
Notation H0 := (here (v_ds v)).

Lemma valid_new S n c : adv v v S 0 -> Forall (valid v 0) S -> 0 <= n -> valid v n c -> Forall (valid v n) (c :: S).
Proof. clear HR. intros _ HV Hn Hc. constructor; [exact Hc|]. eapply valids_mono; [|exact HV]. lia. Qed.
Lemma adv_low S : adv v v S 0 -> start (v_ds v) <= H0.
Proof. clear HR. intros ((D1 & D2 & D3) & _). lia. Qed.

Lemma if_outcome S : adv v v S 0 -> Forall (valid v 0) S -> zlen S < 254 -> outcome_of fuel P_imm_if v S.
Proof.
  intros HA HV HL. left. eexists _, 16. split; [|split; [apply T_if|]].
  - destruct (adv_branch v v S 0 idx_zero_branch 0 (fun h => c_push (CIf h)) HA ltac:(lia)) as (v1 & E2 & A2).
    destruct (adv_push _ _ _ _ (CIf (H0 + 0 + 16)) A2 ltac:(lia)) as (v2 & E3 & A3).
    exists v2. split; [|exact A3]. intro ew. etransitivity; [exact E2|exact E3].
  - split; [lia|]. apply (valid_new S 16 _ HA HV); [lia|]. pose proof (adv_low _ HA). cbn [valid]. lia.
Qed.
Lemma while_outcome S : adv v v S 0 -> Forall (valid v 0) S -> zlen S < 254 -> outcome_of fuel P_imm_while v S.
Proof.
  intros HA HV HL. left. eexists _, 16. split; [|split; [apply T_while|]].
  - destruct (adv_branch v v S 0 idx_zero_branch 0 (fun h => c_push (CWhile h)) HA ltac:(lia)) as (v1 & E2 & A2).
    destruct (adv_push _ _ _ _ (CWhile (H0 + 0 + 16)) A2 ltac:(lia)) as (v2 & E3 & A3).
    exists v2. split; [|exact A3]. intro ew. etransitivity; [exact E2|exact E3].
  - split; [lia|]. apply (valid_new S 16 _ HA HV); [lia|]. pose proof (adv_low _ HA). cbn [valid]. lia.
Qed.
Lemma begin_outcome S : adv v v S 0 -> Forall (valid v 0) S -> zlen S < 254 -> outcome_of fuel P_imm_begin v S.
Proof.
  intros HA HV HL. left. eexists _, 0. split; [|split; [apply T_begin|]].
  - destruct (adv_push _ _ _ _ (CBegin H0) HA ltac:(lia)) as (v2 & E3 & A3). exists v2. split; [|exact A3]. intro ew. exact E3.
  - split; [lia|]. apply (valid_new S 0 _ HA HV); [lia|]. exact I.
Qed.
Lemma case_outcome S : adv v v S 0 -> Forall (valid v 0) S -> zlen S < 254 -> outcome_of fuel P_imm_case v S.
Proof.
  intros HA HV HL. left. eexists _, 0. split; [|split; [apply T_case|]].
  - destruct (adv_push _ _ _ _ CCase HA ltac:(lia)) as (v2 & E3 & A3). exists v2. split; [|exact A3]. intro ew. exact E3.
  - split; [lia|]. apply (valid_new S 0 _ HA HV); [lia|]. exact I.
Qed.
Lemma do_outcome S : adv v v S 0 -> Forall (valid v 0) S -> zlen S < 254 -> outcome_of fuel P_imm_do v S.
Proof.
  intros HA HV HL. left. eexists _, 16. split; [|split; [apply T_do|]].
  - destruct (adv_emit2h v v S 0 idx_do 0 (fun h => c_push (CDo h h)) HA ltac:(lia)) as (v1 & E2 & A2).
    destruct (adv_push _ _ _ _ (CDo (H0 + 0 + 16) (H0 + 0 + 16)) A2 ltac:(lia)) as (v2 & E3 & A3).
    exists v2. split; [|exact A3]. intro ew. etransitivity; [exact E2|exact E3].
  - split; [lia|]. apply (valid_new S 16 _ HA HV); [lia|]. pose proof (adv_low _ HA). cbn [valid]. lia.
Qed.
Lemma qdo_outcome S : adv v v S 0 -> Forall (valid v 0) S -> zlen S < 254 -> outcome_of fuel P_imm_qdo v S.
Proof.
  intros HA HV HL. left. eexists _, 16. split; [|split; [apply T_qdo|]].
  - destruct (adv_emit2h v v S 0 idx_qdo 0 (fun h => c_push (CDo h h)) HA ltac:(lia)) as (v1 & E2 & A2).
    destruct (adv_push _ _ _ _ (CDo (H0 + 0 + 16) (H0 + 0 + 16)) A2 ltac:(lia)) as (v2 & E3 & A3).
    exists v2. split; [|exact A3]. intro ew. etransitivity; [exact E2|exact E3].
  - split; [lia|]. apply (valid_new S 16 _ HA HV); [lia|]. pose proof (adv_low _ HA). cbn [valid]. lia.
Qed.

Lemma else_outcome S : adv v v S 0 -> Forall (valid v 0) S -> zlen S < 254 -> outcome_of fuel P_imm_else v S.
Proof.
  intros HA HV HL. pose proof (adv_low _ HA) as HLo. popped HA S. left. apply Forall_cons_iff in HV as [HV1 HV2]. cbn [valid] in HV1. rewrite zlen_cons in HL.
  eexists _, 16. split; [|split; [apply T_else|]].
  - eapply (fine_step _ _ (fun ew => h <- compile_branch 0 ;; c_push (CElse h) ;;; patch h _)); [into E1 U1|].
    destruct (adv_branch v w S 0 idx_branch 0 (fun h => c_push (CElse h) ;;; patch h p) A1 ltac:(lia)) as (v1 & E2 & A2).
    destruct (adv_push _ _ _ _ (CElse (H0 + 0 + 16)) A2 ltac:(lia)) as (v2 & E3 & A3).
    destruct (adv_patch _ _ _ _ (H0 + 0 + 16) p A3 ltac:(lia)) as (v3 & E4 & A4).
    exists v3. split; [|exact A4]. intro ew. etransitivity; [exact E2|]. cbv beta. rewrite (bind_Ok _ _ _ _ _ E3). exact E4.
  - split; [lia|]. constructor; [|eapply valids_mono; [|exact HV2]; lia]. cbn [valid]. lia.
Qed.
Lemma endof_outcome S : adv v v S 0 -> Forall (valid v 0) S -> zlen S < 254 -> outcome_of fuel P_imm_endof v S.
Proof.
  intros HA HV HL. pose proof (adv_low _ HA) as HLo. popped HA S. left. apply Forall_cons_iff in HV as [HV1 HV2]. cbn [valid] in HV1. rewrite zlen_cons in HL.
  eexists _, 16. split; [|split; [apply T_endof|]].
  - eapply (fine_step _ _ (fun ew => h <- compile_branch 0 ;; c_push (CEndof h) ;;; patch h _)); [into E1 U1|].
    destruct (adv_branch v w S 0 idx_branch 0 (fun h => c_push (CEndof h) ;;; patch h p) A1 ltac:(lia)) as (v1 & E2 & A2).
    destruct (adv_push _ _ _ _ (CEndof (H0 + 0 + 16)) A2 ltac:(lia)) as (v2 & E3 & A3).
    destruct (adv_patch _ _ _ _ (H0 + 0 + 16) p A3 ltac:(lia)) as (v3 & E4 & A4).
    exists v3. split; [|exact A4]. intro ew. etransitivity; [exact E2|]. cbv beta. rewrite (bind_Ok _ _ _ _ _ E3). exact E4.
  - split; [lia|]. constructor; [|eapply valids_mono; [|exact HV2]; lia]. cbn [valid]. lia.
Qed.
Lemma then_outcome S : adv v v S 0 -> Forall (valid v 0) S -> zlen S < 254 -> outcome_of fuel P_imm_then v S.
Proof.
  intros HA HV HL. popped HA S; left; apply Forall_cons_iff in HV as [HV1 HV2]; cbn [valid] in HV1.
  - exists S, 0. split; [|split; [apply T_then|split; [lia|exact HV2]]].
    eapply (fine_step _ _ (fun ew => h <- gets (fun v => here (v_ds v)) ;; patch h _)); [into E1 U1|].
    destruct (adv_patch _ _ _ _ (here (v_ds w)) p A1 ltac:(lia)) as (v3 & E4 & A4).
    exists v3. split; [|exact A4]. intro ew. rewrite bind_gets. exact E4.
  - exists S, 0. split; [|split; [apply T_then'|split; [lia|exact HV2]]].
    eapply (fine_step _ _ (fun ew => h <- gets (fun v => here (v_ds v)) ;; patch h _)); [into E1 U1|].
    destruct (adv_patch _ _ _ _ (here (v_ds w)) p A1 ltac:(lia)) as (v3 & E4 & A4).
    exists v3. split; [|exact A4]. intro ew. rewrite bind_gets. exact E4.
Qed.
Lemma until_outcome S : adv v v S 0 -> Forall (valid v 0) S -> zlen S < 254 -> outcome_of fuel P_imm_until v S.
Proof.
  intros HA HV HL. popped HA S; left; apply Forall_cons_iff in HV as [HV1 HV2].
  exists S, 16. split; [|split; [apply T_until|split; [lia|eapply valids_mono; [|exact HV2]; lia]]].
  eapply (fine_step _ _ (fun ew => compile_zero_branch _ ;;; ret tt)); [into E1 U1|].
  destruct (adv_branch v w S 0 idx_zero_branch p (fun _ => ret tt) A1 ltac:(lia)) as (v1 & E2 & A2).
  exists v1. split; [|exact A2]. intro ew. exact E2.
Qed.
Lemma again_outcome S : adv v v S 0 -> Forall (valid v 0) S -> zlen S < 254 -> outcome_of fuel P_imm_again v S.
Proof.
  intros HA HV HL. popped HA S; left; apply Forall_cons_iff in HV as [HV1 HV2].
  exists S, 16. split; [|split; [apply T_again|split; [lia|eapply valids_mono; [|exact HV2]; lia]]].
  eapply (fine_step _ _ (fun ew => compile_branch _ ;;; ret tt)); [into E1 U1|].
  destruct (adv_branch v w S 0 idx_branch p (fun _ => ret tt) A1 ltac:(lia)) as (v1 & E2 & A2).
  exists v1. split; [|exact A2]. intro ew. exact E2.
Qed.
Lemma loop_outcome S : adv v v S 0 -> Forall (valid v 0) S -> zlen S < 254 -> outcome_of fuel P_imm_loop v S.
Proof.
  intros HA HV HL. popped HA S; left; apply Forall_cons_iff in HV as [HV1 HV2]; cbn [valid] in HV1.
  exists S, 16. split; [|split; [apply T_loop|split; [lia|eapply valids_mono; [|exact HV2]; lia]]].
  eapply (fine_step _ _ (fun ew => idx <- refs_get idx_loop ;; compile_word idx ;;; ds_upd (fun d => compile_cell d p) ;;;
      h <- gets (fun v => here (v_ds v)) ;; patch h p)); [into E1 U1|].
  destruct (adv_emit2h v w S 0 idx_loop p (fun h => patch h p) A1 ltac:(lia)) as (v1 & E2 & A2).
  destruct (adv_patch _ _ _ _ (H0 + 0 + 16) p A2 ltac:(lia)) as (v3 & E4 & A4).
  exists v3. split; [|exact A4]. intro ew. etransitivity; [exact E2|exact E4].
Qed.
Lemma plus_loop_outcome S : adv v v S 0 -> Forall (valid v 0) S -> zlen S < 254 -> outcome_of fuel P_imm_plus_loop v S.
Proof.
  intros HA HV HL. popped HA S; left; apply Forall_cons_iff in HV as [HV1 HV2]; cbn [valid] in HV1.
  exists S, 16. split; [|split; [apply T_plus_loop|split; [lia|eapply valids_mono; [|exact HV2]; lia]]].
  eapply (fine_step _ _ (fun ew => idx <- refs_get idx_plus_loop ;; compile_word idx ;;; ds_upd (fun d => compile_cell d p) ;;;
      h <- gets (fun v => here (v_ds v)) ;; patch h p)); [into E1 U1|].
  destruct (adv_emit2h v w S 0 idx_plus_loop p (fun h => patch h p) A1 ltac:(lia)) as (v1 & E2 & A2).
  destruct (adv_patch _ _ _ _ (H0 + 0 + 16) p A2 ltac:(lia)) as (v3 & E4 & A4).
  exists v3. split; [|exact A4]. intro ew. etransitivity; [exact E2|exact E4].
Qed.
Lemma repeat_outcome S : adv v v S 0 -> Forall (valid v 0) S -> zlen S < 254 -> outcome_of fuel P_imm_repeat v S.
Proof.
  intros HA HV HL. destruct (Z_lt_dec (zlen S) 2) as [H2|H2].
  - right. split; [|intros _; destruct S as [|[] [|c' S]]; try reflexivity; rewrite !zlen_cons in H2; pose proof (zlen_nonneg S); exfalso; lia]. destruct (adv_pop2_short _ _ _ _ HA H2) as (w & x & y & E1 & Hw & Hxy).
    eapply (raises_step _ (fun ew => mismatch ew)); [|apply mismatch_raises; exact Hw].
    intro ew. cbn [exec_prim]. etransitivity; [apply (bind_Ok _ _ _ _ _ E1)|]. cbv beta iota.
    destruct Hxy as [-> | ->]; [reflexivity|]. destruct x; reflexivity.
  - destruct S as [|c [|c' S]]; [cbn in H2; lia|cbn in H2; lia|].
    destruct (adv_pop2 _ _ _ _ _ _ HA) as (w & E1 & A1 & U1).
    destruct c; try solve [right; split; [|intros _; reflexivity]; eapply (raises_step _ (fun ew => mismatch ew)); [intro ew; cbn [exec_prim]; etransitivity; [apply (bind_Ok _ _ _ _ _ E1)|destruct c'; reflexivity]|apply mismatch_raises; apply A1]].
    destruct c'; try solve [right; split; [|intros _; reflexivity]; eapply (raises_step _ (fun ew => mismatch ew)); [intro ew; cbn [exec_prim]; etransitivity; [apply (bind_Ok _ _ _ _ _ E1)|reflexivity]|apply mismatch_raises; apply A1]].
    destruct (128 <? zlen S) eqn:EL.
    + right; split; [|solve [unfold misfit; apply deep; rewrite ?zlen_cons; clear -EL; lia]]; eapply (raises_step _ (fun ew => mismatch ew)); [|apply mismatch_raises; apply A1]. into E1 U1.
    + left. apply Forall_cons_iff in HV as [HV1 HV2]; cbn [valid] in HV1. apply Forall_cons_iff in HV2 as [HV2 HV3].
      exists S, 16. split; [|split; [apply T_repeat|split; [lia|eapply valids_mono; [|exact HV3]; lia]]].
      eapply (fine_step _ _ (fun ew => h <- compile_branch p0 ;; patch h p)); [into E1 U1|].
      destruct (adv_branch v w S 0 idx_branch p0 (fun h => patch h p) A1 ltac:(lia)) as (v1 & E2 & A2).
      destruct (adv_patch _ _ _ _ (H0 + 0 + 16) p A2 ltac:(lia)) as (v3 & E4 & A4).
      exists v3. split; [|exact A4]. intro ew. etransitivity; [exact E2|exact E4].
Qed.
Lemma of_outcome S : adv v v S 0 -> Forall (valid v 0) S -> zlen S < 254 -> outcome_of fuel P_imm_of v S.
Proof.
  intros HA HV HL. pose proof (adv_low _ HA) as HLo. destruct S as [|c S].
  - right. split; [|intros _; reflexivity]. destruct (adv_pop0 _ _ _ HA) as (w & E1 & Hw). eapply (raises_step _ (fun ew => mismatch ew)); [|apply mismatch_raises; exact Hw].
    intro ew; cbn [exec_prim]; etransitivity; [apply (bind_Ok _ _ _ _ _ E1)|reflexivity].
  - destruct (adv_pop _ _ _ _ _ HA) as (w & E1 & A1 & U1). rewrite zlen_cons in HL.
    assert (Hc : (c = CCase \/ exists q, c = CEndof q) \/ match c with CCase | CEndof _ => False | _ => True end).
    { destruct c; eauto. }
    destruct Hc as [Hc|Hc].
    2:{ right. split; [|intros _; destruct c; first [reflexivity|destruct Hc]]. eapply (raises_step _ (fun ew => mismatch ew)); [|apply mismatch_raises; apply A1].
        intro ew; cbn [exec_prim]; etransitivity; [apply (bind_Ok _ _ _ _ _ E1)|]. cbv beta zeta.
        destruct c; first [reflexivity|destruct Hc]. }
    destruct (adv_push _ _ _ _ c A1 ltac:(lia)) as (w1 & E2 & A2).
    assert (U2 : c_underflow w1 = (128 <? zlen S + 1)).
    { destruct A2 as (_ & _ & _ & _ & _ & _ & _ & B1 & B2 & B3). unfold c_underflow, c_stk, underflow. rewrite B1, B2.
      cbn [control_eqb negb orb]. rewrite (stack_has_len _ _ B3), zlen_cons. f_equal; lia. }
    set (go := fun ew => u <- gets c_underflow ;; if (u : bool) then mismatch ew else
      idx <- refs_get idx_over ;; compile_word idx ;;; idx <- refs_get idx_equal ;; compile_word idx ;;;
      h <- compile_zero_branch 0 ;; c_push (COf h) ;;; idx <- refs_get idx_drop ;; compile_word idx).
    assert (Hgo : forall ew, exec_prim fuel ew P_imm_of v = go ew w1).
    { intro ew. cbn [exec_prim]. etransitivity; [apply (bind_Ok _ _ _ _ _ E1)|]. cbv beta zeta.
      destruct Hc as [->|[q ->]]; etransitivity; [apply (bind_Ok _ _ _ _ _ E2)|reflexivity|apply (bind_Ok _ _ _ _ _ E2)|reflexivity]. }
    destruct (128 <? zlen S + 1) eqn:EL.
    + right. split; [|solve [unfold misfit; apply deep; rewrite ?zlen_cons; clear -EL; lia]]. eapply (raises_step _ (fun ew => mismatch ew)); [|apply mismatch_raises; apply A2].
      intro ew. rewrite Hgo. unfold go. rewrite bind_gets, U2. reflexivity.
    + left. eexists _, 40. split; [|split; [apply T_of; exact Hc|]].
      * destruct (adv_emit _ _ _ _ (idx_over (v_refs w1)) A2 ltac:(lia)) as (v1 & E3 & A3).
        destruct (adv_emit _ _ _ _ (idx_equal (v_refs v1)) A3 ltac:(lia)) as (v2 & E4 & A4).
        destruct (adv_branch v v2 (c :: S) (0 + 8 + 8) idx_zero_branch 0 (fun h => c_push (COf h) ;;; idx <- refs_get idx_drop ;; compile_word idx) A4 ltac:(lia)) as (v3 & E5 & A5).
        destruct (adv_push _ _ _ _ (COf (H0 + (0 + 8 + 8) + 16)) A5 ltac:(rewrite zlen_cons; lia)) as (v4 & E6 & A6).
        destruct (adv_emit _ _ _ _ (idx_drop (v_refs v4)) A6 ltac:(lia)) as (v5 & E7 & A7).
        exists v5. split; [|exact A7]. intro ew. rewrite Hgo. unfold go. rewrite bind_gets, U2.
        unfold refs_get at 1. rewrite bind_gets. unfold compile_word at 1. rewrite (bind_Ok _ _ _ _ _ E3).
        unfold refs_get at 1. rewrite bind_gets. unfold compile_word at 1. rewrite (bind_Ok _ _ _ _ _ E4).
        etransitivity; [exact E5|]. cbv beta. rewrite (bind_Ok _ _ _ _ _ E6). unfold refs_get. rewrite bind_gets. exact E7.
      * split; [lia|]. constructor; [cbn [valid]; lia|]. eapply valids_mono; [|exact HV]. lia.
Qed.
Lemma endcase_outcome0 S : forall f w n, adv v w S n -> Forall (valid v n) S -> (length S < f)%nat ->
  (exists rs S0, S = map CEndof rs ++ CCase :: S0 /\ fine v (fun ew => endcase_loop ew f) w S0 n) \/
  (raises_m (fun ew => endcase_loop ew f) v w /\ (zlen S <= 64 -> unclause (tags S) = None)).
Proof.
  clear HR. induction S as [|c S IH]; intros f w n HA HV Hf; (destruct f as [|f]; [cbn in Hf; lia|]).
  - right. split; [|intros _; reflexivity]. destruct (adv_pop0 _ _ _ HA) as (w1 & E1 & Hw). eapply (raises_step _ (fun ew => mismatch ew)); [|apply mismatch_raises; exact Hw].
    intro ew; cbn [endcase_loop]; etransitivity; [apply (bind_Ok _ _ _ _ _ E1)|reflexivity].
  - destruct (adv_pop _ _ _ _ _ HA) as (w1 & E1 & A1 & U1). apply Forall_cons_iff in HV as [HV1 HV2].
    destruct c; try solve [right; split; [|intros _; reflexivity]; eapply (raises_step _ (fun ew => mismatch ew)); [intro ew; cbn [endcase_loop]; etransitivity; [apply (bind_Ok _ _ _ _ _ E1)|reflexivity]|apply mismatch_raises; apply A1]].
    + (* case *) destruct (128 <? zlen S) eqn:EL.
      * right. split; [|solve [unfold misfit; apply deep; rewrite ?zlen_cons; clear -EL; lia]]. eapply (raises_step _ (fun ew => mismatch ew)); [|apply mismatch_raises; apply A1].
        intro ew; cbn [endcase_loop]; etransitivity; [apply (bind_Ok _ _ _ _ _ E1)|]. cbv beta iota. rewrite bind_gets, U1. reflexivity.
      * left. exists [], S. split; [reflexivity|]. exists w1. split; [|exact A1].
        intro ew; cbn [endcase_loop]; etransitivity; [apply (bind_Ok _ _ _ _ _ E1)|]. cbv beta iota. rewrite bind_gets, U1. reflexivity.
    + (* endof *) cbn [valid] in HV1. destruct (128 <? zlen S) eqn:EL.
      * right. split; [|solve [unfold misfit; apply deep; rewrite ?zlen_cons; clear -EL; lia]]. exists w1, (aborted (-22) w1), (fun ew => endcase_loop ew f). split; [apply aborted_raised|]. split; [apply A1|].
        intro ew; cbn [endcase_loop]; etransitivity; [apply (bind_Ok _ _ _ _ _ E1)|]. cbv beta iota. rewrite bind_gets, U1.
        unfold bind, mismatch. rewrite abort_with_eq. destruct A1 as (_ & _ & _ & _ & _ & _ & -> & _). reflexivity.
      * destruct (adv_patch _ _ _ _ (here (v_ds w1)) p A1 HV1) as (w2 & E2 & A2).
        destruct (IH f w2 n A2 HV2 ltac:(cbn in Hf; lia)) as [(rs & S0 & -> & HF)|HF].
        -- left. exists (p :: rs), S0. split; [reflexivity|]. eapply fine_step; [|exact HF].
           intro ew; cbn [endcase_loop]; etransitivity; [apply (bind_Ok _ _ _ _ _ E1)|]. cbv beta iota.
           rewrite bind_gets, U1. apply (bind_Ok _ (fun _ => endcase_loop ew f) _ tt). rewrite bind_gets. exact E2.
        -- right. destruct HF as [HF HF2]. split; [|intro HL'; rewrite zlen_cons in HL'; apply HF2; lia]. eapply raises_step; [|exact HF].
           intro ew; cbn [endcase_loop]; etransitivity; [apply (bind_Ok _ _ _ _ _ E1)|]. cbv beta iota.
           rewrite bind_gets, U1. apply (bind_Ok _ (fun _ => endcase_loop ew f) _ tt). rewrite bind_gets. exact E2.
Qed.
Lemma endcase_outcome S : adv v v S 0 -> Forall (valid v 0) S -> zlen S < 254 -> (256 <= fuel)%nat -> outcome_of fuel P_imm_endcase v S.
Proof.
  intros HA HV HL HF. destruct (adv_emit _ _ _ _ (idx_drop (v_refs v)) HA ltac:(lia)) as (v1 & E1 & A1).
  assert (Hg : forall ew, exec_prim fuel ew P_imm_endcase v = endcase_loop ew fuel v1).
  { intro ew. cbn [exec_prim]. unfold imm_endcase, refs_get, compile_word. rewrite bind_gets. rewrite (bind_Ok _ _ _ _ _ E1). reflexivity. }
  pose proof (valids_mono v 0 (0 + 8) S ltac:(lia) HV) as HV'.
  destruct (endcase_outcome0 S fuel v1 (0 + 8) A1 HV') as [(rs & S0 & -> & HF')|HF'].
  { unfold zlen in HL. lia. }
  - left. exists S0, (0 + 8). split; [apply (fine_step _ _ (fun ew => endcase_loop ew fuel) _ v1); [exact Hg|exact HF']|]. split; [apply T_endcase|]. split; [lia|].
    apply Forall_app in HV' as [_ HV']. apply Forall_cons_iff in HV' as [_ HV']. exact HV'.
  - right. destruct HF' as [HF' HF2]. split; [|exact HF2]. apply (raises_step _ (fun ew => endcase_loop ew fuel) _ _ v1); [exact Hg|exact HF'].
Qed.

Lemma any_outcome w S : In w structure_words -> adv v v S 0 -> Forall (valid v 0) S -> zlen S < 254 -> (256 <= fuel)%nat -> outcome_of fuel w v S.
Proof.
  intros Hw HA HV HL HF. unfold structure_words in Hw. cbn [In] in Hw.
  repeat (destruct Hw as [<-|Hw]; [auto using if_outcome, else_outcome, then_outcome, begin_outcome, while_outcome, repeat_outcome,
    until_outcome, again_outcome, case_outcome, of_outcome, endof_outcome, endcase_outcome, do_outcome, qdo_outcome, loop_outcome, plus_loop_outcome|]).
  destruct Hw.
Qed.
End W.

(** ** Open structures and nesting *)
Definition head (c : control) (h : list prim) : Prop :=
  match c with
  | CIf _ => h = [P_imm_if]
  | CElse _ => exists a, nested a /\ h = [P_imm_if] ++ a ++ [P_imm_else]
  | CBegin _ => h = [P_imm_begin]
  | CWhile _ => h = [P_imm_while]
  | CDo _ _ => h = [P_imm_do] \/ h = [P_imm_qdo]
  | CCase => h = [P_imm_case]
  | COf _ => h = [P_imm_of]
  | CEndof _ => exists a, nested a /\ h = [P_imm_of] ++ a ++ [P_imm_endof]
  | _ => False
  end.
Fixpoint opened (S : list control) (ws : list prim) : Prop :=
  match S with
  | [] => nested ws
  | c :: S' => exists ws1 h a, ws = ws1 ++ h ++ a /\ opened S' ws1 /\ head c h /\ nested a
  end.
Lemma opened_app S ws b : opened S ws -> nested b -> opened S (ws ++ b).
Proof.
  destruct S as [|c S]; cbn [opened].
  - intros. apply N_app; assumption.
  - intros (ws1 & h & a & -> & H1 & H2 & H3) Hb. exists ws1, h, (a ++ b).
    split; [rewrite <- !app_assoc; reflexivity|]. split; [exact H1|]. split; [exact H2|]. apply N_app; assumption.
Qed.
Lemma opened_push S ws c w : opened S ws -> head c [w] -> opened (c :: S) (ws ++ [w]).
Proof.
  intros H1 H2. exists ws, [w], []. split; [reflexivity|]. split; [exact H1|]. split; [exact H2|apply N_nil].
Qed.
Lemma opened_close S ws c w : opened (c :: S) ws -> (forall h a, head c h -> nested a -> nested (h ++ a ++ [w])) -> opened S (ws ++ [w]).
Proof.
  intros (ws1 & h & a & -> & H1 & H2 & H3) H. replace ((ws1 ++ h ++ a) ++ [w]) with (ws1 ++ (h ++ a ++ [w])) by (rewrite <- !app_assoc; reflexivity).
  apply opened_app; [exact H1|]. apply H; assumption.
Qed.
Lemma opened_change S ws c c' w : opened (c :: S) ws -> (forall h a, head c h -> nested a -> head c' (h ++ a ++ [w])) -> opened (c' :: S) (ws ++ [w]).
Proof.
  intros (ws1 & h & a & -> & H1 & H2 & H3) H. exists ws1, (h ++ a ++ [w]), [].
  split; [rewrite app_nil_r, <- !app_assoc; reflexivity|]. split; [exact H1|]. split; [apply H; assumption|apply N_nil].
Qed.
Lemma clauses_app a b : clauses a -> clauses b -> clauses (a ++ b).
Proof.
  intro H. induction H as [|x p cs Hx Hp Hc IH]; intro Hb; [exact Hb|].
  replace ((x ++ [P_imm_of] ++ p ++ [P_imm_endof] ++ cs) ++ b) with (x ++ [P_imm_of] ++ p ++ [P_imm_endof] ++ (cs ++ b)) by (rewrite <- !app_assoc; reflexivity).
  apply Cl_of; auto.
Qed.
Lemma opened_clauses rs S : forall ws, opened (map CEndof rs ++ CCase :: S) ws ->
  exists ws1 cs d, ws = ws1 ++ [P_imm_case] ++ cs ++ d /\ opened S ws1 /\ clauses cs /\ nested d.
Proof.
  induction rs as [|r rs IH]; cbn [map app opened]; intros ws (ws1 & h & a & -> & H1 & H2 & H3).
  - cbn [head] in H2. subst h. exists ws1, [], a. split; [reflexivity|]. split; [exact H1|]. split; [apply Cl_nil|exact H3].
  - cbn [head] in H2. destruct H2 as (p & Hp & ->). destruct (IH ws1 H1) as (ws2 & cs & d & -> & G1 & G2 & G3).
    exists ws2, (cs ++ (d ++ [P_imm_of] ++ p ++ [P_imm_endof] ++ [])), a.
    split; [rewrite <- !app_assoc; cbn [app]; rewrite <- ?app_assoc; reflexivity|]. split; [exact G1|]. split; [|exact H3].
    apply clauses_app; [exact G2|]. apply Cl_of; [exact G3|exact Hp|apply Cl_nil].
Qed.
Lemma trans_opened w S S' ws : trans w S S' -> opened S ws -> opened S' (ws ++ [w]).
Proof.
  intros HT HO. destruct HT;
    try solve [apply opened_push; [exact HO|cbn [head]; auto]].
  - eapply opened_change; [exact HO|]. intros h a -> Ha. exists a. auto.
  - eapply opened_close; [exact HO|]. intros h a -> Ha. apply N_then. exact Ha.
  - eapply opened_close; [exact HO|]. intros h a (b & Hb & ->) Ha. rewrite <- !app_assoc. apply N_else; assumption.
  - destruct HO as (ws1 & h & b & -> & (ws2 & h' & a & -> & H1 & H2 & H3) & H4 & H5). cbn [head] in H2, H4. subst h h'.
    replace (((ws2 ++ [P_imm_begin] ++ a) ++ [P_imm_while] ++ b) ++ [P_imm_repeat]) with
      (ws2 ++ ([P_imm_begin] ++ a ++ [P_imm_while] ++ b ++ [P_imm_repeat])) by (rewrite <- !app_assoc; reflexivity).
    apply opened_app; [exact H1|]. apply N_repeat; assumption.
  - eapply opened_close; [exact HO|]. intros h a -> Ha. apply N_until. exact Ha.
  - eapply opened_close; [exact HO|]. intros h a -> Ha. apply N_again. exact Ha.
  - eapply opened_change; [exact HO|]. intros h a -> Ha. exists a. auto.
  - destruct (opened_clauses _ _ _ HO) as (ws1 & cs & d & -> & H1 & H2 & H3).
    replace ((ws1 ++ [P_imm_case] ++ cs ++ d) ++ [P_imm_endcase]) with (ws1 ++ ([P_imm_case] ++ cs ++ d ++ [P_imm_endcase])) by (rewrite <- !app_assoc; reflexivity).
    apply opened_app; [exact H1|]. apply N_case; assumption.
  - eapply opened_close; [exact HO|]. intros h a [->| ->] Ha; apply N_loop; cbn [In]; auto.
  - eapply opened_close; [exact HO|]. intros h a [->| ->] Ha; apply N_loop; cbn [In]; auto.
Qed.

(** ** The nesting is unambiguous: a pushdown recogniser *)
Fixpoint prun (ws : list prim) (S : list tag) : option (list tag) :=
  match ws with
  | [] => Some S
  | w :: ws' => match pstep w S with Some S' => prun ws' S' | None => None end
  end.
Lemma prun_app a b S : prun (a ++ b) S = match prun a S with Some S' => prun b S' | None => None end.
Proof. revert S. induction a as [|w a IH]; intro S; [reflexivity|]. cbn [app prun]. destruct (pstep w S); [apply IH|reflexivity]. Qed.
Lemma unclause_endofs rs S : unclause (tags (map CEndof rs ++ CCase :: S)) = Some (tags S).
Proof. induction rs as [|r rs IH]; [reflexivity|exact IH]. Qed.
Lemma trans_pstep w S S' : trans w S S' -> pstep w (tags S) = Some (tags S').
Proof.
  destruct 1; try reflexivity.
  - destruct H as [->|[q ->]]; reflexivity.
  - cbn [pstep]. apply unclause_endofs.
Qed.
Lemma unclause_rep n S : unclause (repeat TEndof n ++ TCase :: S) = Some S.
Proof. induction n as [|n IH]; [reflexivity|exact IH]. Qed.
Scheme nested_mut := Induction for nested Sort Prop with clauses_mut := Induction for clauses Sort Prop.
Lemma nested_prun ws : nested ws -> forall S, prun ws S = Some S.
Proof.
  intro H. induction H using nested_mut with
    (P0 := fun cs _ => forall n S, exists m, prun cs (repeat TEndof n ++ TCase :: S) = Some (repeat TEndof m ++ TCase :: S));
    try intro S0.
  - reflexivity.
  - rewrite prun_app, IHnested1. apply IHnested2.
  - cbn [app prun pstep]. rewrite prun_app, IHnested. reflexivity.
  - cbn [app prun pstep]. rewrite prun_app, IHnested1. cbn [app prun pstep]. rewrite prun_app, IHnested2. reflexivity.
  - cbn [app prun pstep]. rewrite prun_app, IHnested. reflexivity.
  - cbn [app prun pstep]. rewrite prun_app, IHnested. reflexivity.
  - cbn [app prun pstep]. rewrite prun_app, IHnested1. cbn [app prun pstep]. rewrite prun_app, IHnested2. reflexivity.
  - cbn [In] in *. destruct i as [<-|[<-|[]]]; destruct i0 as [<-|[<-|[]]]; cbn [app prun pstep]; rewrite prun_app, IHnested; reflexivity.
  - cbn [app prun pstep]. rewrite prun_app. destruct (IHnested O S0) as (m & E1). cbn [repeat app] in E1. rewrite E1, prun_app, IHnested0.
    cbn [prun pstep]. rewrite unclause_rep. reflexivity.
  - intro S. exists S0. reflexivity.
  - intro S. rename S0 into n. rewrite prun_app, IHnested1. cbn [app prun].
    replace (pstep P_imm_of (repeat TEndof n ++ TCase :: S)) with (Some (TOf :: repeat TEndof n ++ TCase :: S)) by (destruct n; reflexivity).
    rewrite prun_app, IHnested2. cbn [app prun pstep]. exact (IHnested3 (Datatypes.S n) S).
Qed.

(** ** The properties *)
Definition cinv ws v : Prop :=
  compiler_ready v /\ exists S, adv v v S 0 /\ Forall (valid v 0) S /\ opened S ws /\ prun ws [] = Some (tags S).
Lemma adv_here v0 v S n : adv v0 v S n -> adv v v S 0.
Proof. intros (H1 & H2 & H3 & H4 & H5 & H6 & H7 & H8 & H9 & H10). unfold adv. repeat match goal with |- _ /\ _ => split end; first [assumption|reflexivity|lia]. Qed.
Lemma valid_here v0 v S n : adv v0 v S n -> forall l, Forall (valid v0 n) l -> Forall (valid v 0) l.
Proof.
  intros (H1 & H2 & H3 & H4 & _) l. apply Forall_impl. intros c Hc. destruct c; cbn [valid] in *; auto; rewrite H2, H4; lia.
Qed.
(** What a check of the stacks tells *)
Lemma check_quiet fuel v : quiet fuel P_check_stacks v v -> c_overflow v = false /\ c_underflow v = false.
Proof.
  intro H. specialize (H (fun _ _ => UB)). cbn [exec_prim] in H. unfold check_stacks in H. unfold bind at 1 in H. cbn [get] in H.
  destruct (s_overflow v); [rewrite abort_with_eq in H; discriminate H|]. destruct (s_underflow v); [rewrite abort_with_eq in H; discriminate H|].
  destruct (r_overflow v); [rewrite abort_with_eq in H; discriminate H|]. destruct (r_underflow v); [rewrite abort_with_eq in H; discriminate H|].
  destruct (c_overflow v); [rewrite abort_with_eq in H; discriminate H|]. destruct (c_underflow v); [rewrite abort_with_eq in H; discriminate H|].
  auto.
Qed.
Lemma check_len fuel v : quiet fuel P_check_stacks v v -> len (t_c (cur v)) <= 64.
Proof.
  intro H. destruct (check_quiet _ _ H) as [H1 H2]. unfold c_overflow, c_underflow, overflow, underflow, c_stk in *.
  apply orb_false_iff in H1 as [_ H1]. apply orb_false_iff in H2 as [_ H2]. lia.
Qed.
Lemma so_far_len fuel ws v : so_far fuel ws v -> len (t_c (cur v)) <= 64.
Proof.
  induction 1 as [v H1 H2 H3 H4 H5 | ws w v v' H IH Hw HR HQ HK | ws v v' H IH H1 H2 H3 H4 H5 H6].
  - lia.
  - eapply check_len; exact HK.
  - rewrite H1. exact IH.
Qed.
Lemma so_far_inv fuel ws v : (256 <= fuel)%nat -> so_far fuel ws v -> cinv ws v.
Proof.
  intro HF. induction 1 as [v H1 H2 H3 H4 H5 | ws w v v' H IH Hw HR HQ HK | ws v v' H IH H1 H2 H3 H4 H5 H6].
  - split; [exact H2|]. exists []. split; [|split; [constructor|split; [apply N_nil|reflexivity]]].
    unfold adv. repeat match goal with |- _ /\ _ => split end; first [assumption|reflexivity|lia|idtac].
    split; [exact H3|]. split; [cbn; lia|]. intros [|k] x Hx; discriminate Hx.
  - destruct IH as (HC & S & HA & HV & HO & HP).
    assert (HS : len (t_c (cur v)) = zlen S) by (destruct HA as (_ & _ & _ & _ & _ & _ & _ & _ & _ & HA); exact (stack_has_len _ _ HA)).
    pose proof (so_far_len _ _ _ H) as HL.
    destruct (any_outcome fuel v HR w S Hw HA HV ltac:(lia) HF) as [(S' & n & (w' & E1 & A1) & HT & Hn & HV')|((u & v1 & k & _ & _ & E1) & _)].
    + pose proof (E1 (fun _ => ret tt)) as E2. rewrite (HQ (fun _ => ret tt)) in E2. injection E2 as ->.
      split.
      * destruct A1 as (_ & _ & _ & _ & A1 & A2 & _). eapply ready_eq; eassumption.
      * exists S'. split; [eapply adv_here; exact A1|]. split; [eapply valid_here; eassumption|]. split; [eapply trans_opened; eassumption|].
        rewrite prun_app, HP. cbn [prun]. rewrite (trans_pstep _ _ _ HT). reflexivity.
    + exfalso. specialize (E1 (fun _ _ => UB)). rewrite HQ in E1. discriminate E1.
  - destruct IH as (HC & S & HA & HV & HO & HP). split; [exact H6|]. exists S.
    destruct HA as (A1 & A2 & A3 & A4 & A5 & A6 & A7 & A8 & A9 & A10).
    split; [|split; [|split; [exact HO|exact HP]]].
    + unfold adv. rewrite H1. repeat match goal with |- _ /\ _ => split end; first [assumption|reflexivity|lia].
    + eapply Forall_impl; [|exact HV]. intros c Hc. destruct c; cbn [valid] in *; auto; rewrite H3; lia.
Qed.

Lemma semicolon_rejects fuel ws v f : (256 <= fuel)%nat -> so_far fuel ws v -> ~ nested ws ->
  exists v1, raised (-22) v v1 /\ forall ew,
    exec_prim f ew P_semicolon v = (ew (v_handler v) ;;; exec_prim f ew P_left_bracket) v1.
Proof.
  intros HF HS HN. destruct (so_far_inv fuel ws v HF HS) as (_ & S & HA & _ & HO & _).
  exists (aborted (-22) v). split; [apply aborted_raised|]. intro ew. cbn [exec_prim]. unfold semicolon. rewrite !bind_gets.
  destruct HA as (_ & _ & _ & _ & _ & _ & _ & _ & _ & HA). unfold c_stk. rewrite (stack_has_len _ _ HA).
  destruct S as [|c S]; [contradiction|]. rewrite zlen_cons. pose proof (zlen_nonneg S).
  replace (zlen S + 1 =? 0) with false by lia. cbn [negb].
  unfold bind, mismatch. rewrite abort_with_eq. reflexivity.
Qed.
Lemma word_raises_or_goes_on fuel ws v w : (256 <= fuel)%nat -> so_far fuel ws v -> In w structure_words ->
  here (v_ds v) + 40 <= limit (v_ds v) ->
  (exists v', quiet fuel w v v') \/ raises fuel (-22) w v.
Proof.
  intros HF HS Hw HR. pose proof (so_far_len _ _ _ HS) as HL. destruct (so_far_inv fuel ws v HF HS) as (_ & S & HA & HV & HO & _).
  assert (HS' : len (t_c (cur v)) = zlen S) by (destruct HA as (_ & _ & _ & _ & _ & _ & _ & _ & _ & HA); exact (stack_has_len _ _ HA)).
  destruct (any_outcome fuel v HR w S Hw HA HV ltac:(lia) HF) as [(S' & n & (w' & E1 & A1) & _)|[H _]].
  - left. exists w'. exact E1.
  - right. exact H.
Qed.
(** [;] always ends in interpretation state *)
Lemma semicolon_interprets f ew v v' : exec_prim f ew P_semicolon v = Ok (tt, v') -> st_compiling (st v') = false.
Proof.
  cbn [exec_prim]. unfold semicolon. rewrite !bind_gets. intro H. apply bind_inv in H as (a & v1 & _ & H).
  unfold left_bracket, modify in H. injection H as <-. gnorm. reflexivity.
Qed.
Lemma nested_closed fuel ws v : (256 <= fuel)%nat -> so_far fuel ws v -> (nested ws <-> len (t_c (cur v)) = 0).
Proof.
  intros HF HS. destruct (so_far_inv fuel ws v HF HS) as (_ & S & HA & _ & HO & HP).
  destruct HA as (_ & _ & _ & _ & _ & _ & _ & _ & _ & HA). rewrite (stack_has_len _ _ HA). split; intro H.
  - rewrite (nested_prun _ H) in HP. destruct S; [reflexivity|discriminate HP].
  - destruct S as [|c S]; [exact HO|]. rewrite zlen_cons in H. pose proof (zlen_nonneg S). lia.
Qed.
Lemma repeat_not_nested n : ~ nested (repeat P_imm_begin (S n)).
Proof.
  intro H. pose proof (nested_prun _ H []) as E1.
  assert (G : forall k S, prun (repeat P_imm_begin k) S = Some (repeat TBegin k ++ S)).
  { induction k as [|k IH]; intro S; [reflexivity|]. cbn [repeat prun pstep]. rewrite IH. f_equal.
    clear. induction k as [|k IH]; [reflexivity|]. cbn [repeat app]. rewrite IH. reflexivity. }
  rewrite G in E1. discriminate E1.
Qed.
Lemma misfit_never_nested fuel ws v w : (256 <= fuel)%nat -> so_far fuel ws v -> In w structure_words ->
  here (v_ds v) + 40 <= limit (v_ds v) -> raises fuel (-22) w v -> forall tl, ~ nested (ws ++ w :: tl).
Proof.
  intros HF HS Hw HR (u & v1 & k & _ & _ & HQ) tl HN. pose proof (so_far_len _ _ _ HS) as HL.
  destruct (so_far_inv fuel ws v HF HS) as (_ & S & HA & HV & HO & HP).
  assert (HS' : len (t_c (cur v)) = zlen S) by (destruct HA as (_ & _ & _ & _ & _ & _ & _ & _ & _ & HA); exact (stack_has_len _ _ HA)).
  destruct (any_outcome fuel v HR w S Hw HA HV ltac:(lia) HF) as [(S' & n & (w' & E1 & A1) & _)|[_ H]].
  - specialize (E1 (fun _ _ => UB)). cbn beta in E1. rewrite HQ in E1. discriminate E1.
  - pose proof (nested_prun _ HN []) as E1. rewrite prun_app, HP in E1. cbn [prun] in E1. rewrite (H ltac:(lia)) in E1. discriminate E1.
Qed.
End L.
