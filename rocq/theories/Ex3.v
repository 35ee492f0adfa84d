(** Machines used by the examples of the control structure properties: the
    booted machine of the debug profile, with code compiled at HERE. *)
From Coq Require Import ZArith List Bool Lia String.
From Verif Require Import Base Stack Mem Parser State CoreM Exec Boot Std Spec Spec4 Spec5 Spec6 Spec7 LBase LStack LState LMem
  LCode LComp LRun LCtl LDec Ex Ex2.
Import ListNotations.
Open Scope Z_scope.
Open Scope m_scope.

Definition readyb {E : Env} (v : vm) : bool :=
  (wl_len (v_wl v) <=? 2 ^ 63) && forallb (fun fp => word_isb v (fst fp (v_refs v)) (snd fp)) compiler_words.
Lemma readyb_ok {E : Env} (v : vm) : readyb v = true -> compiler_ready v.
Proof.
  unfold readyb. rewrite andb_true_iff, forallb_forall. intros [H1 H2]. split; [lia|].
  intros f p HI. apply word_isb_ok. exact (H2 (f, p) HI).
Qed.
Lemma booted_ds : ds_ok (v_ds booted_d).
Proof. split; [|split]; vm_compute; intuition discriminate. Qed.
Lemma booted_can : @can_compile env_d false 64 booted_d.
Proof.
  split; [exact booted_ds|]. split; [apply readyb_ok; vm_cast_no_check (@eq_refl bool true)|].
  split; [lazy; reflexivity|].
  exists []. split; [|split; [cbn; lia|discriminate]].
  split; [lazy; reflexivity|]. split; [cbn; lia|]. intros [|k] x H; discriminate H.
Qed.
Lemma booted_word i p : @word_isb env_d booted_d i p = true -> @word_is env_d booted_d i p.
Proof. apply word_isb_ok. Qed.

(** [p], compiled at HERE by [m], can be run *)
Definition h0 : Z := here (v_ds booted_d).
Definition K0 (p : prog) (i : Z) : Prop := h0 <= i < fin p h0.
Notation src := (@source env_d (v_wl booted_d) (idx_over (v_refs booted_d)) (idx_equal (v_refs booted_d)) (idx_drop (v_refs booted_d)) 65 (@ew_nop env_d)).
Lemma ex_compiled p m : src false 64 p m -> fin p h0 <= limit (v_ds booted_d) ->
  exists v', m booted_d = Ok (tt, v') /\ holds (K0 p) v' p h0 /\
    t_s (cur v') = t_s (cur booted_d) /\ t_r (cur v') = t_r (cur booted_d) /\ t_f (cur v') = t_f (cur booted_d) /\
    (forall i q, word_is booted_d i q -> word_is v' i q) /\ v_refs v' = v_refs booted_d.
Proof.
  intros HS HF. destruct (compile_source _ _ _ _ _ _ _ (le_n 65) HS booted_can HF) as (v' & E1 & C1).
  exists v'. split; [exact E1|]. split; [exact (compiled_holds p booted_d v' booted_ds C1 HF)|].
  destruct C1 as (_ & _ & _ & _ & _ & _ & _ & _ & C9).
  assert (HW : v_wl v' = v_wl booted_d) by apply C9.
  split; [apply C9|]. split; [apply C9|]. split; [apply C9|]. split; [|apply C9].
  intros i q. unfold word_is. rewrite HW. auto.
Qed.

Ltac has := apply stack_hasb_ok; vm_cast_no_check (@eq_refl bool true).

Notation act := (@exec_prim env_d 65 ew_nop).
Lemma s0_has : stack_has (t_s (cur booted_d)) []. Proof. has. Qed.
Lemma s0_len : len (t_s (cur booted_d)) = 0. Proof. lazy. reflexivity. Qed.
Lemma r0_has : stack_has (t_r (cur booted_d)) []. Proof. has. Qed.
Lemma r0_len : len (t_r (cur booted_d)) = 0. Proof. lazy. reflexivity. Qed.
Ltac cellp := unfold is_cell; lia.
Ltac room := vm_compute; discriminate.
Lemma add_has {E : Env} v x r : stack_has (t_s (cur v)) r -> zlen r < 255 -> stack_has (t_s (cur (add_s x v))) (x :: r).
Proof.
  intros H1 H2. unfold add_s. rewrite cur_set_s. cbn [t_s set_t_s].
  rewrite <- add_item_push by (pose proof (stack_has_len _ _ H1); pose proof (zlen_nonneg r); lia). apply push_has; assumption.
Qed.

(** if 5 else 7 then *)
Definition p_if := IfElse (Num 5) (Num 7).
Lemma ex_if : exists v', (act P_imm_if ;;; compile_integer 5 ;;; act P_imm_else ;;; compile_integer 7 ;;; act P_imm_then) booted_d = Ok (tt, v') /\
  forall x, let v := add_s x v' in
    part (K0 p_if) v h0 (add_s (if x =? 0 then 7 else 5) (drop_s 1 v)) (fin p_if h0).
Proof.
  destruct (ex_compiled p_if (act P_imm_if ;;; compile_integer 5 ;;; act P_imm_else ;;; compile_integer 7 ;;; act P_imm_then))
    as (v' & E1 & HH & HS & _).
  { change 64 with (63 + 1). apply S_else; apply S_num; lia || cellp. }
  { room. }
  exists v'. split; [exact E1|]. intros x v.
  assert (SV : stack_has (t_s (cur v)) [x]) by (apply add_has; [rewrite HS; exact s0_has|cbn; lia]).
  assert (KV : kept (K0 p_if) v' v) by (apply kept_eq; reflexivity).
  pose proof (holds_kept _ _ _ _ _ KV HH) as HV.
  destruct HV as (HA & Ha & HL). cbn [p_if laid] in HL; cbv zeta in HL. destruct HL as (W & C & L1 & W' & C' & L2).
  assert (K1 : kept (K0 p_if) v (drop_s 1 v)) by (apply kept_eq; reflexivity).
  assert (LD : len (t_s (cur (drop_s 1 v))) = 0).
  { unfold drop_s. rewrite cur_set_s. cbn [t_s set_t_s]. unfold drop_items. cbn [len set_len]. rewrite (stack_has_len _ _ SV). reflexivity. }
  assert (HF : fin p_if h0 <= limit (v_ds v)) by (apply (holds_fin _ _ _ _ (holds_kept _ _ _ _ _ KV HH))). cbn [p_if fin] in HF.
  eapply if_else_run; [exact (holds_kept _ _ _ _ _ KV HH)|eapply takes_has; exact SV| |].
  - intro Hx. replace (x =? 0) with false by lia. apply num_run; [|rewrite LD; lia].
    apply (holds_kept _ _ _ _ _ K1). split; [exact HA|]. split; [lia|exact L1].
  - intro Hx. replace (x =? 0) with true by lia. apply num_run; [|rewrite LD; lia].
    apply (holds_kept _ _ _ _ _ K1). split; [exact HA|]. split; [cbn [fin]; lia|exact L2].
Qed.

(** begin 1- dup until, begin dup while 1- repeat, from 1: two rounds *)
Definition then_s {E : Env} (f : stack Z -> stack Z) (v : vm) : vm := set_s (f (t_s (cur v))) v.
Lemma then_s_kept {E : Env} (K : Z -> Prop) f v : kept K v (then_s f v).
Proof. apply kept_eq; reflexivity. Qed.
Lemma t_s_then {E : Env} f v : t_s (cur (then_s f v)) = f (t_s (cur v)).
Proof. unfold then_s. rewrite cur_set_s. reflexivity. Qed.
Lemma add_s_then {E : Env} x v : add_s x v = then_s (fun s => add_item s x) v. Proof. reflexivity. Qed.
Lemma drop_s_then {E : Env} n v : drop_s n v = then_s (drop_items n) v. Proof. reflexivity. Qed.

(** same memory and dictionary *)
Definition shared {E : Env} (v w : vm) : Prop := v_ds v = v_ds w /\ v_wl v = v_wl w.
Lemma sh_refl {E : Env} v : shared v v. Proof. split; reflexivity. Qed.
Lemma sh_then {E : Env} f v w : shared v w -> shared (then_s f v) w. Proof. exact (fun H => H). Qed.
Lemma sh_add_s {E : Env} x v w : shared v w -> shared (add_s x v) w. Proof. exact (fun H => H). Qed.
Lemma sh_add_r {E : Env} x v w : shared v w -> shared (add_r x v) w. Proof. exact (fun H => H). Qed.
Lemma sh_drop_s {E : Env} x v w : shared v w -> shared (drop_s x v) w. Proof. exact (fun H => H). Qed.
Lemma sh_drop_r {E : Env} x v w : shared v w -> shared (drop_r x v) w. Proof. exact (fun H => H). Qed.
Lemma sh_index {E : Env} l x v w : shared v w -> shared (with_index l x v) w. Proof. exact (fun H => H). Qed.
Lemma sh_enter {E : Env} z l x v w : shared v w -> shared (enter_loop z l x v) w.
Proof. intro H. unfold enter_loop. apply sh_add_r, sh_add_r, sh_add_r, sh_drop_s, H. Qed.
Lemma sh_compared {E : Env} x y v w : shared v w -> shared (compared x y v) w. Proof. exact (fun H => H). Qed.
Ltac sh := repeat lazymatch goal with
  | |- shared (then_s _ _) _ => apply sh_then
  | |- shared (add_s _ _) _ => apply sh_add_s
  | |- shared (add_r _ _) _ => apply sh_add_r
  | |- shared (drop_s _ _) _ => apply sh_drop_s
  | |- shared (drop_r _ _) _ => apply sh_drop_r
  | |- shared (with_index _ _ _) _ => apply sh_index
  | |- shared (enter_loop _ _ _ _) _ => apply sh_enter
  | |- shared (compared _ _ _) _ => apply sh_compared
  | |- shared (Nat.iter _ _ _) _ => cbn [Nat.iter nat_rect]
  | |- shared (?f _) _ => first [is_var f; subst f | unfold f]; cbv beta
  end; apply sh_refl.
Lemma sh_kept {E : Env} (K : Z -> Prop) v w : shared w v -> kept K v w. Proof. intros [H1 H2]. apply kept_eq; assumption. Qed.
Lemma sh_word {E : Env} v w i p : shared w v -> word_is v i p -> word_is w i p.
Proof. intros [_ H]. unfold word_is. rewrite H. auto. Qed.
Lemma then_run {E : Env} (K : Z -> Prop) p f (v w : vm) a i : holds K w (Op i) a -> shared v w ->
  word_is w i p -> (forall ew fuel, exec_prim fuel ew p = on_s f) -> part K v a (then_s f v) (a + 8).
Proof.
  intros HH HK HW Hp. eapply op_s_run; [exact (holds_kept _ _ _ _ _ (sh_kept K _ _ HK) HH)| |exact Hp].
  eapply sh_word; eassumption.
Qed.
Lemma t_r_add_s {E : Env} x v : t_r (cur (add_s x v)) = t_r (cur v).
Proof. unfold add_s. rewrite cur_set_s. reflexivity. Qed.
Lemma t_f_add_s {E : Env} x v : t_f (cur (add_s x v)) = t_f (cur v).
Proof. unfold add_s. rewrite cur_set_s. reflexivity. Qed.
Lemma t_s_with_index {E : Env} l i v : t_s (cur (with_index l i v)) = t_s (cur v).
Proof. unfold with_index. rewrite cur_set_r. reflexivity. Qed.
Lemma t_r_with_index {E : Env} l i v : t_r (cur (with_index l i v)) = sset (t_r (cur v)) (len (t_r (cur v)) - 1) (to_i64 (i - l - 2 ^ 63)).
Proof. unfold with_index. rewrite cur_set_r. reflexivity. Qed.
Lemma t_s_add_s {E : Env} x v : t_s (cur (add_s x v)) = add_item (t_s (cur v)) x.
Proof. unfold add_s. rewrite cur_set_s. reflexivity. Qed.
Lemma t_r_add_r {E : Env} x v : t_r (cur (add_r x v)) = add_item (t_r (cur v)) x.
Proof. unfold add_r. rewrite cur_set_r. reflexivity. Qed.
Lemma t_s_add_r {E : Env} x v : t_s (cur (add_r x v)) = t_s (cur v).
Proof. unfold add_r. rewrite cur_set_r. reflexivity. Qed.
Lemma t_r_drop_s {E : Env} x v : t_r (cur (drop_s x v)) = t_r (cur v).
Proof. unfold drop_s. rewrite cur_set_s. reflexivity. Qed.
Lemma t_s_drop_s {E : Env} x v : t_s (cur (drop_s x v)) = drop_items x (t_s (cur v)).
Proof. unfold drop_s. rewrite cur_set_s. reflexivity. Qed.
Lemma t_r_drop_r {E : Env} x v : t_r (cur (drop_r x v)) = drop_items x (t_r (cur v)).
Proof. unfold drop_r. rewrite cur_set_r. reflexivity. Qed.
Lemma t_s_drop_r {E : Env} x v : t_s (cur (drop_r x v)) = t_s (cur v).
Proof. unfold drop_r. rewrite cur_set_r. reflexivity. Qed.
Lemma t_r_then {E : Env} f v : t_r (cur (then_s f v)) = t_r (cur v).
Proof. unfold then_s. rewrite cur_set_s. reflexivity. Qed.
Lemma t_r_enter {E : Env} z l i v : t_r (cur (enter_loop z l i v)) =
  add_item (add_item (add_item (t_r (cur v)) z) (to_i64 (l - 2 ^ 63))) (to_i64 (i - l - 2 ^ 63)).
Proof. unfold enter_loop. rewrite !t_r_add_r, t_r_drop_s. reflexivity. Qed.
Lemma t_s_enter {E : Env} z l i v : t_s (cur (enter_loop z l i v)) = drop_items 2 (t_s (cur v)).
Proof. unfold enter_loop. rewrite !t_s_add_r, t_s_drop_s. reflexivity. Qed.
Ltac regs HS HR := repeat first [rewrite t_r_add_s|rewrite t_r_with_index|rewrite t_s_with_index|rewrite t_s_add_s|rewrite t_r_enter|rewrite t_s_enter|rewrite t_r_add_r|rewrite t_s_add_r|rewrite t_r_drop_s|rewrite t_s_drop_s|rewrite t_r_drop_r|rewrite t_s_drop_r|rewrite t_s_then|rewrite t_r_then]; rewrite ?HS, ?HR.

Lemma t_s_compared {E : Env} y sel u : t_s (cur (compared y sel u)) =
  let s := t_s (cur u) in let n := len s in set_len (sset (sset s n sel) (n - 1) (if y =? sel then -1 else 0)) (n - 1).
Proof. unfold compared. rewrite cur_set_s. reflexivity. Qed.
Local Opaque then_s add_s add_r drop_s drop_r with_index enter_loop compared.
Definition round_u (v : @vm env_d) : vm := then_s dup_ (then_s one_minus_ v).
Definition p_until := Until (Seq (Op 43) (Op 26)).
Lemma w43 : @word_is env_d booted_d 43 P_one_minus. Proof. apply booted_word. vm_cast_no_check (@eq_refl bool true). Qed.
Lemma w26 : @word_is env_d booted_d 26 P_dup. Proof. apply booted_word. vm_cast_no_check (@eq_refl bool true). Qed.

(** the compilation of word [i] *)
Definition cw (i : Z) : @M env_d unit := run_cs ew_nop (w_cs (wl_get (v_wl booted_d) i)) i.
Lemma src_word n i : 0 <= n -> 0 <= i < wl_len (v_wl booted_d) -> 
  match w_cs (wl_get (v_wl booted_d) i) with CS_compile_leave => false | _ => true end = true -> src false n (Op i) (cw i).
Proof. intros H1 H2 H3. apply S_word; [exact H1|exact H2|]. intro Q. rewrite Q in H3. discriminate. Qed.
Ltac sw := apply src_word; [lia|vm_compute; split; [discriminate|reflexivity]|vm_cast_no_check (@eq_refl bool true)].

Lemma ex_until : exists v', (act P_imm_begin ;;; (cw 43 ;;; cw 26) ;;; act P_imm_until) booted_d = Ok (tt, v') /\
  part (K0 p_until) (add_s 1 v') h0 (drop_s 1 (round_u (drop_s 1 (round_u (add_s 1 v'))))) (fin p_until h0).
Proof.
  destruct (ex_compiled p_until (act P_imm_begin ;;; (cw 43 ;;; cw 26) ;;; act P_imm_until)) as (v' & E1 & HH & HS & HR & HF & HW & _).
  { change 64 with (63 + 1). apply S_until. apply S_seq; sw. }
  { room. }
  exists v'. split; [exact E1|].
  set (vs := fun k => Nat.iter k (fun v => drop_s 1 (round_u v)) (add_s 1 v')).
    assert (HB : holds (K0 p_until) v' (Seq (Op 43) (Op 26)) h0).
  { destruct HH as (A & B & C & _). split; [exact A|]. split; [exact B|exact C]. }
  destruct (holds_seq _ _ _ _ _ HB) as [HB1 HB2].
  change (drop_s 1 (round_u (drop_s 1 (round_u (add_s 1 v'))))) with (drop_s 1 (round_u (vs 1%nat))).
  change (add_s 1 v') with (vs 0%nat).
  apply (until_run _ _ _ 1 vs (fun k => round_u (vs k)) (-1)).
  - apply (holds_kept _ v'); [apply sh_kept; sh|exact HH].
  - assert (HU : forall v, shared v v' -> part (K0 p_until) v h0 (round_u v) (fin (Seq (Op 43) (Op 26)) h0)).
    { intros v Hv. apply (part_trans _ v h0 (then_s one_minus_ v) (h0 + 8)).
      - apply (then_run _ P_one_minus one_minus_ _ _ _ 43 HB1 Hv); [apply HW; exact w43|reflexivity].
      - apply (then_run _ P_dup dup_ _ _ _ 26 HB2); [apply sh_then; exact Hv|apply HW; exact w26|reflexivity]. }
    intros [|[|k]] Hk; [| |lia]; (apply HU; sh).
  - intros [|k] Hk; [|lia]. apply (takes_has _ _ [0]). change (vs 0%nat) with (add_s 1 v'). unfold round_u. rewrite !t_s_then, add_s_then, t_s_then, HS. has.
  - eapply takes_has. change (vs 1%nat) with (drop_s 1 (round_u (add_s 1 v'))). unfold round_u.
    rewrite !t_s_then, drop_s_then, !t_s_then, add_s_then, !t_s_then, HS. instantiate (1 := [-1]). has.
  - lia.
Qed.

Definition p_while := While (Op 26) (Op 43).
Lemma ex_while : exists v', (act P_imm_begin ;;; cw 26 ;;; act P_imm_while ;;; cw 43 ;;; act P_imm_repeat) booted_d = Ok (tt, v') /\
  part (K0 p_while) (add_s 1 v') h0 (drop_s 1 (then_s dup_ (then_s one_minus_ (drop_s 1 (then_s dup_ (add_s 1 v')))))) (fin p_while h0).
Proof.
  destruct (ex_compiled p_while (act P_imm_begin ;;; cw 26 ;;; act P_imm_while ;;; cw 43 ;;; act P_imm_repeat)) as (v' & E1 & HH & HS & HR & HF & HW & _).
  { change 64 with (62 + 2). apply S_while; sw. }
  { room. }
  exists v'. split; [exact E1|].
  set (vs := fun k => Nat.iter k (fun v => then_s one_minus_ (drop_s 1 (then_s dup_ v))) (add_s 1 v')).
  assert (HB1 : holds (K0 p_while) v' (Op 26) h0).
  { destruct HH as (A & B & C & _). split; [exact A|]. split; [exact B|exact C]. }
  assert (HB2 : holds (K0 p_while) v' (Op 43) (h0 + 8 + 16)).
  { pose proof HH as (A & B & C & _ & _ & D & _). split; [exact A|]. split; [|exact D].
    pose proof (holds_fin _ _ _ _ HH) as Q. cbn [p_while fin] in Q. lia. }
  change (part (K0 p_while) (vs 0%nat) h0 (drop_s 1 (then_s dup_ (vs 1%nat))) (fin p_while h0)).
  apply (while_run _ _ _ _ 1 vs (fun k => then_s dup_ (vs k)) (fun k => drop_s 1 (then_s dup_ (vs k))) (fun _ => 1)).
  - apply (holds_kept _ v'); [apply sh_kept; sh|exact HH].
  - intros [|[|k]] Hk; [| |lia];
      (apply (then_run _ P_dup dup_ _ _ _ 26 HB1); [sh|apply HW; exact w26|reflexivity]).
  - intros [|k] Hk; [|lia]. split; [|split; [lia|]].
    + eapply takes_has. change (vs 0%nat) with (add_s 1 v'). rewrite !t_s_then, add_s_then, t_s_then, HS. instantiate (1 := [1]). has.
    + apply (then_run _ P_one_minus one_minus_ (drop_s 1 (then_s dup_ (vs 0%nat))) _ _ 43 HB2); [sh|apply HW; exact w43|reflexivity].
  - eapply takes_has. change (vs 1%nat) with (then_s one_minus_ (drop_s 1 (then_s dup_ (add_s 1 v')))).
    rewrite !t_s_then, drop_s_then, !t_s_then, add_s_then, !t_s_then, HS. instantiate (1 := [0]). has.
Qed.

(** do i loop, from the largest number but one to the smallest *)
Definition p_do := Do false false (Op 14).
Definition lim0 := - 2 ^ 63 + 1.
Definition first0 := 2 ^ 63 - 2.
Lemma w14 : @word_is env_d booted_d 14 P_p_i. Proof. apply booted_word. vm_cast_no_check (@eq_refl bool true). Qed.
Definition do0 (v' : @vm env_d) : vm := add_s first0 (add_s lim0 v').
Definition do1 v' : vm := add_s first0 (enter_loop (h0 + 8) lim0 first0 (do0 v')).
Definition do2 v' : vm := add_s (2 ^ 63 - 1) (with_index lim0 (2 ^ 63 - 1) (do1 v')).
Definition do3 v' : vm := add_s (- 2 ^ 63) (with_index lim0 (- 2 ^ 63) (do2 v')).
Lemma ex_do : exists v', (act P_imm_do ;;; cw 14 ;;; act P_imm_loop) booted_d = Ok (tt, v') /\
  part (K0 p_do) (do0 v') h0 (drop_r 3 (do3 v')) (fin p_do h0) /\
  stack_has (t_s (cur (drop_r 3 (do3 v')))) [- 2 ^ 63; 2 ^ 63 - 1; 2 ^ 63 - 2] /\
  stack_has (t_r (cur (drop_r 3 (do3 v')))) [].
Proof.
  destruct (ex_compiled p_do (act P_imm_do ;;; cw 14 ;;; act P_imm_loop)) as (v' & E1 & HH & HS & HR & HF & HW & _).
  { change 64 with (63 + 1). apply (S_do _ _ _ _ _ _ false 63 false false). apply S_word; [lia|vm_compute; split; [discriminate|reflexivity]|].
    vm_compute. discriminate. }
  { room. }
  exists v'. split; [exact E1|].
  assert (HB : holds (K0 p_do) v' (Op 14) (h0 + 16)).
  { pose proof HH as (A & B & _ & _ & D & _). split; [exact A|]. split; [|exact D].
    pose proof (holds_fin _ _ _ _ HH) as Q. cbn [p_do fin] in Q. lia. }
  assert (HI : forall (v : @vm env_d) idx rest, shared v v' -> in_frame v (h0 + 8) lim0 idx rest -> is_cell idx ->
     0 <= len (t_s (cur v)) < 255 -> part (K0 p_do) v (h0 + 16) (add_s idx v) (h0 + 16 + 8)).
  { intros v idx rest Q1 Q3 Q4 Q5. eapply i_run; [eapply holds_kept; [apply sh_kept; exact Q1|exact HB]| |exact Q3|exact Q4|exact Q5].
    eapply sh_word; [exact Q1|]. apply HW. exact w14. }
  destruct (do_run (K0 p_do) false (Op 14) (do0 v') h0 lim0 first0 [] [] (fun k => match k with 0 => do1 v' | 1 => do2 v' | _ => do3 v' end))
    as [P1 P2].
  - apply (holds_kept _ v'); [apply sh_kept; sh|exact HH].
  - unfold lim0; cellp.
  - unfold first0; cellp.
  - unfold do0. regs HS HR. has.
  - unfold do0. regs HS HR. has.
  - cbn; lia.
  - discriminate.
  - intros k Hk. change (loop_count lim0 first0) with 3 in Hk. assert (k = 0 \/ k = 1 \/ k = 2) as [-> | [-> | ->]] by lia.
    + split.
      * apply (HI (enter_loop (h0 + 8) lim0 first0 (do0 v')) first0 []); [sh| |unfold first0; cellp|unfold do0; regs HS HR; vm_compute; split; [discriminate|reflexivity]].
        unfold in_frame, do0. regs HS HR. has.
      * unfold in_frame, do1, do0. regs HS HR. has.
    + split.
      * apply (HI (with_index lim0 (index_at first0 1) (do1 v')) (2 ^ 63 - 1) []); [sh| |cellp|].
        -- unfold in_frame, do1, do0. regs HS HR. has.
        -- unfold do1, do0. regs HS HR; vm_compute; split; [discriminate|reflexivity].
      * unfold in_frame, do2, do1, do0. regs HS HR. has.
    + split.
      * apply (HI (with_index lim0 (index_at first0 2) (do2 v')) (- 2 ^ 63) []); [sh| |cellp|].
        -- unfold in_frame, do2, do1, do0. regs HS HR. has.
        -- unfold do2, do1, do0. regs HS HR; vm_compute; split; [discriminate|reflexivity].
      * unfold in_frame, do3, do2, do1, do0. regs HS HR. has.
  - change (loop_count lim0 first0 - 1) with 2 in *. cbv beta iota in P1, P2. split; [exact P1|]. split; [|exact P2].
    unfold do3, do2, do1, do0. regs HS HR. has.
Qed.

(** do i +loop: limit 10, index 5, the step is on the stack *)
Definition p_plus := Do false true (Op 14).
Definition pl0 (step : Z) (v' : @vm env_d) : vm := add_s step (enter_loop (h0 + 8) 10 5 (add_s 5 (add_s 10 v'))).
Lemma ex_plus : exists v', (act P_imm_do ;;; cw 14 ;;; act P_imm_plus_loop) booted_d = Ok (tt, v') /\
  holds (K0 p_plus) v' p_plus h0 /\
  (forall step, let v := pl0 step v' in
     holds (K0 p_plus) v p_plus h0 /\ step_by true v step (drop_s 1 v) /\ in_frame (drop_s 1 v) (h0 + 8) 10 5 []).
Proof.
  destruct (ex_compiled p_plus (act P_imm_do ;;; cw 14 ;;; act P_imm_plus_loop)) as (v' & E1 & HH & HS & HR & HF & HW & _).
  { change 64 with (63 + 1). apply (S_do _ _ _ _ _ _ false 63 false true). apply S_word; [lia|vm_compute; split; [discriminate|reflexivity]|].
    vm_compute. discriminate. }
  { room. }
  exists v'. split; [exact E1|]. split; [exact HH|]. intros step v. split; [|split].
  - apply (holds_kept _ v'); [apply sh_kept; unfold v, pl0; sh|exact HH].
  - apply (takes_has _ _ []). unfold v, pl0. apply add_has; [|cbn; lia]. regs HS HR. has.
  - unfold in_frame, v, pl0. regs HS HR. has.
Qed.
Lemma ex_crosses : crosses 10 5 5 /\ ~ crosses 10 5 4 /\ ~ crosses 10 5 (-6) /\ crosses 10 12 (-3) /\ crosses (- 2 ^ 63) (2 ^ 63 - 1) 1.
Proof. unfold crosses. repeat split; (left; vm_compute; reflexivity) || (right; vm_compute; discriminate) || (vm_compute; intuition congruence). Qed.

(** ?do if leave then loop *)
Definition p_leave := Do true false (IfThen (Op 13)).
Lemma w13 : @word_is env_d booted_d 13 P_leave. Proof. apply booted_word. vm_cast_no_check (@eq_refl bool true). Qed.
Lemma ex_leave : exists v', (act P_imm_qdo ;;; (act P_imm_if ;;; cw 13 ;;; act P_imm_then) ;;; act P_imm_loop) booted_d = Ok (tt, v') /\
  (let v := enter_loop (h0 + 8) 10 5 (add_s 5 (add_s 10 v')) in
   holds (K0 p_leave) v' p_leave h0 /\ kept (K0 p_leave) v' v /\ code_cell (K0 p_leave) v (h0 + 32) 13 /\ word_is v 13 P_leave /\
   in_frame v (h0 + 8) 10 5 [] /\ sget (t_r (cur v)) 255 = canary (t_r (cur v)) /\
   (forall x, stack_has (t_s (cur (add_s x (add_s x v')))) [x; x])).
Proof.
  destruct (ex_compiled p_leave (act P_imm_qdo ;;; (act P_imm_if ;;; cw 13 ;;; act P_imm_then) ;;; act P_imm_loop)) as (v' & E1 & HH & HS & HR & HF & HW & _).
  { change 64 with (63 + 1). apply (S_do _ _ _ _ _ _ false 63 true false). change 63 with (62 + 1). apply S_if.
    apply S_leave; [lia|vm_compute; split; [discriminate|reflexivity]|]. lazy. reflexivity. }
  { room. }
  exists v'. split; [exact E1|]. intro v.
  assert (HK : kept (K0 p_leave) v' v) by (apply sh_kept; unfold v; sh).
  split; [exact HH|]. split; [exact HK|]. split; [|split; [|split; [|split]]].
  - pose proof HH as (_ & _ & _ & _ & (_ & _ & (C & _)) & _). replace (h0 + 16 + 16) with (h0 + 32) in C by lia.
    eapply kept_cell; [exact HK|exact C].
  - eapply sh_word; [|apply HW; exact w13]. unfold v. sh.
  - unfold in_frame, v. regs HS HR. has.
  - unfold v. regs HS HR. lazy. reflexivity.
  - intro x. apply add_has; [|cbn; lia]. apply add_has; [|cbn; lia]. rewrite HS. has.
Qed.

(** case 1 of 10 endof 2 of 20 endof endcase, with 2 *)
Definition cs0 : list (prog * prog) := [(Num 1, Num 10); (Num 2, Num 20)].
Definition p_case := Case (idx_over (v_refs booted_d)) (idx_equal (v_refs booted_d)) (idx_drop (v_refs booted_d)) cs0 Skip.
Definition ca1 (v' : @vm env_d) : vm := compared 1 2 (add_s 1 (add_s 2 v')).
Definition ca2 v' : vm := drop_s 1 (compared 2 2 (add_s 2 (ca1 v'))).
Definition case_words (v : @vm env_d) : Prop :=
  word_is v (idx_over (v_refs booted_d)) P_over /\ word_is v (idx_equal (v_refs booted_d)) P_equals /\ word_is v (idx_drop (v_refs booted_d)) P_p_drop.
Lemma ex_case : exists v',
  (act P_imm_case ;;;
     (compile_integer 1 ;;; act P_imm_of ;;; compile_integer 10 ;;; act P_imm_endof ;;;
      (compile_integer 2 ;;; act P_imm_of ;;; compile_integer 20 ;;; act P_imm_endof ;;; ret tt)) ;;;
   ret tt ;;; act P_imm_endcase) booted_d = Ok (tt, v') /\
  holds (K0 p_case) v' p_case h0 /\ case_words v' /\
  selects (K0 p_case) cs0 Skip h0 (add_s 2 v') (add_s 20 (ca2 v')) 2 /\
  stack_has (t_s (cur (add_s 20 (ca2 v')))) [20].
Proof.
  destruct (ex_compiled p_case (act P_imm_case ;;;
     (compile_integer 1 ;;; act P_imm_of ;;; compile_integer 10 ;;; act P_imm_endof ;;;
      (compile_integer 2 ;;; act P_imm_of ;;; compile_integer 20 ;;; act P_imm_endof ;;; ret tt)) ;;;
   ret tt ;;; act P_imm_endcase)) as (v' & E1 & HH & HS & HR & HF & HW & _).
  { change 64 with (63 + 1). apply S_case.
    - apply S_of; [apply S_num; [lia|cellp]|apply S_num; [lia|cellp]|].
      apply S_of; [apply S_num; [lia|cellp]|apply S_num; [lia|cellp]|apply S_none; lia].
    - apply S_skip. cbn. lia. }
  { room. }
  exists v'. split; [exact E1|]. split; [exact HH|].
  split; [split; [|split]; apply HW; apply word_isb_ok; vm_cast_no_check (@eq_refl bool true)|].
  pose proof (holds_fin _ _ _ _ HH) as HFin.
  pose proof HH as (HA & Ha & HL). unfold p_case, cs0 in HFin, HL. cbn [Case laid fin] in HFin, HL; cbv zeta in HFin, HL.
  destruct HL as (L1 & _ & _ & _ & _ & _ & _ & _ & (L2 & _ & _ & _ & _ & (_ & L3) & _)).
  assert (N : forall n v a, laid (K0 p_case) v' (Num n) a -> h0 <= a -> a + 16 <= limit (v_ds v') -> shared v v' -> 0 <= len (t_s (cur v)) < 255 ->
            part (K0 p_case) v a (add_s n v) (a + 16)).
  { intros n v a Q1 Q2 Q3 Q4 Q5. apply (num_run (K0 p_case) n v a); [|exact Q5]. apply (holds_kept _ v'); [apply sh_kept; exact Q4|].
    split; [exact HA|]. split; [lia|exact Q1]. }
  split.
  - unfold cs0. cbn [selects fin]. cbv zeta.
    exists (add_s 1 (add_s 2 v')), 1, []. split; [|split; [|split; [cbn; lia|right; split; [lia|]]]].
    + apply N; [exact L1|lia|lia|sh|regs HS HR; vm_compute; split; [discriminate|reflexivity]].
    + regs HS HR. has.
    + change (compared 1 2 (add_s 1 (add_s 2 v'))) with (ca1 v').
      exists (add_s 2 (ca1 v')), 2, []. split; [|split; [|split; [cbn; lia|left; split; [reflexivity|]]]].
      * replace (h0 + 16 + 8 + 8 + 16 + 8 + 16 + 16) with (h0 + 16 + 40 + 16 + 16) in L2 by lia.
        apply N; [exact L2|lia|lia|unfold ca1; sh|unfold ca1; rewrite t_s_compared; regs HS HR; vm_compute; split; [discriminate|reflexivity]].
      * unfold ca1. rewrite t_s_add_s, t_s_compared. regs HS HR. has.
      * change (drop_s 1 (compared 2 2 (add_s 2 (ca1 v')))) with (ca2 v').
        replace (h0 + 16 + 40 + 16 + 16 + 16 + 40) with (h0 + 16 + 8 + 8 + 16 + 8 + 16 + 16 + 16 + 8 + 8 + 16 + 8) by lia.
        apply N; [exact L3|lia|lia|unfold ca2, ca1; sh|].
        unfold ca2, ca1. rewrite t_s_drop_s, t_s_compared, t_s_add_s, t_s_compared. regs HS HR. vm_compute; split; [discriminate|reflexivity].
  - unfold ca2, ca1. rewrite t_s_add_s, t_s_drop_s, t_s_compared, t_s_add_s, t_s_compared. regs HS HR. has.
Qed.

(** The first word of _type is bounds, which is over + swap *)
Definition KA : Z -> Prop := region 0 (2 ^ 63).
Definition a0 : Z := w_dfa (wl_get (v_wl booted_d) 295).
Definition b0 : Z := w_dfa (wl_get (v_wl booted_d) 293).
Definition p_bounds := Seq (Op 29) (Seq (Op 45) (Op 28)).
Definition cv : @vm env_d := add_s 3 (add_s 1000 booted_d).
Definition cv2 : @vm env_d := then_s swap_ (then_s plus_ (then_s over_ (add_r (a0 + 8) cv))).
Lemma ex_call :
  addressable booted_d /\ code_cell KA cv a0 293 /\ word_is cv 293 P_nest /\
  part KA (add_r (a0 + 8) cv) b0 cv2 (fin p_bounds b0) /\ code_cell KA cv2 (fin p_bounds b0) 2 /\ word_is cv2 2 P_exit /\
  stack_has (t_r (cur cv2)) [a0 + 8] /\ stack_has (t_s (cur (drop_r 1 cv2))) [1000; 1003].
Proof.
  assert (HA : addressable booted_d) by (split; vm_compute; reflexivity).
  assert (S1 : shared cv booted_d) by (unfold cv; sh).
  assert (S2 : shared cv2 booted_d) by (unfold cv2, cv; sh).
  assert (C : forall a x, @code_cellb env_d 0 (2 ^ 63) booted_d a x = true -> code_cell KA booted_d a x) by (intros a x; apply code_cellb_ok).
  assert (HB : holds KA booted_d p_bounds b0).
  { split; [exact HA|]. split; [vm_compute; split; discriminate|]. apply laidb_ok. vm_cast_no_check (@eq_refl bool true). }
  destruct (holds_seq _ _ _ _ _ HB) as [B1 B2]. destruct (holds_seq _ _ _ _ _ B2) as [B3 B4].
  split; [exact HA|]. split; [|split; [|split; [|split; [|split; [|split]]]]].
  - eapply kept_cell; [apply sh_kept; exact S1|]. apply C. vm_cast_no_check (@eq_refl bool true).
  - eapply sh_word; [exact S1|]. apply word_isb_ok. vm_cast_no_check (@eq_refl bool true).
  - apply (part_trans _ _ _ (then_s over_ (add_r (a0 + 8) cv)) (b0 + 8)).
    + apply (then_run _ P_over over_ _ _ _ 29 B1); [unfold cv; sh|apply word_isb_ok; vm_cast_no_check (@eq_refl bool true)|reflexivity].
    + apply (part_trans _ _ _ (then_s plus_ (then_s over_ (add_r (a0 + 8) cv))) (b0 + 8 + 8)).
      * apply (then_run _ P_plus plus_ _ _ _ 45 B3); [unfold cv; sh|apply word_isb_ok; vm_cast_no_check (@eq_refl bool true)|reflexivity].
      * apply (then_run _ P_swap swap_ _ _ _ 28 B4); [unfold cv; sh|apply word_isb_ok; vm_cast_no_check (@eq_refl bool true)|reflexivity].
  - eapply kept_cell; [apply sh_kept; exact S2|]. apply C. vm_cast_no_check (@eq_refl bool true).
  - eapply sh_word; [exact S2|]. apply word_isb_ok. vm_cast_no_check (@eq_refl bool true).
  - unfold cv2, cv. regs s0_len s0_len. has.
  - unfold cv2, cv. regs s0_len s0_len. has.
Qed.

Definition p_lits := Seq (Num (-1)) (Flo (2 ^ 63 - 1)).
Lemma ex_lits : exists v', (compile_integer (-1) ;;; compile_float (2 ^ 63 - 1)) booted_d = Ok (tt, v') /\
  part (K0 p_lits) v' h0 (add_f (2 ^ 63 - 1) (add_s (-1) v')) (fin p_lits h0).
Proof.
  destruct (ex_compiled p_lits (compile_integer (-1) ;;; compile_float (2 ^ 63 - 1))) as (v' & E1 & HH & HS & HR & HF & HW & _).
  { apply S_seq; [apply S_num; [lia|cellp]|apply S_flo; lia]. }
  { room. }
  exists v'. split; [exact E1|]. destruct (holds_seq _ _ _ _ _ HH) as [H1 H2].
  apply (part_trans _ _ _ (add_s (-1) v') (fin (Num (-1)) h0)).
  - apply num_run; [exact H1|]. rewrite HS, s0_len. lia.
  - apply (flo_run _ (2 ^ 63 - 1)); [apply (holds_kept _ v'); [apply sh_kept; sh|exact H2]|].
    rewrite t_f_add_s, HF. lazy. split; [discriminate|reflexivity].
Qed.
