(** Cases for C75 - C80. *)
From Coq Require Import ZArith List Bool Lia String ZifyBool ZifyNat.
From Verif Require Import Base Stack Mem Parser Flt State CoreM IoM FloatM FileM Exec Boot Std.
From Verif Require Import Spec Spec2 Spec4 Spec5 Spec6 Spec9 Spec10 Spec11 Spec14 Spec15 Spec16 Spec24 LBase LStack LDec LDict LState LSys LSys2 LName Ex Ex2 Ex3 Ex6 Ex7 Ex9 Ex10 Ex11 Ex15.
Import ListNotations.
Open Scope list_scope.
Open Scope Z_scope.
Local Existing Instance env_d.

(** A name in the input *)
Definition nm (t : bytes) : @vm env_d := inp ([32] ++ t ++ [32]) booted_d.
Lemma nm_next t : ascii_text t = true -> t <> [] -> forallb (fun c => negb (blankb c)) t = true -> zlen t < 1000 -> next_is (nm t) t.
Proof.
  intros H1 H2 H3 H4. split.
  - assert (H : match v_tkn booted_d with Some _ => true | None => false end = true) by (vm_cast_no_check (@eq_refl bool true)).
    change (v_tkn (nm t)) with (v_tkn booted_d). destruct (v_tkn booted_d); [discriminate|discriminate H].
  - exists ([32] ++ t ++ [32]), ([32] ++ t ++ [32]), []. split; [apply inp_rest; [exact booted_sid|]|split].
    + rewrite !zlen_app. change (zlen [32]) with 1. lia.
    + apply ascii_utf8. unfold ascii_text in *. rewrite !forallb_app, H1. reflexivity.
    + eapply tok_step; [reflexivity|exact H2|exact H3|reflexivity|reflexivity|]. constructor. apply blanks_ok. reflexivity.
Qed.
Lemma nm_dict t : dict_ok (nm t). Proof. exact booted_dict. Qed.
Lemma nm_found t i : found_as t i = true -> newest (nm t) t (Some i).
Proof. exact (bt_found t i). Qed.
Lemma nm_can t : can_compile false 64 (nm t). Proof. apply inp_can, booted_can. Qed.
Lemma nm_room t : here (v_ds (nm t)) + 500 <= limit (v_ds (nm t)).
Proof.
  change (v_ds (nm t)) with (v_ds booted_d). assert (H : (here (v_ds booted_d) + 500 <=? limit (v_ds booted_d)) = true) by (vm_cast_no_check (@eq_refl bool true)). lia.
Qed.
Lemma nm_words t : words (nm t) < Z.of_nat 400. Proof. exact booted_words. Qed.
Definition dup_ix : Z := Eval vm_compute in match find 400 (b "dup") booted_d with Ok (Some i, _) => i | _ => 0 end.
Lemma nm_ready : next_is (nm (b "dup")) (b "dup") /\ dict_ok (nm (b "dup")) /\ words (nm (b "dup")) < Z.of_nat 400 /\
  newest (nm (b "dup")) (b "dup") (Some dup_ix) /\ can_compile false 64 (nm (b "dup")) /\ here (v_ds (nm (b "dup"))) + 500 <= limit (v_ds (nm (b "dup"))) /\
  word_is (nm (b "dup")) (idx__postpone (v_refs (nm (b "dup")))) P__postpone /\ word_is (nm (b "dup")) (idx__does (v_refs (nm (b "dup")))) P__does /\
  utf8_text (b "dup") [100; 117; 112] /\ v_err (nm (b "dup")) = None /\ stack_has (t_s (cur (nm (b "dup")))) [].
Proof.
  split; [apply nm_next; [reflexivity|discriminate|reflexivity|reflexivity]|]. split; [apply nm_dict|]. split; [apply nm_words|].
  split; [apply nm_found; vm_cast_no_check (@eq_refl bool true)|]. split; [apply nm_can|]. split; [apply nm_room|].
  split; [apply word_isb_ok; vm_cast_no_check (@eq_refl bool true)|]. split; [apply word_isb_ok; vm_cast_no_check (@eq_refl bool true)|].
  split; [apply ascii_utf8; reflexivity|]. split; [exact booted_err|]. apply stack_hasb_ok. vm_cast_no_check (@eq_refl bool true).
Qed.
Lemma nm_unknown : next_is (nm (b "nosuch")) (b "nosuch") /\ newest (nm (b "nosuch")) (b "nosuch") None.
Proof. split; [apply nm_next; [reflexivity|discriminate|reflexivity|reflexivity]|]. apply (bt_unknown (b "nosuch")). vm_cast_no_check (@eq_refl bool true). Qed.

(** ** Lines and what they leave *)
Definition ends (s : string) (d : list Z) (e : option Z) (out : bytes) : Prop :=
  exists v, load_str 3000 (b s) booted_d = Ok (tt, v) /\ stack_has (t_s (cur v)) d /\ v_err v = e /\ v_out v = Some out.
Ltac by_run := apply endsb_ok; vm_cast_no_check (@eq_refl bool true).
Lemma status_lines :
  ends "compiling? error max-n" [9223372036854775807; 0; 0] None [] /\
  ends ": t [ compiling? ] ; immediate token-empty?" [0; 0] None [] /\
  ends "1 2 0stacks 3" [3] None [].
Proof. split; [by_run|]. split; by_run. Qed.
Lemma number_lines : ends "-7 5 .r 255 16 base ! 4 .r -1 1 .r" [] None (b "   -7  FFFFFFFFFFFFFFFFFF") /\ ends "2 1 ' + .word .s" [1; 2] None (b "+ 2 1 ").
Proof. split; by_run. Qed.
Lemma name_lines : ends "char A ' dup >name @ : t [char] B ['] drop ; t" [27; 66; 3; 65] None [] /\
  ends ": t postpone over ; immediate : u t ; 5 6 u" [5; 6; 5] None [] /\ ends ": dw create , does> @ 1 + ; 41 dw x x" [42] None [] /\
  ends "2.5e fconstant foo foo foo f+ f>s" [5] None [].
Proof. split; [by_run|]. split; [by_run|]. split; by_run. Qed.
Definition modeb (s : string) (c : bool) : bool :=
  match load_str 3000 (b s) booted_d with Ok (_, v) => Bool.eqb (st_compiling (st v)) c && err_eqb (v_err v) None | _ => false end.
Lemma modeb_ok s c : modeb s c = true -> exists v, load_str 3000 (b s) booted_d = Ok (tt, v) /\ v_err v = None /\ st_compiling (st v) = c.
Proof.
  unfold modeb. destruct (load_str 3000 (b s) booted_d) as [([], v)| | |]; try discriminate. rewrite andb_true_iff. intros (A & B). exists v.
  split; [reflexivity|]. split; [apply err_eqb_eq; exact B|apply eqb_prop; exact A].
Qed.
Lemma postponed_immediate : exists v1 v2 : @vm env_d,
  load_str 3000 (b ": u [") booted_d = Ok (tt, v1) /\ v_err v1 = None /\ st_compiling (st v1) = false /\
  load_str 3000 (b ": t postpone [ ; immediate : u t") booted_d = Ok (tt, v2) /\ v_err v2 = None /\ st_compiling (st v2) = true.
Proof.
  destruct (modeb_ok ": u [" false ltac:(vm_cast_no_check (@eq_refl bool true))) as (v1 & A). destruct (modeb_ok ": t postpone [ ; immediate : u t" true ltac:(vm_cast_no_check (@eq_refl bool true))) as (v2 & B).
  exists v1, v2. tauto.
Qed.

(** ** Execution times *)
Definition xt0 : @vm env_d := set_v_now 1000000 (bs [dup_ix; 1000; dup_ix; 1000]).
Definition step_time (v : @vm env_d) : @vm env_d := state_of booted_d (exec_prim 0 (fun _ => ret tt) P_set_execution_times v).
Lemma quiet_step v : is_ok (exec_prim 0 (fun _ => ret tt) P_set_execution_times v) = true -> quiet 0 P_set_execution_times v (step_time v).
Proof.
  intros H ew. unfold step_time. change (exec_prim 0 ew P_set_execution_times v) with (exec_prim 0 (fun _ => ret tt) P_set_execution_times v).
  destruct (exec_prim 0 (fun _ : Z => ret tt) P_set_execution_times v) as [([], u)| | |]; try discriminate H. reflexivity.
Qed.
(** a first execution of 0 and a second one of 5 microseconds *)
Lemma minimum_lost : exists v v1 v2 : @vm env_d, exists xt,
  v_now v / 1000 = 1000 /\ stack_has (t_s (cur v)) [xt; 1000; xt; 1000] /\ w_mint (word_of v xt) = 0 /\ w_maxt (word_of v xt) = 0 /\
  quiet 0 P_set_execution_times v v1 /\ quiet 0 P_set_execution_times (set_v_now 1005000 v1) v2 /\
  w_mint (word_of v2 xt) = 5 /\ w_maxt (word_of v2 xt) = 5.
Proof.
  exists xt0, (step_time xt0), (step_time (set_v_now 1005000 (step_time xt0))), dup_ix. split; [reflexivity|].
  split; [apply stack_hasb_ok; vm_cast_no_check (@eq_refl bool true)|]. split; [vm_cast_no_check (@eq_refl Z 0)|]. split; [vm_cast_no_check (@eq_refl Z 0)|].
  split; [apply quiet_step; vm_cast_no_check (@eq_refl bool true)|]. split; [apply quiet_step; vm_cast_no_check (@eq_refl bool true)|].
  split; vm_cast_no_check (@eq_refl Z 5).
Qed.
Lemma mint_ok : forall i, 0 <= i < words booted_d -> w_mint (word_of booted_d i) < 2 ^ 64 /\ 0 <= w_maxt (word_of booted_d i) < 2 ^ 64.
Proof.
  assert (H : forallb (fun k => let w := word_of booted_d (Z.of_nat k) in (w_mint w =? 0) && (w_maxt w =? 0)) (seq 0 (Z.to_nat (words booted_d))) = true) by (vm_cast_no_check (@eq_refl bool true)).
  intros i Hi. rewrite forallb_forall in H. specialize (H (Z.to_nat i)). rewrite Z2Nat.id in H by lia. cbv zeta in H. rewrite in_seq, andb_true_iff in H. destruct H as (A & B); [lia|]. lia.
Qed.
Lemma dot_word_idle : exists (v : @vm env_d) x, v_out v = None /\ stack_has (t_s (cur v)) [x] /\ forall fuel, quiet fuel P_dot_word v v.
Proof.
  exists (set_v_out None (bs [3])), 3. split; [reflexivity|]. split; [exact (proj1 (bs_stacks [3] eq_refl))|]. intro fuel. apply dot_word_kept. reflexivity.
Qed.
