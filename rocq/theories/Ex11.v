(** The defining words of core.fth in the booted machines; machines used by the examples of their properties. *)
From Coq Require Import ZArith List Bool Lia String.
From Verif Require Import Base Stack Mem Parser Flt State CoreM Exec Boot Std Spec Spec2 Spec4 Spec5 Spec7 Spec9 Spec10 Spec11 Spec15 Spec16
  LBase LStack LState LMem LDict LComp LCode LDec LRun LLib LLibWords Ex Ex2 Ex3 Ex5 Ex6 Ex7 Ex9 Ex10.
Import ListNotations.
Open Scope list_scope.
Open Scope Z_scope.
Open Scope m_scope.

Section I.
Context {E : Env}.
Variable v : vm.
Hypothesis HD : dict_ok v.
Hypothesis HW : words v < Z.of_nat 400.
Hypothesis HA : 0 < start (v_ds v) /\ limit (v_ds v) < 2 ^ 63.
Variable ix : prim -> Z.
(** the name finds a word with this body, all of it allocated *)
Definition colon_in (s : string) (i : Z) (p : prog) : bool :=
  foundb v (b s) i && colonb v ix i p && (start (v_ds v) <=? body v i) && (fin (Seq p (Op (ix P_exit))) (body v i) <=? here (v_ds v)).
Definition defining_in (s : string) (i : Z) (p c : prog) : bool :=
  let a := fin (Seq p (Op (ix P_exit))) (body v i) in
  colon_in s i p && (start (v_ds v) <=? a) && (a <=? limit (v_ds v)) && (fin (Seq c (Op (ix P_exit))) a <=? here (v_ds v)) &&
  laidb a (fin (Seq c (Op (ix P_exit))) a) v (Seq c (Op (ix P_exit))) a.
Lemma colon_in_ok s i p : colon_in s i p = true -> newest v (b s) (Some i) /\ colon_word (allocated v) v i p (ix P_exit).
Proof.
  unfold colon_in. rewrite !andb_true_iff. intros (((H1 & H2) & H3) & H4). split; [apply (foundb_ok v HD HW); exact H1|].
  apply (colonb_more v HW HA); [exact H2|]. unfold own_code, allocated. cbv zeta. unfold body in *. intros k Hk. lia.
Qed.
Lemma defining_in_ok s i p c : defining_in s i p c = true -> newest v (b s) (Some i) /\ defining_word (allocated v) v i p c (ix P_exit).
Proof.
  unfold defining_in. cbv zeta. rewrite !andb_true_iff. intros ((((H1 & H2) & H3) & H4) & H5). destruct (colon_in_ok _ _ _ H1) as (A & B).
  split; [exact A|]. split; [exact B|]. split; [split; apply HA|]. apply Z.leb_le in H2, H3. split; [split; assumption|]. apply Z.leb_le in H4.
  refine (laid_mono _ _ _ _ _ _ (laidb_ok _ _ _ _ _ H5)). unfold allocated. intros k Hk. unfold region in Hk. lia.
Qed.
Lemma defining_ok a1 a2 a3 tc ts tf a4 a5 nop a6 a7 :
  forallb (fun p => word_isb v (ix p) p) lib_prims = true ->
  colon_in "variable" a1 (d_variable ix) && colon_in "2variable" a2 (d_two_variable ix) && defining_in "2constant" a3 (d_two_constant ix tc) (c_two_constant tf) &&
  colon_in "2," tc (d_two_comma ix ts) && colon_in "2!" ts (d_two_store ix) && colon_in "2@" tf (d_two_fetch ix) &&
  defining_in "+field" a4 (d_field ix) (c_field ix) && defining_in "defer" a5 (d_defer ix nop) (c_defer ix) && foundb v (b "noop") nop && word_isb v nop P_noop &&
  colon_in "defer@" a6 (d_defer_fetch ix) && colon_in "defer!" a7 (d_defer_store ix) = true ->
  defining_installed ix v.
Proof.
  rewrite !andb_true_iff, forallb_forall. intros H0 (((((((((((H1 & H2) & H3) & H4) & H5) & H6) & H7) & H8) & N1) & N2) & H9) & H10).
  split; [intros p Hp; apply word_isb_ok, H0, Hp|]. cbv zeta.
  destruct (colon_in_ok _ _ _ H4), (colon_in_ok _ _ _ H5), (colon_in_ok _ _ _ H6), (defining_in_ok _ _ _ _ H3).
  split; [exists a1; apply colon_in_ok; assumption|]. split; [exists a2; apply colon_in_ok; assumption|].
  split; [exists a3, tc, ts, tf; auto 10|]. split; [exists a4; apply defining_in_ok; assumption|]. split.
  { exists a5, nop. destruct (defining_in_ok _ _ _ _ H8). split; [assumption|]. split; [assumption|]. split; [apply (foundb_ok v HD HW); exact N1|apply word_isb_ok; exact N2]. }
  split; [exists a6; apply colon_in_ok; assumption|]. exists a7; apply colon_in_ok; assumption.
Qed.
End I.
Lemma booted_defining : @defining_installed env_d ix0 booted_d.
Proof. apply (defining_ok booted_d booted_dict booted_words booted_addr ix0 275 282 281 266 264 263 284 285 1 286 287); vm_cast_no_check (@eq_refl bool true). Qed.
Lemma booted_defining_r : @defining_installed env_r ix0 booted_r.
Proof. apply (defining_ok booted_r booted_dict_r booted_words_r booted_addr_r ix0 275 282 281 266 264 263 284 285 1 286 287); vm_cast_no_check (@eq_refl bool true). Qed.

(** The booted machine with cells on the data stack and a name in the input *)
Definition name_line : bytes := b " foo ".
Definition nd (l : list Z) : @vm env_d := inp name_line (bs l).
Lemma nd_frame l : v_ds (nd l) = v_ds booted_d /\ v_wl (nd l) = v_wl booted_d /\ v_err (nd l) = v_err booted_d /\ stacks_are (nd l) l [] [] \/ 200 <= zlen l.
Proof.
  destruct (Z_lt_le_dec (zlen l) 200) as [H|H]; [left|right; exact H]. pose proof (bs_stacks l H) as S.
  split; [exact (bs_ds l)|]. split; [exact (bs_wl l)|]. split; [clear; unfold nd, inp; induction l; [reflexivity|exact IHl]|].
  unfold stacks_are, nd, inp. gnorm. exact S.
Qed.
Lemma nd_next l : next_is (nd l) (b "foo").
Proof.
  split.
  - assert (EQ : v_tkn (nd l) = v_tkn booted_d) by (unfold nd, inp; clear; induction l; [reflexivity|exact IHl]). rewrite EQ.
    assert (H : match v_tkn booted_d with Some _ => true | None => false end = true) by (vm_cast_no_check (@eq_refl bool true)).
    destruct (v_tkn booted_d); [discriminate|discriminate H].
  - exists name_line, name_line, []. split; [apply inp_rest; [|reflexivity]|split; [apply ascii_utf8; reflexivity|]].
    + assert (EQ : st_sid (st (bs l)) = st_sid (st booted_d)) by (unfold st; clear; induction l; [reflexivity|unfold bs in *; cbn [fold_right]; unfold add_s; rewrite cur_set_s; exact IHl]).
      rewrite EQ. exact booted_sid.
    + change name_line with (b " " ++ b "foo" ++ b " "). eapply tok_step; [reflexivity|discriminate|reflexivity|reflexivity|reflexivity|]. constructor. apply blanks_ok. reflexivity.
Qed.
Lemma booted_err : v_err booted_d = None.
Proof. assert (H : match v_err booted_d with None => true | Some _ => false end = true) by (vm_cast_no_check (@eq_refl bool true)). destruct (v_err booted_d); [discriminate H|reflexivity]. Qed.
(** What the theorems of C57 and C58 require of the machine in which a word is defined *)
Definition def_ready (l : list Z) (v : @vm env_d) : Prop :=
  defining_installed ix0 v /\ old_code (allocated v) v /\ next_is v (b "foo") /\ dict_ok v /\ words v < Z.of_nat 400 /\ room_for v (b "foo") 500 /\
  v_err v = None /\ stacks_are v l [] [].
Lemma newest_same {E : Env} v w s r : v_ds w = v_ds v -> v_wl w = v_wl v -> newest v s r -> newest w s r.
Proof. intros A B. unfold newest, visible, named, word_of, words. rewrite A, B. exact id. Qed.
Lemma holds_same {E : Env} v w p a : v_ds w = v_ds v -> v_wl w = v_wl v -> holds (allocated v) v p a -> holds (allocated w) w p a.
Proof.
  intros A B H. assert (KK : kept (allocated v) v w) by (apply kept_eq; assumption). destruct (holds_kept (allocated v) v w p a KK H) as (X & Y & Z0).
  split; [exact X|]. split; [exact Y|]. eapply laid_mono; [|exact Z0]. unfold allocated. rewrite A. auto.
Qed.
Lemma word_same {E : Env} v w i p : v_wl w = v_wl v -> word_is v i p -> word_is w i p.
Proof. intro B. unfold word_is. rewrite B. exact id. Qed.
Lemma colon_same {E : Env} v w i p x : v_ds w = v_ds v -> v_wl w = v_wl v -> colon_word (allocated v) v i p x -> colon_word (allocated w) w i p x.
Proof.
  intros A B (H1 & H2 & H3). split; [eapply word_same; eassumption|]. split; [eapply word_same; eassumption|].
  unfold word_of. rewrite B. eapply holds_same; eassumption.
Qed.
Lemma defining_same {E : Env} v w i p c x : v_ds w = v_ds v -> v_wl w = v_wl v -> defining_word (allocated v) v i p c x -> defining_word (allocated w) w i p c x.
Proof.
  intros A B (H1 & H2). split; [eapply colon_same; eassumption|]. unfold body, word_of. rewrite B. eapply holds_same; eassumption.
Qed.
Lemma installed_same {E : Env} ix v w : v_ds w = v_ds v -> v_wl w = v_wl v -> defining_installed ix v -> defining_installed ix w.
Proof.
  intros A B (L & H). cbv zeta in H. split; [eapply library_eq; eassumption|]. cbv zeta.
  destruct H as ((i1 & ? & ?) & (i2 & ? & ?) & (i3 & tc & ts & tf & ? & ? & ? & ? & ? & ? & ? & ?) & (i4 & ? & ?) & (i5 & nop & ? & ? & ? & ?) & (i6 & ? & ?) & (i7 & ? & ?)).
  split; [exists i1|split; [exists i2|split; [exists i3, tc, ts, tf|split; [exists i4|split; [exists i5, nop|split; [exists i6|exists i7]]]]]];
    repeat first [solve [(eapply (newest_same v); eassumption) || (eapply (colon_same v); eassumption) || (eapply (defining_same v); eassumption) || (eapply (word_same v); eassumption)] | split].
Qed.
Lemma nd_ready l : zlen l < 200 -> def_ready l (nd l).
Proof.
  intro H. destruct (nd_frame l) as [(A & B & C & S)|X]; [|lia].
  assert (HD : dict_ok (nd l)) by (unfold dict_ok, words, named, word_of; rewrite A, B; exact booted_dict).
  split; [apply (installed_same ix0 booted_d (nd l) A B booted_defining)|].
  split; [intros k Hk; exact Hk|]. split; [apply nd_next|]. split; [exact HD|]. split; [unfold words; rewrite B; exact booted_words|].
  split; [unfold room_for; rewrite A; pose proof room_above; change (zlen (b "foo")) with 3; lia|]. split; [rewrite C; exact booted_err|exact S].
Qed.
