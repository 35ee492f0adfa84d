(** Machines used by the examples of the dictionary properties. *)
From Coq Require Import ZArith List Bool Lia ZifyBool ZifyNat String.
From Verif Require Import Base Stack Mem Parser State CoreM Exec Boot Std Spec Spec4 Spec9 Spec10 LBase LStack LState LMem
  LMon LFuel LDict LDict2 LDict3 LDec Ex Ex2 Ex5.
Import ListNotations.
Open Scope list_scope.
Open Scope Z_scope.
Open Scope m_scope.

(** ** A decision procedure for [dict_ok] *)
Fixpoint walk (l : wordlist) (n : nat) (i : Z) (h : tmap Z) : option (tmap Z) :=
  match n with
  | O => Some h
  | S n => let k := w_hash (wl_get l i) mod 64 in
           if w_link (wl_get l i) =? tget 0 h k then walk l n (i + 1) (tset h k i) else None
  end.
Lemma walk_ok l n : forall i h h', 0 <= i -> (forall k, 0 <= k < 64 -> newest_below l i k (tget 0 h k)) -> walk l n i h = Some h' ->
  (forall j, i <= j < i + Z.of_nat n -> newest_below l j (w_hash (wl_get l j) mod 64) (w_link (wl_get l j))) /\
  (forall k, 0 <= k < 64 -> newest_below l (i + Z.of_nat n) k (tget 0 h' k)).
Proof.
  induction n as [|n IH]; intros i h h' Hi HH HW; cbn [walk] in HW.
  - injection HW as <-. split; [lia|]. intros k Hk. replace (i + Z.of_nat 0) with i by lia. apply HH; exact Hk.
  - cbv zeta in HW. set (k0 := w_hash (wl_get l i) mod 64) in *. assert (HK : 0 <= k0 < 64) by (apply Z.mod_pos_bound; lia).
    destruct (Z.eqb_spec (w_link (wl_get l i)) (tget 0 h k0)) as [E|]; [|discriminate]. apply IH in HW; [|lia|].
    + destruct HW as (A & B). split.
      * intros j Hj. destruct (Z.eq_dec j i) as [->|N]; [|apply A; lia]. fold k0. rewrite E. apply HH. exact HK.
      * intros k Hk. specialize (B k Hk). replace (i + Z.of_nat (S n)) with (i + 1 + Z.of_nat n) by lia. exact B.
    + intros k Hk. destruct (Z.eq_dec k k0) as [->|N].
      * rewrite tget_tset_same. destruct (Z.eq_dec i 0) as [->|N]; [left; split; [reflexivity|intros; lia]|]. right. split; [lia|]. split; [reflexivity|intros; lia].
      * rewrite tget_tset_other by lia. assert (HN : forall j, j < i + 1 -> i <= j -> w_hash (wl_get l j) mod 64 <> k).
        { intros j H1 H2. replace j with i by lia. fold k0. congruence. }
        destruct (HH k Hk) as [(H1 & H2)|(H1 & H2 & H3)].
        -- left. split; [exact H1|]. intros j Hj. destruct (Z_lt_le_dec j i); [apply H2; lia|apply HN; lia].
        -- right. split; [lia|]. split; [exact H2|]. intros j Hj. destruct (Z_lt_le_dec j i); [apply H3; lia|apply HN; lia].
Qed.
Definition chainedb (l : wordlist) : bool :=
  match walk l (Z.to_nat (wl_len l)) 0 tempty with
  | Some h => forallb (fun k => tget 0 (wl_buckets l) k =? tget 0 h k) (upto 64)
  | None => false
  end.
Lemma chainedb_ok l : 0 <= wl_len l -> chainedb l = true -> chained l.
Proof.
  intros HL. unfold chainedb. destruct (walk l (Z.to_nat (wl_len l)) 0 tempty) as [h|] eqn:EW; [|discriminate]. intro H.
  apply walk_ok in EW; [|lia|].
  - destruct EW as (A & B). rewrite Z2Nat.id, Z.add_0_l in * by exact HL. split; [exact A|]. intros k Hk. rewrite forallb_forall in H. specialize (H k (in_upto 64 k Hk)). apply Z.eqb_eq in H. rewrite H. apply B. exact Hk.
  - intros k _. rewrite tget_tempty. left. split; [reflexivity|intros; lia].
Qed.
Definition name_at (d : dspace) (a : Z) : bytes := map (fun k => byte_at d (a + 8 + k)) (upto (cell_bytes_val d a)).
Lemma nth_upto n k x : nth_error (upto n) k = Some x -> x = Z.of_nat k.
Proof.
  unfold upto. rewrite nth_error_map. destruct (nth_error (seq 0 (Z.to_nat n)) k) as [y|] eqn:E; [|discriminate]. intros [= <-].
  f_equal. pose proof (nth_error_nth _ _ 0%nat E) as E2. assert (k < Datatypes.length (seq 0 (Z.to_nat n)))%nat by (apply nth_error_Some; congruence).
  rewrite seq_length in *. rewrite seq_nth in E2 by assumption. lia.
Qed.
Definition cellb (d : dspace) (a x : Z) : bool := forallb (fun k => byte_at d (a + k) =? x / 256 ^ k mod 256) (upto 8).
Lemma cellb_ok d a x : cellb d a x = true -> cell_at d a x.
Proof. unfold cellb. rewrite forallb_forall. intros H k Hk. specialize (H k (in_upto _ _ Hk)). lia. Qed.
Definition name_fieldb (d : dspace) (a : Z) : bool :=
  let n := name_at d a in (start d <=? a) && (a + 8 + zlen n <=? here d) && cellb d a (zlen n).
Lemma name_fieldb_ok d a : name_fieldb d a = true -> name_field d a (name_at d a).
Proof.
  unfold name_fieldb. cbv zeta. rewrite !andb_true_iff. intros ((H1 & H2) & H3). split; [lia|]. split; [lia|]. split; [apply cellb_ok; exact H3|].
  intros k x H. unfold name_at in H. rewrite nth_error_map in H. destruct (nth_error (upto (cell_bytes_val d a)) k) as [y|] eqn:EY; [|discriminate].
  injection H as <-. rewrite (nth_upto _ _ _ EY). reflexivity.
Qed.
Section Q.
Context {E : Env}.
Definition dict_okb (v : vm) : bool :=
  let d := v_ds v in let l := v_wl v in
  (0 <? start d) && (start d <=? here d) && (here d <=? limit d) && (limit d <? 9223372036854775808) &&
  (1 <=? wl_len l) && (wl_last l =? wl_len l - 1) && chainedb l &&
  forallb (fun i => let w := wl_get l i in let a := w_nfa w in let n := name_at d a in
     name_fieldb d a && (w_hash w =? hash n) &&
     ((wl_len l <=? i + 1) || (a + 8 + zlen n <=? w_nfa (wl_get l (i + 1)))) &&
     (negb (prim_eqb (w_action w) P_unmark) || ((start d <=? w_dfa w) && (w_dfa w + 520 <=? here d)))) (upto (wl_len l)).
Lemma dict_okb_ok (v : vm) : dict_okb v = true -> dict_ok v.
Proof.
  unfold dict_okb. cbv zeta. rewrite !andb_true_iff, forallb_forall. intros (((((((A1 & A2) & A3) & A4) & A5) & A6) & A7) & A8).
  split; [unfold ds_ok; change (2 ^ 63) with 9223372036854775808; lia|]. split; [unfold words; lia|]. split; [unfold words; lia|].
  split; [apply chainedb_ok; [lia|exact A7]|]. split.
  - intros i Hi. specialize (A8 i (in_upto _ _ Hi)). rewrite !andb_true_iff, !orb_true_iff in A8. destruct A8 as (((B1 & B2) & B3) & _).
    exists (name_at (v_ds v) (w_nfa (wl_get (v_wl v) i))). split; [apply name_fieldb_ok; exact B1|]. split; [unfold word_of; lia|].
    intro Hj. unfold words, word_of in *. destruct B3 as [B3|B3]; lia.
  - intros i Hi HA. specialize (A8 i (in_upto _ _ Hi)). rewrite !andb_true_iff, !orb_true_iff in A8. destruct A8 as (_ & B4).
    unfold word_of in *. rewrite HA in B4. destruct B4 as [B4|B4]; [discriminate B4|]. rewrite andb_true_iff in B4. lia.
Qed.
End Q.

(** ** On the booted machine: MARKER m, : Dup ;, CONSTANT *)
Definition booted_dict : @dict_ok env_d booted_d.
Proof. apply dict_okb_ok. vm_cast_no_check (@eq_refl bool true). Qed.
Definition booted_dict_r : @dict_ok env_r booted_r.
Proof. apply dict_okb_ok. vm_cast_no_check (@eq_refl bool true). Qed.

Definition dm0 : @vm env_d := state_of booted_d (set_source (b "m Dup") booted_d).
(** A word that ends normally without executing another word *)
Definition ew_oof {E : Env} : Z -> M unit := fun _ _ => OutOfFuel.
Lemma quiet_run {E : Env} d fuel p v : is_ok (exec_prim fuel ew_oof p v) = true -> quiet fuel p v (state_of d (exec_prim fuel ew_oof p v)).
Proof.
  intros H ew. pose proof (ok_state d _ H) as K. pose proof (prim_mle fuel fuel ew_oof ew (le_n _) (fun i => mle_oof (ew i)) p v) as Q.
  rewrite Q; [exact K|]. rewrite K. discriminate.
Qed.
Definition aq (p : prim) (v : @vm env_d) : vm := state_of booted_d (exec_prim 400 ew_oof p v).
Definition dm1 := aq P_marker dm0.
Definition dm2 := aq P_colon dm1.
Definition dm3 := aq P_semicolon dm2.
Definition dm_bye : @vm env_d := state_of booted_d (set_source (b "  ") booted_d).

Lemma dm0_dict : dict_ok dm0. Proof. apply dict_okb_ok. vm_cast_no_check (@eq_refl bool true). Qed.
Lemma dm_bye_dict : dict_ok dm_bye. Proof. apply dict_okb_ok. vm_cast_no_check (@eq_refl bool true). Qed.
Lemma dm_bye_nothing : nothing_left dm_bye.
Proof.
  split; [vm_compute; discriminate|]. exists (b "  "). split; [left; split; [vm_compute; discriminate|vm_compute; reflexivity]|].
  split; [vm_compute; intuition discriminate|]. split; [reflexivity|]. replace (st_idx (st dm_bye)) with 0 by (vm_compute; reflexivity).
  change (Forall blank [32; 32]). repeat constructor; unfold blank; cbn [In]; tauto.
Qed.
Lemma dm_q1 : quiet 400 P_marker dm0 dm1.
Proof. apply (quiet_run booted_d). vm_cast_no_check (@eq_refl bool true). Qed.
Lemma dm_q2 : quiet 400 P_colon dm1 dm2.
Proof. apply (quiet_run booted_d). vm_cast_no_check (@eq_refl bool true). Qed.
Lemma dm_q3 : quiet 400 P_semicolon dm2 dm3.
Proof. apply (quiet_run booted_d). vm_cast_no_check (@eq_refl bool true). Qed.
Lemma dm1_err : v_err dm1 = None. Proof. vm_cast_no_check (@eq_refl (option Z) None). Qed.
Lemma dm0_words : words dm0 = 325. Proof. vm_cast_no_check (@eq_refl Z 325). Qed.
Lemma dm3_words : words dm3 = 327. Proof. vm_cast_no_check (@eq_refl Z 327). Qed.
Lemma dm3_action : w_action (word_of dm3 325) = P_unmark. Proof. vm_cast_no_check (@eq_refl prim P_unmark). Qed.
Lemma dm_here : (here (v_ds dm0) <? here (v_ds dm3)) = true. Proof. vm_cast_no_check (@eq_refl bool true). Qed.
Definition bye_test (v : @vm env_d) (n : Z) (r : res (unit * @vm env_d)) : bool :=
  match r with
  | Ok (_, v') => (here (v_ds v') =? here (v_ds v) + n) && match v_err v' with Some x => x =? -39 | None => false end
  | _ => false
  end.
Lemma bye_m_facts : bye_test dm_bye 520 (exec_prim 400 (execute_word 400) P_marker dm_bye) = true.
Proof. vm_cast_no_check (@eq_refl bool true). Qed.
Lemma bye_f_facts : bye_test dm_bye 8 (exec_prim 400 (execute_word 400) P_fconstant dm_bye) = true.
Proof. vm_cast_no_check (@eq_refl bool true). Qed.
Lemma bye_test_ok v n r : bye_test v n r = true -> exists v', r = Ok (tt, v') /\ v_err v' = Some (-39) /\ here (v_ds v') = here (v_ds v) + n.
Proof.
  destruct r as [[[] v']| | |]; cbn [bye_test]; try discriminate. rewrite andb_true_iff. intros (A & B). exists v'.
  split; [reflexivity|]. destruct (v_err v'); [|discriminate]. split; [f_equal|]; lia.
Qed.
Definition dm3_find : bool := match find 400 (b "dUP") dm3 with Ok (Some i, _) => i =? 326 | _ => false end.
Lemma dm3_found : dm3_find = true. Proof. vm_cast_no_check (@eq_refl bool true). Qed.
Lemma found_dup : is_ok (find 400 (b "DUP") dm0) = true. Proof. vm_cast_no_check (@eq_refl bool true). Qed.

Local Opaque booted_d booted_r dm0 dm1 dm2 dm3 dm_bye exec_prim execute_word find.
Lemma dm1_dict : dict_ok dm1.
Proof.
  apply (definitions_dict 400 dm0 dm1 dm0_dict). apply (D_new 400 _ P_marker dm0); [apply D_none|cbn [defining_words In]; tauto|exact dm_q1].
Qed.
Lemma dm_same : goes_on dm2 dm2.
Proof.
  assert (dict_ok dm2) as (H & _).
  { apply (definitions_dict 400 dm1 dm2 dm1_dict). apply (D_new 400 _ P_colon dm1); [apply D_none|cbn [defining_words In]; tauto|exact dm_q2]. }
  unfold goes_on, same_words. repeat match goal with |- _ /\ _ => split end; try exact H; intros; try reflexivity.
Qed.
Lemma nameless_marker : exists v v' : @vm env_d,
  dict_ok v /\ nothing_left v /\
  exec_prim 400 (execute_word 400) P_marker v = Ok (tt, v') /\ v_err v' = Some (-39) /\ here (v_ds v') = here (v_ds v) + 520.
Proof.
  destruct (bye_test_ok _ _ _ bye_m_facts) as (v' & H). exists dm_bye, v'. split; [exact dm_bye_dict|]. split; [exact dm_bye_nothing|exact H].
Qed.
Lemma nameless_fconstant : exists v v' : @vm env_d,
  dict_ok v /\ nothing_left v /\
  exec_prim 400 (execute_word 400) P_fconstant v = Ok (tt, v') /\ v_err v' = Some (-39) /\ here (v_ds v') = here (v_ds v) + 8.
Proof.
  destruct (bye_test_ok _ _ _ bye_f_facts) as (v' & H). exists dm_bye, v'. split; [exact dm_bye_dict|]. split; [exact dm_bye_nothing|exact H].
Qed.

Lemma dm3_dict : dict_ok dm3.
Proof.
  apply (definitions_dict 400 dm0 dm3 dm0_dict).
  apply (D_last 400 _ P_semicolon dm2); [|cbn [finishing_words In]; tauto|exact dm_q3]. apply (D_new 400 _ P_colon dm1); [|cbn [defining_words In]; tauto|exact dm_q2].
  apply (D_new 400 _ P_marker dm0); [apply D_none|cbn [defining_words In]; tauto|exact dm_q1].
Qed.
Lemma dm3_dup : find 400 (b "dUP") dm3 = Ok (Some 326, dm3).
Proof.
  destruct (find_newest 400 (b "dUP") dm3 dm3_dict) as (r & E & _); [rewrite dm3_words; reflexivity|]. pose proof dm3_found as F. unfold dm3_find in F. rewrite E in *.
  destruct r as [i|]; [|discriminate F]. apply Z.eqb_eq in F. subst i. reflexivity.
Qed.
