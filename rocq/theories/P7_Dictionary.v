(** Properties C18 to C22: the dictionary. *)
From Coq Require Import ZArith List Bool Lia String.
From Verif Require Import Base Stack Mem Parser State CoreM Exec Boot Std Spec Spec4 Spec9 Spec10
  LDict LDict2 LDict3 LDict4 LDict5 LDec Ex Ex2 Ex5 Ex6.
Import ListNotations.
Open Scope list_scope.
Open Scope Z_scope.
Open Scope m_scope.
Local Opaque booted_d booted_r dm0 dm1 dm2 dm3 dm_bye exec_prim execute_word find.

(** C18.  In a well-formed dictionary a lookup answers with the newest visible
    word of that name, up to the case of ASCII letters, and changes nothing. *)
Theorem C18_find {E : Env} : forall fuel name v r,
  dict_ok v -> words v < Z.of_nat fuel -> (find fuel name v = Ok (r, v) <-> newest v name r).
Proof. exact find_iff. Qed.
Print Assumptions C18_find.

Theorem C18_find_answers {E : Env} : forall fuel name v,
  dict_ok v -> words v < Z.of_nat fuel -> exists r, find fuel name v = Ok (r, v) /\ newest v name r.
Proof. exact find_newest. Qed.
Print Assumptions C18_find_answers.

(** The dictionary of the freshly loaded system is well-formed, in both builds,
    and stays so whatever is defined. *)
Theorem C18_booted : @dict_ok env_d booted_d /\ @dict_ok env_r booted_r.
Proof. exact (conj booted_dict booted_dict_r). Qed.
Print Assumptions C18_booted.

Theorem C18_definitions {E : Env} : forall fuel v v', dict_ok v -> definitions fuel v v' -> dict_ok v'.
Proof. exact definitions_dict. Qed.
Print Assumptions C18_definitions.

Example C18_example : (* marker m : Dup ; : the name dUP is found as the newest of 327 words *)
  newest dm3 (b "dUP") (Some 326).
Proof.
  apply (C18_find 400).
  - apply (C18_definitions 400 dm0 dm3 dm0_dict).
    apply (D_last 400 _ P_semicolon dm2); [|cbn [finishing_words In]; tauto|exact dm_q3]. apply (D_new 400 _ P_colon dm1); [|cbn [defining_words In]; tauto|exact dm_q2].
    apply (D_new 400 _ P_marker dm0); [apply D_none|cbn [defining_words In]; tauto|exact dm_q1].
  - rewrite dm3_words. reflexivity.
  - exact dm3_dup.
Qed.

(** C19.  From [:] to [;] every lookup answers as before [:]; after [;] the new
    name is that of the new word and every other lookup is unchanged. *)
Theorem C19_invisible_until_semicolon {E : Env} : forall fuel v0 v1 v2 v3,
  dict_ok v0 -> v_err v0 = None ->
  quiet fuel P_colon v0 v1 -> goes_on v1 v2 -> quiet fuel P_semicolon v2 v3 ->
  (forall name r, newest v2 name r <-> newest v0 name r) /\
  exists t, t <> [] /\ named v3 (words v0) t /\
    (forall name r, same_text t name -> (newest v3 name r <-> r = Some (words v0))) /\
    (forall name r, ~ same_text t name -> (newest v3 name r <-> newest v0 name r)).
Proof. exact colon_semicolon. Qed.
Print Assumptions C19_invisible_until_semicolon.

(** Whatever is defined afterwards, the words there were and the memory they were
    compiled into are as they were. *)
Theorem C19_early_binding {E : Env} : forall fuel v v',
  dict_ok v -> redefinitions fuel v v' -> dict_ok v' /\ words v < words v' /\ older_kept v v'.
Proof. exact redefinitions_older. Qed.
Print Assumptions C19_early_binding.

Example C19_example : (* : Dup ; redefines dup *)
  (forall name r, newest dm2 name r <-> newest dm1 name r) /\ older_kept dm1 dm3.
Proof.
  split.
  - eapply (C19_invisible_until_semicolon 400); [exact dm1_dict| |exact dm_q2|exact dm_same|exact dm_q3].
    exact dm1_err.
  - apply (C19_early_binding 400 dm1 dm3 dm1_dict). apply (R_last 400 _ P_semicolon dm2); [|cbn [finishing_words In]; tauto|exact dm_q3].
    apply (R_first 400 _ P_colon); [|exact dm_q2]. cbn [defining_words In]; tauto.
Qed.

(** C20.  A marker, then any sequence of definitions that keeps it a marker, then
    executing it: [here], the words and the answer to every lookup are those of
    before.  The result is again a state from which [definitions] can go on, so
    markers may be nested. *)
Theorem C20_marker_restores {E : Env} : forall fuel f v0 v1 v2,
  dict_ok v0 -> quiet fuel P_marker v0 v1 -> definitions fuel v1 v2 ->
  w_action (word_of v2 (words v0)) = P_unmark ->
  exists v3, execute_word (S f) (words v0) v2 = Ok (tt, v3) /\
    here (v_ds v3) = here (v_ds v0) /\ same_words v0 v3 /\ goes_on v0 v3 /\
    forall n name r, words v0 < Z.of_nat n -> (find n name v3 = Ok (r, v3) <-> find n name v0 = Ok (r, v0)).
Proof. exact marker_restores. Qed.
Print Assumptions C20_marker_restores.

Example C20_example : (* marker m : Dup ; m *)
  exists v3, execute_word 1 325 dm3 = Ok (tt, v3) /\ here (v_ds v3) = here (v_ds dm0) /\ words v3 = words dm0 /\
    here (v_ds dm0) < here (v_ds dm3).
Proof.
  destruct (C20_marker_restores 400 0 dm0 dm1 dm3 dm0_dict dm_q1) as (v3 & A & B & C & _).
  - apply (D_last 400 _ P_semicolon dm2); [|cbn [finishing_words In]; tauto|exact dm_q3]. apply (D_new 400 _ P_colon dm1); [apply D_none|cbn [defining_words In]; tauto|exact dm_q2].
  - rewrite dm0_words. exact dm3_action.
  - exists v3. rewrite dm0_words in A. split; [exact A|]. split; [exact B|]. split; [apply C|]. apply Z.ltb_lt. exact dm_here.
Qed.

(** C21.  The word an address belongs to. *)
Theorem C21_find_xt : forall l addr, increasing l ->
  match find_xt l addr with
  | Some i => 0 <= i < wl_len l /\ w_nfa (wl_get l i) <= addr /\ forall j, i < j < wl_len l -> addr < w_nfa (wl_get l j)
  | None => forall j, 0 <= j < wl_len l -> addr < w_nfa (wl_get l j)
  end.
Proof. exact find_xt_ok. Qed.
Print Assumptions C21_find_xt.

Theorem C21_increasing {E : Env} : forall v, dict_ok v -> increasing (v_wl v).
Proof. exact dict_increasing. Qed.
Print Assumptions C21_increasing.

Example C21_example : increasing (v_wl booted_d).
Proof. exact (C21_increasing booted_d booted_dict). Qed.

(** C22.  The full statement is false: [marker] and [fconstant] without a name raise
    -39, and when the handler returns they compile their data all the same. *)
Theorem C22_marker_refuted : exists v v' : @vm env_d,
  dict_ok v /\ nothing_left v /\
  exec_prim 400 (execute_word 400) P_marker v = Ok (tt, v') /\ v_err v' = Some (-39) /\ here (v_ds v') = here (v_ds v) + 520.
Proof. exact nameless_marker. Qed.
Print Assumptions C22_marker_refuted.
Theorem C22_fconstant_refuted : exists v v' : @vm env_d,
  dict_ok v /\ nothing_left v /\
  exec_prim 400 (execute_word 400) P_fconstant v = Ok (tt, v') /\ v_err v' = Some (-39) /\ here (v_ds v') = here (v_ds v) + 8.
Proof. exact nameless_fconstant. Qed.
Print Assumptions C22_fconstant_refuted.

(** [:], [create] and [constant] without a name raise -39 with the dictionary and
    the data space untouched, and do nothing else if the handler, as it should,
    returns with the error still set.  Missing: [marker] and [fconstant]. *)
Theorem C22_nameless_partial {E : Env} : forall fuel p v,
  dict_ok v -> words v < Z.of_nat fuel -> nothing_left v -> In p [P_colon; P_create; P_constant] ->
  exists v1, v_err v1 = Some (-39) /\ v_wl v1 = v_wl v /\ v_ds v1 = v_ds v /\
    forall ew, (forall v2, ew (v_handler v) v1 = Ok (tt, v2) -> v_err v2 <> None) ->
      exec_prim fuel ew p v = ew (v_handler v) v1.
Proof. exact nameless. Qed.
Print Assumptions C22_nameless_partial.

Example C22_example :
  exists v1, v_err v1 = Some (-39) /\ v_wl v1 = v_wl dm_bye /\ v_ds v1 = v_ds dm_bye /\
    exec_prim 400 ew_nop P_constant dm_bye = Ok (tt, v1).
Proof.
  destruct (C22_nameless_partial 400 P_constant dm_bye dm_bye_dict) as (v1 & A & B & C & D).
  - vm_cast_no_check (@eq_refl comparison Lt).
  - exact dm_bye_nothing.
  - cbn [In]; tauto.
  - exists v1. split; [exact A|]. split; [exact B|]. split; [exact C|]. apply D. intros v2 [= <-]. rewrite A. discriminate.
Qed.
