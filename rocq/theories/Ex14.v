(** Machines used by the examples of the text interpreter (C38). *)
From Coq Require Import ZArith List Bool Lia ZifyBool ZifyNat String.
From Verif Require Import Base Stack Mem Parser State CoreM IoM Exec Boot Std Spec Spec4 Spec5 Spec9 Spec10 Spec11 Spec19.
From Verif Require Import LBase LStack LState LMem LMon LDict LText LEval Ex Ex2 Ex3 Ex6 Ex7 Ex9.
Import ListNotations.
Open Scope list_scope.
Open Scope Z_scope.
Open Scope m_scope.

(** ** Computing a [line] *)
Section C.
Context {E : Env}.
Implicit Types (v : vm).
Lemma some_pair {A B} (a c : A) (x y : B) : Some (a, x) = Some (c, y) -> c = a /\ y = x.
Proof. intro H. injection H as -> ->. auto. Qed.
Definition at_tokenb (fuel : nat) v : bool :=
  dict_okb v && (words v <? Z.of_nat fuel) && is_ok (get_isize (v_ds v) (base_addr (v_ds v))) && negb (idx_flit (v_refs v) =? 0).
Lemma at_tokenb_ok fuel v t : at_tokenb fuel v = true -> v_tkn v = Some t -> at_token fuel v t.
Proof.
  unfold at_tokenb. rewrite !andb_true_iff. intros (((A & B) & C) & D) HT. split; [exact HT|]. split; [apply dict_okb_ok; exact A|]. split; [lia|].
  split; [|lia]. unfold base_is. destruct (get_isize _ _) as [x| | |]; try discriminate C. exists x. reflexivity.
Qed.
Definition action fuel v : res (unit * vm) := exec_prim fuel (execute_word fuel) (if st_compiling (st v) then P_compile_token else P_interpret_token) v.
(** the meaning of the token, and the code it starts *)
Definition token_runb fuel v : option vm :=
  match action fuel v with
  | Ok (_, v1) => match v_err v1 with
    | Some _ => Some v1
    | None => match run fuel v1 with
      | Ok (_, v2) => match exec_prim fuel (execute_word fuel) P_check_stacks v2 with Ok (_, v3) => Some v3 | _ => None end
      | _ => None end end
  | _ => None
  end.
Lemma token_runb_ok fuel v t v' : at_token fuel v t -> token_runb fuel v = Some v' -> token_run fuel t v v'.
Proof.
  intros HA. unfold token_runb. destruct (action fuel v) as [([], v1)| | |] eqn:EA; try discriminate.
  pose proof (proj2 (performs_iff fuel v t v1 HA) EA) as HP. destruct (v_err v1) eqn:E1.
  - intro K. injection K as <-. apply TR_raised; [exact HP|congruence].
  - destruct (run fuel v1) as [([], v2)| | |] eqn:ER; try discriminate.
    destruct (exec_prim fuel (execute_word fuel) P_check_stacks v2) as [([], v3)| | |] eqn:EC; try discriminate. intro K. injection K as <-.
    exact (TR_done fuel t v v3 v1 v2 HP E1 ER EC).
Qed.
Fixpoint lineb (fuel n : nat) v : option (list (bytes * vm * vm) * vm) :=
  match n with
  | O => None
  | S n =>
    match v_err v, parse_word v with
    | None, Ok (_, v1) =>
      match v_tkn v1 with
      | Some [] => Some ([], v1)
      | Some t => if at_tokenb fuel v1 then
          match token_runb fuel v1 with
          | Some v2 => match v_err v2 with
            | Some _ => Some ([(t, v1, v2)], v2)
            | None => match lineb fuel n v2 with Some (l, v') => Some ((t, v1, v2) :: l, v') | None => None end end
          | None => None end else None
      | None => None
      end
    | _, _ => None
    end
  end.
Lemma lineb_ok fuel n : forall v l v', lineb fuel n v = Some (l, v') -> line fuel v l v'.
Proof.
  induction n as [|n IH]; intros v l v' H; [discriminate|]. cbn [lineb] in H. destruct (v_err v) eqn:EV; [discriminate|].
  destruct (parse_word v) as [([], v1)| | |] eqn:EP; try discriminate. assert (HQ : quiet 0 P_parse_word v v1) by (intro ew; exact EP).
  destruct (v_tkn v1) as [[|c t]|] eqn:ET; try discriminate.
  - apply some_pair in H as (-> & ->). apply L_end; [exact EV|]. split; assumption.
  - destruct (at_tokenb fuel v1) eqn:EA; [|discriminate]. pose proof (at_tokenb_ok fuel v1 _ EA ET) as HA.
    destruct (token_runb fuel v1) as [v2|] eqn:ER; [|discriminate]. pose proof (token_runb_ok _ _ _ _ HA ER) as HR.
    destruct (v_err v2) eqn:E2.
    + apply some_pair in H as (-> & ->).
      apply L_raised; [exact EV|split; assumption|congruence|exact HA|exact HR|congruence].
    + destruct (lineb fuel n v2) as [(l2, v3)|] eqn:EL; [|discriminate]. apply some_pair in H as (-> & ->).
      apply (L_next fuel v v1 (c :: t) v2 l2 v3); [exact EV|split; assumption|congruence|exact HA|exact HR|exact E2|apply IH; exact EL].
Qed.
Definition input_keptb (x : bytes * vm * vm) : bool :=
  let '(_, u, u') := x in
  (st_idx (st u') =? st_idx (st u)) && (st_sid (st u) <=? 0) && (st_sid (st u') <=? 0) &&
  (match t_inbuf (cur u), t_inbuf (cur u') with Some x, Some y => bytes_eqb x y | _, _ => false end) &&
  (match v_tkn u' with Some _ => true | None => false end).
Lemma input_keptb_ok x : input_keptb x = true -> input_kept x.
Proof.
  destruct x as ((t & u) & u'). unfold input_keptb, input_kept. rewrite !andb_true_iff. intros ((((A & B) & C) & D) & F).
  split; [lia|]. split; [|destruct (v_tkn u'); [discriminate|discriminate F]]. intros buf [(H1 & H2)|(H1 & _)]; [|lia]. left. split; [lia|].
  rewrite H2 in D. destruct (t_inbuf (cur u')); [|discriminate D]. apply bytes_eqb_eq in D. congruence.
Qed.
End C.

(** ** A line with an unknown word in the middle *)
Definition text38 : string := "12 nosuch 7".
Definition src38 : @vm env_d := state_of booted_d (set_source (b text38) booted_d).
Definition tokensb (l : list (bytes * @vm env_d * @vm env_d)) (ts : list bytes) : bool :=
  Nat.eqb (List.length l) (List.length ts) && forallb (fun x => bytes_eqb (fst x) (snd x)) (combine (map token_of l) ts).
Lemma tokensb_ok l : forall ts, tokensb l ts = true -> map token_of l = ts.
Proof.
  unfold tokensb. induction l as [|x l IH]; intros [|t ts]; cbn; try discriminate; [reflexivity|]. intro H.
  apply andb_prop in H as (A & B). apply andb_prop in B as (B & C). apply bytes_eqb_eq in B. rewrite B, (IH ts); [reflexivity|]. rewrite A, C. reflexivity.
Qed.
Definition line38b : bool :=
  match lineb 400 10 src38 with
  | Some (l, v') => tokensb l [b "12"; b "nosuch"] && err_eqb (v_err v') (Some (-13)) && forallb input_keptb l &&
      (len (t_s (cur v')) =? 0) && forallb (fun x => err_eqb (v_err (snd x)) None && (len (t_s (cur (snd x))) =? 1) && (sget (t_s (cur (snd x))) 0 =? 12)) (firstn 1 l) &&
      forallb (fun x => err_eqb (v_err (snd x)) (Some (-13))) (skipn 1 l)
  | None => false
  end.
Lemma line38 : exists l v', line 400 src38 l v' /\ map token_of l = [b "12"; b "nosuch"] /\ v_err v' = Some (-13) /\ Forall input_kept l /\
  exists u1 u2 u3, l = [(b "12", u1, u2); (b "nosuch", u3, v')] /\ v_err u2 = None /\ len (t_s (cur u2)) = 1 /\ sget (t_s (cur u2)) 0 = 12.
Proof.
  assert (H : line38b = true) by (vm_cast_no_check (@eq_refl bool true)). unfold line38b in H.
  destruct (lineb 400 10 src38) as [(l, v')|] eqn:EL; [|discriminate]. rewrite !andb_true_iff in H. destruct H as (((((A & B) & C) & D) & F) & G).
  exists l, v'. pose proof (lineb_ok _ _ _ _ _ EL) as HL. apply tokensb_ok in A. apply err_eqb_eq in B.
  split; [exact HL|]. split; [exact A|]. split; [exact B|]. split; [rewrite Forall_forall; rewrite forallb_forall in C; intros x Hx; apply input_keptb_ok, C, Hx|].
  destruct l as [|((t1 & u1) & u2) [|((t2 & u3) & u4) [|x l]]]; try discriminate A. cbn in A. injection A as -> ->.
  cbn [firstn forallb snd] in F. rewrite !andb_true_iff in F. destruct F as (((F1 & F2) & F3) & _). apply err_eqb_eq in F1.
  assert (K : u4 = v').
  { inversion HL as [|u v1 t w K1 K2 K3 K4 K5 K6|u v1 t w l w' K1 K2 K3 K4 K5 K6 K7]; subst. inversion K7 as [|u' v1' t' w1 L1 L2 L3 L4 L5 L6|u' v1' t' w1 l' w1' L1 L2 L3 L4 L5 L6 L7]; subst; [reflexivity|].
    cbn [skipn forallb snd] in G. rewrite andb_true_iff in G. destruct G as (G & _). apply err_eqb_eq in G. congruence. }
  subst u4. exists u1, u2, u3. split; [reflexivity|]. split; [exact F1|]. split; lia.
Qed.

Lemma src38_source : set_source (b text38) booted_d = Ok (tt, src38).
Proof. apply ok_state. vm_cast_no_check (@eq_refl bool true). Qed.
Lemma src38_rest : rest_of_input src38 (b text38).
Proof.
  exists (b text38), []. split; [left; split|split; [reflexivity|split; [|reflexivity]]].
  - assert (H : st_sid (st src38) = 0) by (vm_cast_no_check (@eq_refl Z 0)). rewrite H. discriminate.
  - vm_cast_no_check (@eq_refl (option bytes) (Some (b text38))).
  - vm_cast_no_check (@eq_refl Z 0).
Qed.
Lemma src38_tkn : v_tkn src38 <> None.
Proof.
  assert (H : match v_tkn src38 with Some _ => true | None => false end = true) by (vm_cast_no_check (@eq_refl bool true)).
  destruct (v_tkn src38); [discriminate|discriminate H].
Qed.
Lemma text38_tokens : tokens (b text38) [b "12"; b "nosuch"; b "7"].
Proof.
  change (b text38) with ([] ++ b "12" ++ (b " " ++ b "nosuch" ++ (b " " ++ b "7" ++ []))).
  eapply tok_step; [reflexivity|discriminate|reflexivity|reflexivity|reflexivity|]. eapply tok_step; [reflexivity|discriminate|reflexivity|reflexivity|reflexivity|].
  constructor; [apply blanks_ok; reflexivity|discriminate|apply nonblanks_ok; reflexivity|left; reflexivity|]. constructor. constructor.
Qed.

(** ** An exception that is still pending *)
Definition pend1 : @vm env_d := line_d ": five 5 ;" booted_d.
Definition pend2 : @vm env_d := line_d "abort" pend1.
Definition pend3 : @vm env_d := line_d "five" pend2.
Definition pend4 : @vm env_d := line_d "1" pend3.
Definition good3 : @vm env_d := line_d "five" pend1.
Definition depthb (v : @vm env_d) (l : list Z) : bool :=
  (len (t_s (cur v)) =? zlen l) && forallb (fun k => sget (t_s (cur v)) (len (t_s (cur v)) - 1 - Z.of_nat k) =? nth k l 0) (seq 0 (List.length l)).
Lemma depthb_ok v l : depthb v l = true -> zlen l <= 255 -> stack_has (t_s (cur v)) l.
Proof.
  unfold depthb. rewrite andb_true_iff, forallb_forall. intros (A & B) HL. split; [lia|]. split; [exact HL|].
  intros k x Hk. assert (Hl : (k < List.length l)%nat) by (apply nth_error_Some; congruence).
  specialize (B k ltac:(apply in_seq; lia)). apply Z.eqb_eq in B. rewrite B. apply nth_error_nth. exact Hk.
Qed.
Lemma pending : exists v1 v2 v3 v4 w,
  load_str 3000 (b ": five 5 ;") booted_d = Ok (tt, v1) /\ v_err v1 = None /\
  load_str 3000 (b "abort") v1 = Ok (tt, v2) /\ v_err v2 = Some (-1) /\ stack_has (t_s (cur v2)) [] /\
  load_str 3000 (b "five") v2 = Ok (tt, v3) /\ stack_has (t_s (cur v3)) [] /\
  load_str 3000 (b "1") v3 = Ok (tt, v4) /\ v_err v4 = None /\ stack_has (t_s (cur v4)) [5; 1] /\
  load_str 3000 (b "five") v1 = Ok (tt, w) /\ v_err w = None /\ stack_has (t_s (cur w)) [5].
Proof.
  exists pend1, pend2, pend3, pend4, good3.
  split; [apply line_runs; vm_cast_no_check (@eq_refl bool true)|]. split; [apply eqn_eq; vm_cast_no_check (@eq_refl bool true)|].
  split; [apply line_runs; vm_cast_no_check (@eq_refl bool true)|]. split; [apply eqn_eq; vm_cast_no_check (@eq_refl bool true)|].
  split; [apply depthb_ok; [vm_cast_no_check (@eq_refl bool true)|discriminate]|].
  split; [apply line_runs; vm_cast_no_check (@eq_refl bool true)|]. split; [apply depthb_ok; [vm_cast_no_check (@eq_refl bool true)|discriminate]|].
  split; [apply line_runs; vm_cast_no_check (@eq_refl bool true)|]. split; [apply eqn_eq; vm_cast_no_check (@eq_refl bool true)|].
  split; [apply depthb_ok; [vm_cast_no_check (@eq_refl bool true)|discriminate]|].
  split; [apply line_runs; vm_cast_no_check (@eq_refl bool true)|]. split; [apply eqn_eq; vm_cast_no_check (@eq_refl bool true)|].
  apply depthb_ok; [vm_cast_no_check (@eq_refl bool true)|discriminate].
Qed.

(** ** An exception that a later token removes *)
Definition cleared_line : string := "evaluate-input abort 7".
Definition clr : @vm env_d := line_d cleared_line booted_d.
Lemma cleared : exists v', load_str 3000 (b cleared_line) booted_d = Ok (tt, v') /\ v_err v' = None /\ stack_has (t_s (cur v')) [7].
Proof.
  exists clr. split; [apply line_runs; vm_cast_no_check (@eq_refl bool true)|]. split; [apply eqn_eq; vm_cast_no_check (@eq_refl bool true)|].
  apply depthb_ok; [vm_cast_no_check (@eq_refl bool true)|discriminate].
Qed.
