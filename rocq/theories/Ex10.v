(** The definitions of core.fth in the booted machines; machines used by the examples of their properties. *)
From Coq Require Import ZArith List Bool Lia String.
From Verif Require Import Base Stack Mem Parser Flt State CoreM Exec Boot Std Spec Spec2 Spec4 Spec5 Spec7 Spec10 Spec15
  LBase LStack LState LMem LDict LComp LCode LDec LLib LLibWords Ex Ex2 Ex3 Ex6.
Import ListNotations.
Open Scope list_scope.
Open Scope Z_scope.
Open Scope m_scope.

(** ** Deciding [installed] *)
Section I.
Context {E : Env}.
Variable v : vm.
Hypothesis HD : dict_ok v.
Hypothesis HW : words v < Z.of_nat 400.
Hypothesis HA : 0 < start (v_ds v) /\ limit (v_ds v) < 2 ^ 63.
Variable ix : prim -> Z.

Definition colonb (i : Z) (p : prog) : bool :=
  let a := w_dfa (word_of v i) in
  word_isb v i P_nest && word_isb v (ix P_exit) P_exit && (start (v_ds v) <=? a) && (a <=? limit (v_ds v)) &&
  laidb a (fin (Seq p (Op (ix P_exit))) a) v (Seq p (Op (ix P_exit))) a.
Definition foundb (s : bytes) (i : Z) : bool := match find 400 s v with Ok (Some j, _) => i =? j | _ => false end.
Definition installedb (e : string * ((prim -> Z) -> prog)) : bool :=
  match find 400 (b (fst e)) v with
  | Ok (Some i, _) => colonb i (snd e ix) && Bool.eqb (w_imm (word_of v i)) (String.eqb (fst e) "chars")
  | _ => false
  end.
Lemma found_newest s i : (exists w, find 400 s v = Ok (Some i, w)) -> newest v s (Some i).
Proof.
  intros [w E1]. destruct (find_newest 400 s v HD HW) as (r & E2 & N). rewrite E1 in E2. injection E2 as <- _. exact N.
Qed.
Lemma foundb_ok s i : foundb s i = true -> newest v s (Some i).
Proof.
  unfold foundb. intro H. apply found_newest. destruct (find 400 s v) as [[[j|] w]| | |]; try discriminate.
  apply Z.eqb_eq in H. subst j. exists w. reflexivity.
Qed.
Lemma colonb_ok i p : colonb i p = true -> colon_word (own_code v i p (ix P_exit)) v i p (ix P_exit).
Proof.
  unfold colonb. cbv zeta. rewrite !andb_true_iff. intros ((((H1 & H2) & H3) & H4) & H5).
  split; [apply word_isb_ok; exact H1|]. split; [apply word_isb_ok; exact H2|].
  split; [split; apply HA|]. split; [lia|]. exact (laidb_ok _ _ _ _ _ H5).
Qed.
Lemma colonb_more (K : Z -> Prop) i p : colonb i p = true -> (forall k, own_code v i p (ix P_exit) k -> K k) -> colon_word K v i p (ix P_exit).
Proof.
  intros H HK. destruct (colonb_ok i p H) as (A & B & C & D & F). split; [exact A|]. split; [exact B|]. split; [exact C|].
  split; [exact D|]. exact (laid_mono _ _ _ _ HK _ F).
Qed.
Lemma installed_ok i sp j ts :
  forallb (fun p => word_isb v (ix p) p) lib_prims = true -> forallb installedb core_words = true ->
  foundb (b "spaces") i && foundb (b "space") sp && colonb i (d_spaces ix sp) && colonb sp (d_space ix) = true ->
  foundb (b "2,") j && foundb (b "2!") ts && colonb j (d_two_comma ix ts) && colonb ts (d_two_store ix) = true ->
  installed ix v.
Proof.
  rewrite !andb_true_iff, !forallb_forall. intros H1 H2 (((A1 & A2) & A3) & A4) (((B1 & B2) & B3) & B4).
  split; [intros p Hp; apply word_isb_ok, H1, Hp|]. split.
  - intros name d HI. specialize (H2 _ HI). unfold installedb in H2. cbn [fst snd] in H2.
    destruct (find 400 (b name) v) as [[[k|] w]| | |] eqn:EF; try discriminate. rewrite andb_true_iff in H2. destruct H2 as [C1 C2].
    exists k. split; [apply found_newest; exists w; exact EF|]. split; [apply colonb_ok; exact C1|].
    apply eqb_prop in C2. rewrite C2. apply String.eqb_eq.
  - split.
    + exists i, sp. split; [apply foundb_ok; exact A1|]. split; [apply foundb_ok; exact A2|].
      intros K K1 K2. split; apply colonb_more; assumption.
    + exists j, ts. split; [apply foundb_ok; exact B1|]. split; [apply foundb_ok; exact B2|].
      intros K K1 K2. split; apply colonb_more; assumption.
Qed.
End I.

(** The first word with a given action *)
Definition ix0 (p : prim) : Z :=
  match List.find (fun i => prim_eqb (w_action (wl_get (v_wl booted_d) i)) p) (map Z.of_nat (List.seq 0 325)) with Some i => i | None => -1 end.
Lemma booted_words : words booted_d < Z.of_nat 400.
Proof. assert (H : words booted_d = 325) by (vm_cast_no_check (@eq_refl Z 325)). rewrite H. reflexivity. Qed.
Lemma booted_words_r : words booted_r < Z.of_nat 400.
Proof. assert (H : words booted_r = 325) by (vm_cast_no_check (@eq_refl Z 325)). rewrite H. reflexivity. Qed.
Lemma booted_addr : 0 < start (v_ds booted_d) /\ limit (v_ds booted_d) < 2 ^ 63.
Proof. split; vm_compute; reflexivity. Qed.
Lemma booted_addr_r : 0 < start (v_ds booted_r) /\ limit (v_ds booted_r) < 2 ^ 63.
Proof. split; vm_compute; reflexivity. Qed.
Lemma booted_installed : @installed env_d ix0 booted_d.
Proof.
  apply (installed_ok booted_d booted_dict booted_words booted_addr ix0 248 247 266 264); vm_cast_no_check (@eq_refl bool true).
Qed.
Lemma booted_installed_r : @installed env_r ix0 booted_r.
Proof.
  apply (installed_ok booted_r booted_dict_r booted_words_r booted_addr_r ix0 248 247 266 264); vm_cast_no_check (@eq_refl bool true).
Qed.

(** ** The booted machine with given cells on the data stack *)
Definition bs (l : list Z) : @vm env_d := fold_right add_s booted_d l.
Lemma bs_wl l : v_wl (bs l) = v_wl booted_d. Proof. induction l; [reflexivity|exact IHl]. Qed.
Lemma bs_ds l : v_ds (bs l) = v_ds booted_d. Proof. induction l; [reflexivity|exact IHl]. Qed.
Lemma bs_out l : v_out (bs l) = v_out booted_d. Proof. induction l; [reflexivity|exact IHl]. Qed.
Lemma bs_stacks l : zlen l < 200 -> stacks_are (bs l) l [] [].
Proof.
  intro H. assert (G : stack_has (t_s (cur (bs l))) l /\ t_r (cur (bs l)) = t_r (cur booted_d) /\ t_f (cur (bs l)) = t_f (cur booted_d)).
  { induction l as [|x l IH]; [split; [exact s0_has|split; reflexivity]|].
    rewrite zlen_cons in H. destruct (IH ltac:(lia)) as (A & B & C). cbn [bs fold_right].
    split; [apply add_has; [exact A|lia]|]. fold (bs l). unfold add_s. rewrite cur_set_s. cbn [t_r t_f set_t_s]. split; [exact B|exact C]. }
  destruct G as (A & B & C). split; [exact A|]. rewrite B, C. split; [exact r0_has|].
  has.
Qed.
Lemma bs_library l : library ix0 (bs l).
Proof.
  pose proof (proj1 booted_installed) as H. intros p Hp. specialize (H p Hp). unfold word_is in *. rewrite bs_wl. exact H.
Qed.
Lemma bs_word l name d : In (name, d) core_words -> exists i,
  colon_word (own_code booted_d i (d ix0) (ix0 P_exit)) (bs l) i (d ix0) (ix0 P_exit).
Proof.
  intro HI. destruct (proj1 (proj2 booted_installed) name d HI) as (i & _ & HC & _). exists i.
  eapply colon_eq; [apply bs_wl| |exact HC]. apply kept_eq; [apply bs_ds|apply bs_wl].
Qed.
(** What the theorems of C55 and C56 require of a machine *)
Definition lib_ready (l : list Z) (name : string) (d : (prim -> Z) -> prog) : Prop := exists i,
  newest booted_d (b name) (Some i) /\ library ix0 (bs l) /\
  colon_word (own_code booted_d i (d ix0) (ix0 P_exit)) (bs l) i (d ix0) (ix0 P_exit) /\
  stacks_are (bs l) l [] [] /\ ds_ok (v_ds (bs l)) /\ addressable (bs l) /\
  free_of (own_code booted_d i (d ix0) (ix0 P_exit)) (bs l) (here (v_ds booted_d)) 1000 /\
  cell_at (v_ds (bs l)) (here (v_ds booted_d)) 0.
Definition below (e : string * ((prim -> Z) -> prog)) : bool :=
  match find 400 (b (fst e)) booted_d with
  | Ok (Some i, _) => let a := w_dfa (word_of booted_d i) in (start (v_ds booted_d) <=? a) && (fin (Seq (snd e ix0) (Op (ix0 P_exit))) a <=? here (v_ds booted_d))
  | _ => false
  end.
Lemma below_all : forallb below core_words = true. Proof. vm_cast_no_check (@eq_refl bool true). Qed.
Lemma free_cell : cell_at (v_ds booted_d) (here (v_ds booted_d)) 0.
Proof.
  assert (H : forallb (fun k => byte_at (v_ds booted_d) (here (v_ds booted_d) + k) =? 0) [0; 1; 2; 3; 4; 5; 6; 7] = true) by (vm_cast_no_check (@eq_refl bool true)).
  rewrite forallb_forall in H. intros k Hk. rewrite Z.div_0_l by (apply Z.pow_nonzero; lia). rewrite Z.mod_0_l by lia.
  apply Z.eqb_eq. apply H. assert (C : k = 0 \/ k = 1 \/ k = 2 \/ k = 3 \/ k = 4 \/ k = 5 \/ k = 6 \/ k = 7) by lia. cbn [In]. lia.
Qed.
Lemma room_above : start (v_ds booted_d) < here (v_ds booted_d) /\ here (v_ds booted_d) + 1000 <= limit (v_ds booted_d).
Proof. split; [vm_compute; reflexivity|vm_compute; discriminate]. Qed.
Lemma lib_ready_all l name d : In (name, d) core_words -> zlen l < 200 -> lib_ready l name d.
Proof.
  intros HI HL. destruct (proj1 (proj2 booted_installed) name d HI) as (i & HN & HC & _). exists i. split; [exact HN|].
  split; [apply bs_library|]. split; [eapply colon_eq; [apply bs_wl|apply kept_eq; [apply bs_ds|apply bs_wl]|exact HC]|].
  split; [apply bs_stacks; exact HL|]. unfold free_of, addressable. rewrite bs_ds. split; [exact booted_ds|]. split; [exact booted_addr|].
  split; [|exact free_cell]. split; [apply room_above|]. split; [apply room_above|].
  intros k Hk. pose proof (proj1 (forallb_forall _ _) below_all _ HI) as B. unfold below in B. cbn [fst snd] in B.
  rewrite (proj2 (find_iff 400 (b name) booted_d (Some i) booted_dict booted_words) HN) in B. cbv zeta in B.
  rewrite andb_true_iff in B. unfold own_code in Hk. cbv zeta in *. lia.
Qed.

(** Lines evaluated by the booted machine: the data stack afterwards *)
Definition after (line : string) : option (list Z) :=
  match load_str 3000 (b line) booted_d with
  | Ok (_, v) => match v_err v with
    | None => Some (map (sget (t_s (cur v))) (rev (map Z.of_nat (List.seq 0 (Z.to_nat (len (t_s (cur v))))))))
    | Some _ => None
    end
  | _ => None
  end.
