(** File words over an ideal file system. *)
From Coq Require Import ZArith List Bool Lia ZifyBool ZifyNat.
From Verif Require Import Base Stack Mem Parser State CoreM FileM Exec LBase LStack Spec Spec4 Spec9 Spec12 LState LMem LMon LMemWords LPres LTask LFile LFile2 LFile3.
Import ListNotations.
Open Scope Z_scope.
Local Opaque push push2 push3 pop pop2 pop3.

Lemma bytes_at_inj d a s t : bytes_at d a s -> bytes_at d a t -> zlen s = zlen t -> s = t.
Proof. intros Hs Ht H. apply bytes_at_read in Hs. apply bytes_at_read in Ht. congruence. Qed.
Lemma same_fun_refl {A B} (f : A -> B) : same_fun f f. Proof. intro; reflexivity. Qed.

Section W.
Context {E : Env}.
Implicit Types (v : vm).
Variable F : ideal.

Definition view (v : vm) : fsys :=
  mkFsys (content F (v_os v)) (fun id => match slot v id with Some h => pointer F (v_os v) h | None => None end).

Lemma view_ok v : (forall id h, open_as v id h -> live F (v_os v) h) -> (forall id id' h, open_as v id h -> open_as v id' h -> id = id') ->
  described F v (view v).
Proof.
  intros HL HD. split; [intro; reflexivity|]. split; [|split].
  - intros id h Ho. split; [|exact (HL id h Ho)]. cbn. rewrite (proj2 (slot_open v id h) Ho). reflexivity.
  - intros id N. cbn. rewrite (slot_none v id N). reflexivity.
  - exact HD.
Qed.
Lemma described_slot v A : described F v A -> forall id, f_open A id = match slot v id with Some h => pointer F (v_os v) h | None => None end.
Proof.
  intros (_ & H1 & H2 & _) id. destruct (slot v id) as [h|] eqn:Es.
  - apply (proj1 (slot_open v id h)) in Es. apply H1 in Es. apply Es.
  - apply H2. apply slot_not_open. exact Es.
Qed.

(** Files unchanged, operating system changed *)
Lemma slot_after v s o d id : slot (after v s o (t_files (cur v)) d) id = slot v id.
Proof. unfold slot. rewrite t_files_after. reflexivity. Qed.
Lemma open_after v s o d id h : open_as (after v s o (t_files (cur v)) d) id h <-> open_as v id h.
Proof. rewrite <- !slot_open, slot_after. reflexivity. Qed.

Lemma frame v A s o d : described F v A -> (forall k, live F (v_os v) k -> live F o k) ->
  described F (after v s o (t_files (cur v)) d) (view (after v s o (t_files (cur v)) d)).
Proof.
  intros (_ & H1 & _ & HD) HL. apply view_ok.
  - intros id h Ho. rewrite open_after in Ho. apply HL. exact (proj2 (H1 id h Ho)).
  - intros id id' h Ho Ho'. rewrite open_after in Ho, Ho'. exact (HD id id' h Ho Ho').
Qed.
Lemma upd_open v A s o d id h x : described F v A -> slot v id = Some h -> is_upd (pointer F (v_os v)) (pointer F o) h x ->
  is_upd (f_open A) (f_open (view (after v s o (t_files (cur v)) d))) id x.
Proof.
  intros HA Hs [H1 H2]. split.
  - cbn. rewrite slot_after, Hs. exact H1.
  - intros i N. cbn. rewrite slot_after, (described_slot v A HA). destruct (slot v i) as [k|] eqn:Ek; [|reflexivity].
    apply H2. intros ->. apply N. apply slot_open in Hs. apply slot_open in Ek. exact (proj2 (proj2 (proj2 HA)) _ _ _ Ek Hs).
Qed.
Lemma same_open v A s o d : described F v A -> same_fun (pointer F (v_os v)) (pointer F o) ->
  same_fun (f_open A) (f_open (view (after v s o (t_files (cur v)) d))).
Proof.
  intros HA H i. cbn. rewrite slot_after, (described_slot v A HA). destruct (slot v i); [apply H|reflexivity].
Qed.
Lemma same_content v A s o fl d : described F v A -> same_fun (content F (v_os v)) (content F o) ->
  same_fun (f_content A) (f_content (view (after v s o fl d))).
Proof. intros HA H i. cbn. rewrite (proj1 HA i). rewrite H. reflexivity. Qed.
Lemma upd_content v A s o fl d n x : described F v A -> is_upd (content F (v_os v)) (content F o) n x ->
  is_upd (f_content A) (f_content (view (after v s o fl d))) n x.
Proof. intros HA [H1 H2]. split; [exact H1|]. intros i N. cbn. rewrite (proj1 HA i). apply H2. exact N. Qed.
Lemma same_os v : same_fun (pointer F (v_os v)) (pointer F (v_os v)) /\ same_fun (content F (v_os v)) (content F (v_os v)) /\
  forall k, live F (v_os v) k -> live F (v_os v) k.
Proof. split; [apply same_fun_refl|]. split; [apply same_fun_refl|auto]. Qed.

(** Nothing changes *)
Definition unchanged v (o : os) : Prop :=
  same_fun (pointer F (v_os v)) (pointer F o) /\ same_fun (content F (v_os v)) (content F o) /\ forall k, live F (v_os v) k -> live F o k.
Lemma nothing_step v A s o d : described F v A -> unchanged v o ->
  let v' := after v s o (t_files (cur v)) d in described F v' (view v') /\ fstep Nothing A (view v').
Proof.
  intros HA (H1 & H2 & H3). split; [apply (frame v A); assumption|]. split; [apply same_open|apply same_content]; assumption.
Qed.
Lemma unchanged_refl v : unchanged v (v_os v). Proof. apply same_os. Qed.

Lemma top1 (s : stack Z) l l' x y : stack_has s l' -> zlen l' < 255 -> stack_has (push s x) (y :: l) -> x = y.
Proof. intros H1 H2 H3. destruct (push1_has s x l' H1 H2) as (H & _). pose proof (stack_has_inj _ _ _ H H3). congruence. Qed.
Lemma top2 (s : stack Z) l l' x y z t : stack_has s l' -> zlen l' < 254 -> stack_has (push2 s x y) (z :: t :: l) -> y = z /\ x = t.
Proof. intros H1 H2 H3. destruct (push2_has s x y l' H1 H2) as (H & _). pose proof (stack_has_inj _ _ _ H H3). split; congruence. Qed.
Lemma top2' (s : stack Z) l l' x y z : stack_has s l' -> zlen l' < 254 -> stack_has (push2 s x y) (z :: l) -> y = z.
Proof. intros H1 H2 H3. destruct (push2_has s x y l' H1 H2) as (H & _). pose proof (stack_has_inj _ _ _ H H3). congruence. Qed.
Lemma top3 (s : stack Z) l l' x y z a b c : stack_has s l' -> zlen l' < 253 -> stack_has (push3 s x y z) (a :: b :: c :: l) -> z = a /\ y = b /\ x = c.
Proof. intros H1 H2 H3. destruct (push3_has s x y z l' H1 H2) as (H & _). pose proof (stack_has_inj _ _ _ H H3). repeat split; congruence. Qed.
Lemma top3' (s : stack Z) l l' x y z a : stack_has s l' -> zlen l' < 253 -> stack_has (push3 s x y z) (a :: l) -> z = a.
Proof. intros H1 H2 H3. destruct (push3_has s x y z l' H1 H2) as (H & _). pose proof (stack_has_inj _ _ _ H H3). congruence. Qed.

Ltac bnd Hs := pose proof (stack_has_bound _ _ Hs); let L := fresh "Hl" in pose proof (stack_has_len _ _ Hs) as L; rewrite ?zlen_cons in L.
Ltac t1 H Hp := rewrite t_s_after in H; apply (top1 _ _ _ _ _ (proj1 Hp)) in H; [|lia].
Ltac t2 H Hp := rewrite t_s_after in H; apply (top2 _ _ _ _ _ _ _ (proj1 Hp)) in H; [|lia].
Ltac t2' H Hp := rewrite t_s_after in H; apply (top2' _ _ _ _ _ _ (proj1 Hp)) in H; [|lia].
Ltac t3 H Hp := rewrite t_s_after in H; apply (top3 _ _ _ _ _ _ _ _ _ (proj1 Hp)) in H; [|lia].
Ltac t3' H Hp := rewrite t_s_after in H; apply (top3' _ _ _ _ _ _ _ (proj1 Hp)) in H; [|lia].

Lemma cell_u64 id h v : is_cell id -> slot v id = Some h -> to_u64 id = id.
Proof. intros Hc Hs. apply slot_open in Hs. apply to_u64_pos; [exact Hc|]. destruct Hs. lia. Qed.

Definition goal_of op A v' : Prop := exists B, described F v' B /\ fstep op A B.

Lemma step_write fuel ew v v' A xa a u id bs l : described F v A -> exec_prim fuel ew P_write_file v = Ok (tt, v') ->
  stack_has (t_s (cur v)) (id :: u :: xa :: l) -> addr_of xa a -> addr_of u (zlen bs) ->
  bytes_at (v_ds v) a bs -> stack_has (t_s (cur v')) (0 :: l) -> goal_of (Write id bs) A v'.
Proof.
  intros HA H Hs Ha Hu Hb Ht. apply addr_of_to_u64 in Ha. apply addr_of_to_u64 in Hu. bnd Hs.
  destruct (write_file_run v xa u id l Hs) as (s & Hp & Hr). rewrite Hr, Ha, Hu in H. clear Hr.
  destruct (slot v id) as [h|] eqn:Es; [|injection H as <-; t1 Ht Hp; discriminate].
  destruct (fits _ _ _) as [[]| | |]; try discriminate; [|injection H as <-; t1 Ht Hp; discriminate].
  rewrite (bytes_at_read _ _ _ Hb) in H. cbv zeta in H.
  destruct (os_write_all (v_os v) h bs) as [o []] eqn:Eo; cbn [fst snd] in H; injection H as <-; [|t1 Ht Hp; discriminate].
  exists (view (after v (push s 0) o (t_files (cur v)) (v_ds v))). split.
  - apply (frame v A _ _ _ HA). apply (id_live F). eauto 6.
  - intros n p c Hn Hc Hq. rewrite (described_slot v A HA), Es in Hn. rewrite (proj1 HA) in Hc.
    destruct (id_write F _ _ _ _ _ _ Hn Hc Hq _ Eo) as [X Y]. split; [apply (upd_open v A) with (h := h)|apply upd_content]; assumption.
Qed.

Lemma step_read fuel ew v v' A xa a u u1 id bs l : described F v A -> exec_prim fuel ew P_read_file v = Ok (tt, v') -> is_cell id ->
  stack_has (t_s (cur v)) (id :: u :: xa :: l) -> addr_of xa a -> addr_of u u1 ->
  stack_has (t_s (cur v')) (0 :: zlen bs :: l) -> bytes_at (v_ds v') a bs -> goal_of (Read id u1 bs) A v'.
Proof.
  intros HA H Hid Hs Ha Hu Ht Hb. apply addr_of_to_u64 in Ha. apply addr_of_to_u64 in Hu. bnd Hs.
  destruct (read_cases v xa u id l Hs) as (s & Hp & _ & _ & Hc). rewrite Ha, Hu in Hc.
  destruct (Hc fuel ew v' H) as [(u2 & ior & o & Hi & -> & _)|(h & o & r & Es & Hin & Er & ->)]; [t2 Ht Hp; lia|]. t2 Ht Hp. destruct Ht as [_ Ht].
  set (v' := after v _ o (t_files (cur v)) _) in *.
  exists (view v'). split; [apply (frame v A _ _ _ HA); apply (id_live F); eauto 6|].
  intros n p c Hn Hcc Hq. rewrite (described_slot v A HA) in Hn. destruct (slot v id) as [h'|] eqn:Es'; [|discriminate].
  rewrite (cell_u64 id h' v Hid Es') in Es. assert (h' = h) by congruence. subst h'. rewrite (proj1 HA) in Hcc.
  destruct (id_read F _ _ _ _ _ _ Hn Hcc (proj1 (proj2 Hin)) Hq _ _ Er) as ((k & Hk & Hlen & Hnil) & X & Y).
  assert (Hf : firstn (Z.to_nat u1) r = r) by (apply firstn_all2; unfold zlen in Hlen; lia).
  assert (bs = r).
  { assert (Hw : bytes_at (v_ds v') a r).
    { subst v'. rewrite ds_after, Hf. destruct Hb as (Hb0 & _ & _). split; [exact Hb0|].
      split; [|intros i x; apply write_bytes_at; exact (proj1 Hin)]. destruct Hin as (I1 & I2 & I3). unfold in_space.
      rewrite start_write, limit_write. pose proof (zlen_nonneg r). lia. }
    apply (bytes_at_inj _ _ _ _ Hb Hw). rewrite Hf in Ht. congruence. }
  subst bs. split; [exists k; auto|]. split; [apply (upd_open v A) with (h := h); assumption|apply same_content; assumption].
Qed.

Lemma step_seek fuel ew v v' A xq q id l : described F v A -> exec_prim fuel ew P_reposition_file v = Ok (tt, v') ->
  stack_has (t_s (cur v)) (id :: 0 :: xq :: l) -> addr_of xq q -> stack_has (t_s (cur v')) (0 :: l) -> goal_of (Seek id q) A v'.
Proof.
  intros HA H Hs Ha Ht. apply addr_of_to_u64 in Ha. bnd Hs. destruct (len_or_seek_run os_seek v xq 0 id l Hs) as (s & Hp & Hr).
  change (len_or_seek os_seek v = Ok (tt, v')) in H. rewrite Hr, Ha in H. clear Hr. cbv zeta in H.
  destruct (slot v id) as [h|] eqn:Es; [|injection H as <-; t1 Ht Hp; discriminate].
  destruct ((0 =? 0) && (q <=? imax)); [|injection H as <-; t1 Ht Hp; discriminate].
  destruct (os_seek (v_os v) h q) as [o []] eqn:Eo; cbn [fst snd] in H; injection H as <-; [|t1 Ht Hp; discriminate].
  exists (view (after v (push s 0) o (t_files (cur v)) (v_ds v))). split.
  - apply (frame v A _ _ _ HA). apply (id_live F). eauto 8.
  - intros n p Hn. rewrite (described_slot v A HA), Es in Hn.
    destruct (id_seek F _ _ _ _ _ Hn _ Eo) as [X Y]. split; [apply (upd_open v A) with (h := h)|apply same_content]; assumption.
Qed.
Lemma step_resize fuel ew v v' A xq q id l : described F v A -> exec_prim fuel ew P_resize_file v = Ok (tt, v') ->
  stack_has (t_s (cur v)) (id :: 0 :: xq :: l) -> addr_of xq q -> stack_has (t_s (cur v')) (0 :: l) -> goal_of (Resize id q) A v'.
Proof.
  intros HA H Hs Ha Ht. pose proof (proj1 (proj1 Ha)) as Hq. apply addr_of_to_u64 in Ha. bnd Hs.
  destruct (len_or_seek_run os_set_len v xq 0 id l Hs) as (s & Hp & Hr).
  change (len_or_seek os_set_len v = Ok (tt, v')) in H. rewrite Hr, Ha in H. clear Hr. cbv zeta in H.
  destruct (slot v id) as [h|] eqn:Es; [|injection H as <-; t1 Ht Hp; discriminate].
  destruct ((0 =? 0) && (q <=? imax)); [|injection H as <-; t1 Ht Hp; discriminate].
  destruct (os_set_len (v_os v) h q) as [o []] eqn:Eo; cbn [fst snd] in H; injection H as <-; [|t1 Ht Hp; discriminate].
  exists (view (after v (push s 0) o (t_files (cur v)) (v_ds v))). split.
  - apply (frame v A _ _ _ HA). apply (id_live F). eauto 8.
  - intros n p c Hn Hc. rewrite (described_slot v A HA), Es in Hn. rewrite (proj1 HA) in Hc.
    destruct (id_set_len F _ _ _ _ _ _ Hn Hc Hq _ Eo) as [X Y]. split; [apply same_open|apply upd_content]; assumption.
Qed.
Lemma step_size fuel ew v v' A id z l : described F v A -> exec_prim fuel ew P_file_size v = Ok (tt, v') ->
  stack_has (t_s (cur v)) (id :: l) -> stack_has (t_s (cur v')) (0 :: 0 :: z :: l) -> goal_of (Size id z) A v'.
Proof.
  intros HA H Hs Ht. bnd Ht. bnd Hs. destruct (file_size_run v id l Hs) as (s & Hp & Hr). rewrite Hr in H. injection H as <-. clear Hr.
  set (s' := match slot v id with Some _ => _ | None => _ end) in *.
  exists (view (after v s' (v_os v) (t_files (cur v)) (v_ds v))). destruct (nothing_step v A s' (v_os v) (v_ds v) HA (unchanged_refl v)) as [X Y].
  split; [exact X|]. split; [|exact Y]. intros n p c Hn Hc. rewrite (described_slot v A HA) in Hn. rewrite (proj1 HA) in Hc.
  rewrite t_s_after in Ht. unfold s' in Ht. destruct (slot v id) as [h|] eqn:Es; [|discriminate].
  destruct (os_size (v_os v) h) as [k|] eqn:Eo; [|apply (top3 _ _ _ _ _ _ _ _ _ (proj1 Hp)) in Ht; lia].
  destruct (k <=? imax); apply (top3 _ _ _ _ _ _ _ _ _ (proj1 Hp)) in Ht; try lia. destruct Ht as (_ & _ & ->).
  exact (id_size F _ _ _ _ _ Hn Hc _ Eo).
Qed.
Lemma step_tell fuel ew v v' A id z l : described F v A -> exec_prim fuel ew P_file_position v = Ok (tt, v') ->
  stack_has (t_s (cur v)) (id :: l) -> stack_has (t_s (cur v')) (0 :: 0 :: z :: l) -> goal_of (Tell id z) A v'.
Proof.
  intros HA H Hs Ht. bnd Ht. bnd Hs. destruct (file_position_run v id l Hs) as (s & Hp & Hr). rewrite Hr in H. clear Hr. cbv zeta in H.
  destruct (slot v id) as [h|] eqn:Es; [|injection H as <-; t3 Ht Hp; lia].
  destruct (os_tell (v_os v) h) as [o [k|]] eqn:Eo; cbn [fst snd] in H; [|injection H as <-; t3 Ht Hp; lia].
  destruct (k <=? imax); injection H as <-; [|t3 Ht Hp; lia].
  destruct (id_tell F _ _ _ _ Eo) as (X & Y & Z).
  assert (HU : unchanged v o) by (split; [exact Y|]; split; [exact Z|]; apply (id_live F); eauto 8).
  set (s' := push3 s k 0 0) in *. eexists (view (after v s' o _ _)). destruct (nothing_step v A s' o (v_ds v) HA HU) as [P Q].
  split; [exact P|]. split; [|exact Q]. intros n p Hn. rewrite (described_slot v A HA), Es in Hn. unfold s' in Ht. t3 Ht Hp.
  destruct Ht as (_ & _ & <-). exact (X n p Hn).
Qed.

Lemma fresh_slot v A o h id fl s d : described F v A -> ~ live F (v_os v) h -> live F o h -> (forall k, live F (v_os v) k -> live F o k) ->
  alloc_slot (t_files (cur v)) h = (id, fl) -> forall n, is_upd (pointer F (v_os v)) (pointer F o) h (Some (n, 0)) ->
  let v' := after v s o fl d in described F v' (view v') /\ f_open A id = None /\ is_upd (f_open A) (f_open (view v')) id (Some (n, 0)).
Proof.
  intros HA N1 N2 HL Ea n [U1 U2] v'. destruct (alloc_slot_spec _ _ _ _ Ea) as (A1 & A2 & A3 & A4).
  assert (Ho : open_as v' id h) by (apply open_as_after; auto).
  assert (Hx : forall i k, i <> id -> (open_as v' i k <-> open_as v i k)).
  { intros i k Ni. unfold v'. rewrite open_as_after. unfold open_as. split; intros [P Q]; (split; [exact P|]); [rewrite <- A4|rewrite A4]; try exact Q; lia. }
  assert (Hn : ~ is_open v id) by (intros [k [_ Hk]]; exact (A2 _ Hk)).
  pose proof HA as (_ & HL' & _ & HD).
  assert (Hid : forall k, open_as v' id k -> k = h) by (intros k [_ Hk]; destruct Ho as [_ Ho]; congruence).
  split; [|split; [|split]].
  - apply view_ok.
    + intros i k Hk. destruct (Z.eq_dec i id) as [->|Ni]; [rewrite (Hid k Hk); exact N2|]. apply HL. apply (HL' i k). apply Hx; assumption.
    + intros i j k Hi Hj. destruct (Z.eq_dec i id) as [->|Ni]; destruct (Z.eq_dec j id) as [->|Nj].
      * reflexivity.
      * exfalso. rewrite (Hid k Hi) in Hj. apply (Hx j h Nj) in Hj. apply N1. apply (HL' j h Hj).
      * exfalso. rewrite (Hid k Hj) in Hi. apply (Hx i h Ni) in Hi. apply N1. apply (HL' i h Hi).
      * apply (Hx i k Ni) in Hi. apply (Hx j k Nj) in Hj. exact (HD i j k Hi Hj).
  - rewrite (described_slot v A HA). rewrite (slot_none v id Hn). reflexivity.
  - cbn. rewrite (proj2 (slot_open v' id h) Ho). exact U1.
  - intros i Ni. cbn. rewrite (described_slot v A HA). assert (Es : slot v' i = slot v i).
    { destruct (slot v i) as [k|] eqn:Ek.
      - apply slot_open. apply Hx; [exact Ni|]. apply slot_open. exact Ek.
      - destruct (slot v' i) as [k|] eqn:Ek'; [|reflexivity]. apply slot_open in Ek'. apply (Hx i k Ni) in Ek'. apply slot_open in Ek'. congruence. }
    rewrite Es. destruct (slot v i) as [k|] eqn:Ek; [|reflexivity]. apply U2. intros ->. apply N1. apply (HL' i h). apply slot_open. exact Ek.
Qed.

Lemma step_open fuel ew w v v' A xa a u fam id n l : In w [P_create_file; P_open_file] -> described F v A -> exec_prim fuel ew w v = Ok (tt, v') ->
  stack_has (t_s (cur v)) (fam :: u :: xa :: l) -> addr_of xa a -> addr_of u (zlen n) ->
  bytes_at (v_ds v) a n -> stack_has (t_s (cur v')) (0 :: id :: l) ->
  goal_of (match w with P_create_file => Create n id | _ => Open n id end) A v'.
Proof.
  intros Hw HA H Hs Ha Hu Hb Ht. apply addr_of_to_u64 in Ha. apply addr_of_to_u64 in Hu. bnd Hs.
  destruct (opening_cases w v xa u fam l Hw Hs) as (s & Hp & Hc). rewrite Ha, Hu in Hc.
  destruct (Hc fuel ew v' H) as [(ior & o & Hi & -> & _)|(n' & opts & o & h & Hopt & Hlen & Hfit & Hrd & Ho & ->)]; [t2 Ht Hp; lia|].
  rewrite (bytes_at_read _ _ _ Hb) in Hrd. injection Hrd as <-. t2 Ht Hp. destruct Ht as [_ Ht].
  destruct (id_open F _ _ _ _ _ Ho) as (N1 & N2 & N3 & U & c & C1 & C2 & C3).
  destruct (alloc_slot (t_files (cur v)) h) as [id' fl] eqn:Ea. cbn [fst snd] in *. subst id'.
  eexists (view (after v _ o fl _)). destruct (fresh_slot v A o h id fl (push2 s id 0) (v_ds v) HA N1 N2 N3 Ea n U) as (D1 & D2 & D3).
  split; [exact D1|].
  destruct Hw as [<-|[<-|[]]]; cbn [fstep]; (split; [exact D2|]); (split; [exact D3|]).
  - assert (oo_trunc opts = true) by (cbn in Hopt; destruct (fam =? 1); [injection Hopt as <-; reflexivity|];
      destruct (fam =? 2); [injection Hopt as <-; reflexivity|discriminate]). rewrite (C2 H1) in C1. apply upd_content; assumption.
  - assert (Htr : oo_trunc opts = false) by (cbn in Hopt; destruct (fam =? 0); [injection Hopt as <-; reflexivity|]; destruct (fam =? 1); [injection Hopt as <-; reflexivity|];
      destruct (fam =? 2); [injection Hopt as <-; reflexivity|discriminate]). exists c. split; [apply upd_content; assumption|].
    intros c0 Hc0. rewrite (proj1 HA) in Hc0. exact (C3 Htr c0 Hc0).
Qed.
Lemma step_close fuel ew v v' A id l : described F v A -> exec_prim fuel ew P_close_file v = Ok (tt, v') ->
  stack_has (t_s (cur v)) (id :: l) -> stack_has (t_s (cur v')) (0 :: l) -> goal_of (Close id) A v'.
Proof.
  intros HA H Hs Ht. bnd Hs. pose proof HA as (HC & HL & _ & HD). destruct (slot v id) as [h|] eqn:Es.
  - assert (Ho : open_as v id h) by (apply slot_open; exact Es).
    destruct (closed fuel v id l Hs (ex_intro _ h Ho)) as (v1 & h' & Ho' & Hq & _ & _ & _ & Hos & N & Hx). rewrite Hq in H. injection H as <-.
    assert (h' = h) by (destruct Ho as [_ Ho]; destruct Ho' as [_ Ho']; congruence). subst h'. destruct (id_close F (v_os v) h) as ([U1 U2] & C & L).
    exists (view v1). split; [apply view_ok|split; [split|]].
    + intros i k Hk. rewrite Hos. assert (Ni : i <> id) by (intros ->; apply N; exists k; exact Hk). apply (Hx i k Ni) in Hk.
      apply L; [|apply (HL i k Hk)]. intros ->. apply Ni. exact (HD i id h Hk Ho).
    + intros i j k Hi Hj. assert (Ni : i <> id) by (intros ->; apply N; exists k; exact Hi). assert (Nj : j <> id) by (intros ->; apply N; exists k; exact Hj).
      apply (Hx i k Ni) in Hi. apply (Hx j k Nj) in Hj. exact (HD i j k Hi Hj).
    + cbn. rewrite (slot_none v1 id N). reflexivity.
    + intros i Ni. cbn. rewrite (described_slot v A HA). assert (Ei : slot v1 i = slot v i).
      { destruct (slot v i) as [k|] eqn:Ek.
        - apply slot_open. apply Hx; [exact Ni|]. apply slot_open. exact Ek.
        - destruct (slot v1 i) as [k|] eqn:Ek'; [|reflexivity]. apply slot_open in Ek'. apply (Hx i k Ni) in Ek'. apply slot_open in Ek'. congruence. }
      rewrite Ei. destruct (slot v i) as [k|] eqn:Ek; [|reflexivity]. rewrite Hos. apply U2. intros ->. apply Ni. apply (HD i id h); [|exact Ho]. apply slot_open. exact Ek.
    + intro n. cbn. rewrite Hos, (HC n). rewrite C. reflexivity.
  - destruct (close_file_run v id l Hs) as (s & Hp & Hr). rewrite Hr, Es in H. injection H as <-. t1 Ht Hp. discriminate.
Qed.
Lemma step_delete fuel ew v v' A xa a u n l : described F v A -> exec_prim fuel ew P_delete_file v = Ok (tt, v') ->
  stack_has (t_s (cur v)) (u :: xa :: l) -> addr_of xa a -> addr_of u (zlen n) ->
  bytes_at (v_ds v) a n -> stack_has (t_s (cur v')) (0 :: l) -> goal_of (Delete n) A v'.
Proof.
  intros HA H Hs Ha Hu Hb Ht. apply addr_of_to_u64 in Ha. apply addr_of_to_u64 in Hu. bnd Hs.
  destruct (delete_file_run v xa u l Hs) as (s & Hp & Hr). rewrite Hr, Ha, Hu in H. clear Hr.
  destruct (256 <? zlen n). { injection H as <-. rewrite t_s_after in Ht. apply (top2' _ _ _ _ _ _ (proj1 Hp)) in Ht; lia. }
  destruct (fits _ _ _) as [[]| | |]; try discriminate; [|injection H as <-; t1 Ht Hp; discriminate].
  rewrite (bytes_at_read _ _ _ Hb) in H. cbv zeta in H.
  destruct (os_remove (v_os v) n) as [o []] eqn:Eo; cbn [fst snd] in H; injection H as <-; [|t1 Ht Hp; discriminate].
  destruct (id_remove F _ _ _ Eo) as (X & Y & Z).
  exists (view (after v (push s 0) o (t_files (cur v)) (v_ds v))). split; [apply (frame v A _ _ _ HA Y)|]. split; [apply upd_content; assumption|].
  intro id. cbn. rewrite slot_after, (described_slot v A HA). destruct (slot v id) as [k|]; [apply Z|reflexivity].
Qed.

Lemma unch_fail v o : (o = v_os v \/ (exists h u, os_read (v_os v) h u = (o, None)) \/ (exists h bs, os_write_all (v_os v) h bs = (o, false)) \/
    (exists h q, os_seek (v_os v) h q = (o, false)) \/ (exists h q, os_set_len (v_os v) h q = (o, false)) \/
    (exists h, os_tell (v_os v) h = (o, None)) \/ (exists n op, os_open (v_os v) n op = (o, None)) \/
    (exists n, os_remove (v_os v) n = (o, false))) -> unchanged v o.
Proof. intros [->|H]; [apply unchanged_refl|]. apply (id_fail F). exact H. Qed.

Ltac done0 HA Hx := eexists (view (after _ _ _ _ _)); apply nothing_step; [exact HA|apply unch_fail; Hx].

Lemma step_failed fuel ew w v v' A ins ior l l' : described F v A -> exec_prim fuel ew w v = Ok (tt, v') ->
  In (w, zlen ins) [(P_write_file, 3); (P_read_file, 3); (P_reposition_file, 3); (P_resize_file, 3);
      (P_file_size, 1); (P_file_position, 1); (P_open_file, 3); (P_create_file, 3); (P_close_file, 1); (P_delete_file, 2)] ->
  stack_has (t_s (cur v)) (ins ++ l) -> zlen l < 253 -> stack_has (t_s (cur v')) (ior :: l') -> ior <> 0 -> goal_of Nothing A v'.
Proof.
  intros HA H Hw Hs Hl Ht Hi. cbn [In] in Hw. repeat match type of Hw with _ \/ _ => destruct Hw as [Hw|Hw] end; [..|contradiction]; injection Hw as <- Hz; symmetry in Hz.
  - destruct (zlen_3 ins Hz) as (id & u & a & ->). destruct (write_file_run v a u id l Hs) as (s & Hp & Hr). rewrite Hr in H. clear Hr.
    destruct (slot v id) as [h|]; [|injection H as <-; done0 HA ltac:(auto)].
    destruct (fits _ _ _) as [[]| | |]; try discriminate; [|injection H as <-; done0 HA ltac:(auto)].
    destruct (read_bytes _ _ _) as [bs| | |]; try discriminate. cbv zeta in H. destruct (os_write_all (v_os v) h bs) as [o []] eqn:Eo; cbn [fst snd] in H; injection H as <-.
    + t1 Ht Hp. congruence.
    + done0 HA ltac:(eauto 8).
  - destruct (zlen_3 ins Hz) as (id & u & a & ->). destruct (read_cases v a u id l Hs) as (s & Hp & _ & _ & Hc).
    destruct (Hc fuel ew v' H) as [(u2 & k & o & Hk & -> & Hos)|(h & o & r & Es & Hin & Er & ->)]; [|t2' Ht Hp; congruence].
    destruct Hos as [->|(h & n & Eo)]; done0 HA ltac:(eauto 8).
  - destruct (zlen_3 ins Hz) as (id & u & a & ->). destruct (len_or_seek_run os_seek v a u id l Hs) as (s & Hp & Hr).
    change (len_or_seek os_seek v = Ok (tt, v')) in H. rewrite Hr in H. clear Hr. cbv zeta in H.
    destruct (slot v id) as [h|]; [|injection H as <-; done0 HA ltac:(auto)].
    destruct ((u =? 0) && (to_u64 a <=? imax)); [|injection H as <-; done0 HA ltac:(auto)].
    destruct (os_seek (v_os v) h (to_u64 a)) as [o []] eqn:Eo; cbn [fst snd] in H; injection H as <-; [t1 Ht Hp; congruence|]. done0 HA ltac:(eauto 10).
  - destruct (zlen_3 ins Hz) as (id & u & a & ->). destruct (len_or_seek_run os_set_len v a u id l Hs) as (s & Hp & Hr).
    change (len_or_seek os_set_len v = Ok (tt, v')) in H. rewrite Hr in H. clear Hr. cbv zeta in H.
    destruct (slot v id) as [h|]; [|injection H as <-; done0 HA ltac:(auto)].
    destruct ((u =? 0) && (to_u64 a <=? imax)); [|injection H as <-; done0 HA ltac:(auto)].
    destruct (os_set_len (v_os v) h (to_u64 a)) as [o []] eqn:Eo; cbn [fst snd] in H; injection H as <-; [t1 Ht Hp; congruence|]. done0 HA ltac:(eauto 10).
  - destruct (zlen_1 ins Hz) as (id & ->). destruct (file_size_run v id l Hs) as (s & Hp & Hr). rewrite Hr in H. injection H as <-. done0 HA ltac:(auto).
  - destruct (zlen_1 ins Hz) as (id & ->). destruct (file_position_run v id l Hs) as (s & Hp & Hr). rewrite Hr in H. clear Hr. cbv zeta in H.
    destruct (slot v id) as [h|]; [|injection H as <-; done0 HA ltac:(auto)].
    destruct (os_tell (v_os v) h) as [o [k|]] eqn:Eo; cbn [fst snd] in H; injection H as <-.
    + destruct (id_tell F _ _ _ _ Eo) as (X & Y & Z). eexists (view (after _ _ _ _ _)). apply nothing_step; [exact HA|].
      split; [exact Y|]; split; [exact Z|]; apply (id_live F); eauto 8.
    + done0 HA ltac:(eauto 10).
  - destruct (zlen_3 ins Hz) as (fam & u & a & ->). destruct (opening_cases P_open_file v a u fam l ltac:(cbn; auto) Hs) as (s & Hp & Hc).
    destruct (Hc fuel ew v' H) as [(k & o & Hk & -> & Hos)|(n' & opts & o & h & _ & _ & _ & _ & _ & ->)]; [|t2' Ht Hp; congruence].
    destruct Hos as [->|(h & n & Eo)]; done0 HA ltac:(eauto 12).
  - destruct (zlen_3 ins Hz) as (fam & u & a & ->). destruct (opening_cases P_create_file v a u fam l ltac:(cbn; auto) Hs) as (s & Hp & Hc).
    destruct (Hc fuel ew v' H) as [(k & o & Hk & -> & Hos)|(n' & opts & o & h & _ & _ & _ & _ & _ & ->)]; [|t2' Ht Hp; congruence].
    destruct Hos as [->|(h & n & Eo)]; done0 HA ltac:(eauto 12).
  - destruct (zlen_1 ins Hz) as (id & ->). destruct (close_file_run v id l Hs) as (s & Hp & Hr). rewrite Hr in H. clear Hr.
    destruct (slot v id) as [h|]; injection H as <-; [t1 Ht Hp; congruence|]. done0 HA ltac:(auto).
  - destruct (zlen_2 ins Hz) as (u & a & ->). destruct (delete_file_run v a u l Hs) as (s & Hp & Hr). rewrite Hr in H. clear Hr.
    destruct (256 <? to_u64 u); [injection H as <-; done0 HA ltac:(auto)|].
    destruct (fits _ _ _) as [[]| | |]; try discriminate; [|injection H as <-; done0 HA ltac:(auto)].
    destruct (read_bytes _ _ _) as [bs| | |]; try discriminate. cbv zeta in H. destruct (os_remove (v_os v) bs) as [o []] eqn:Eo; cbn [fst snd] in H; injection H as <-.
    + t1 Ht Hp. congruence.
    + done0 HA ltac:(eauto 12).
Qed.

Lemma does_step fuel ew w v v' op A : described F v A -> exec_prim fuel ew w v = Ok (tt, v') -> does w v v' op -> goal_of op A v'.
Proof.
  intros HA H Hd. destruct Hd.
  - eapply step_write; eassumption.
  - subst u2. eapply step_read; eassumption.
  - eapply step_seek; eassumption.
  - eapply step_resize; eassumption.
  - eapply step_size; eassumption.
  - eapply step_tell; eassumption.
  - apply (step_open fuel ew P_open_file v v' A xa a u fam id n l); try assumption. cbn; auto.
  - apply (step_open fuel ew P_create_file v v' A xa a u fam id n l); try assumption. cbn; auto.
  - eapply step_close; eassumption.
  - eapply step_delete; eassumption.
  - eapply step_failed; eassumption.
Qed.

Lemma file_history_ok fuel ops v v' : file_history fuel ops v v' -> forall A, described F v A -> exists B, described F v' B /\ fsteps ops A B.
Proof.
  induction 1 as [v|w v v1 v' ew op ops Hx Hd Hh IH|v v1 v' ops Ho Hf Hh IH]; intros A HA.
  - exists A. split; [exact HA|]. constructor; apply same_fun_refl.
  - destruct (does_step fuel ew w v v1 op A HA Hx Hd) as (B & HB & Hs). destruct (IH B HB) as (C & HC & HS). exists C. split; [exact HC|].
    econstructor; eassumption.
  - apply IH. destruct HA as (H1 & H2 & H3 & H4). unfold described, is_open, open_as in *. rewrite Ho, Hf. auto.
Qed.
End W.

(** ** Consequences in the abstract file system *)
Section A.
Lemma zlen_padded c n : 0 <= n -> zlen (padded c n) = n.
Proof. intro H. unfold padded, zlen. rewrite firstn_length, app_length, repeat_length. lia. Qed.
Lemma written_back c p bs : 0 <= p -> firstn (List.length bs) (skipn (Z.to_nat p) (written c p bs)) = bs.
Proof.
  intro H. unfold written. pose proof (zlen_padded c p H) as Hl. unfold zlen in Hl.
  rewrite skipn_app, skipn_all2 by lia. replace (Z.to_nat p - List.length (padded c p))%nat with 0%nat by lia. cbn [skipn app].
  rewrite firstn_app, Nat.sub_diag, firstn_all. cbn [firstn]. apply app_nil_r.
Qed.
Lemma prefix_of {T} k (X r bs : list T) : r = firstn k X -> (List.length r <= List.length bs)%nat -> firstn (List.length bs) X = bs ->
  r = firstn (List.length r) bs.
Proof.
  intros Hr Hl Hb. transitivity (firstn (List.length r) (firstn (List.length bs) X)); [|rewrite Hb; reflexivity].
  rewrite firstn_firstn, Nat.min_l by exact Hl. rewrite Hr at 2. rewrite firstn_length, Hr.
  destruct (Nat.le_ge_cases k (List.length X)).
  - rewrite Nat.min_l by assumption. reflexivity.
  - rewrite Nat.min_r by assumption. rewrite firstn_all. apply firstn_all2. assumption.
Qed.
Lemma round_trip A B id n p c bs r : f_open A id = Some (n, p) -> f_content A n = Some c -> 0 <= p ->
  fsteps [Write id bs; Seek id p; Read id (zlen bs) r] A B ->
  (exists k, r = firstn k bs) /\ (r = [] -> bs = []) /\ f_open B id = Some (n, p + zlen r) /\ f_content B n = Some (written c p bs) /\
  (forall i, i <> id -> f_open B i = f_open A i) /\ (forall m, m <> n -> f_content B m = f_content A m).
Proof.
  intros Ho Hc Hp H. inversion H as [|? ? ? A1 ? S1 H1]; subst. inversion H1 as [|? ? ? A2 ? S2 H2]; subst. inversion H2 as [|? ? ? A3 ? S3 H3]; subst.
  inversion H3 as [? ? Q1 Q2|]; subst. cbn [fstep] in *.
  destruct (S1 n p c Ho Hc Hp) as [[O1 O1'] [C1 C1']]. destruct (S2 _ _ O1) as [[O2 O2'] C2].
  destruct (S3 n p (written c p bs) O2) as ((k & Hk & Hlen & Hnil) & [O3 O3'] & C3); [rewrite C2; exact C1|exact Hp|].
  assert (Hr : r = firstn (List.length r) bs).
  { apply (prefix_of k (skipn (Z.to_nat p) (written c p bs))); [exact Hk| |exact (written_back c p bs Hp)]. unfold zlen in Hlen. lia. }
  split; [eauto|]. split; [|split; [|split; [|split]]].
  - intro Hn. destruct (Hnil Hn) as [Hz|Hz].
    + destruct bs; [reflexivity|]. rewrite zlen_cons in Hz. pose proof (zlen_nonneg bs). lia.
    + rewrite <- (written_back c p bs Hp), Hz. destruct (List.length bs); reflexivity.
  - rewrite Q1. exact O3.
  - rewrite Q2, C3, C2. exact C1.
  - intros i N. rewrite Q1, O3', O2', O1' by exact N. reflexivity.
  - intros m N. rewrite Q2, C3, C2, C1' by exact N. reflexivity.
Qed.
End A.

Section RT.
Context {E : Env}.
Lemma round_trip_history (F : ideal) fuel A v v' id n p c bs r : described F v A -> f_open A id = Some (n, p) -> f_content A n = Some c -> 0 <= p ->
  file_history fuel [Write id bs; Seek id p; Read id (zlen bs) r] v v' ->
  exists B, described F v' B /\
  (exists k, r = firstn k bs) /\ (r = [] -> bs = []) /\ f_open B id = Some (n, p + zlen r) /\ f_content B n = Some (written c p bs) /\
  (forall i, i <> id -> f_open B i = f_open A i) /\ (forall m, m <> n -> f_content B m = f_content A m).
Proof.
  intros D Ho Hc Hp H. destruct (file_history_ok F fuel _ v v' H A D) as (B & D' & S). exists B. split; [exact D'|].
  exact (round_trip A B id n p c bs r Ho Hc Hp S).
Qed.
End RT.
