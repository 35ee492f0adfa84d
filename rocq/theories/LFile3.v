(** File words: buffers, stack effects, the ideal file system. *)
From Coq Require Import ZArith List Bool Lia ZifyBool ZifyNat.
From Verif Require Import Base Stack Mem Parser State CoreM FileM Exec LBase LStack Spec Spec4 Spec9 Spec12 LState LMem LMon LMemWords LPres LTask LFile LFile2.
Import ListNotations.
Open Scope Z_scope.
Local Opaque push push2 push3 pop pop2 pop3.

Lemma write_bytes_meta bs : forall d a, ds_inner (write_bytes d a bs) = ds_inner d /\ ds_cap (write_bytes d a bs) = ds_cap d /\
  ds_len (write_bytes d a bs) = ds_len d.
Proof. induction bs as [|x bs IH]; intros d a; cbn; [auto|]. destruct (IH (set_byte d a x) (a + 1)) as (A & B & C). rewrite A, B, C. auto. Qed.
Lemma write_bytes_other bs : forall d a i, start d <= a -> start d <= i -> i < a \/ a + zlen bs <= i -> byte_at (write_bytes d a bs) i = byte_at d i.
Proof.
  induction bs as [|x bs IH]; intros d a i Ha Hi Ho; cbn [write_bytes]; [reflexivity|]. rewrite zlen_cons in Ho. pose proof (zlen_nonneg bs).
  change (start d) with (start (set_byte d a x)) in Ha, Hi. rewrite IH by lia. apply byte_set_other; try exact Ha; try exact Hi. lia.
Qed.
Lemma write_bytes_at bs : forall d a, start d <= a -> forall k x, nth_error bs k = Some x -> byte_at (write_bytes d a bs) (a + Z.of_nat k) = x.
Proof.
  induction bs as [|y bs IH]; intros d a Ha [|k] x H; try discriminate; cbn [write_bytes].
  - injection H as ->. change (start d) with (start (set_byte d a x)) in Ha. rewrite write_bytes_other by lia.
    replace (a + Z.of_nat 0) with a by lia. apply byte_set_same.
  - change (start d) with (start (set_byte d a y)) in Ha. replace (a + Z.of_nat (S k)) with (a + 1 + Z.of_nat k) by lia. apply IH; [lia|exact H].
Qed.
Lemma zlen_firstn {A} (l : list A) n : 0 <= n -> zlen (firstn (Z.to_nat n) l) <= n.
Proof. intro H. unfold zlen. rewrite firstn_length. lia. Qed.
Lemma bytes_at_read d a bs : bytes_at d a bs -> read_bytes d a (zlen bs) = Ok bs.
Proof.
  intros (H0 & (H1 & H2 & H3) & H4). destruct bs as [|x bs].
  - unfold read_bytes. cbn. replace (a =? 0) with false by lia. reflexivity.
  - apply read_bytes_ok; [discriminate|exact H1|exact H3|exact H4].
Qed.
Lemma start_write d a bs : start (write_bytes d a bs) = start d.
Proof. unfold start. apply write_bytes_meta. Qed.
Lemma limit_write d a bs : limit (write_bytes d a bs) = limit d.
Proof. unfold limit. destruct (write_bytes_meta bs d a) as (A & B & C). congruence. Qed.

Section W.
Context {E : Env}.
Implicit Types (v : vm).

Lemma fits_true d a u : 0 <= u -> fits d a u = Ok true -> start d <= a.
Proof. unfold fits. destruct (Z.leb_spec (start d) a); [auto|discriminate]. Qed.
Lemma fits_small d a u : a + u < two64 -> fits d a u = Ok (in_ds d a u).
Proof. intro H. unfold fits, in_ds. destruct (start d <=? a); cbn [andb]; [|reflexivity]. replace (a + u <? two64) with true by lia. reflexivity. Qed.

(** All results of [read-file] *)
Lemma read_cases v xa u id l : stack_has (t_s (cur v)) (id :: u :: xa :: l) ->
  exists s, popped v s 3 l /\ (forall fuel ew ew' , exec_prim fuel ew P_read_file v = exec_prim fuel ew' P_read_file v) /\
  (to_u64 xa + to_u64 u < two64 -> forall fuel ew, exists v', exec_prim fuel ew P_read_file v = Ok (tt, v')) /\
  forall fuel ew v', exec_prim fuel ew P_read_file v = Ok (tt, v') ->
    (exists u2 ior o, ior <> 0 /\ v' = after v (push2 s u2 ior) o (t_files (cur v)) (v_ds v) /\
       (o = v_os v \/ exists h n, os_read (v_os v) h n = (o, None))) \/
    (exists h o bs, slot v (to_u64 id) = Some h /\ in_space (v_ds v) (to_u64 xa) (to_u64 u) /\ os_read (v_os v) h (to_u64 u) = (o, Some bs) /\
       v' = after v (push2 s (zlen (firstn (Z.to_nat (to_u64 u)) bs)) 0) o (t_files (cur v))
              (write_bytes (v_ds v) (to_u64 xa) (firstn (Z.to_nat (to_u64 u)) bs))).
Proof.
  intro Hs. destruct (read_file_run v xa u id l Hs) as (s & Hp & Hr). exists s. split; [exact Hp|].
  split; [intros; rewrite !Hr; reflexivity|]. split.
  - intros Ho fuel ew. rewrite Hr. destruct (to_u64 id =? 0); [eexists; reflexivity|]. destruct (slot v (to_u64 id)); [|eexists; reflexivity].
    rewrite fits_small by exact Ho. destruct (in_ds _ _ _); eexists; reflexivity.
  - intros fuel ew v' H. rewrite Hr in H. clear Hr. destruct (to_u64 id =? 0).
    + injection H as <-. left. exists (-1), (-24), (v_os v). split; [discriminate|]. split; [reflexivity|left; reflexivity].
    + destruct (slot v (to_u64 id)) as [h|] eqn:Es.
      * destruct (fits _ _ _) as [[]| | |] eqn:Ef; try discriminate.
        -- destruct (in_ds _ _ _) eqn:Ei; try discriminate. cbv zeta in H. apply in_ds_true in Ei. pose proof (to_u64_range u).
           destruct (os_read (v_os v) h (to_u64 u)) as [o [bs|]] eqn:Er; cbn [fst snd] in H; injection H as <-.
           ++ right. exists h, o, bs. repeat (split; [first [reflexivity|assumption|unfold in_space; lia]|]). reflexivity.
           ++ left. exists 0, (-37), o. split; [discriminate|]. split; [reflexivity|]. right. eauto.
        -- injection H as <-. left. exists 0, (-9), (v_os v). split; [discriminate|]. split; [reflexivity|left; reflexivity].
      * injection H as <-. left. exists 0, (-24), (v_os v). split; [discriminate|]. split; [reflexivity|left; reflexivity].
Qed.

(** C51 *)
Lemma read_inside fuel ew v v' id u u1 xa a l :
  stack_has (t_s (cur v)) (id :: u :: xa :: l) -> addr_of xa a -> addr_of u u1 -> exec_prim fuel ew P_read_file v = Ok (tt, v') ->
  exists u2 ior, stack_has (t_s (cur v')) (ior :: u2 :: l) /\ only_files v v' /\ t_files (cur v') = t_files (cur v) /\
    (ior = 0 -> 0 <= u2 <= u1 /\ in_space (v_ds v) a u1 /\ same_memory_but (v_ds v) (v_ds v') a u2) /\
    (ior <> 0 -> v_ds v' = v_ds v).
Proof.
  intros Hs Ha Hu H. apply addr_of_to_u64 in Ha. apply addr_of_to_u64 in Hu.
  pose proof (stack_has_bound _ _ Hs) as Hb. pose proof (stack_has_len _ _ Hs) as Hl. rewrite !zlen_cons in Hl.
  destruct (read_cases v xa u id l Hs) as (s & Hp & _ & _ & Hc). rewrite Ha, Hu in Hc.
  destruct (Hc fuel ew v' H) as [(u2 & ior & o & Hi & -> & _)|(h & o & bs & Es & Hin & _ & ->)].
  - destruct (push2_popped _ _ _ _ u2 ior Hp ltac:(lia) ltac:(lia)) as [A B]. exists u2, ior.
    split; [rewrite t_s_after; exact A|]. split; [apply only_files_after; try reflexivity; exact B|]. split; [apply t_files_after|].
    split; [congruence|]. reflexivity.
  - set (bs' := firstn (Z.to_nat u1) bs). destruct (push2_popped _ _ _ _ (zlen bs') 0 Hp ltac:(lia) ltac:(lia)) as [A B]. exists (zlen bs'), 0.
    split; [rewrite t_s_after; exact A|]. split; [apply only_files_after; try apply write_bytes_meta; exact B|]. split; [apply t_files_after|].
    split; [|congruence]. intros _. pose proof (zlen_firstn bs u1 (proj1 (proj2 Hin))). pose proof (zlen_nonneg bs'). split; [fold bs' in H0; lia|].
    split; [exact Hin|]. rewrite ds_after. split; [apply start_write|]. split; [apply limit_write|].
    intros i Hi Ho. apply write_bytes_other; [apply Hin|exact Hi|exact Ho].
Qed.
Lemma read_total fuel v id u u1 xa a l :
  stack_has (t_s (cur v)) (id :: u :: xa :: l) -> addr_of xa a -> addr_of u u1 -> a + u1 < 2 ^ 64 -> exists v', quiet fuel P_read_file v v'.
Proof.
  intros Hs Ha Hu Ho. apply addr_of_to_u64 in Ha. apply addr_of_to_u64 in Hu. destruct (read_cases v xa u id l Hs) as (s & Hp & He & Ht & _).
  rewrite Ha, Hu in Ht. destruct (Ht Ho fuel (fun _ _ => UB)) as [v' Hv]. exists v'. intro ew. rewrite (He fuel ew (fun _ _ => UB)). exact Hv.
Qed.

(** ** C52 *)
(** [leaves v v' k l]: the result has [k] cells more than [l] *)
Definition leaves v v' (k : Z) (l : list Z) : Prop :=
  exists outs, zlen outs = k /\ stack_has (t_s (cur v')) (outs ++ l) /\ only_files v v'.
Lemma leaves1 v s k l x o fl d : popped v s k l -> 1 <= k -> zlen l < 255 ->
  ds_inner d = ds_inner (v_ds v) -> ds_cap d = ds_cap (v_ds v) -> ds_len d = ds_len (v_ds v) -> leaves v (after v (push s x) o fl d) 1 l.
Proof.
  intros Hp Hk Hl H1 H2 H3. destruct (push1_popped _ _ _ _ x Hp ltac:(lia) Hl) as [A B]. exists [x]. split; [reflexivity|].
  split; [rewrite t_s_after; exact A|]. apply only_files_after; assumption.
Qed.
Lemma leaves2 v s k l x y o fl d : popped v s k l -> 1 <= k -> zlen l < 254 ->
  ds_inner d = ds_inner (v_ds v) -> ds_cap d = ds_cap (v_ds v) -> ds_len d = ds_len (v_ds v) -> leaves v (after v (push2 s x y) o fl d) 2 l.
Proof.
  intros Hp Hk Hl H1 H2 H3. destruct (push2_popped _ _ _ _ x y Hp ltac:(lia) Hl) as [A B]. exists [y; x]. split; [reflexivity|].
  split; [rewrite t_s_after; exact A|]. apply only_files_after; assumption.
Qed.
Lemma leaves3 v s k l x y z o fl d : popped v s k l -> 1 <= k -> zlen l < 253 ->
  ds_inner d = ds_inner (v_ds v) -> ds_cap d = ds_cap (v_ds v) -> ds_len d = ds_len (v_ds v) -> leaves v (after v (push3 s x y z) o fl d) 3 l.
Proof.
  intros Hp Hk Hl H1 H2 H3. destruct (push3_popped _ _ _ _ x y z Hp ltac:(lia) Hl) as [A B]. exists [z; y; x]. split; [reflexivity|].
  split; [rewrite t_s_after; exact A|]. apply only_files_after; assumption.
Qed.

Ltac in_cases H := unfold id_words, file_words in H; cbn [In] in H; repeat match type of H with _ \/ _ => destruct H as [H|H] end; [..|contradiction].
Ltac cases_ok H :=
  cbv zeta in H;
  repeat match type of H with
  | (if ?b then _ else _) = Ok _ => destruct b
  | match ?m with _ => _ end = Ok _ => destruct m as [?|]
  | match ?m with _ => _ end = Ok _ => destruct m as [[]| | |]
  | match ?m with _ => _ end = Ok _ => destruct m as [?| | |]
  | UB = _ => discriminate | Panic _ = _ => discriminate | OutOfFuel = _ => discriminate
  end.
Ltac cases_goal :=
  repeat match goal with
  | |- context [if ?b then _ else _] => destruct b
  | |- context [match ?m with Some _ => _ | None => _ end] => destruct m
  end.
Ltac fin := cbv zeta; cases_goal; first [eapply leaves3|eapply leaves2|eapply leaves1]; try eassumption; try lia; try reflexivity; try apply write_bytes_meta.

Lemma file_effect fuel ew w i o v v' ins l : In (w, i, o) file_words -> zlen ins = i -> zlen l + o <= 255 ->
  stack_has (t_s (cur v)) (ins ++ l) -> exec_prim fuel ew w v = Ok (tt, v') ->
  leaves v v' o l /\ quiet fuel w v v'.
Proof.
  intros Hw Hi Ho Hs H. in_cases Hw; injection Hw as <- <- <-.
  - destruct (zlen_1 ins Hi) as (id & ->). destruct (file_size_run v id l Hs) as (s & Hp & Hr).
    split; [|intro ew'; rewrite <- H, !Hr; reflexivity]. rewrite Hr in H. injection H as <-. fin.
  - destruct (zlen_1 ins Hi) as (id & ->). destruct (file_position_run v id l Hs) as (s & Hp & Hr).
    split; [|intro ew'; rewrite <- H, !Hr; reflexivity]. rewrite Hr in H. injection H as <-. fin.
  - destruct (zlen_1 ins Hi) as (id & ->). destruct (close_file_run v id l Hs) as (s & Hp & Hr).
    split; [|intro ew'; rewrite <- H, !Hr; reflexivity]. rewrite Hr in H. injection H as <-. fin.
  - destruct (zlen_3 ins Hi) as (fam & u & a & ->). destruct (opening_run P_create_file v a u fam l ltac:(cbn; auto) Hs) as (s & Hp & Hr).
    split; [|intro ew'; rewrite <- H, !Hr; reflexivity]. rewrite Hr in H. clear Hr.
    destruct (opts_of _ _); [|injection H as <-; fin]. destruct (256 <? to_u64 u); [injection H as <-; fin|].
    rewrite open_common_run in H by apply to_u64_range. cases_ok H; injection H as <-; fin.
  - destruct (zlen_3 ins Hi) as (fam & u & a & ->). destruct (opening_run P_open_file v a u fam l ltac:(cbn; auto) Hs) as (s & Hp & Hr).
    split; [|intro ew'; rewrite <- H, !Hr; reflexivity]. rewrite Hr in H. clear Hr.
    destruct (opts_of _ _); [|injection H as <-; fin]. destruct (256 <? to_u64 u); [injection H as <-; fin|].
    rewrite open_common_run in H by apply to_u64_range. cases_ok H; injection H as <-; fin.
  - destruct (zlen_3 ins Hi) as (id & u & a & ->). destruct (read_file_run v a u id l Hs) as (s & Hp & Hr).
    split; [|intro ew'; rewrite <- H, !Hr; reflexivity]. rewrite Hr in H. clear Hr. cases_ok H; injection H as <-; fin.
  - destruct (zlen_3 ins Hi) as (id & u & a & ->). destruct (write_file_run v a u id l Hs) as (s & Hp & Hr).
    split; [|intro ew'; rewrite <- H, !Hr; reflexivity]. rewrite Hr in H. clear Hr. cases_ok H; injection H as <-; fin.
  - destruct (zlen_3 ins Hi) as (id & u & a & ->). destruct (len_or_seek_run os_set_len v a u id l Hs) as (s & Hp & Hr).
    change (exec_prim fuel ew P_resize_file v) with (len_or_seek os_set_len v) in H.
    split; [|intro ew'; rewrite <- H; reflexivity]. rewrite Hr in H. injection H as <-. fin.
  - destruct (zlen_3 ins Hi) as (id & u & a & ->). destruct (len_or_seek_run os_seek v a u id l Hs) as (s & Hp & Hr).
    change (exec_prim fuel ew P_reposition_file v) with (len_or_seek os_seek v) in H.
    split; [|intro ew'; rewrite <- H; reflexivity]. rewrite Hr in H. injection H as <-. fin.
Qed.
Lemma delete_effect fuel ew v v' xu u a l : stack_has (t_s (cur v)) (xu :: a :: l) -> addr_of xu u -> u <= 256 ->
  exec_prim fuel ew P_delete_file v = Ok (tt, v') -> leaves v v' 1 l /\ quiet fuel P_delete_file v v'.
Proof.
  intros Hs Hu Hk H. apply addr_of_to_u64 in Hu. subst u.
  pose proof (stack_has_bound _ _ Hs) as Hb. pose proof (stack_has_len _ _ Hs) as Hl. rewrite !zlen_cons in Hl.
  destruct (delete_file_run v a xu l Hs) as (s & Hp & Hr).
  split; [|intro ew'; rewrite <- H, !Hr; reflexivity]. rewrite Hr in H. clear Hr.
  replace (256 <? to_u64 xu) with false in H by lia. cases_ok H; injection H as <-; fin.
Qed.
Lemma delete_long fuel v xu u a l : stack_has (t_s (cur v)) (xu :: a :: l) -> addr_of xu u -> 256 < u ->
  exists v', quiet fuel P_delete_file v v' /\ stack_has (t_s (cur v')) (-24 :: -1 :: l).
Proof.
  intros Hs Hu Hk. apply addr_of_to_u64 in Hu. subst u.
  pose proof (stack_has_bound _ _ Hs) as Hb. pose proof (stack_has_len _ _ Hs) as Hl. rewrite !zlen_cons in Hl.
  destruct (delete_file_run v a xu l Hs) as (s & Hp & Hr). replace (256 <? to_u64 xu) with true in Hr by lia.
  destruct (push2_popped _ _ _ _ (-1) (-24) Hp ltac:(lia) ltac:(lia)) as [A B].
  eexists. split; [intro ew; apply Hr|]. rewrite t_s_after. exact A.
Qed.
End W.

Section T.
Context {E : Env}.
(** The file words finish whatever the operands, if [caddr + u] does not wrap *)
Lemma fits_read d a u : 0 < start d -> 0 <= u -> a + u < two64 -> fits d a u = Ok true -> exists n, read_bytes d a u = Ok n.
Proof.
  intros H0 Hu Ho H. rewrite fits_small in H by exact Ho. injection H as H. unfold read_bytes. pose proof (proj1 (in_ds_true _ _ _) H).
  rewrite H. replace (a =? 0) with false by lia. destruct (u =? 0); eauto.
Qed.
Lemma file_total fuel w i o v ins l : In (w, i, o) ((P_delete_file, 2, 1) :: file_words) -> zlen ins = i -> 0 < start (v_ds v) ->
  stack_has (t_s (cur v)) (ins ++ l) ->
  (forall xa u a n, buffer w ins = Some (xa, u) -> addr_of xa a -> addr_of u n -> a + n < 2 ^ 64) ->
  exists v', quiet fuel w v v'.
Proof.
  intros Hw Hi H0 Hs Hb.
  assert (Hc : forall xa u, buffer w ins = Some (xa, u) -> to_u64 xa + to_u64 u < two64).
  { intros xa u HH. apply (Hb xa u (to_u64 xa) (to_u64 u) HH); (split; [apply to_u64_range|]).
    - exists (xa / two64). unfold to_u64. change (2 ^ 64) with two64. rewrite Z.mul_comm, Z.add_comm. apply Z.div_mod. discriminate.
    - exists (u / two64). unfold to_u64. change (2 ^ 64) with two64. rewrite Z.mul_comm, Z.add_comm. apply Z.div_mod. discriminate. }
  clear Hb. unfold file_words in Hw. cbn [In] in Hw. repeat match type of Hw with _ \/ _ => destruct Hw as [Hw|Hw] end; [..|contradiction]; injection Hw as <- <- <-.
  - destruct (zlen_2 ins Hi) as (u & a & ->). destruct (delete_file_run v a u l Hs) as (s & Hp & Hr).
    specialize (Hc a u eq_refl). enough (exists v', exec_prim fuel (fun _ _ => UB) P_delete_file v = Ok (tt, v')) as [v' Hv].
    { exists v'. intro ew. rewrite <- Hv, !Hr. reflexivity. }
    rewrite Hr. destruct (256 <? to_u64 u); [eauto|]. destruct (fits _ _ _) as [[]| | |] eqn:Ef; rewrite (fits_small _ _ _ Hc) in Ef; try discriminate; [|eauto].
    rewrite <- (fits_small _ _ _ Hc) in Ef. destruct (fits_read _ _ _ H0 (proj1 (to_u64_range u)) Hc Ef) as [n ->]. cbv zeta. eauto.
  - destruct (zlen_1 ins Hi) as (id & ->). destruct (file_size_run v id l Hs) as (s & Hp & Hr). eexists. intro ew. apply Hr.
  - destruct (zlen_1 ins Hi) as (id & ->). destruct (file_position_run v id l Hs) as (s & Hp & Hr). eexists. intro ew. apply Hr.
  - destruct (zlen_1 ins Hi) as (id & ->). destruct (close_file_run v id l Hs) as (s & Hp & Hr). eexists. intro ew. apply Hr.
  - destruct (zlen_3 ins Hi) as (fam & u & a & ->). destruct (opening_run P_create_file v a u fam l ltac:(cbn; auto) Hs) as (s & Hp & Hr).
    specialize (Hc a u eq_refl). enough (exists v', exec_prim fuel (fun _ _ => UB) P_create_file v = Ok (tt, v')) as [v' Hv].
    { exists v'. intro ew. rewrite <- Hv, !Hr. reflexivity. }
    rewrite Hr. destruct (opts_of _ _); [|eauto]. destruct (256 <? to_u64 u); [eauto|]. rewrite open_common_run by apply to_u64_range.
    destruct (fits _ _ _) as [[]| | |] eqn:Ef; rewrite (fits_small _ _ _ Hc) in Ef; try discriminate; [|eauto].
    rewrite <- (fits_small _ _ _ Hc) in Ef. destruct (fits_read _ _ _ H0 (proj1 (to_u64_range u)) Hc Ef) as [n ->]. cbv zeta. eauto.
  - destruct (zlen_3 ins Hi) as (fam & u & a & ->). destruct (opening_run P_open_file v a u fam l ltac:(cbn; auto) Hs) as (s & Hp & Hr).
    specialize (Hc a u eq_refl). enough (exists v', exec_prim fuel (fun _ _ => UB) P_open_file v = Ok (tt, v')) as [v' Hv].
    { exists v'. intro ew. rewrite <- Hv, !Hr. reflexivity. }
    rewrite Hr. destruct (opts_of _ _); [|eauto]. destruct (256 <? to_u64 u); [eauto|]. rewrite open_common_run by apply to_u64_range.
    destruct (fits _ _ _) as [[]| | |] eqn:Ef; rewrite (fits_small _ _ _ Hc) in Ef; try discriminate; [|eauto].
    rewrite <- (fits_small _ _ _ Hc) in Ef. destruct (fits_read _ _ _ H0 (proj1 (to_u64_range u)) Hc Ef) as [n ->]. cbv zeta. eauto.
  - destruct (zlen_3 ins Hi) as (id & u & a & ->). destruct (read_cases v a u id l Hs) as (s & Hp & He & Ht & _).
    destruct (Ht (Hc a u eq_refl) fuel (fun _ _ => UB)) as [v' Hv]. exists v'. intro ew. rewrite (He fuel ew (fun _ _ => UB)). exact Hv.
  - destruct (zlen_3 ins Hi) as (id & u & a & ->). destruct (write_file_run v a u id l Hs) as (s & Hp & Hr).
    specialize (Hc a u eq_refl). enough (exists v', exec_prim fuel (fun _ _ => UB) P_write_file v = Ok (tt, v')) as [v' Hv].
    { exists v'. intro ew. rewrite <- Hv, !Hr. reflexivity. }
    rewrite Hr. destruct (slot v id); [|eauto].
    destruct (fits _ _ _) as [[]| | |] eqn:Ef; rewrite (fits_small _ _ _ Hc) in Ef; try discriminate; [|eauto].
    rewrite <- (fits_small _ _ _ Hc) in Ef. destruct (fits_read _ _ _ H0 (proj1 (to_u64_range u)) Hc Ef) as [n ->]. cbv zeta. eauto.
  - destruct (zlen_3 ins Hi) as (id & u & a & ->). destruct (len_or_seek_run os_set_len v a u id l Hs) as (s & Hp & Hr).
    eexists. intro ew. change (exec_prim fuel ew P_resize_file v) with (len_or_seek os_set_len v). apply Hr.
  - destruct (zlen_3 ins Hi) as (id & u & a & ->). destruct (len_or_seek_run os_seek v a u id l Hs) as (s & Hp & Hr).
    eexists. intro ew. change (exec_prim fuel ew P_reposition_file v) with (len_or_seek os_seek v). apply Hr.
Qed.
End T.
