(** File words: identifiers, buffers, stack effects. *)
From Coq Require Import ZArith List Bool Lia ZifyBool ZifyNat.
From Verif Require Import Base Stack Mem Parser State CoreM FileM Exec LBase LStack Spec Spec4 Spec9 Spec12 LState LMem LMon LMemWords LPres LTask LFile.
Import ListNotations.
Open Scope Z_scope.
Local Opaque push push2 push3 pop pop2 pop3.

Lemma nth_set_nth {A} (l : list A) : forall n x, (n < List.length l)%nat -> nth_error (set_nth l n x) n = Some x.
Proof. induction l as [|y l IH]; intros [|n] x H; cbn in *; [lia|lia|reflexivity|]. apply IH. lia. Qed.
Lemma nth_set_other {A} (l : list A) : forall n k x, k <> n -> nth_error (set_nth l n x) k = nth_error l k.
Proof.
  induction l as [|y l IH]; intros [|n] [|k] x H; cbn; try reflexivity; try congruence. apply IH. congruence.
Qed.
Lemma first_none_spec {A} (l : list (option A)) :
  match first_none l with
  | Some n => nth_error l n = Some None
  | None => ~ In None l
  end.
Proof.
  induction l as [|[x|] l IH]; cbn; [tauto| |reflexivity].
  destruct (first_none l); [exact IH|]. intros [H|H]; [discriminate|contradiction].
Qed.
(** The slot given by [alloc_slot] *)
Lemma alloc_slot_spec {A} (l : list (option A)) x id l' : alloc_slot l x = (id, l') ->
  1 <= id /\ (forall y, nth_error l (Z.to_nat (id - 1)) <> Some (Some y)) /\ nth_error l' (Z.to_nat (id - 1)) = Some (Some x) /\
  forall k, k <> Z.to_nat (id - 1) -> nth_error l' k = nth_error l k.
Proof.
  unfold alloc_slot. pose proof (first_none_spec l) as Hf. destruct (first_none l) as [n|]; intro H; injection H as <- <-.
  - replace (Z.to_nat (Z.of_nat n + 1 - 1)) with n by lia. split; [lia|]. split; [congruence|]. split.
    + apply nth_set_nth. apply nth_error_Some. congruence.
    + intros k Hk. apply nth_set_other. exact Hk.
  - unfold zlen. replace (Z.to_nat (Z.of_nat (List.length l) + 1 - 1)) with (List.length l) by lia. split; [lia|]. split; [|split].
    + intros y Hy. assert (List.length l < List.length l)%nat; [|lia]. apply nth_error_Some. congruence.
    + rewrite nth_error_app2, Nat.sub_diag by lia. reflexivity.
    + intros k Hk. destruct (Nat.lt_ge_cases k (List.length l)).
      * apply nth_error_app1. exact H.
      * rewrite (proj2 (nth_error_None l k)) by exact H. apply nth_error_None. rewrite app_length. cbn. lia.
Qed.

Section W.
Context {E : Env}.
Implicit Types (v : vm).

Lemma push_popped v s k l x : popped v s k l -> 0 <= k -> zlen l < 255 -> k <= 1 \/ 1 <= k ->
  stack_has (push s x) (x :: l) /\ (1 <= k -> high_slots_kept (t_s (cur v)) (push s x)).
Proof.
  intros (H & Hh & Hl) Hk Hz _. destruct (push1_has s x l H Hz) as (H1 & H2 & H3). split; [exact H1|].
  intro. apply (high_trans _ s); [lia|exact Hh|exact H2].
Qed.
Lemma push2_popped v s k l x y : popped v s k l -> 0 <= k -> zlen l < 254 ->
  stack_has (push2 s x y) (y :: x :: l) /\ high_slots_kept (t_s (cur v)) (push2 s x y).
Proof.
  intros (H & Hh & Hl) Hk Hz. destruct (push2_has s x y l H Hz) as (H1 & H2 & H3). split; [exact H1|].
  apply (high_trans _ s); [lia|exact Hh|exact H2].
Qed.
Lemma push3_popped v s k l x y z : popped v s k l -> 0 <= k -> zlen l < 253 ->
  stack_has (push3 s x y z) (z :: y :: x :: l) /\ high_slots_kept (t_s (cur v)) (push3 s x y z).
Proof.
  intros (H & Hh & Hl) Hk Hz. destruct (push3_has s x y z l H Hz) as (H1 & H2 & H3). split; [exact H1|].
  apply (high_trans _ s); [lia|exact Hh|exact H2].
Qed.
Lemma push1_popped v s k l x : popped v s k l -> 0 <= k -> zlen l < 255 ->
  stack_has (push s x) (x :: l) /\ high_slots_kept (t_s (cur v)) (push s x).
Proof.
  intros (H & Hh & Hl) Hk Hz. destruct (push1_has s x l H Hz) as (H1 & H2 & H3). split; [exact H1|].
  apply (high_trans _ s); [lia|exact Hh|exact H2].
Qed.

(** ** C50: refused identifiers *)
Lemma to_u64_neg x : is_cell x -> x < 0 -> to_u64 x = x + two64.
Proof.
  intros [H1 H2] H. unfold to_u64. change (2 ^ 63) with 9223372036854775808 in *. symmetry.
  change two64 with 18446744073709551616. apply (Z.mod_unique_pos _ _ (-1)); lia.
Qed.
Lemma to_u64_pos x : is_cell x -> 0 <= x -> to_u64 x = x.
Proof. intros [H1 H2] H. unfold to_u64. change (2 ^ 63) with 9223372036854775808 in *. apply Z.mod_small. change two64 with 18446744073709551616. lia. Qed.

Lemma slot_cell v id : is_cell id -> zlen (t_files (cur v)) < 2 ^ 63 -> id <> 0 -> ~ is_open v id -> slot v (to_u64 id) = None.
Proof.
  intros Hc Hl Hz Ho. destruct (Z.neg_nonneg_cases id) as [Hn|Hn].
  - rewrite to_u64_neg by assumption. unfold slot. destruct Hc as [H1 H2].
    change (2 ^ 63) with 9223372036854775808 in *. change two64 with 18446744073709551616.
    replace (id + 18446744073709551616 <=? 0) with false by lia.
    rewrite (proj2 (nth_error_None _ _)); [reflexivity|]. unfold zlen in Hl. lia.
  - rewrite to_u64_pos by assumption. apply slot_none. exact Ho.
Qed.


Ltac in_cases H := unfold id_words, file_words in H; cbn [In] in H; repeat match type of H with _ \/ _ => destruct H as [H|H] end; [..|contradiction].
Ltac split_list xs := repeat (destruct xs as [|? xs]; [discriminate|]); destruct xs; [|discriminate].

Lemma zlen_0 {A} (xs : list A) : zlen xs = 0 -> xs = [].
Proof. destruct xs; [reflexivity|]. rewrite zlen_cons. pose proof (zlen_nonneg xs). lia. Qed.
Lemma zlen_1 {A} (xs : list A) : zlen xs = 1 -> exists x, xs = [x].
Proof. destruct xs as [|x xs]; [intro Hx; discriminate Hx|]. rewrite zlen_cons. intro. exists x. f_equal. apply zlen_0. lia. Qed.
Lemma zlen_2 {A} (xs : list A) : zlen xs = 2 -> exists x y, xs = [x; y].
Proof. destruct xs as [|x xs]; [intro Hx; discriminate Hx|]. rewrite zlen_cons. intro. destruct (zlen_1 xs) as [y ->]; [lia|]. exists x, y. reflexivity. Qed.
Lemma zlen_3 {A} (xs : list A) : zlen xs = 3 -> exists x y z, xs = [x; y; z].
Proof. destruct xs as [|x xs]; [intro Hx; discriminate Hx|]. rewrite zlen_cons. intro. destruct (zlen_2 xs) as (y & z & ->); [lia|]. exists x, y, z. reflexivity. Qed.

Ltac give s ys := eexists (after _ s _ _ _), ys; split; [|split; [rewrite t_s_after|apply only_data_after]].

Lemma refused fuel w k v id xs l : In (w, k) id_words -> is_cell id -> zlen (t_files (cur v)) < 2 ^ 63 -> ~ is_open v id ->
  zlen xs = k -> stack_has (t_s (cur v)) (id :: xs ++ l) -> zlen l < 253 ->
  exists v' ys, quiet fuel w v v' /\ stack_has (t_s (cur v')) (-24 :: ys ++ l) /\ only_data_stack v v'.
Proof.
  intros Hw Hc Hf Ho Hx Hs Hl. pose proof (slot_none v id Ho) as Hn. in_cases Hw; injection Hw as <- <-.
  - apply zlen_0 in Hx. subst xs. cbn [app] in Hs. destruct (file_size_run v id l Hs) as (s & Hp & Hr). rewrite Hn in Hr.
    destruct (push3_popped _ _ _ _ (-1) (-1) (-24) Hp ltac:(lia) Hl) as [A B].
    give (push3 s (-1) (-1) (-24)) [-1; -1]; [intro ew; apply Hr|exact A|exact B].
  - apply zlen_0 in Hx. subst xs. cbn [app] in Hs. destruct (file_position_run v id l Hs) as (s & Hp & Hr). rewrite Hn in Hr.
    destruct (push3_popped _ _ _ _ (-1) (-1) (-24) Hp ltac:(lia) Hl) as [A B].
    give (push3 s (-1) (-1) (-24)) [-1; -1]; [intro ew; apply Hr|exact A|exact B].
  - apply zlen_0 in Hx. subst xs. cbn [app] in Hs. destruct (close_file_run v id l Hs) as (s & Hp & Hr). rewrite Hn in Hr.
    destruct (push1_popped _ _ _ _ (-24) Hp ltac:(lia) ltac:(lia)) as [A B].
    give (push s (-24)) (@nil Z); [intro ew; apply Hr|exact A|exact B].
  - destruct (zlen_2 xs Hx) as (u & a & ->). cbn [app] in Hs. destruct (read_file_run v a u id l Hs) as (s & Hp & Hr).
    destruct (Z.eqb_spec (to_u64 id) 0) as [Hz|Hz].
    + destruct (push2_popped _ _ _ _ (-1) (-24) Hp ltac:(lia) ltac:(lia)) as [A B].
      give (push2 s (-1) (-24)) [-1]; [intro ew; apply Hr|exact A|exact B].
    + assert (id <> 0) by (intros ->; apply Hz; reflexivity). rewrite slot_cell in Hr by assumption.
      destruct (push2_popped _ _ _ _ 0 (-24) Hp ltac:(lia) ltac:(lia)) as [A B].
      give (push2 s 0 (-24)) [0]; [intro ew; apply Hr|exact A|exact B].
  - destruct (zlen_2 xs Hx) as (u & a & ->). cbn [app] in Hs. destruct (write_file_run v a u id l Hs) as (s & Hp & Hr). rewrite Hn in Hr.
    destruct (push1_popped _ _ _ _ (-24) Hp ltac:(lia) ltac:(lia)) as [A B].
    give (push s (-24)) (@nil Z); [intro ew; apply Hr|exact A|exact B].
  - destruct (zlen_2 xs Hx) as (u & a & ->). cbn [app] in Hs. destruct (len_or_seek_run os_set_len v a u id l Hs) as (s & Hp & Hr). rewrite Hn in Hr.
    destruct (push1_popped _ _ _ _ (-24) Hp ltac:(lia) ltac:(lia)) as [A B].
    give (push s (-24)) (@nil Z); [intro ew; apply Hr|exact A|exact B].
  - destruct (zlen_2 xs Hx) as (u & a & ->). cbn [app] in Hs. destruct (len_or_seek_run os_seek v a u id l Hs) as (s & Hp & Hr). rewrite Hn in Hr.
    destruct (push1_popped _ _ _ _ (-24) Hp ltac:(lia) ltac:(lia)) as [A B].
    give (push s (-24)) (@nil Z); [intro ew; apply Hr|exact A|exact B].
Qed.

(** ** C50: new identifiers *)
Lemma open_as_after v s o fl d id h : open_as (after v s o fl d) id h <-> 1 <= id /\ nth_error fl (Z.to_nat (id - 1)) = Some (Some h).
Proof. unfold open_as. rewrite t_files_after. reflexivity. Qed.

(** All results of the opening words *)
Lemma opening_cases w v a u fam l : In w [P_create_file; P_open_file] -> stack_has (t_s (cur v)) (fam :: u :: a :: l) ->
  exists s, popped v s 3 l /\ forall fuel ew v', exec_prim fuel ew w v = Ok (tt, v') ->
    (exists ior o, ior <> 0 /\ v' = after v (push2 s (-1) ior) o (t_files (cur v)) (v_ds v) /\
       (o = v_os v \/ exists n opts, os_open (v_os v) n opts = (o, None))) \/
    (exists n opts o h, opts_of w fam = Some opts /\ to_u64 u <= 256 /\ fits (v_ds v) (to_u64 a) (to_u64 u) = Ok true /\
       read_bytes (v_ds v) (to_u64 a) (to_u64 u) = Ok n /\ os_open (v_os v) n opts = (o, Some h) /\
       v' = after v (push2 s (fst (alloc_slot (t_files (cur v)) h)) 0) o (snd (alloc_slot (t_files (cur v)) h)) (v_ds v)).
Proof.
  intros Hw Hs. destruct (opening_run w v a u fam l Hw Hs) as (s & Hp & Hr). exists s. split; [exact Hp|].
  intros fuel ew v' H. rewrite Hr in H. clear Hr. destruct (opts_of w fam) as [opts|].
  - destruct (Z.ltb_spec 256 (to_u64 u)).
    + injection H as <-. left. exists (-24), (v_os v). split; [discriminate|]. split; [reflexivity|]. left; reflexivity.
    + rewrite open_common_run in H by apply to_u64_range.
      destruct (fits _ _ _) as [[]| | |] eqn:Ef; try discriminate.
      * destruct (read_bytes _ _ _) as [n| | |] eqn:Er; try discriminate. cbv zeta in H.
        destruct (os_open (v_os v) n opts) as [o [h|]] eqn:Eo; cbn [fst snd] in H.
        -- right. exists n, opts, o, h. injection H as <-. repeat (split; [first [reflexivity|assumption|lia]|]). reflexivity.
        -- left. exists (-37), o. injection H as <-. split; [discriminate|]. split; [reflexivity|]. right. eauto.
      * left. injection H as <-. exists (-9), (v_os v). split; [discriminate|]. split; [reflexivity|]. left; reflexivity.
  - injection H as <-. left. exists (-24), (v_os v). split; [discriminate|]. split; [reflexivity|]. left; reflexivity.
Qed.

Lemma opened fuel ew w v v' a u fam l : In w [P_create_file; P_open_file] -> stack_has (t_s (cur v)) (fam :: u :: a :: l) ->
  exec_prim fuel ew w v = Ok (tt, v') ->
  exists id ior, stack_has (t_s (cur v')) (ior :: id :: l) /\ only_files v v' /\ v_ds v' = v_ds v /\
    (ior = 0 -> ~ is_open v id /\ is_open v' id /\ forall id' h, id' <> id -> (open_as v' id' h <-> open_as v id' h)) /\
    (ior <> 0 -> t_files (cur v') = t_files (cur v)).
Proof.
  intros Hw Hs H. pose proof (stack_has_bound _ _ Hs) as Hb. pose proof (stack_has_len _ _ Hs) as Hl. rewrite !zlen_cons in Hl.
  destruct (opening_cases w v a u fam l Hw Hs) as (s & Hp & Hr). destruct (Hr fuel ew v' H) as [(ior & o & Hi & -> & _)|(n & opts & o & h & _ & _ & _ & _ & _ & ->)].
  - destruct (push2_popped _ _ _ _ (-1) ior Hp ltac:(lia) ltac:(lia)) as [A B]. exists (-1), ior.
    split; [rewrite t_s_after; exact A|]. split; [apply only_files_after; try reflexivity; exact B|]. split; [reflexivity|].
    split; [congruence|]. intros _. apply t_files_after.
  - destruct (alloc_slot (t_files (cur v)) h) as [id fl] eqn:Ea. cbn [fst snd].
    destruct (alloc_slot_spec _ _ _ _ Ea) as (H1 & H2 & H3 & H4).
    destruct (push2_popped _ _ _ _ id 0 Hp ltac:(lia) ltac:(lia)) as [A B]. exists id, 0.
    split; [rewrite t_s_after; exact A|]. split; [apply only_files_after; try reflexivity; exact B|]. split; [reflexivity|].
    split; [|congruence]. intros _. split; [|split].
    + intros [h' [_ Hh]]. exact (H2 _ Hh).
    + exists h. apply open_as_after. auto.
    + intros id' h' N. rewrite open_as_after. unfold open_as. split; intros [X Y]; (split; [exact X|]).
      * rewrite <- H4; [exact Y|lia].
      * rewrite H4; [exact Y|lia].
Qed.

Lemma closed fuel v id l : stack_has (t_s (cur v)) (id :: l) -> is_open v id ->
  exists v' h, open_as v id h /\ quiet fuel P_close_file v v' /\ stack_has (t_s (cur v')) (0 :: l) /\ only_files v v' /\ v_ds v' = v_ds v /\
    v_os v' = os_close (v_os v) h /\ ~ is_open v' id /\ forall id' k, id' <> id -> (open_as v' id' k <-> open_as v id' k).
Proof.
  intros Hs [h Ho]. pose proof (stack_has_bound _ _ Hs) as Hb. pose proof (stack_has_len _ _ Hs) as Hl. rewrite !zlen_cons in Hl.
  destruct (close_file_run v id l Hs) as (s & Hp & Hr). rewrite (proj2 (slot_open v id h) Ho) in Hr.
  destruct (push1_popped _ _ _ _ 0 Hp ltac:(lia) ltac:(lia)) as [A B].
  eexists (after _ _ _ _ _), h. split; [exact Ho|]. split; [intro ew; apply Hr|]. split; [rewrite t_s_after; exact A|].
  split; [apply only_files_after; try reflexivity; exact B|]. split; [reflexivity|]. split; [reflexivity|].
  destruct Ho as [H1 H2]. split.
  - intros [k Hk]. rewrite open_as_after in Hk. destruct Hk as [_ Hk]. rewrite nth_set_nth in Hk; [discriminate|].
    apply nth_error_Some. congruence.
  - intros id' k N. rewrite open_as_after. unfold open_as. split; intros [X Y]; (split; [exact X|]).
    + rewrite nth_set_other in Y; [exact Y|lia].
    + rewrite nth_set_other; [exact Y|lia].
Qed.
Lemma not_closed fuel v id l : stack_has (t_s (cur v)) (id :: l) -> ~ is_open v id ->
  exists v', quiet fuel P_close_file v v' /\ t_files (cur v') = t_files (cur v).
Proof.
  intros Hs Ho. destruct (close_file_run v id l Hs) as (s & Hp & Hr). rewrite (slot_none v id Ho) in Hr.
  eexists (after _ _ _ _ _). split; [intro ew; apply Hr|]. apply t_files_after.
Qed.

Lemma history_ok fuel ids v : history fuel ids v ->
  NoDup (map fst ids) /\ forall id h, open_as v id h <-> In (id, h) ids.
Proof.
  induction 1 as [v H|ids v v' w ew fam u a id h l Hh [ND IH] Hw Hs Hx Hs' Ho|ids v v' ew id l Hh [ND IH] Hs Hx|ids v v' Hh [ND IH] Hf].
  - split; [constructor|]. intros id h. split; [|contradiction]. intros [_ Hn]. rewrite H in Hn. destruct (Z.to_nat (id - 1)); discriminate.
  - destruct (opened fuel ew w v v' a u fam l Hw Hs Hx) as (id' & ior & Hq & _ & _ & Hok & _).
    pose proof (stack_has_inj _ _ _ Hq Hs') as Hi. injection Hi as -> ->. destruct (Hok eq_refl) as (N & _ & Hk). split.
    + cbn [map fst]. constructor; [|exact ND]. intro Hin. apply in_map_iff in Hin. destruct Hin as ([i k] & Hi & Hin). cbn in Hi. subst i.
      apply N. exists k. apply IH. exact Hin.
    + intros i k. cbn [In]. destruct (Z.eq_dec i id) as [->|Ni].
      * split.
        -- intro Hk'. left. f_equal. destruct Ho as [_ Ho]. destruct Hk' as [_ Hk']. congruence.
        -- intros [Hk'|Hin]; [congruence|]. elim N. exists k. apply IH. exact Hin.
      * rewrite Hk by exact Ni. rewrite IH. split; [tauto|]. intros [Hk'|Hin]; [congruence|exact Hin].
  - assert (Hd : is_open v id \/ ~ is_open v id).
    { destruct (slot v id) as [h|] eqn:Es; [left; exists h; apply slot_open; exact Es|right; apply slot_not_open; exact Es]. }
    assert (NDf : NoDup (map fst (filter (fun p : Z * handle => negb (fst p =? id)) ids))).
    { clear - ND. induction ids as [|[i k] ids IH]; cbn in *; [constructor|]. inversion ND as [|? ? Ha Hb]; subst.
      destruct (Z.eqb_spec i id); cbn; [auto|]. constructor; [|auto]. intro Hin. apply Ha. apply in_map_iff in Hin.
      destruct Hin as (p & Hp & Hin). apply filter_In in Hin. apply in_map_iff. exists p. tauto. }
    split; [exact NDf|]. intros i k. rewrite filter_In, <- IH. cbn [fst].
    destruct Hd as [Ho|Ho].
    + destruct (closed fuel v id l Hs Ho) as (v1 & h & _ & Hq & _ & _ & _ & _ & N & Hk). rewrite Hq in Hx. injection Hx as <-.
      destruct (Z.eqb_spec i id) as [->|Ni]; cbn [negb].
      * split; [intro Hc; elim N; exists k; exact Hc|intros [_ Hc]; discriminate].
      * rewrite (Hk i k Ni). tauto.
    + destruct (not_closed fuel v id l Hs Ho) as (v1 & Hq & Hf). rewrite Hq in Hx. injection Hx as <-.
      unfold open_as. rewrite Hf. fold (open_as v i k). destruct (Z.eqb_spec i id) as [->|Ni]; cbn [negb].
      * split; [intro Hc; elim Ho; exists k; exact Hc|intros [_ Hc]; discriminate].
      * tauto.
  - split; [exact ND|]. intros i k. unfold open_as. rewrite Hf. apply IH.
Qed.
End W.
