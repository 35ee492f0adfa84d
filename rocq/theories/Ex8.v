(** The toy file system is ideal; machines used by the examples of the file properties. *)
From Coq Require Import ZArith List Bool Lia ZifyBool ZifyNat.
From Verif Require Import Base Stack Mem Parser State CoreM FileM Exec Boot Std Spec Spec4 Spec9 Spec12 LBase LStack LState LMem LMon LMemWords LDec
  LFile LFile2 LFile3 LFile4 LFile5 Ex Ex2 Ex3 Ex6.
Import ListNotations.
Open Scope Z_scope.

(** ** Association lists with removal by key *)
Lemma find_filter {A} (f g : A -> bool) l : (forall x, f x = true -> g x = true) -> List.find f (filter g l) = List.find f l.
Proof.
  intro H. induction l as [|x l IH]; [reflexivity|]. cbn. destruct (g x) eqn:Eg; cbn.
  - rewrite IH. reflexivity.
  - destruct (f x) eqn:Ef; [rewrite (H x Ef) in Eg; discriminate|exact IH].
Qed.
Lemma find_filter_none {A} (f g : A -> bool) l : (forall x, f x = true -> g x = false) -> List.find f (filter g l) = None.
Proof.
  intro H. induction l as [|x l IH]; [reflexivity|]. cbn. destruct (g x) eqn:Eg; cbn; [|exact IH].
  destruct (f x) eqn:Ef; [rewrite (H x Ef) in Eg; discriminate|exact IH].
Qed.

Lemma lookup_put s n c m : fs_lookup (fs_put s n c) m = if bytes_eqb n m then Some c else fs_lookup s m.
Proof.
  unfold fs_lookup, fs_put. cbn [fs_files List.find fst]. destruct (bytes_eqb n m) eqn:Em; [reflexivity|].
  rewrite find_filter; [reflexivity|]. intros [x y]. cbn. intro H. apply bytes_eqb_eq in H. subst x.
  destruct (bytes_eqb m n) eqn:E'; [|reflexivity]. apply bytes_eqb_eq in E'. subst m. rewrite (proj2 (bytes_eqb_eq n n) eq_refl) in Em. discriminate.
Qed.
Lemma handle_set s h n p k : fs_handle (fs_set_pos s h n p) k = if h =? k then Some (n, p) else fs_handle s k.
Proof.
  unfold fs_handle, fs_set_pos. cbn [fs_open List.find fst]. destruct (Z.eqb_spec h k); [reflexivity|].
  rewrite find_filter; [reflexivity|]. intros [x y]. cbn. lia.
Qed.
Lemma fs_content_is s h n p c : fs_handle s h = Some (n, p) -> fs_lookup s n = Some c -> fs_content s h = Some (n, c, p).
Proof. intros H1 H2. unfold fs_content. rewrite H1, H2. reflexivity. Qed.
Lemma fs_content_inv s h n p c : fs_content s h = Some (n, c, p) -> fs_handle s h = Some (n, p) /\ fs_lookup s n = Some c.
Proof.
  unfold fs_content. destruct (fs_handle s h) as [[m q]|]; [|discriminate]. destruct (fs_lookup s m) eqn:El; [|discriminate].
  intro H. injection H as <- <- <-. auto.
Qed.
Lemma upd_pos s h n p : is_upd (fs_handle s) (fs_handle (fs_set_pos s h n p)) h (Some (n, p)).
Proof.
  split; [rewrite handle_set, Z.eqb_refl; reflexivity|]. intros k N. rewrite handle_set. replace (h =? k) with false by lia. reflexivity.
Qed.
Lemma upd_put s n c : is_upd (fs_lookup s) (fs_lookup (fs_put s n c)) n (Some c).
Proof.
  split; [rewrite lookup_put, (proj2 (bytes_eqb_eq n n) eq_refl); reflexivity|]. intros m N. rewrite lookup_put.
  destruct (bytes_eqb n m) eqn:Em; [|reflexivity]. apply bytes_eqb_eq in Em. congruence.
Qed.

Lemma fs_openf_some s n op s' h : fs_openf s n op = (s', Some h) ->
  h = fs_next s /\ fs_next s' = fs_next s + 1 /\ is_upd (fs_handle s) (fs_handle s') h (Some (n, 0)) /\
  exists c, is_upd (fs_lookup s) (fs_lookup s') n (Some c) /\ (oo_trunc op = true -> c = []) /\
    (oo_trunc op = false -> forall c0, fs_lookup s n = Some c0 -> c = c0).
Proof.
  unfold fs_openf.
  assert (G : forall t, fs_open t = fs_open s -> fs_next t = fs_next s ->
    (mkFs (fs_files t) ((fs_next t, (n, 0)) :: fs_open t) (fs_next t + 1) (fs_hist t) (fs_keys t), Some (fs_next t)) = (s', Some h) ->
    h = fs_next s /\ fs_next s' = fs_next s + 1 /\ is_upd (fs_handle s) (fs_handle s') h (Some (n, 0)) /\ same_fun (fs_lookup t) (fs_lookup s')).
  { intros t H1 H2 H. injection H as <- <-. rewrite H1, H2. cbn. split; [reflexivity|]. split; [reflexivity|]. split; [|intro; reflexivity].
    unfold fs_handle. cbn. split; [rewrite Z.eqb_refl; reflexivity|]. intros k N. replace (fs_next s =? k) with false by lia. reflexivity. }
  destruct (fs_lookup s n) as [c0|] eqn:El.
  - destruct (oo_trunc op) eqn:Et; intro H.
    + destruct (G (fs_put s n []) eq_refl eq_refl H) as (A & B & C & D). repeat (split; [assumption|]). exists [].
      destruct (upd_put s n []) as [U1 U2]. split; [split; [rewrite D; exact U1|intros m N; rewrite D; apply U2; exact N]|].
      split; [auto|discriminate].
    + destruct (G s eq_refl eq_refl H) as (A & B & C & D). repeat (split; [assumption|]). exists c0.
      split; [split; [rewrite D; exact El|intros m N; apply D]|]. split; [discriminate|]. intros _ c1 Hc. congruence.
  - destruct (oo_create op); [|discriminate]. intro H.
    destruct (G (fs_put s n []) eq_refl eq_refl H) as (A & B & C & D). repeat (split; [assumption|]). exists [].
    destruct (upd_put s n []) as [U1 U2]. split; [split; [rewrite D; exact U1|intros m N; rewrite D; apply U2; exact N]|].
    split; [auto|]. intros _ c1 Hc. congruence.
Qed.
Lemma fs_openf_none s n op s' : fs_openf s n op = (s', None) -> s' = s.
Proof.
  unfold fs_openf. destruct (fs_lookup s n); [discriminate|]. destruct (oo_create op); [discriminate|]. intro H. injection H as <-. reflexivity.
Qed.
Lemma fs_remove_some s n s' : fs_remove s n = (s', true) ->
  is_upd (fs_lookup s) (fs_lookup s') n None /\ fs_next s' = fs_next s /\
  forall k, fs_handle s' k = match fs_handle s k with Some (m, p) => if bytes_eqb m n then None else Some (m, p) | None => None end.
Proof.
  unfold fs_remove. destruct (fs_lookup s n) eqn:El; [|discriminate]. intro H. injection H as <-. split; [|split; [reflexivity|]].
  - unfold fs_lookup. cbn [fs_files]. split.
    + rewrite find_filter_none; [reflexivity|]. intros x Hx. rewrite Hx. reflexivity.
    + intros m N. rewrite find_filter; [reflexivity|]. intros x Hx. apply bytes_eqb_eq in Hx. subst m.
      destruct (bytes_eqb (fst x) n) eqn:E'; [|reflexivity]. apply bytes_eqb_eq in E'. congruence.
  - intro k. destruct (fs_handle s k) as [[m p]|] eqn:Ek.
    + destruct (bytes_eqb m n) eqn:Em.
      * unfold fs_handle at 1. cbn [fs_open]. rewrite find_filter_none; [reflexivity|]. intros [x y] Hx. cbn in Hx. replace x with k by lia.
        cbn [fst]. rewrite Ek, Em. reflexivity.
      * unfold fs_handle at 1. cbn [fs_open]. rewrite find_filter; [unfold fs_handle in Ek; exact Ek|]. intros [x y] Hx. cbn in Hx. replace x with k by lia.
        cbn [fst]. rewrite Ek, Em. reflexivity.
    + unfold fs_handle at 1. cbn [fs_open]. rewrite find_filter; [unfold fs_handle in Ek; exact Ek|]. intros [x y] Hx. cbn in Hx. replace x with k by lia.
      cbn [fst]. rewrite Ek. reflexivity.
Qed.

(** ** The toy file system of Std.v, in either build, obeys the laws *)
Section Toy.
Variable b : bool.
Local Existing Instance std_env.

Lemma toy_read o h u n p c : fs_handle o h = Some (n, p) -> fs_lookup o n = Some c -> 0 <= u -> 0 <= p ->
  forall o' r, fs_read o h u = (o', Some r) ->
  (exists k, r = firstn k (skipn (Z.to_nat p) c) /\ zlen r <= u /\ (r = [] -> u = 0 \/ skipn (Z.to_nat p) c = [])) /\
  is_upd (fs_handle o) (fs_handle o') h (Some (n, p + zlen r)) /\ same_fun (fs_lookup o) (fs_lookup o').
Proof.
  intros H1 H2 Hu Hp o' r H. unfold fs_read in H. rewrite (fs_content_is _ _ _ _ _ H1 H2) in H. injection H as <- <-. split.
  - exists (Z.to_nat u). split; [reflexivity|]. split; [apply zlen_firstn; exact Hu|]. intro Hn.
    destruct (Z.eq_dec u 0); [left; assumption|right]. destruct (skipn (Z.to_nat p) c); [reflexivity|]. destruct (Z.to_nat u) eqn:Eu; [lia|discriminate].
  - split; [apply upd_pos|intro; reflexivity].
Qed.
Lemma toy_write o h bs n p c : fs_handle o h = Some (n, p) -> fs_lookup o n = Some c -> forall o', fs_write o h bs = (o', true) ->
  is_upd (fs_handle o) (fs_handle o') h (Some (n, p + zlen bs)) /\ is_upd (fs_lookup o) (fs_lookup o') n (Some (written c p bs)).
Proof.
  intros H1 H2 o' H. unfold fs_write in H. rewrite (fs_content_is _ _ _ _ _ H1 H2) in H. injection H as <-. split; [|apply upd_put].
  destruct (upd_pos (fs_put o n (written c p bs)) h n (p + zlen bs)) as [A B]. split; [exact A|]. intros k N. exact (B k N).
Qed.
Lemma toy_seek o h q n p : fs_handle o h = Some (n, p) -> forall o', fs_seek o h q = (o', true) ->
  is_upd (fs_handle o) (fs_handle o') h (Some (n, q)) /\ same_fun (fs_lookup o) (fs_lookup o').
Proof.
  intros H1 o' H. unfold fs_seek in H. destruct (fs_content o h) as [[[m c] z]|] eqn:Ec; [|discriminate]. injection H as <-.
  apply fs_content_inv in Ec. destruct Ec as [Ec _]. assert (m = n) by congruence. subst m. split; [apply upd_pos|intro; reflexivity].
Qed.
Lemma toy_set_len o h q n p c : fs_handle o h = Some (n, p) -> fs_lookup o n = Some c -> forall o', fs_set_len o h q = (o', true) ->
  same_fun (fs_handle o) (fs_handle o') /\ is_upd (fs_lookup o) (fs_lookup o') n (Some (padded c q)).
Proof.
  intros H1 H2 o' H. unfold fs_set_len in H. rewrite (fs_content_is _ _ _ _ _ H1 H2) in H. injection H as <-. split; [intro; reflexivity|apply upd_put].
Qed.
Lemma next_read o h u o' r : fs_read o h u = (o', r) -> fs_next o' = fs_next o.
Proof. unfold fs_read. destruct (fs_content o h) as [[[m c] z]|]; intro H; injection H as <- <-; reflexivity. Qed.
Lemma next_write o h u o' r : fs_write o h u = (o', r) -> fs_next o' = fs_next o.
Proof. unfold fs_write. destruct (fs_content o h) as [[[m c] z]|]; intro H; injection H as <- <-; reflexivity. Qed.
Lemma next_seek o h u o' r : fs_seek o h u = (o', r) -> fs_next o' = fs_next o.
Proof. unfold fs_seek. destruct (fs_content o h) as [[[m c] z]|]; intro H; injection H as <- <-; reflexivity. Qed.
Lemma next_set_len o h u o' r : fs_set_len o h u = (o', r) -> fs_next o' = fs_next o.
Proof. unfold fs_set_len. destruct (fs_content o h) as [[[m c] z]|]; intro H; injection H as <- <-; reflexivity. Qed.

Definition toy : @ideal (std_env b).
Proof.
  refine (@mkIdeal (std_env b) fs_lookup fs_handle (fun o h => h < fs_next o) _ _ _ _ _ _ _ _ _ _ _).
  - exact toy_read.
  - exact (fun o h bs n p c H1 H2 _ => toy_write o h bs n p c H1 H2).
  - exact toy_seek.
  - exact (fun o h q n p c H1 H2 _ => toy_set_len o h q n p c H1 H2).
  - intros o h n p c H1 H2 z H. cbn in H. unfold fs_size in H. rewrite (fs_content_is _ _ _ _ _ H1 H2) in H. congruence.
  - intros o h o' z H. cbn in H. unfold fs_tell in H. injection H as <- H. split; [|split; intro; reflexivity]. intros n p Hn.
    destruct (fs_content o h) as [[[m c] q]|] eqn:Ec; [|discriminate]. apply fs_content_inv in Ec. destruct Ec as [Ec _]. congruence.
  - intros o n op o' h H. destruct (fs_openf_some _ _ _ _ _ H) as (A & B & C & D). subst h. split; [lia|]. split; [lia|]. split; [intros; lia|].
    split; [exact C|exact D].
  - intros o h. split; [|split; [intro; reflexivity|auto]]. cbn. unfold fs_close, fs_handle. cbn [fs_open]. split.
    + rewrite find_filter_none; [reflexivity|]. intros x Hx. rewrite Hx. reflexivity.
    + intros k N. rewrite find_filter; [reflexivity|]. intros x Hx. lia.
  - intros o n o' H. destruct (fs_remove_some _ _ _ H) as (A & B & C). split; [exact A|]. split; [intros; lia|exact C].
  - intros o o' H.
    assert (o' = o); [|subst o'; split; [intro; reflexivity|split; [intro; reflexivity|auto]]].
    destruct H as [(h & u & H)|[(h & u & H)|[(h & u & H)|[(h & u & H)|[(h & H)|[(n & op & H)|(n & H)]]]]]]; cbn in H.
    + unfold fs_read in H. destruct (fs_content o h) as [[[m c] z]|]; [discriminate|]. congruence.
    + unfold fs_write in H. destruct (fs_content o h) as [[[m c] z]|]; [discriminate|]. congruence.
    + unfold fs_seek in H. destruct (fs_content o h) as [[[m c] z]|]; [discriminate|]. congruence.
    + unfold fs_set_len in H. destruct (fs_content o h) as [[[m c] z]|]; [discriminate|]. congruence.
    + unfold fs_tell in H. congruence.
    + exact (fs_openf_none _ _ _ _ H).
    + unfold fs_remove in H. destruct (fs_lookup o n); [discriminate|]. congruence.
  - intros o o' H k Hk.
    assert (fs_next o' = fs_next o); [|lia].
    destruct H as [(h & u & r & H)|[(h & u & H)|[(h & u & H)|[(h & u & H)|(h & z & H)]]]]; cbn in H.
    + exact (next_read _ _ _ _ _ H).
    + exact (next_write _ _ _ _ _ H).
    + exact (next_seek _ _ _ _ _ H).
    + exact (next_set_len _ _ _ _ _ H).
    + unfold fs_tell in H. congruence.
Defined.

Lemma skipn_add {A} n m (l : list A) : skipn (n + m) l = skipn m (skipn n l).
Proof. revert l. induction n as [|n IH]; intro l; [reflexivity|]. destruct l; [destruct m; reflexivity|]. exact (IH l). Qed.
Lemma take_line_spec c : first_line c (take_line c) (skipn (List.length (take_line c)) c).
Proof.
  assert (H : (exists l r, ~ In 10 l /\ c = l ++ 10 :: r /\ take_line c = l ++ [10]) \/ (~ In 10 c /\ take_line c = c)).
  { induction c as [|x c IH]; [right; cbn; tauto|]. cbn [take_line]. destruct (Z.eqb_spec x 10) as [->|N].
    - left. exists [], c. cbn. tauto.
    - destruct IH as [(l & r & H1 & H2 & H3)|[H1 H2]].
      + left. exists (x :: l), r. split; [cbn; intuition congruence|]. split; [cbn; congruence|]. cbn. congruence.
      + right. split; [cbn; intuition congruence|]. congruence. }
  destruct H as [(l & r & H1 & H2 & H3)|[H1 H2]].
  - rewrite H3. rewrite H2 at 2. rewrite app_length. cbn [List.length].
    replace (skipn (List.length l + 1) (l ++ 10 :: r)) with r; [rewrite H2; apply Line_end; exact H1|].
    rewrite skipn_app, skipn_all2 by lia. replace (List.length l + 1 - List.length l)%nat with 1%nat by lia. reflexivity.
  - rewrite H2, skipn_all. apply Line_last. exact H1.
Qed.
Definition toy_rest (o : fs) (h : Z) : option bytes :=
  match fs_content o h with Some (_, c, p) => if 0 <=? p then Some (skipn (Z.to_nat p) c) else None | None => None end.
Definition toy_lines : @line_reader (std_env b).
Proof.
  refine (@mkLineReader (std_env b) toy_rest _).
  intros o rd c H. cbn. unfold toy_rest in H. destruct (fs_content o rd) as [[[n c0] p]|] eqn:Ec; [|discriminate].
  destruct (Z.leb_spec 0 p) as [Hp|]; [|discriminate]. injection H as <-. unfold fs_read_line. rewrite Ec.
  eexists _, _, _, _. split; [reflexivity|]. split; [apply take_line_spec|].
  destruct (fs_content_inv _ _ _ _ _ Ec) as [E1 E2]. unfold toy_rest.
  rewrite (fs_content_is _ _ n (p + zlen (take_line (skipn (Z.to_nat p) c0))) c0); [|rewrite handle_set, Z.eqb_refl; reflexivity|exact E2].
  pose proof (zlen_nonneg (take_line (skipn (Z.to_nat p) c0))). replace (0 <=? _) with true by lia. rewrite Z2Nat.inj_add by lia.
  replace (Z.to_nat (zlen (take_line (skipn (Z.to_nat p) c0)))) with (List.length (take_line (skipn (Z.to_nat p) c0))) by (unfold zlen; lia).
  rewrite skipn_add. reflexivity.
Defined.
End Toy.

(** ** A session: create, write, reposition, read; then close, or use as a source text *)
Definition fa : Z := 65600.
Definition tx0 : bytes := [97; 13; 10; 98].
Definition stk (l : list Z) (v : @vm env_d) : @vm env_d := set_s (push_all (s_stk vm_d) l) v.
Definition mem (a : Z) (bs : bytes) (v : @vm env_d) : @vm env_d := set_v_ds (write_bytes (v_ds v) a bs) v.
Definition go (w : prim) (v : @vm env_d) : @vm env_d := state_of vm_d (exec_prim 0 ew_oof w v).
Lemma stk_os l v : v_os (stk l v) = v_os v. Proof. reflexivity. Qed.
Lemma stk_files l v : t_files (cur (stk l v)) = t_files (cur v). Proof. unfold stk. rewrite cur_set_s. reflexivity. Qed.
Lemma stk_sources l v : t_sources (cur (stk l v)) = t_sources (cur v). Proof. unfold stk. rewrite cur_set_s. reflexivity. Qed.
Lemma stk_lines l v : t_lines (cur (stk l v)) = t_lines (cur v). Proof. unfold stk. rewrite cur_set_s. reflexivity. Qed.
Lemma mem_os a bs v : v_os (mem a bs v) = v_os v. Proof. reflexivity. Qed.
Lemma mem_files a bs v : t_files (cur (mem a bs v)) = t_files (cur v). Proof. reflexivity. Qed.
Definition f0 : @vm env_d := stk [2; 1; fa] (mem fa [102] vm_d).
Definition f1 := go P_create_file f0.
Definition f1' := stk [1; 4; fa + 8] (mem (fa + 8) tx0 f1).
Definition f2 := go P_write_file f1'.
Definition f2' := stk [1; 0; 0] f2.
Definition f3 := go P_reposition_file f2'.
Definition f3' := stk [1; 4; fa + 16] f3.
Definition f4 := go P_read_file f3'.
Definition f4' := stk [1] f4.
Definition f5 := go P_close_file f4'.
Definition f5' := stk [1] f5.
Definition g0 := stk [1; 1; fa] f3.
Definition g1 := go P_open_source g0.
Definition g1' := stk [1] g1.
Definition g2 := go P_p_load_line g1'.
Definition g2' := stk [1] g2.
Definition g3 := go P_p_load_line g2'.
Definition g3' := stk [1] g3.
Definition g4 := go P_p_load_line g3'.
Definition g5' := stk [1] (go P_close_source g3').
Definition g6 := go P_dot_source_line g5'.

Definition mem_hasb (d : dspace) (a : Z) (bs : bytes) : bool :=
  (0 <? a) && (start d <=? a) && (a + zlen bs <=? limit d) &&
  forallb (fun k => byte_at d (a + Z.of_nat k) =? nth k bs 0) (seq 0 (List.length bs)).
Lemma mem_hasb_ok d a bs : mem_hasb d a bs = true -> bytes_at d a bs.
Proof.
  unfold mem_hasb. rewrite !andb_true_iff, forallb_forall. intros [[[H1 H2] H3] H4]. pose proof (zlen_nonneg bs).
  split; [lia|]. split; [unfold in_space; lia|]. intros k x Hk. assert (Hlt : (k < List.length bs)%nat) by (apply nth_error_Some; congruence).
  specialize (H4 k ltac:(apply in_seq; lia)). rewrite (nth_error_nth bs k 0 Hk) in H4. lia.
Qed.

Definition runs (w : prim) (v : @vm env_d) : bool := is_ok (exec_prim 0 ew_oof w v).
Lemma runs_ok w v : runs w v = true -> quiet 0 w v (go w v).
Proof. apply (quiet_run vm_d). Qed.

Definition checks : list bool :=
  [runs P_create_file f0; runs P_write_file f1'; runs P_reposition_file f2'; runs P_read_file f3'; runs P_close_file f4';
   runs P_open_source g0; runs P_p_load_line g1'; runs P_p_load_line g2'; runs P_p_load_line g3'; runs P_close_source g3'; runs P_dot_source_line g5'].
Lemma all_run : forallb (fun b => b) checks = true.
Proof. vm_cast_no_check (@eq_refl bool true). Qed.
Ltac ran := apply runs_ok; apply (proj1 (forallb_forall (fun b => b) checks) all_run); cbn [checks In]; tauto.
Lemma run_eq w v v1 ew : v1 = go w v -> quiet 0 w v (go w v) -> exec_prim 0 ew w v = Ok (tt, v1).
Proof. intros -> H. exact (H ew). Qed.
Ltac run1 := apply run_eq; [reflexivity|ran].
Ltac bo := apply mem_hasb_ok; vm_cast_no_check (@eq_refl bool true).
Ltac ad := split; [unfold fa, zlen; cbn; lia|exists 0; unfold fa, zlen; cbn; lia].

Lemma one_file (v : @vm env_d) : (match t_files (cur v) with [Some 1] => true | _ => false end) = true -> t_files (cur v) = [Some 1].
Proof. destruct (t_files (cur v)) as [|[[|[p|p|]|p]|] [|y t]]; try discriminate; reflexivity. Qed.
Lemma files_f1 : t_files (cur f1) = [Some 1].
Proof. apply one_file. vm_cast_no_check (@eq_refl bool true). Qed.
Lemma files_f3 : t_files (cur f3) = [Some 1].
Proof. apply one_file. vm_cast_no_check (@eq_refl bool true). Qed.
Lemma files_f4 : t_files (cur f4) = [Some 1].
Proof. apply one_file. vm_cast_no_check (@eq_refl bool true). Qed.
Lemma files_f5 : t_files (cur f5) = [None].
Proof.
  enough (H : (match t_files (cur f5) with [None] => true | _ => false end) = true).
  - revert H. destruct (t_files (cur f5)) as [|[h|] [|y t]]; try discriminate. reflexivity.
  - vm_cast_no_check (@eq_refl bool true).
Qed.

Lemma ex_open4 : open_as f4' 1 1.
Proof. split; [lia|]. unfold f4'. rewrite stk_files, files_f4. reflexivity. Qed.
Lemma ex_not_open5 : ~ is_open f5' 1.
Proof. intros (h & H1 & H2). unfold f5' in H2. rewrite stk_files, files_f5 in H2. discriminate. Qed.

Lemma s_f0 : stack_has (t_s (cur f0)) [2; 1; fa]. Proof. has. Qed.
Lemma s_f1 : stack_has (t_s (cur f1)) [0; 1]. Proof. has. Qed.
Lemma s_f1' : stack_has (t_s (cur f1')) [1; 4; fa + 8]. Proof. has. Qed.
Lemma s_f2 : stack_has (t_s (cur f2)) [0]. Proof. has. Qed.
Lemma s_f2' : stack_has (t_s (cur f2')) [1; 0; 0]. Proof. has. Qed.
Lemma s_f3 : stack_has (t_s (cur f3)) [0]. Proof. has. Qed.
Lemma s_f3' : stack_has (t_s (cur f3')) [1; 4; fa + 16]. Proof. has. Qed.
Lemma s_f4 : stack_has (t_s (cur f4)) [0; 4]. Proof. has. Qed.
Lemma s_f4' : stack_has (t_s (cur f4')) [1]. Proof. has. Qed.
Lemma s_f5 : stack_has (t_s (cur f5)) [0]. Proof. has. Qed.
Lemma s_f5' : stack_has (t_s (cur f5')) [1]. Proof. has. Qed.

Lemma ex_history : @history env_d 0 [(1, 1)] f4' /\ @history env_d 0 [] f5'.
Proof.
  assert (H0 : @history env_d 0 [] f0) by (apply Hist_start; reflexivity).
  assert (H1 : @history env_d 0 [(1, 1)] f1).
  { apply (@Hist_open env_d 0 [] f0 f1 P_create_file ew_oof 2 1 fa 1 1 []); [exact H0|cbn; tauto|exact s_f0|run1|exact s_f1|].
    split; [lia|rewrite files_f1; reflexivity]. }
  assert (H4 : @history env_d 0 [(1, 1)] f4') by (apply (@Hist_other env_d 0 _ f1); [exact H1|unfold f4'; rewrite stk_files, files_f4, files_f1; reflexivity]).
  split; [exact H4|]. apply (@Hist_other env_d 0 _ f5); [|unfold f5'; apply stk_files].
  exact (@Hist_close env_d 0 [(1, 1)] f4' f5 ew_oof 1 [] H4 s_f4' ltac:(run1)).
Qed.

Definition no_files : fsys := mkFsys (fun _ => None) (fun _ => None).
Lemma ex_described : described (toy true) f0 no_files.
Proof.
  split; [intro; reflexivity|]. split; [|split; [intros; reflexivity|]].
  - intros id h [H1 H2]. change (t_files (cur f0)) with (@nil (option Z)) in H2. destruct (Z.to_nat (id - 1)); discriminate.
  - intros id id' h [H1 H2]. change (t_files (cur f0)) with (@nil (option Z)) in H2. destruct (Z.to_nat (id - 1)); discriminate.
Qed.
Local Opaque go stk mem exec_prim.
Lemma hist_word w v v1 v' op ops : v1 = go w v -> quiet 0 w v (go w v) -> does w v v1 op -> file_history 0 ops v1 v' -> file_history 0 (op :: ops) v v'.
Proof. intros -> H1 H2 H3. exact (FH_word 0 w v (go w v) v' ew_oof op ops (H1 ew_oof) H2 H3). Qed.
Lemma ex_create : does P_create_file f0 f1 (Create [102] 1).
Proof. apply (D_create f0 f1 fa fa 1 2 1 [102] []); [exact s_f0|ad|ad|bo|exact s_f1]. Qed.
Lemma ex_write : does P_write_file f1' f2 (Write 1 tx0).
Proof. apply (D_write f1' f2 (fa + 8) (fa + 8) 4 1 tx0 []); [exact s_f1'|ad|ad|bo|exact s_f2]. Qed.
Lemma ex_seek : does P_reposition_file f2' f3 (Seek 1 0).
Proof. apply (D_seek f2' f3 0 0 1 []); [exact s_f2'|ad|exact s_f3]. Qed.
Lemma ex_read : does P_read_file f3' f4 (Read 1 4 tx0).
Proof. apply (D_read f3' f4 (fa + 16) (fa + 16) 4 4 4 1 tx0 []); [unfold is_cell; lia|exact s_f3'|ad|ad|exact s_f4|reflexivity|bo]. Qed.
Lemma ex_close : does P_close_file f4' f5 (Close 1).
Proof. apply (D_close f4' f5 1 []); [exact s_f4'|exact s_f5]. Qed.
Lemma ex_middle : file_history 0 [Write 1 tx0; Seek 1 0; Read 1 4 tx0] f1' f4.
Proof.
  apply (hist_word P_write_file f1' f2 f4 (Write 1 tx0) _ eq_refl ltac:(ran) ex_write).
  apply (FH_other 0 f2 f2' f4 _ (stk_os _ _) (stk_files _ _)).
  apply (hist_word P_reposition_file f2' f3 f4 (Seek 1 0) _ eq_refl ltac:(ran) ex_seek).
  apply (FH_other 0 f3 f3' f4 _ (stk_os _ _) (stk_files _ _)).
  apply (hist_word P_read_file f3' f4 f4 (Read 1 4 tx0) _ eq_refl ltac:(ran) ex_read). apply FH_nil.
Qed.
Lemma fh_app ops1 (v v1 : @vm env_d) : file_history 0 ops1 v v1 -> forall ops2 v', file_history 0 ops2 v1 v' -> file_history 0 (ops1 ++ ops2) v v'.
Proof. induction 1; intros; [assumption|eapply FH_word; eauto|eapply FH_other; eauto]. Qed.
Lemma ex_start : file_history 0 [Create [102] 1] f0 f1'.
Proof.
  apply (hist_word P_create_file f0 f1 f1' (Create [102] 1) _ eq_refl ltac:(ran) ex_create).
  apply (FH_other 0 f1 f1' f1' [] (eq_trans (stk_os _ _) (mem_os _ _ _)) (eq_trans (stk_files _ _) (mem_files _ _ _))). apply FH_nil.
Qed.
Lemma ex_all : file_history 0 [Create [102] 1; Write 1 tx0; Seek 1 0; Read 1 4 tx0; Close 1] f0 f5.
Proof.
  apply (fh_app [Create [102] 1] f0 f1' ex_start). apply (fh_app [Write 1 tx0; Seek 1 0; Read 1 4 tx0] f1' f4 ex_middle).
  apply (FH_other 0 f4 f4' f5 _ (stk_os _ _) (stk_files _ _)).
  apply (hist_word P_close_file f4' f5 f5 (Close 1) _ eq_refl ltac:(ran) ex_close). apply FH_nil.
Qed.

Local Transparent go stk mem exec_prim.
(** ** Wrapping buffers *)
Definition wrap_d : @vm env_d := stk [1; -8; fa] f3.
Definition wrap_r : @vm env_r := set_s (push_all (s_stk vm_r) [1; -8; fa]) (@set_files env_r [Some 1] vm_r).
Lemma ex_wrap_d : stack_has (t_s (cur wrap_d)) [1; -8; fa] /\ is_open wrap_d 1 /\ forall ew, exec_prim 0 ew P_read_file wrap_d = Panic POverflow.
Proof.
  split; [has|]. split; [exists 1; split; [lia|unfold wrap_d; rewrite stk_files, files_f3; reflexivity]|]. intro ew. apply panic_eq.
  vm_cast_no_check (@eq_refl bool true).
Qed.
Lemma ex_wrap_r : stack_has (t_s (cur wrap_r)) [1; -8; fa] /\ is_open wrap_r 1 /\ forall ew, exec_prim 0 ew P_read_file wrap_r = UB.
Proof.
  split; [has|]. split; [exists 1; split; [lia|reflexivity]|]. intro ew. apply ub_eq. vm_cast_no_check (@eq_refl bool true).
Qed.

(** ** A name of 300 bytes *)
Definition long_d : @vm env_d := stk [300; fa] vm_d.
Lemma ex_long : stack_has (t_s (cur long_d)) [300; fa]. Proof. has. Qed.

(** ** Sources *)
Lemma s_g : stack_has (t_s (cur g0)) [1; 1; fa] /\ stack_has (t_s (cur g1)) [1] /\ stack_has (t_s (cur g1')) [1] /\ stack_has (t_s (cur g2)) [-1; 1] /\
  stack_has (t_s (cur g2')) [1] /\ stack_has (t_s (cur g3)) [-1; 1] /\ stack_has (t_s (cur g3')) [1] /\ stack_has (t_s (cur g4)) [0; 0] /\ stack_has (t_s (cur g5')) [1].
Proof. do 8 (split; [has|]). has. Qed.
Lemma one_line (v : @vm env_d) bs : (match line_of v 1 with Some t => bytes_eqb t bs | _ => false end) = true -> line_of v 1 = Some bs.
Proof. destruct (line_of v 1) as [t|]; [|discriminate]. intro H. apply bytes_eqb_eq in H. congruence. Qed.
Ltac ol := apply one_line; vm_cast_no_check (@eq_refl bool true).
Lemma ex_loads : loads 1 g1' [(1, -1, [97]); (1, -1, [98]); (0, 0, [])] g4.
Proof.
  destruct s_g as (_ & _ & S1 & S2 & S3 & S4 & S5 & S6 & _).
  apply (Loads_cons 1 g1' g2 g2' g4 ew_oof 1 (-1) [97] _ [] S1 ltac:(run1) S2 ltac:(ol) (stk_os _ _) (stk_sources _ _) (stk_lines _ _)).
  apply (Loads_cons 1 g2' g3 g3' g4 ew_oof 1 (-1) [98] _ [] S3 ltac:(run1) S4 ltac:(ol) (stk_os _ _) (stk_sources _ _) (stk_lines _ _)).
  apply (Loads_cons 1 g3' g4 g4 g4 ew_oof 0 0 [] _ [] S5 ltac:(run1) S6 ltac:(ol) eq_refl eq_refl eq_refl). apply Loads_nil.
Qed.
Lemma ex_text : text_lines tx0 [[97]; [98]].
Proof.
  apply (Lines_cons _ [97; 13; 10] [98]); [discriminate|apply (Line_end [97; 13] [98]); cbn; lia|apply (Strip_crlf [97])|].
  apply (Lines_cons _ [98] []); [discriminate|apply Line_last; cbn; lia|apply Strip_none; intros s Hs|apply Lines_nil].
  destruct s as [|x [|y s]]; discriminate.
Qed.
Lemma one_source (v : @vm env_d) : (match t_sources (cur v) with [Some s] => (src_reader s =? 1) && bytes_eqb (src_path s) [102] | _ => false end) = true ->
  t_sources (cur v) = [Some (@mkSource env_d 1 [102])].
Proof.
  destruct (t_sources (cur v)) as [|[[rd pa]|] [|y t]]; try discriminate. cbn. intro H1.
  apply andb_true_iff in H1. destruct H1 as [H1 H3]. apply bytes_eqb_eq in H3. assert (rd = 1) by lia. congruence.
Qed.
Lemma no_source (v : @vm env_d) : (match t_sources (cur v) with [None] => true | _ => false end) = true -> t_sources (cur v) = [None].
Proof. destruct (t_sources (cur v)) as [|[s|] [|y t]]; try discriminate. reflexivity. Qed.
Lemma some_rest (r : option bytes) bs : (match r with Some t => bytes_eqb t bs | _ => false end) = true -> r = Some bs.
Proof. destruct r; [|discriminate]. intro H. apply bytes_eqb_eq in H. congruence. Qed.
Lemma src_g1 : t_sources (cur g1) = [Some (@mkSource env_d 1 [102])].
Proof. apply one_source. vm_cast_no_check (@eq_refl bool true). Qed.
Lemma src_g5 : t_sources (cur (go P_close_source g3')) = [None].
Proof. apply no_source. vm_cast_no_check (@eq_refl bool true). Qed.
Lemma line_g1 : line_of g1' 1 = Some [].
Proof. ol. Qed.
Lemma rest_g1 : rest (toy_lines true) (v_os g1') 1 = Some tx0.
Proof. apply some_rest. vm_cast_no_check (@eq_refl bool true). Qed.
Lemma ex_source : source_as g1' 1 (@mkSource env_d 1 [102]) /\ line_of g1' 1 <> None /\ rest (toy_lines true) (v_os g1') 1 = Some tx0.
Proof.
  split; [|split; [rewrite line_g1; discriminate|exact rest_g1]].
  split; [lia|]. unfold g1'. rewrite stk_sources, src_g1. reflexivity.
Qed.
Lemma one_out (v : @vm env_d) bs : (match v_out v with Some t => bytes_eqb t bs | _ => false end) = true -> v_out v = Some bs.
Proof. destruct (v_out v) as [t|]; [|discriminate]. intro H. apply bytes_eqb_eq in H. congruence. Qed.
(** The closed source still has its line *)
Lemma ex_closed_line : ~ is_source g5' 1 /\ stack_has (t_s (cur g5')) [1] /\ quiet 0 P_dot_source_line g5' g6 /\ v_out g5' = Some [] /\ v_out g6 = Some [98].
Proof.
  split; [|split; [apply s_g|split; [ran|split]]].
  - intros (sr & H1 & H2). unfold g5' in H2. rewrite stk_sources, src_g5 in H2. discriminate.
  - apply one_out. vm_cast_no_check (@eq_refl bool true).
  - apply one_out. vm_cast_no_check (@eq_refl bool true).
Qed.
