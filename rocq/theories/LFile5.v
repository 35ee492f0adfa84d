(** Source texts. *)
From Coq Require Import ZArith List Bool Lia ZifyBool ZifyNat.
From Verif Require Import Base Stack Mem Parser State CoreM FileM Exec LBase LStack Spec Spec4 Spec9 Spec12 LState LMem LMon LMemWords LPres LTask LFile LFile2 LFile3.
Import ListNotations.
Open Scope Z_scope.
Local Opaque push push2 push3 pop pop2 pop3.

(** ** Terminators *)
Lemma last_is_snoc s x c : last_is (s ++ [x]) c = (x =? c).
Proof. unfold last_is. rewrite rev_app_distr. reflexivity. Qed.
Lemma snoc_cases (s : bytes) : s = [] \/ exists t x, s = t ++ [x].
Proof. destruct s as [|y s] using rev_ind; [left; reflexivity|right; eauto]. Qed.
Lemma firstn_snoc (s : bytes) x : firstn (List.length (s ++ [x]) - 1) (s ++ [x]) = s.
Proof. rewrite app_length. cbn. replace (List.length s + 1 - 1)%nat with (List.length s) by lia. rewrite firstn_app, Nat.sub_diag, firstn_all. apply app_nil_r. Qed.
Lemma strip_eol_spec l : stripped l (strip_eol l).
Proof.
  unfold strip_eol. destruct (snoc_cases l) as [->|(t & x & ->)].
  - apply Strip_none. intros s H. destruct s; discriminate.
  - rewrite last_is_snoc. destruct (Z.eqb_spec x 10) as [->|N].
    + rewrite firstn_snoc. destruct (snoc_cases t) as [->|(t' & y & ->)].
      * cbn. apply (Strip_lf []). intros s H. destruct s; discriminate.
      * rewrite last_is_snoc. destruct (Z.eqb_spec y 13) as [->|N'].
        -- rewrite !app_length. cbn [List.length].
           replace (List.length t' + 1 + 1 - 2)%nat with (List.length (t' ++ [13%Z]) - 1)%nat by (rewrite app_length; cbn; lia).
           rewrite firstn_snoc, <- app_assoc. apply Strip_crlf.
        -- apply Strip_lf. intros s H. apply app_inj_tail in H. destruct H. congruence.
    + apply Strip_none. intros s H. apply app_inj_tail in H. destruct H. congruence.
Qed.
Lemma stripped_fun l t t' : stripped l t -> stripped l t' -> t = t'.
Proof.
  intros H H'. inversion H as [a Ha|a Na Ha|a Na Ha]; inversion H' as [b Hb|b Nb Hb|b Nb Hb]; subst.
  - change [13; 10] with ([13] ++ [10]) in Hb. rewrite !app_assoc in Hb. apply app_inj_tail in Hb. destruct Hb as [Hb _].
    apply app_inj_tail in Hb. symmetry. apply Hb.
  - change [13; 10] with ([13] ++ [10]) in Hb. rewrite app_assoc in Hb. apply app_inj_tail in Hb. destruct Hb as [Hb _]. elim (Nb t). exact Hb.
  - elim (Nb (t ++ [13])). rewrite <- app_assoc. reflexivity.
  - change [13; 10] with ([13] ++ [10]) in Hb. rewrite app_assoc in Hb. apply app_inj_tail in Hb. destruct Hb as [Hb _]. elim (Na t'). symmetry. exact Hb.
  - apply app_inj_tail in Hb. symmetry. apply Hb.
  - elim (Nb t). reflexivity.
  - elim (Na (t' ++ [13])). rewrite <- app_assoc. reflexivity.
  - elim (Na t'). reflexivity.
  - reflexivity.
Qed.
Lemma first_line_fun c l r l' r' : first_line c l r -> first_line c l' r' -> l = l' /\ r = r'.
Proof.
  assert (K : forall a b x y, ~ In 10 a -> ~ In 10 b -> a ++ 10 :: x = b ++ 10 :: y -> a = b /\ x = y).
  { induction a as [|i a IH]; intros [|j b] x y Ha Hb H; cbn in *.
    - injection H as ->. auto.
    - injection H as He _. elim Hb. left. congruence.
    - injection H as He _. elim Ha. left. congruence.
    - injection H as -> H. destruct (IH b x y) as [-> ->]; try tauto. }
  intros H H'. inversion H as [a x Na Ha|a Na Ha]; inversion H' as [b y Nb Hb|b Nb Hb]; subst.
  - destruct (K _ _ _ _ Nb Na Hb) as [-> ->]. auto.
  - elim Nb. apply in_or_app. right. left. reflexivity.
  - elim Na. apply in_or_app. right. left. reflexivity.
  - auto.
Qed.
Lemma text_lines_fun c ts : text_lines c ts -> forall ts', text_lines c ts' -> ts = ts'.
Proof.
  induction 1 as [|c l r t ts N Hf Hs Ht IH]; intros ts' H'; inversion H' as [|c' l' r' t' ts0 N' Hf' Hs' Ht']; subst; try congruence.
  destruct (first_line_fun _ _ _ _ _ Hf Hf') as [<- <-]. f_equal; [exact (stripped_fun _ _ _ Hs Hs')|apply IH; exact Ht'].
Qed.
Lemma first_line_empty l r : first_line [] l r -> l = [] /\ r = [].
Proof. intro H. inversion H as [l0 r0 N He|]; [destruct l0; discriminate|auto]. Qed.
Lemma first_line_nonempty c l r : first_line c l r -> c <> [] -> l <> [].
Proof. intros H N. inversion H; subst; [destruct l0; discriminate|exact N]. Qed.

Section W.
Context {E : Env}.
Implicit Types (v : vm).

Definition after2 v (s : stack Z) (o : os) (fl : list (option handle)) (ss : list (option source)) (ls : list (option bytes)) : vm :=
  set_v_os o (put_task (v_cur v) (set_t_lines ls (set_t_sources ss (set_t_files fl (set_t_s s (cur v))))) v).
Lemma cur_after2 v s o fl ss ls : cur (after2 v s o fl ss ls) = set_t_lines ls (set_t_sources ss (set_t_files fl (set_t_s s (cur v)))).
Proof. unfold after2, cur, task_at, put_task. cbn. apply tget_tset_same. Qed.
Lemma set_s_is2 v s : set_s s v = after2 v s (v_os v) (t_files (cur v)) (t_sources (cur v)) (t_lines (cur v)).
Proof. unfold set_s, upd_cur, after2, put_task. destruct v. cbn. destruct (cur _). reflexivity. Qed.
Lemma upd_after2 f v s o fl ss ls s' fl' ss' ls' :
  f (set_t_lines ls (set_t_sources ss (set_t_files fl (set_t_s s (cur v))))) = set_t_lines ls' (set_t_sources ss' (set_t_files fl' (set_t_s s' (cur v)))) ->
  upd_cur f (after2 v s o fl ss ls) = after2 v s' o fl' ss' ls'.
Proof.
  intro H. unfold upd_cur. rewrite cur_after2, H. unfold after2, put_task. cbn. rewrite tset_tset. reflexivity.
Qed.
Lemma set_s_after2 s' v s o fl ss ls : set_s s' (after2 v s o fl ss ls) = after2 v s' o fl ss ls.
Proof. apply upd_after2. reflexivity. Qed.
Lemma set_files_after2 x v s o fl ss ls : set_files x (after2 v s o fl ss ls) = after2 v s o x ss ls.
Proof. apply upd_after2. reflexivity. Qed.
Lemma set_sources_after2 x v s o fl ss ls : set_sources x (after2 v s o fl ss ls) = after2 v s o fl x ls.
Proof. apply upd_after2. reflexivity. Qed.
Lemma set_lines_after2 x v s o fl ss ls : set_lines x (after2 v s o fl ss ls) = after2 v s o fl ss x.
Proof. apply upd_after2. reflexivity. Qed.
Lemma files_after2 v s o fl ss ls : files (after2 v s o fl ss ls) = fl. Proof. unfold files. rewrite cur_after2. reflexivity. Qed.
Lemma sources_after2 v s o fl ss ls : sources (after2 v s o fl ss ls) = ss. Proof. unfold sources. rewrite cur_after2. reflexivity. Qed.
Lemma lines_after2 v s o fl ss ls : lines (after2 v s o fl ss ls) = ls. Proof. unfold lines. rewrite cur_after2. reflexivity. Qed.
Lemma s_after2 v s o fl ss ls : t_s (cur (after2 v s o fl ss ls)) = s. Proof. rewrite cur_after2. reflexivity. Qed.
Lemma push_after2 x v s o fl ss ls : s_push x (after2 v s o fl ss ls) = Ok (tt, after2 v (push s x) o fl ss ls).
Proof. unfold s_push, modify, s_stk. rewrite s_after2, set_s_after2. reflexivity. Qed.
Lemma push2_after2 x y v s o fl ss ls : s_push2 x y (after2 v s o fl ss ls) = Ok (tt, after2 v (push2 s x y) o fl ss ls).
Proof. unfold s_push2, modify, s_stk. rewrite s_after2, set_s_after2. reflexivity. Qed.

Lemma source_index v id sr : source_as v id sr -> (0 <? id) && (id - 1 <? zlen (t_sources (cur v))) = true /\ nth_opt (t_sources (cur v)) (id - 1) = Some (Some sr).
Proof.
  intros [H1 H2]. assert (Z.to_nat (id - 1) < List.length (t_sources (cur v)))%nat by (apply nth_error_Some; congruence).
  unfold zlen, nth_opt. replace (0 <=? id - 1) with true by lia. split; [lia|exact H2].
Qed.
Lemma not_source v id : ~ is_source v id -> (0 <? id) && (id - 1 <? zlen (t_sources (cur v))) = true -> nth_opt (t_sources (cur v)) (id - 1) = Some None.
Proof.
  intros N H. unfold nth_opt, zlen in *. replace (0 <=? id - 1) with true by lia.
  destruct (nth_error (t_sources (cur v)) (Z.to_nat (id - 1))) as [[sr|]|] eqn:En.
  - elim N. exists sr. split; [lia|exact En].
  - reflexivity.
  - apply nth_error_None in En. lia.
Qed.
Lemma line_index v id t : 1 <= id -> line_of v id = Some t -> nth_opt (t_lines (cur v)) (id - 1) = Some (Some t) /\ (Z.to_nat (id - 1) < List.length (t_lines (cur v)))%nat.
Proof.
  intros H Hl. unfold line_of in Hl. unfold nth_opt. replace (0 <=? id - 1) with true by lia.
  destruct (nth_error (t_lines (cur v)) (Z.to_nat (id - 1))) as [[x|]|] eqn:En; try discriminate. injection Hl as ->.
  split; [reflexivity|]. apply nth_error_Some. congruence.
Qed.
Lemma bind_os_after2 {A B} (f : os -> os * A) (k : A -> M B) v s o fl ss ls :
  bind (os_call f) k (after2 v s o fl ss ls) = k (snd (f o)) (after2 v s (fst (f o)) fl ss ls).
Proof. unfold bind, os_call. cbn [v_os after2 set_v_os]. destruct (f o) as [o' a]. reflexivity. Qed.

(** Loading a line *)
Lemma load_line_run v id sr t0 l o' rd x : is_cell id -> source_as v id sr -> line_of v id = Some t0 -> stack_has (t_s (cur v)) (id :: l) ->
  os_read_line (v_os v) (src_reader sr) = (o', rd, x) ->
  exists s, popped v s 1 l /\ forall fuel ew, exec_prim fuel ew P_p_load_line v =
    let ss := set_nth (t_sources (cur v)) (Z.to_nat (id - 1)) (Some (mkSource rd (src_path sr))) in
    match x with
    | Some line => Ok (tt, after2 v (push2 s (zlen (strip_eol line)) (if zlen line =? 0 then 0 else -1)) o' (t_files (cur v)) ss
                             (set_nth (t_lines (cur v)) (Z.to_nat (id - 1)) (Some (strip_eol line))))
    | None => abort_with ew (-37) (after2 v s o' (t_files (cur v)) ss (set_nth (t_lines (cur v)) (Z.to_nat (id - 1)) (Some [])))
    end.
Proof.
  intros Hc Hs Hl Hk Ho. destruct (pop_then v id l Hk) as (s & E1 & H1 & H2 & H3). exists s. split; [repeat (split; [assumption|]); assumption|].
  intros fuel ew. cbn [exec_prim]. unfold FileM.p_load_line. rewrite E1, set_s_is2. rewrite to_u64_pos by (try exact Hc; destruct Hs; lia).
  destruct (source_index v id sr Hs) as [Hb Hn]. destruct (line_index v id t0 (proj1 Hs) Hl) as [Hli _].
  unfold load_line. rewrite bind_bind, bind_gets, sources_after2, Hb.
  unfold index_list. rewrite Hn, bind_bind, bind_ret. rewrite bind_bind, bind_gets, lines_after2, Hli, bind_bind, bind_ret.
  rewrite bind_bind, bind_os_after2, Ho. cbn [fst snd]. rewrite bind_bind, bind_modify, sources_after2, set_sources_after2.
  destruct x as [line|]; rewrite bind_bind, bind_modify, lines_after2, set_lines_after2, bind_ret.
  - rewrite push2_after2. destruct (zlen line =? 0); reflexivity.
  - reflexivity.
Qed.

Lemma zlen_zero {A} (l : list A) : (zlen l =? 0) = true <-> l = [].
Proof. destruct l; [split; reflexivity|]. rewrite zlen_cons. pose proof (zlen_nonneg l). split; [lia|discriminate]. Qed.

Lemma only_sources_after2 v s o fl ss ls : high_slots_kept (t_s (cur v)) s -> only_sources v (after2 v s o fl ss ls).
Proof.
  intro H. unfold only_sources. rewrite !cur_after2. cbn. repeat (split; [reflexivity|]). split.
  { intros i Hi Hc Hn. unfold after2, task_at, put_task. cbn. apply tget_tset_other; auto. }
  repeat (split; [reflexivity|]). exact H.
Qed.

Lemma load_line_ok fuel v id sr t0 l o' rd line : is_cell id -> source_as v id sr -> line_of v id = Some t0 -> stack_has (t_s (cur v)) (id :: l) -> zlen l < 254 ->
  os_read_line (v_os v) (src_reader sr) = (o', rd, Some line) ->
  exists v' t, quiet fuel P_p_load_line v v' /\ stripped line t /\ line_of v' id = Some t /\
    stack_has (t_s (cur v')) ((if zlen line =? 0 then 0 else -1) :: zlen t :: l) /\
    v_os v' = o' /\ source_as v' id (mkSource rd (src_path sr)) /\ t_files (cur v') = t_files (cur v) /\
    (forall i, i <> Z.to_nat (id - 1) -> nth_error (t_sources (cur v')) i = nth_error (t_sources (cur v)) i /\
                                         nth_error (t_lines (cur v')) i = nth_error (t_lines (cur v)) i) /\
    only_sources v v'.
Proof.
  intros Hc Hs Hl Hk Hz Ho. destruct (load_line_run v id sr t0 l o' rd (Some line) Hc Hs Hl Hk Ho) as (s & Hp & Hr). cbv zeta in Hr.
  destruct (line_index v id t0 (proj1 Hs) Hl) as [_ Hlen]. pose proof (proj2 Hs) as Hsn.
  assert (Hslen : (Z.to_nat (id - 1) < List.length (t_sources (cur v)))%nat) by (apply nth_error_Some; congruence).
  eexists (after2 v _ _ _ _ _), (strip_eol line). split; [intro ew; apply Hr|]. split; [apply strip_eol_spec|].
  destruct (push2_popped _ _ _ _ (zlen (strip_eol line)) (if zlen line =? 0 then 0 else -1) Hp ltac:(lia) ltac:(lia)) as [A B].
  split; [|split; [|split; [|split; [|split; [|split]]]]].
  - unfold line_of. rewrite cur_after2. cbn [t_lines set_t_lines]. rewrite nth_set_nth by exact Hlen. reflexivity.
  - rewrite s_after2. exact A.
  - reflexivity.
  - split; [exact (proj1 Hs)|]. rewrite cur_after2. cbn [t_sources set_t_lines set_t_sources]. apply nth_set_nth. exact Hslen.
  - rewrite cur_after2. reflexivity.
  - intros i N. rewrite cur_after2. cbn [t_sources set_t_lines set_t_sources t_lines]. split; apply nth_set_other; exact N.
  - apply only_sources_after2. exact B.
Qed.
Lemma load_line_error fuel ew v id sr t0 l o' rd : is_cell id -> source_as v id sr -> line_of v id = Some t0 -> stack_has (t_s (cur v)) (id :: l) ->
  os_read_line (v_os v) (src_reader sr) = (o', rd, None) ->
  exists u, exec_prim fuel ew P_p_load_line v = abort_with ew (-37) u /\ stack_has (t_s (cur u)) l /\ only_sources v u.
Proof.
  intros Hc Hs Hl Hk Ho. destruct (load_line_run v id sr t0 l o' rd None Hc Hs Hl Hk Ho) as (s & Hp & Hr). cbv zeta in Hr.
  eexists. split; [apply Hr|]. rewrite s_after2. split; [apply Hp|]. apply only_sources_after2. apply Hp.
Qed.

(** A whole text *)
Lemma loads_text (R : line_reader) id v k v' : loads id v k v' -> is_cell id -> forall sr c ts, source_as v id sr -> line_of v id <> None ->
  rest R (v_os v) (src_reader sr) = Some c -> text_lines c ts -> k = reported ts (List.length k).
Proof.
  intros H Hc. induction H as [v|v v1 v2 v' ew n f t k l Hk Hx Hk1 Hl1 Ho2 Hs2 Hl2 _ IH]; intros sr c ts Hs Hl Hr Ht; [reflexivity|].
  destruct (lr_line R _ _ _ Hr) as (o' & rd & line & r & Hrd & Hf & Hr').
  destruct (line_of v id) as [t0|] eqn:El; [|congruence]. pose proof (stack_has_bound _ _ Hk1) as Hb. pose proof (stack_has_len _ _ Hk1) as HL. rewrite !zlen_cons in HL.
  destruct (load_line_ok 0 v id sr t0 l o' rd line Hc Hs El Hk ltac:(lia) Hrd) as (v1' & t' & Hq & Hst & Hl1' & Hk1' & Ho1 & Hs1 & _ & _ & _).
  rewrite Hq in Hx. injection Hx as <-. assert (t' = t) by congruence. subst t'. pose proof (stack_has_inj _ _ _ Hk1 Hk1') as Hi. injection Hi as -> ->.
  assert (Hsrc : source_as v2 id (mkSource rd (src_path sr))) by (unfold source_as in *; rewrite Hs2; exact Hs1).
  assert (Hln : line_of v2 id <> None) by (unfold line_of in *; rewrite Hl2, Hl1; discriminate).
  assert (Hrr : rest R (v_os v2) rd = Some r) by (rewrite Ho2, Ho1; exact Hr'). specialize (fun ts => IH _ r ts Hsrc Hln Hrr).
  destruct ts as [|t1 ts].
  - inversion Ht; subst. destruct (first_line_empty _ _ Hf) as [-> ->]. cbn [reported List.length].
    assert (t = []) by (apply (stripped_fun [] _ _ Hst); apply Strip_none; intros s He; destruct s; discriminate). subst t. cbn. f_equal. apply IH. constructor.
  - inversion Ht as [|c' l' r' t2 ts' N Hf' Hs' Ht']; subst. destruct (first_line_fun _ _ _ _ _ Hf Hf') as [<- <-].
    pose proof (stripped_fun _ _ _ Hst Hs'). subst t1. cbn [reported List.length]. f_equal; [|apply IH; exact Ht'].
    pose proof (first_line_nonempty _ _ _ Hf N) as Nl. destruct (zlen line =? 0) eqn:Ez; [|reflexivity]. apply zlen_zero in Ez. congruence.
Qed.

(** ** Identifiers of sources *)
Lemma source_refused fuel ew w v id l : In w [P_close_source; P_dot_source_path; P_p_load_line] -> is_cell id -> zlen (t_sources (cur v)) < 2 ^ 63 ->
  ~ is_source v id -> stack_has (t_s (cur v)) (id :: l) ->
  exists u, exec_prim fuel ew w v = abort_with ew (-24) u /\ only_data_stack v u /\ stack_has (t_s (cur u)) l.
Proof.
  intros Hw Hc Hz Hn Hs. destruct (pop_then v id l Hs) as (s & E1 & H1 & H2 & H3). exists (set_s s v).
  split; [|split; [apply only_data_set_s; exact H2|rewrite cur_set_s; exact H1]].
  destruct Hw as [<-|[<-|[<-|[]]]]; cbn [exec_prim].
  - unfold close_source. rewrite E1, set_s_is2, bind_gets. destruct (_ =? id); [reflexivity|]. rewrite bind_gets, sources_after2.
    destruct ((0 <? id) && (id - 1 <? zlen (t_sources (cur v)))) eqn:Eb; [|reflexivity]. rewrite (not_source v id Hn Eb). reflexivity.
  - unfold dot_source_path. rewrite E1, set_s_is2. rewrite bind_gets, sources_after2.
    destruct ((0 <? id) && (id - 1 <? zlen (t_sources (cur v)))) eqn:Eb; [|reflexivity]. rewrite (not_source v id Hn Eb). reflexivity.
  - unfold FileM.p_load_line. rewrite E1, set_s_is2. unfold load_line. rewrite bind_bind, bind_gets, sources_after2.
    destruct ((0 <? to_u64 id) && (to_u64 id - 1 <? zlen (t_sources (cur v)))) eqn:Eb; [|reflexivity].
    assert (Hp : 0 <= id). { destruct (Z.neg_nonneg_cases id) as [Hng|]; [|assumption]. rewrite (to_u64_neg id Hc Hng) in Eb. destruct Hc as [C1 C2].
      change (2 ^ 63) with 9223372036854775808 in *. change two64 with 18446744073709551616 in Eb. lia. }
    rewrite (to_u64_pos id Hc Hp) in *. unfold index_list. rewrite (not_source v id Hn Eb). reflexivity.
Qed.

Lemma open_source_refused fuel ew v fid u a l : ~ is_open v fid -> stack_has (t_s (cur v)) (fid :: u :: a :: l) ->
  exists v1, exec_prim fuel ew P_open_source v = abort_with ew (-24) v1 /\ only_data_stack v v1 /\ stack_has (t_s (cur v1)) l.
Proof.
  intros Hn Hs. destruct (pop3_then v a u fid l Hs) as (s & E1 & H1 & H2 & H3). exists (set_s s v).
  split; [|split; [apply only_data_set_s; exact H2|rewrite cur_set_s; exact H1]]. cbn [exec_prim]. unfold open_source.
  rewrite E1, set_s_is2, bind_gets, files_after2. destruct ((0 <? fid) && (fid - 1 <? zlen (t_files (cur v)))) eqn:Eb; [|reflexivity].
  unfold nth_opt. replace (0 <=? fid - 1) with true by lia. destruct (nth_error (t_files (cur v)) (Z.to_nat (fid - 1))) as [[h|]|] eqn:Eh; [|reflexivity|reflexivity].
  exfalso. apply Hn. exists h. split; [lia|exact Eh].
Qed.
Lemma source_as_after2 v s o fl ss ls id sr : source_as (after2 v s o fl ss ls) id sr <-> 1 <= id /\ nth_error ss (Z.to_nat (id - 1)) = Some (Some sr).
Proof. unfold source_as. rewrite cur_after2. reflexivity. Qed.

Lemma source_opened fuel v fid h u xa a n l : open_as v fid h -> stack_has (t_s (cur v)) (fid :: u :: xa :: l) -> addr_of xa a -> addr_of u (zlen n) ->
  bytes_at (v_ds v) a n -> (zlen (t_lines (cur v)) = zlen (t_sources (cur v))) ->
  exists v' id, quiet fuel P_open_source v v' /\ stack_has (t_s (cur v')) (id :: l) /\ only_sources v v' /\ v_os v' = v_os v /\
    ~ is_source v id /\ source_as v' id (mkSource (os_reader (v_os v) h) n) /\
    (forall i sr, i <> id -> (source_as v' i sr <-> source_as v i sr)) /\
    ~ is_open v' fid /\ (forall i k, i <> fid -> (open_as v' i k <-> open_as v i k)) /\
    zlen (t_lines (cur v')) = zlen (t_sources (cur v')) /\ (forall i t, line_of v i = Some t -> line_of v' i = Some t).
Proof.
  intros Ho Hs Ha Hu Hb Hll. apply addr_of_to_u64 in Ha. apply addr_of_to_u64 in Hu.
  pose proof (stack_has_bound _ _ Hs) as Hbd. pose proof (stack_has_len _ _ Hs) as Hl. rewrite !zlen_cons in Hl.
  destruct (pop3_then v xa u fid l Hs) as (s & E1 & H1 & H2 & H3).
  assert (Hp : popped v s 3 l) by (repeat (split; [assumption|]); assumption).
  destruct Ho as [Ho1 Ho2]. assert (Hfl : (Z.to_nat (fid - 1) < List.length (t_files (cur v)))%nat) by (apply nth_error_Some; congruence).
  destruct (alloc_slot (t_sources (cur v)) (mkSource (os_reader (v_os v) h) n)) as [id ss] eqn:Ea.
  destruct (alloc_slot_spec _ _ _ _ Ea) as (A1 & A2 & A3 & A4).
  destruct (push1_popped _ _ _ _ id Hp ltac:(lia) ltac:(lia)) as [P1 P2].
  exists (after2 v (push s id) (v_os v) (set_nth (t_files (cur v)) (Z.to_nat (fid - 1)) None) ss
            (match first_none (t_sources (cur v)) with Some _ => t_lines (cur v) | None => t_lines (cur v) ++ [Some []] end)), id.
  split; [|split; [rewrite s_after2; exact P1|split; [apply only_sources_after2; exact P2|split; [reflexivity|split; [|split; [|split; [|split; [|split; [|split]]]]]]]]].
  - intro ew. cbn [exec_prim]. unfold open_source. rewrite E1, set_s_is2, bind_gets, files_after2.
    replace ((0 <? fid) && (fid - 1 <? zlen (t_files (cur v)))) with true by (unfold zlen; lia).
    unfold nth_opt. replace (0 <=? fid - 1) with true by lia. rewrite Ho2, bind_modify, files_after2, set_files_after2.
    match goal with |- bind (ds_get ?f) _ ?w = _ => rewrite (bind_Ok (ds_get f) _ w n w) end.
    2:{ apply ds_get_eq. change (v_ds (after2 v ?a ?b ?c ?d ?e)) with (v_ds v). rewrite Ha, Hu. apply bytes_at_read. exact Hb. }
    rewrite bind_gets, bind_gets, sources_after2. change (v_os (after2 v s (v_os v) ?c ?d ?e)) with (v_os v). cbv zeta. rewrite Ea. cbn [fst snd].
    rewrite bind_modify, set_sources_after2. rewrite (bind_Ok _ _ _ _ _ (push_after2 id v s _ _ _ _)).
    destruct (first_none (t_sources (cur v))); [reflexivity|]. unfold modify. rewrite lines_after2, set_lines_after2. reflexivity.
  - intros [sr [_ Hsr]]. exact (A2 _ Hsr).
  - apply source_as_after2. auto.
  - intros i sr N. rewrite source_as_after2. unfold source_as. split; intros [X Y]; (split; [exact X|]); [rewrite <- A4|rewrite A4]; try exact Y; lia.
  - intros [k [_ Hk]]. rewrite cur_after2 in Hk. cbn [t_files set_t_lines set_t_sources set_t_files] in Hk. rewrite nth_set_nth in Hk by exact Hfl. discriminate.
  - intros i k N. unfold open_as. rewrite cur_after2. cbn [t_files set_t_lines set_t_sources set_t_files]. split; intros [X Y]; (split; [exact X|]).
    + rewrite nth_set_other in Y; [exact Y|lia].
    + rewrite nth_set_other; [exact Y|lia].
  - rewrite cur_after2. cbn [t_lines t_sources set_t_lines set_t_sources]. unfold alloc_slot in Ea.
    destruct (first_none (t_sources (cur v))) as [p|]; injection Ea as <- <-; unfold zlen in *.
    + rewrite length_set_nth. exact Hll.
    + rewrite !app_length. cbn. lia.
  - intros i t. unfold line_of. rewrite cur_after2. cbn [t_lines set_t_lines]. destruct (first_none (t_sources (cur v))); [auto|].
    intro Ht. destruct (nth_error (t_lines (cur v)) (Z.to_nat (i - 1))) as [[y|]|] eqn:En; try discriminate.
    rewrite nth_error_app1 by (apply nth_error_Some; congruence). rewrite En. exact Ht.
Qed.

Lemma source_closed fuel v id sr l : source_as v id sr -> st_sid (st v) <> id -> stack_has (t_s (cur v)) (id :: l) ->
  exists v', quiet fuel P_close_source v v' /\ stack_has (t_s (cur v')) l /\ only_sources v v' /\ v_os v' = os_close_reader (v_os v) (src_reader sr) /\
    ~ is_source v' id /\ (forall i s, i <> id -> (source_as v' i s <-> source_as v i s)) /\ t_files (cur v') = t_files (cur v) /\ t_lines (cur v') = t_lines (cur v).
Proof.
  intros Hs Hn Hk. destruct (pop_then v id l Hk) as (s & E1 & H1 & H2 & H3). destruct (source_index v id sr Hs) as [Hb Hi].
  assert (Hsl : (Z.to_nat (id - 1) < List.length (t_sources (cur v)))%nat) by (apply nth_error_Some; rewrite (proj2 Hs); discriminate).
  exists (after2 v s (os_close_reader (v_os v) (src_reader sr)) (t_files (cur v)) (set_nth (t_sources (cur v)) (Z.to_nat (id - 1)) None) (t_lines (cur v))).
  split; [|split; [rewrite s_after2; exact H1|split; [apply only_sources_after2; exact H2|split; [reflexivity|split; [|split; [|split]]]]]].
  - intro ew. cbn [exec_prim]. unfold close_source. rewrite E1, set_s_is2, bind_gets.
    replace (st_sid (st (after2 v s (v_os v) (t_files (cur v)) (t_sources (cur v)) (t_lines (cur v)))) =? id) with false
      by (unfold st in *; rewrite cur_after2; cbn [t_state set_t_lines set_t_sources set_t_files set_t_s]; lia).
    rewrite bind_gets, sources_after2, Hb, Hi, bind_modify, sources_after2, set_sources_after2. reflexivity.
  - intros [k [_ Hk']]. rewrite cur_after2 in Hk'. cbn [t_sources set_t_lines set_t_sources] in Hk'. rewrite nth_set_nth in Hk' by exact Hsl. discriminate.
  - intros i k N. rewrite source_as_after2. unfold source_as. pose proof (proj1 Hs). split; intros [X Y]; (split; [exact X|]).
    + rewrite nth_set_other in Y; [exact Y|lia].
    + rewrite nth_set_other; [exact Y|lia].
  - rewrite cur_after2. reflexivity.
  - rewrite cur_after2. reflexivity.
Qed.
Lemma current_source_kept fuel ew v id l : st_sid (st v) = id -> stack_has (t_s (cur v)) (id :: l) ->
  exists u, exec_prim fuel ew P_close_source v = abort_with ew (-24) u /\ only_data_stack v u /\ stack_has (t_s (cur u)) l.
Proof.
  intros Hn Hk. destruct (pop_then v id l Hk) as (s & E1 & H1 & H2 & H3). exists (set_s s v).
  split; [|split; [apply only_data_set_s; exact H2|rewrite cur_set_s; exact H1]].
  cbn [exec_prim]. unfold close_source. rewrite E1, bind_gets.
  replace (st_sid (st (set_s s v)) =? id) with true by (unfold st in *; rewrite cur_set_s; cbn [t_state set_t_s]; lia). reflexivity.
Qed.
End W.

(** The same with the state that the handler sees *)
Section R.
Context {E : Env}.
Lemma raises_by ew v l (m : res (unit * vm)) :
  (exists u, m = abort_with ew (-24) u /\ only_data_stack v u /\ stack_has (t_s (cur u)) l) ->
  exists u v1, only_data_stack v u /\ stack_has (t_s (cur u)) l /\ raised (-24) u v1 /\ m = ew (v_handler v) v1.
Proof.
  intros (u & -> & H1 & H2). exists u, (aborted (-24) u). split; [exact H1|]. split; [exact H2|]. split; [apply aborted_raised|].
  rewrite abort_with_eq. replace (v_handler u) with (v_handler v); [reflexivity|]. symmetry. apply H1.
Qed.
Lemma source_refused' fuel ew w v id l : In w [P_close_source; P_dot_source_path; P_p_load_line] -> is_cell id -> zlen (t_sources (cur v)) < 2 ^ 63 ->
  ~ is_source v id -> stack_has (t_s (cur v)) (id :: l) ->
  exists u v1, only_data_stack v u /\ stack_has (t_s (cur u)) l /\ raised (-24) u v1 /\ exec_prim fuel ew w v = ew (v_handler v) v1.
Proof. intros. apply raises_by. apply source_refused with (id := id); assumption. Qed.
Lemma open_source_refused' fuel ew v fid u0 a l : ~ is_open v fid -> stack_has (t_s (cur v)) (fid :: u0 :: a :: l) ->
  exists u v1, only_data_stack v u /\ stack_has (t_s (cur u)) l /\ raised (-24) u v1 /\ exec_prim fuel ew P_open_source v = ew (v_handler v) v1.
Proof. intros. apply raises_by. eapply open_source_refused; eassumption. Qed.
Lemma current_source_kept' fuel ew v id l : st_sid (st v) = id -> stack_has (t_s (cur v)) (id :: l) ->
  exists u v1, only_data_stack v u /\ stack_has (t_s (cur u)) l /\ raised (-24) u v1 /\ exec_prim fuel ew P_close_source v = ew (v_handler v) v1.
Proof. intros. apply raises_by. eapply current_source_kept; eassumption. Qed.
Lemma load_line_error' fuel ew v id sr t0 l o' rd : is_cell id -> source_as v id sr -> line_of v id = Some t0 -> stack_has (t_s (cur v)) (id :: l) ->
  os_read_line (v_os v) (src_reader sr) = (o', rd, None) ->
  exists u v1, only_sources v u /\ stack_has (t_s (cur u)) l /\ raised (-37) u v1 /\ exec_prim fuel ew P_p_load_line v = ew (v_handler v) v1.
Proof.
  intros H1 H2 H3 H4 H5. destruct (load_line_error fuel ew v id sr t0 l o' rd H1 H2 H3 H4 H5) as (u & -> & S & O). exists u, (aborted (-37) u).
  split; [exact O|]. split; [exact S|]. split; [apply aborted_raised|]. rewrite abort_with_eq. replace (v_handler u) with (v_handler v); [reflexivity|].
  symmetry. apply O.
Qed.
End R.

Lemma first_line_exists c : exists l r, first_line c l r /\ c = l ++ r /\ (c <> [] -> l <> []).
Proof.
  assert (H : (exists l r, ~ In 10 l /\ c = l ++ 10 :: r) \/ ~ In 10 c).
  { induction c as [|x c IH]; [right; cbn; tauto|]. destruct (Z.eq_dec x 10) as [->|N]; [left; exists [], c; cbn; tauto|].
    destruct IH as [(l & r & H1 & H2)|H1]; [left; exists (x :: l), r; cbn; split; [intuition congruence|congruence]|right; cbn; intuition congruence]. }
  destruct H as [(l & r & H1 & ->)|H1].
  - exists (l ++ [10]), r. split; [apply Line_end; exact H1|]. split; [rewrite <- app_assoc; reflexivity|]. intros _. destruct l; discriminate.
  - exists c, []. split; [apply Line_last; exact H1|]. split; [rewrite app_nil_r; reflexivity|auto].
Qed.
Lemma text_lines_exist c : exists ts, text_lines c ts.
Proof.
  remember (List.length c) as n. assert (Hn : (List.length c <= n)%nat) by lia. clear Heqn. revert c Hn.
  induction n as [|n IH]; intros c Hn; [destruct c; [exists []; constructor|cbn in Hn; lia]|].
  destruct c as [|x c]; [exists []; constructor|]. destruct (first_line_exists (x :: c)) as (l & r & H1 & H2 & H3).
  destruct (IH r) as [ts Hts].
  - destruct l as [|y l]; [exfalso; apply H3; [discriminate|reflexivity]|]. apply (f_equal (@List.length Z)) in H2. rewrite app_length in H2. cbn in *. lia.
  - exists (strip_eol l :: ts). apply (Lines_cons _ l r); [discriminate|exact H1|apply strip_eol_spec|exact Hts].
Qed.
