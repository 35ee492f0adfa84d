(** File words. *)
From Coq Require Import ZArith List Bool Lia ZifyBool ZifyNat.
From Verif Require Import Base Stack Mem Parser State CoreM FileM Exec LBase LStack Spec Spec4 Spec9 Spec12 LState LMem LMon LMemWords.
Import ListNotations.
Open Scope Z_scope.
Local Opaque push push2 push3 pop pop2 pop3.

Section W.
Context {E : Env}.
Implicit Types (v : vm).

(** ** The state after a file word *)
Definition after v (s : stack Z) (o : os) (fl : list (option handle)) (d : dspace) : vm :=
  set_v_ds d (set_v_os o (put_task (v_cur v) (set_t_files fl (set_t_s s (cur v))) v)).

Lemma cur_after v s o fl d : cur (after v s o fl d) = set_t_files fl (set_t_s s (cur v)).
Proof. unfold after, cur, task_at, put_task. cbn. apply tget_tset_same. Qed.
Lemma set_s_after s s' v o fl d : set_s s' (after v s o fl d) = after v s' o fl d.
Proof.
  unfold set_s, upd_cur. rewrite cur_after. unfold after, put_task. cbn. rewrite tset_tset. reflexivity.
Qed.
Lemma set_s_is v s : set_s s v = after v s (v_os v) (t_files (cur v)) (v_ds v).
Proof. unfold set_s, upd_cur, after, put_task. destruct v. cbn. destruct (cur _). reflexivity. Qed.
Lemma set_os_after o' v s o fl d : set_v_os o' (after v s o fl d) = after v s o' fl d.
Proof. reflexivity. Qed.
Lemma set_ds_after d' v s o fl d : set_v_ds d' (after v s o fl d) = after v s o fl d'.
Proof. reflexivity. Qed.
Lemma ds_after v s o fl d : v_ds (after v s o fl d) = d. Proof. reflexivity. Qed.
Lemma os_after v s o fl d : v_os (after v s o fl d) = o. Proof. reflexivity. Qed.
Lemma set_files_after fl' v s o fl d : set_files fl' (after v s o fl d) = after v s o fl' d.
Proof.
  unfold set_files, upd_cur. rewrite cur_after. unfold after, put_task. cbn. rewrite tset_tset. reflexivity.
Qed.
Lemma files_after v s o fl d : files (after v s o fl d) = fl.
Proof. unfold files. rewrite cur_after. reflexivity. Qed.
Lemma t_s_after v s o fl d : t_s (cur (after v s o fl d)) = s.
Proof. rewrite cur_after. reflexivity. Qed.
Lemma t_files_after v s o fl d : t_files (cur (after v s o fl d)) = fl.
Proof. rewrite cur_after. reflexivity. Qed.
Lemma push_after x v s o fl d : s_push x (after v s o fl d) = Ok (tt, after v (push s x) o fl d).
Proof. unfold s_push, modify, s_stk. rewrite t_s_after, set_s_after. reflexivity. Qed.
Lemma push2_after x y v s o fl d : s_push2 x y (after v s o fl d) = Ok (tt, after v (push2 s x y) o fl d).
Proof. unfold s_push2, modify, s_stk. rewrite t_s_after, set_s_after. reflexivity. Qed.
Lemma push3_after x y z v s o fl d : s_push3 x y z (after v s o fl d) = Ok (tt, after v (push3 s x y z) o fl d).
Proof. unfold s_push3, modify, s_stk. rewrite t_s_after, set_s_after. reflexivity. Qed.

Lemma only_files_after v s o fl d : high_slots_kept (t_s (cur v)) s ->
  ds_inner d = ds_inner (v_ds v) -> ds_cap d = ds_cap (v_ds v) -> ds_len d = ds_len (v_ds v) -> only_files v (after v s o fl d).
Proof.
  intros H H1 H2 H3. unfold only_files. rewrite !cur_after. cbn.
  repeat (split; [reflexivity|]). split.
  { intros i Hi Hc Hn. unfold after, task_at, put_task. cbn. apply tget_tset_other; auto. }
  repeat (split; [reflexivity|]). repeat (split; [assumption|]). assumption.
Qed.
Lemma only_data_after v s : high_slots_kept (t_s (cur v)) s -> only_data_stack v (after v s (v_os v) (t_files (cur v)) (v_ds v)).
Proof. rewrite <- set_s_is. apply only_data_set_s. Qed.

(** ** Identifiers *)
Definition slot v (id : Z) : option handle :=
  if id <=? 0 then None else match nth_error (t_files (cur v)) (Z.to_nat (id - 1)) with Some (Some h) => Some h | _ => None end.
Lemma slot_open v id h : slot v id = Some h <-> open_as v id h.
Proof.
  unfold slot, open_as. destruct (Z.leb_spec id 0).
  - split; [discriminate|lia].
  - destruct (nth_error (t_files (cur v)) (Z.to_nat (id - 1))) as [[h'|]|]; split; intro H1; try discriminate; try (destruct H1; discriminate).
    + injection H1 as <-. split; [lia|reflexivity].
    + destruct H1 as [_ H1]. congruence.
Qed.
Lemma slot_none v id : ~ is_open v id -> slot v id = None.
Proof. intro H. destruct (slot v id) as [h|] eqn:Es; [|reflexivity]. apply slot_open in Es. elim H. exists h. exact Es. Qed.
Lemma slot_not_open v id : slot v id = None -> ~ is_open v id.
Proof. intros H [h Hh]. apply slot_open in Hh. congruence. Qed.
Lemma file_slot_is v id : 0 < id -> match file_slot v (id - 1) with Some (Some h) => slot v id = Some h | _ => slot v id = None end.
Proof.
  intro H. unfold file_slot, nth_opt, files, slot. replace (0 <=? id - 1) with true by lia. replace (id <=? 0) with false by lia.
  destruct (nth_error _ _) as [[h|]|]; reflexivity.
Qed.
Lemma file_slot_after v s o fl d i : fl = t_files (cur v) -> file_slot (after v s o fl d) i = file_slot v i.
Proof. intros ->. unfold file_slot. rewrite files_after. reflexivity. Qed.
Lemma file_case {A} v s o d id (k : handle -> A) (z : A) : 0 < id ->
  match file_slot (after v s o (t_files (cur v)) d) (id - 1) with Some (Some h) => k h | _ => z end =
  match slot v id with Some h => k h | None => z end.
Proof.
  intro H. rewrite file_slot_after by reflexivity. generalize (file_slot_is v id H).
  destruct (file_slot v (id - 1)) as [[h|]|]; intro Hs; cbv iota in Hs; rewrite Hs; reflexivity.
Qed.
Lemma bind_os_after {A B} (f : os -> os * A) (k : A -> M B) v s o fl d :
  bind (os_call f) k (after v s o fl d) = k (snd (f o)) (after v s (fst (f o)) fl d).
Proof. unfold bind, os_call. rewrite os_after. destruct (f o) as [o' a]. reflexivity. Qed.

(** What is left of the stack after [k] cells have been popped *)
Definition popped v (s : stack Z) (k : Z) (l : list Z) : Prop :=
  stack_has s l /\ high_slots_kept (t_s (cur v)) s /\ len s = len (t_s (cur v)) - k.

Lemma file_size_run v id l : stack_has (t_s (cur v)) (id :: l) -> exists s, popped v s 1 l /\
  forall fuel ew, exec_prim fuel ew P_file_size v = Ok (tt, after v
    (match slot v id with
     | Some h => match os_size (v_os v) h with
                 | Some n => if n <=? imax then push3 s n 0 0 else push3 s (-1) (-1) (-11)
                 | None => push3 s (-1) (-1) (-37) end
     | None => push3 s (-1) (-1) (-24) end) (v_os v) (t_files (cur v)) (v_ds v)).
Proof.
  intro H. destruct (pop_then v id l H) as (s & E1 & H1 & H2 & H3). exists s. split; [repeat (split; [assumption|]); assumption|].
  intros fuel ew. cbn [exec_prim]. unfold file_size. rewrite E1, set_s_is. destruct (Z.leb_spec id 0).
  - rewrite push3_after. unfold slot. replace (id <=? 0) with true by lia. reflexivity.
  - rewrite bind_gets, file_case by assumption. destruct (slot v id) as [h|]; [|apply push3_after].
    rewrite bind_gets. rewrite os_after. destruct (os_size (v_os v) h) as [n|]; [|apply push3_after].
    destruct (n <=? imax); apply push3_after.
Qed.

Lemma file_position_run v id l : stack_has (t_s (cur v)) (id :: l) -> exists s, popped v s 1 l /\
  forall fuel ew, exec_prim fuel ew P_file_position v = Ok (tt,
    (match slot v id with
     | Some h => let r := os_tell (v_os v) h in
         after v (match snd r with
                 | Some n => if n <=? imax then push3 s n 0 0 else push3 s (-1) (-1) (-11)
                 | None => push3 s (-1) (-1) (-37) end) (fst r)
     | None => after v (push3 s (-1) (-1) (-24)) (v_os v) end) (t_files (cur v)) (v_ds v)).
Proof.
  intro H. destruct (pop_then v id l H) as (s & E1 & H1 & H2 & H3). exists s. split; [repeat (split; [assumption|]); assumption|].
  intros fuel ew. cbn [exec_prim]. unfold file_position. rewrite E1, set_s_is. destruct (Z.leb_spec id 0).
  - rewrite push3_after. unfold slot. replace (id <=? 0) with true by lia. reflexivity.
  - rewrite bind_gets, file_case by assumption. destruct (slot v id) as [h|]; [|apply push3_after].
    rewrite bind_os_after. cbv zeta. destruct (snd (os_tell (v_os v) h)) as [n|]; [|apply push3_after].
    destruct (n <=? imax); apply push3_after.
Qed.

Lemma close_file_run v id l : stack_has (t_s (cur v)) (id :: l) -> exists s, popped v s 1 l /\
  forall fuel ew, exec_prim fuel ew P_close_file v = Ok (tt,
    match slot v id with
    | Some h => after v (push s 0) (os_close (v_os v) h) (set_nth (t_files (cur v)) (Z.to_nat (id - 1)) None) (v_ds v)
    | None => after v (push s (-24)) (v_os v) (t_files (cur v)) (v_ds v) end).
Proof.
  intro H. destruct (pop_then v id l H) as (s & E1 & H1 & H2 & H3). exists s. split; [repeat (split; [assumption|]); assumption|].
  intros fuel ew. cbn [exec_prim]. unfold close_file. rewrite E1, set_s_is. destruct (Z.leb_spec id 0).
  - rewrite push_after. unfold slot. replace (id <=? 0) with true by lia. reflexivity.
  - rewrite bind_gets, file_case by assumption. destruct (slot v id) as [h|]; [|apply push_after].
    rewrite bind_modify, files_after, set_files_after, bind_modify, set_os_after. apply push_after.
Qed.

Lemma len_or_seek_run call v lo up id l : stack_has (t_s (cur v)) (id :: up :: lo :: l) -> exists s, popped v s 3 l /\
  len_or_seek call v = Ok (tt,
    (match slot v id with
     | Some h => if (up =? 0) && (to_u64 lo <=? imax) then let r := call (v_os v) h (to_u64 lo) in
         after v (push s (if (snd r : bool) then 0 else -37)) (fst r) else after v (push s (-24)) (v_os v)
     | None => after v (push s (-24)) (v_os v) end) (t_files (cur v)) (v_ds v)).
Proof.
  intro H. destruct (pop3_then v lo up id l H) as (s & E1 & H1 & H2 & H3). exists s. split; [repeat (split; [assumption|]); assumption|].
  unfold len_or_seek. rewrite E1, set_s_is. destruct (Z.leb_spec id 0).
  - rewrite push_after. unfold slot. replace (id <=? 0) with true by lia. reflexivity.
  - cbv zeta. destruct (Z.eqb_spec up 0); cbn [negb andb].
    + rewrite Z.ltb_antisym. destruct (to_u64 lo <=? imax); cbn [negb].
      * rewrite bind_gets, file_case by assumption. destruct (slot v id) as [h|]; [|apply push_after].
        rewrite bind_os_after. apply push_after.
      * rewrite push_after. destruct (slot v id); reflexivity.
    + rewrite push_after. destruct (slot v id); reflexivity.
Qed.

(** [buf_ok]: [None] when the sum wraps and the build checks *)
Definition fits (d : dspace) (a u : Z) : res bool :=
  if start d <=? a then
    if a + u <? two64 then Ok (a + u <=? limit d)
    else if chk then Panic POverflow else Ok (a + u - two64 <=? limit d)
  else Ok false.
Lemma buf_ok_is v a u : 0 <= a < two64 -> 0 <= u < two64 ->
  buf_ok a u v = match fits (v_ds v) a u with Ok b => Ok (b, v) | Panic p => Panic p | UB => UB | OutOfFuel => OutOfFuel end.
Proof.
  intros Ha Hu. unfold buf_ok, fits. rewrite bind_gets. destruct (start (v_ds v) <=? a); [|reflexivity].
  unfold bind, chk_u64, in_u64. destruct (Z.ltb_spec (a + u) two64).
  - replace (0 <=? a + u) with true by lia. reflexivity.
  - rewrite andb_false_r. destruct chk; [reflexivity|].
    unfold ret. do 3 f_equal. unfold to_u64. symmetry. 
    replace (a + u) with (a + u - two64 + 1 * two64) by lia. rewrite Z.mod_add by discriminate. rewrite Z.mod_small by lia. lia.
Qed.
Lemma to_u64_range x : 0 <= to_u64 x < two64.
Proof. unfold to_u64. apply Z.mod_pos_bound. reflexivity. Qed.

Lemma open_common_run v s a u opts : 0 <= a < two64 -> 0 <= u < two64 ->
  open_common a u opts (after v s (v_os v) (t_files (cur v)) (v_ds v)) =
  match fits (v_ds v) a u with
  | Ok true => match read_bytes (v_ds v) a u with
    | Ok n => let r := os_open (v_os v) n opts in
        Ok (tt, match snd r with
                | Some h => let p := alloc_slot (t_files (cur v)) h in after v (push2 s (fst p) 0) (fst r) (snd p) (v_ds v)
                | None => after v (push2 s (-1) (-37)) (fst r) (t_files (cur v)) (v_ds v) end)
    | Panic p => Panic p | UB => UB | OutOfFuel => OutOfFuel end
  | Ok false => Ok (tt, after v (push2 s (-1) (-9)) (v_os v) (t_files (cur v)) (v_ds v))
  | Panic p => Panic p | UB => UB | OutOfFuel => OutOfFuel
  end.
Proof.
  intros Ha Hu. unfold open_common. unfold bind at 1. rewrite buf_ok_is by assumption. rewrite ds_after.
  destruct (fits (v_ds v) a u) as [[]| | |]; try reflexivity; cbv beta iota; [|apply push2_after].
  unfold bind at 1, ds_get. rewrite ds_after. destruct (read_bytes (v_ds v) a u) as [n| | |]; try reflexivity. cbn [rbind].
  rewrite bind_os_after. cbv zeta. destruct (snd (os_open (v_os v) n opts)) as [h|]; [|apply push2_after].
  rewrite bind_gets, files_after. cbv zeta. rewrite bind_modify, set_files_after. apply push2_after.
Qed.

(** The access modes of the two opening words *)
Definition opts_of (w : prim) (fam : Z) : option open_opts :=
  match w with
  | P_create_file => if fam =? 1 then Some (mkOpts false true true true) else if fam =? 2 then Some (mkOpts true true true true) else None
  | _ => if fam =? 0 then Some (mkOpts true false false false) else if fam =? 1 then Some (mkOpts false true false false)
         else if fam =? 2 then Some (mkOpts true true false false) else None
  end.
Lemma opening_run w v a u fam l : In w [P_create_file; P_open_file] -> stack_has (t_s (cur v)) (fam :: u :: a :: l) ->
  exists s, popped v s 3 l /\
  forall fuel ew, exec_prim fuel ew w v =
    match opts_of w fam with
    | Some opts => if 256 <? to_u64 u then Ok (tt, after v (push2 s (-1) (-24)) (v_os v) (t_files (cur v)) (v_ds v))
                   else open_common (to_u64 a) (to_u64 u) opts (after v s (v_os v) (t_files (cur v)) (v_ds v))
    | None => Ok (tt, after v (push2 s (-1) (-24)) (v_os v) (t_files (cur v)) (v_ds v))
    end.
Proof.
  intros Hw H. destruct (pop3_then v a u fam l H) as (s & E1 & H1 & H2 & H3). exists s. split; [repeat (split; [assumption|]); assumption|].
  intros fuel ew. destruct Hw as [<-|[<-|[]]]; cbn [exec_prim opts_of]; [unfold create_file|unfold open_file]; rewrite E1, set_s_is; cbv zeta;
    unfold PATH_NAME_MAX_LEN; destruct (256 <? to_u64 u); repeat match goal with |- context [fam =? ?k] => destruct (fam =? k) end;
    try reflexivity; apply push2_after.
Qed.

Lemma delete_file_run v a u l : stack_has (t_s (cur v)) (u :: a :: l) ->
  exists s, popped v s 2 l /\
  forall fuel ew, exec_prim fuel ew P_delete_file v =
    if 256 <? to_u64 u then Ok (tt, after v (push2 s (-1) (-24)) (v_os v) (t_files (cur v)) (v_ds v))
    else match fits (v_ds v) (to_u64 a) (to_u64 u) with
    | Ok true => match read_bytes (v_ds v) (to_u64 a) (to_u64 u) with
      | Ok n => let r := os_remove (v_os v) n in
          Ok (tt, after v (push s (if (snd r : bool) then 0 else -37)) (fst r) (t_files (cur v)) (v_ds v))
      | Panic p => Panic p | UB => UB | OutOfFuel => OutOfFuel end
    | Ok false => Ok (tt, after v (push s (-9)) (v_os v) (t_files (cur v)) (v_ds v))
    | Panic p => Panic p | UB => UB | OutOfFuel => OutOfFuel
    end.
Proof.
  intros H. destruct (pop2_then v a u l H) as (s & E1 & H1 & H2 & H3). exists s. split; [repeat (split; [assumption|]); assumption|].
  intros fuel ew. cbn [exec_prim]. unfold delete_file. rewrite E1, set_s_is. cbv zeta. unfold PATH_NAME_MAX_LEN.
  destruct (256 <? to_u64 u); [apply push2_after|].
  unfold bind at 1. rewrite buf_ok_is by apply to_u64_range. rewrite ds_after.
  destruct (fits (v_ds v) (to_u64 a) (to_u64 u)) as [[]| | |]; try reflexivity; cbv beta iota; [|apply push_after].
  unfold bind at 1, ds_get. rewrite ds_after. destruct (read_bytes (v_ds v) _ _) as [n| | |]; try reflexivity. cbn [rbind].
  rewrite bind_os_after. apply push_after.
Qed.

Lemma write_file_run v a u id l : stack_has (t_s (cur v)) (id :: u :: a :: l) ->
  exists s, popped v s 3 l /\
  forall fuel ew, exec_prim fuel ew P_write_file v =
    match slot v id with
    | None => Ok (tt, after v (push s (-24)) (v_os v) (t_files (cur v)) (v_ds v))
    | Some h =>
      match fits (v_ds v) (to_u64 a) (to_u64 u) with
      | Ok true => match read_bytes (v_ds v) (to_u64 a) (to_u64 u) with
        | Ok bs => let r := os_write_all (v_os v) h bs in
            Ok (tt, after v (push s (if (snd r : bool) then 0 else -37)) (fst r) (t_files (cur v)) (v_ds v))
        | Panic p => Panic p | UB => UB | OutOfFuel => OutOfFuel end
      | Ok false => Ok (tt, after v (push s (-37)) (v_os v) (t_files (cur v)) (v_ds v))
      | Panic p => Panic p | UB => UB | OutOfFuel => OutOfFuel
      end
    end.
Proof.
  intros H. destruct (pop3_then v a u id l H) as (s & E1 & H1 & H2 & H3). exists s. split; [repeat (split; [assumption|]); assumption|].
  intros fuel ew. cbn [exec_prim]. unfold write_file. rewrite E1, set_s_is. cbv zeta. destruct (Z.leb_spec id 0).
  { rewrite push_after. unfold slot. replace (id <=? 0) with true by lia. reflexivity. }
  rewrite bind_gets, file_case by assumption. destruct (slot v id) as [h|]; [|apply push_after].
  unfold bind at 1. rewrite buf_ok_is by apply to_u64_range. rewrite ds_after.
  destruct (fits (v_ds v) (to_u64 a) (to_u64 u)) as [[]| | |]; try reflexivity; cbv beta iota; [|apply push_after].
  unfold bind at 1, ds_get. rewrite ds_after. destruct (read_bytes (v_ds v) _ _) as [n| | |]; try reflexivity. cbn [rbind].
  rewrite bind_os_after. apply push_after.
Qed.

(** [read-file] takes the identifier as an unsigned number *)
Lemma read_file_run v a u id l : stack_has (t_s (cur v)) (id :: u :: a :: l) ->
  exists s, popped v s 3 l /\
  forall fuel ew, exec_prim fuel ew P_read_file v =
    if to_u64 id =? 0 then Ok (tt, after v (push2 s (-1) (-24)) (v_os v) (t_files (cur v)) (v_ds v))
    else match slot v (to_u64 id) with
    | None => Ok (tt, after v (push2 s 0 (-24)) (v_os v) (t_files (cur v)) (v_ds v))
    | Some h =>
      match fits (v_ds v) (to_u64 a) (to_u64 u) with
      | Ok true =>
        if in_ds (v_ds v) (to_u64 a) (to_u64 u) then
          let r := os_read (v_os v) h (to_u64 u) in
          Ok (tt, match snd r with
            | Some bs => let bs := firstn (Z.to_nat (to_u64 u)) bs in
                after v (push2 s (zlen bs) 0) (fst r) (t_files (cur v)) (write_bytes (v_ds v) (to_u64 a) bs)
            | None => after v (push2 s 0 (-37)) (fst r) (t_files (cur v)) (v_ds v) end)
        else UB
      | Ok false => Ok (tt, after v (push2 s 0 (-9)) (v_os v) (t_files (cur v)) (v_ds v))
      | Panic p => Panic p | UB => UB | OutOfFuel => OutOfFuel
      end
    end.
Proof.
  intros H. destruct (pop3_then v a u id l H) as (s & E1 & H1 & H2 & H3). exists s. split; [repeat (split; [assumption|]); assumption|].
  intros fuel ew. cbn [exec_prim]. unfold read_file. rewrite E1, set_s_is. cbv zeta. destruct (Z.eqb_spec (to_u64 id) 0) as [Hz|Hz]; [apply push2_after|].
  pose proof (to_u64_range id).
  rewrite bind_gets, file_case by lia. destruct (slot v (to_u64 id)) as [h|]; [|apply push2_after].
  unfold bind at 1. rewrite buf_ok_is by apply to_u64_range. rewrite ds_after.
  destruct (fits (v_ds v) (to_u64 a) (to_u64 u)) as [[]| | |]; try reflexivity; cbv beta iota; [|apply push2_after].
  rewrite bind_gets. rewrite ds_after. destruct (in_ds _ _ _); [|reflexivity].
  rewrite bind_os_after. cbv zeta. destruct (snd (os_read (v_os v) h (to_u64 u))) as [bs|]; [|apply push2_after].
  rewrite bind_modify, ds_after, set_ds_after. apply push2_after.
Qed.
End W.
