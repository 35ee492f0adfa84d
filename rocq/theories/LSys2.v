(** Proofs about the system words, continued (C75 - C77). *)
From Coq Require Import ZArith List Bool Lia ZifyBool ZifyNat String.
From Verif Require Import Base Stack Mem Parser Flt State CoreM IoM FloatM Exec LBase LStack Spec Spec2 Spec4 Spec5 Spec6 Spec9 Spec10 Spec11 Spec12 Spec14 Spec24
  LState LMem LMon LMemWords LFloat LTask LCode LComp LDict LDict2 LDict3 LDict4 LDict5 LParse LNum LNum2 LFile3 LNoInput LSys.
Import Spec14.
Import ListNotations.
Open Scope list_scope.
Open Scope Z_scope.
Open Scope m_scope.
Ltac Zify.zify_post_hook ::= Z.div_mod_to_equations.

Section C.
Context {E : Env}.
Implicit Types (v : vm).

Lemma raises_code fuel e p v u k : v_handler u = v_handler v ->
  (forall ew, exec_prim fuel ew p v = (abort_with ew e ;;; k ew) u) -> raises fuel e p v.
Proof.
  intros HH HX. exists u, (aborted e u), k. split; [apply aborted_raised|]. split; [exact HH|]. intro ew. rewrite HX.
  unfold bind. rewrite abort_with_eq, HH. reflexivity.
Qed.
Lemma first_nth {A} (l : list A) : forall n k x, nth_error l k = Some x -> (k < n)%nat -> nth_error (firstn n l) k = Some x.
Proof. induction l as [|y l IH]; intros n [|k] x H L; try discriminate; destruct n as [|n]; try lia; cbn in *; [exact H|]. apply IH; [exact H|lia]. Qed.

(** ** .R and F.R *)
Lemma dot_r_written fuel v b n w l o : In b [2; 8; 10; 16] -> base_is v b -> is_cell n -> - 2 ^ 63 + 65 <= w < 2 ^ 63 ->
  v_out v = Some o -> stack_has (t_s (cur v)) (w :: n :: l) ->
  exists t v1 v', written b n t /\ quiet fuel P_dot_r v v' /\ only_data_stack v v1 /\ stack_has (t_s (cur v1)) l /\
    v' = set_v_out (Some (o ++ repeat 32 (Z.to_nat (w - zlen t)) ++ t)) (set_v_hld t v1).
Proof.
  intros Hb HB Hn Hw HO HS. destruct (pop2_then v n w l HS) as (s1 & EP & S1 & S2 & _). destruct (printed_ok b n Hb Hn) as (m & P1 & P2 & P3).
  set (t := LNum2.printed b n) in *. exists t, (set_s s1 v). eexists. split; [apply printed_written; assumption|].
  split; [|split; [apply only_data_set_s; exact S2|split; [rewrite cur_set_s; exact S1|reflexivity]]]. intro ew. cbn [exec_prim]. unfold dot_r.
  rewrite (bind_Ok (ds_get (fun d => get_isize d (base_addr d))) _ v b v) by (unfold ds_get, base_is in *; rewrite HB; reflexivity). rewrite EP. unfold when_out. rewrite bind_gets.
  change (v_out (set_s s1 v)) with (v_out v). rewrite HO. rewrite bind_modify.
  assert (HF : out_field w t (set_v_hld [] (set_s s1 v)) = Ok (tt, set_v_out (Some (o ++ spaces (w - zlen t) ++ t)) (set_v_hld t (set_s s1 v)))).
  { rewrite (out_field_ok w t (set_v_hld [] (set_s s1 v)) o HO); [reflexivity|]. change (2 ^ 63) with 9223372036854775808 in *. unfold in_i64, imin, imax, two63. lia. }
  fold (spaces (w - zlen t)). rewrite <- HF. unfold t, LNum2.printed.
  cbn [In] in Hb. destruct Hb as [<-|[<-|[<-|[<-|[]]]]]; reflexivity.
Qed.
Lemma fdot_r_ok fuel v n w l r fs o : v_out v = Some o -> stack_has (t_s (cur v)) (n :: w :: l) -> stack_has (t_f (cur v)) (r :: fs) ->
  let t := fmt_f64 (if (0 <=? n) && (n <=? 16) then n else 17) r in is_cell (w - zlen t) ->
  exists v1 v', quiet fuel P_fdot_r v v' /\ only_data_float v v1 /\ stack_has (t_s (cur v1)) l /\ stack_has (t_f (cur v1)) fs /\
    v' = set_v_out (Some (o ++ repeat 32 (Z.to_nat (w - zlen t)) ++ t)) (set_v_hld t v1).
Proof.
  intros HO HS HF t HC. destruct (pop1_has _ _ _ HF) as (f1 & EF & F1 & F2 & _). set (v0 := set_f f1 v).
  assert (HS0 : stack_has (t_s (cur v0)) (n :: w :: l)) by (unfold v0; rewrite cur_set_f; exact HS).
  destruct (pop2_then v0 w n l HS0) as (s1 & EP & S1 & S2 & _). exists (set_s s1 v0). eexists. split; [|split; [|split; [rewrite cur_set_s; exact S1|split; [rewrite cur_set_s; unfold v0; rewrite cur_set_f; exact F1|reflexivity]]]].
  - intro ew. cbn [exec_prim]. unfold fdot_r. rewrite (bind_Ok f_pop _ v r v0) by (unfold f_pop, f_stk; rewrite EF; reflexivity). rewrite EP. cbv beta iota.
    rewrite (when_out_some _ (set_s s1 v0) o HO). cbv zeta. rewrite (out_field_ok w _ (set_s s1 v0) o HO); [reflexivity|].
    fold t. unfold is_cell in HC. change (2 ^ 63) with 9223372036854775808 in HC. unfold in_i64, imin, imax, two63. lia.
  - unfold only_data_float, v0 in *. rewrite cur_set_s, cur_set_f in *. split; [repeat split; reflexivity|]. split; [reflexivity|].
    split; [intros i A B C; unfold set_s, set_f; rewrite !task_at_upd by assumption; reflexivity|]. split; [repeat split; reflexivity|]. split; [reflexivity|].
    split; [exact S2|exact F2].
Qed.

(** ** !TOKEN *)
Lemma store_token_ok fuel v x a l t : ds_ok (v_ds v) -> stack_has (t_s (cur v)) (x :: l) -> addr_of x a -> v_tkn v = Some t ->
  start (v_ds v) <= a -> a + Z.min (zlen t) 255 + 8 <= limit (v_ds v) ->
  exists v1 d', quiet fuel P_store_token v (set_v_tkn (Some []) (set_v_ds d' v1)) /\ only_data_stack v v1 /\ stack_has (t_s (cur v1)) l /\ counted (v_ds v) a t d'.
Proof.
  intros (D1 & D2 & D3) HS HA HT HB HL. destruct (pop_then v x l HS) as (s1 & EP & S1 & S2 & _). set (n := Z.min (zlen t) 255) in *. pose proof (zlen_nonneg t) as HN.
  set (d' := write_bytes (set_byte (v_ds v) a n) (a + 1) (firstn (Z.to_nat n) t)). exists (set_s s1 v), d'.
  assert (HLF : zlen (firstn (Z.to_nat n) t) = n) by (unfold zlen in *; rewrite firstn_length; lia).
  split; [|split; [apply only_data_set_s; exact S2|split; [rewrite cur_set_s; exact S1|]]].
  - intro ew. cbn [exec_prim]. unfold store_token. rewrite EP. cbv zeta. rewrite bind_gets, (addr_of_to_u64 _ _ HA). change (v_ds (set_s s1 v)) with (v_ds v).
    replace (start (v_ds v) <=? a) with true by lia. rewrite bind_gets. change (v_tkn (set_s s1 v)) with (v_tkn v). rewrite HT.
    rewrite (bind_Ok (ds_upd _) _ (set_s s1 v) tt (set_v_ds d' (set_s s1 v))).
    + reflexivity.
    + unfold ds_upd. change (v_ds (set_s s1 v)) with (v_ds v). unfold put_cstr. fold n. change (2 ^ 63) with 9223372036854775808 in *.
      replace (in_u64 (a + n + 8)) with true by (symmetry; unfold in_u64, two64; lia). cbv zeta.
      replace (a + n + 8 <=? limit (v_ds v)) with true by lia. replace (in_ds (v_ds v) a (n + 1)) with true by (symmetry; apply in_ds_true; lia). reflexivity.
  - unfold counted. fold n. unfold d'. rewrite start_write, limit_write. split; [reflexivity|]. split; [reflexivity|].
    split; [unfold here; destruct (write_bytes_meta (firstn (Z.to_nat n) t) (set_byte (v_ds v) a n) (a + 1)) as (-> & _ & ->); reflexivity|].
    split; [rewrite write_bytes_other by (rewrite ?start_set_byte; lia); apply byte_set_same|]. split.
    + intros k y Hk Hn. apply write_bytes_at; [rewrite start_set_byte; lia|]. apply first_nth; [exact Hk|lia].
    + intros i Hi Ho. rewrite write_bytes_other; rewrite ?start_set_byte, ?HLF; [|lia|lia|lia]. apply byte_set_other; lia.
Qed.
Lemma store_token_low fuel v x a l : stack_has (t_s (cur v)) (x :: l) -> addr_of x a -> a < start (v_ds v) -> raises fuel (-9) P_store_token v.
Proof.
  intros HS HA HB. destruct (pop_then v x l HS) as (s1 & EP & _). apply (raises_code fuel _ P_store_token v (set_s s1 v) (fun _ => ret tt)); [reflexivity|].
  intro ew. cbn [exec_prim]. unfold store_token. rewrite EP. cbv zeta. rewrite bind_gets, (addr_of_to_u64 _ _ HA). change (v_ds (set_s s1 v)) with (v_ds v).
  replace (start (v_ds v) <=? a) with false by lia. apply bind_ret_r.
Qed.

(** ** >NAME *)
Lemma to_name_ok fuel v x i l : dict_ok v -> stack_has (t_s (cur v)) (x :: l) -> addr_of x i -> i < words v ->
  exists v' y, quiet fuel P_to_name v v' /\ addr_of y (w_nfa (word_of v i)) /\ stack_has (t_s (cur v')) (y :: l) /\ only_data_stack v v'.
Proof.
  intros HD HS HA HI. pose proof HD as ((D1 & D2 & D3) & _ & _ & _ & H4 & _). destruct (H4 i) as (n & (N1 & N2 & _) & _); [destruct HA; lia|].
  destruct (pop_then v x l HS) as (s1 & EP & S1 & S2 & HL). assert (HZ : zlen l < 255) by (pose proof (stack_has_len _ _ HS); destruct HS as (? & ? & ?); rewrite zlen_cons in *; lia).
  set (y := to_i64 (w_nfa (word_of v i))). destruct (push1_has s1 y l S1 ltac:(lia)) as (A & B & C).
  exists (set_s (push s1 y) v), y. split; [|split; [|split; [rewrite cur_set_s; exact A|]]].
  - intro ew. cbn [exec_prim]. unfold to_name, to_field. rewrite EP. cbv zeta. rewrite bind_gets, (addr_of_to_u64 _ _ HA). change (wl_len (v_wl (set_s s1 v))) with (words v).
    replace (i <? words v) with true by lia. rewrite (bind_Ok (word_at i) _ (set_s s1 v) (word_of v i) (set_s s1 v)) by (apply (word_at_ok (set_s s1 v) i); change (words (set_s s1 v)) with (words v); destruct HA; lia).
    unfold s_push, modify. unfold s_stk. rewrite cur_set_s. fold y. cbn [t_s set_t_s]. rewrite set_s_set_s. reflexivity.
  - pose proof (zlen_nonneg n). unfold y. change (2 ^ 63) with 9223372036854775808 in *. rewrite to_i64_id by (unfold imin, imax, two63; lia).
    split; [change (2 ^ 64) with 18446744073709551616; lia|]. exists 0. lia.
  - apply only_data_set_s. split; [rewrite (proj1 B); apply S2|]. intros k K1 K2 K3. rewrite (proj2 B) by lia. apply S2; lia.
Qed.
Lemma to_name_bad fuel v x i l : stack_has (t_s (cur v)) (x :: l) -> addr_of x i -> words v <= i -> raises fuel (-24) P_to_name v.
Proof.
  intros HS HA HB. destruct (pop_then v x l HS) as (s1 & EP & _). apply (raises_code fuel _ P_to_name v (set_s s1 v) (fun _ => ret tt)); [reflexivity|].
  intro ew. cbn [exec_prim]. unfold to_name, to_field. rewrite EP. cbv zeta. rewrite bind_gets, (addr_of_to_u64 _ _ HA). change (wl_len (v_wl (set_s s1 v))) with (words v).
  replace (i <? words v) with false by lia. apply bind_ret_r.
Qed.

(** without an output buffer .WORD leaves its argument on the stack *)
Lemma dot_word_kept fuel v : v_out v = None -> quiet fuel P_dot_word v v.
Proof. intros HO ew. cbn [exec_prim]. unfold dot_word, when_out. rewrite bind_gets, HO. reflexivity. Qed.
End C.
