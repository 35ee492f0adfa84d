(** Properties C10-C13, C15-C17, C60, C68: memory, return stack and float stack words. *)
From Coq Require Import ZArith List Bool Lia.
From Verif Require Import Base Stack Mem Parser Flt State CoreM FloatM Exec Boot Std Spec Spec2
  LBase LStack LState LMem LMon LMemWords LFloat LSafe Ex.
Import ListNotations.
Open Scope Z_scope.

(** C10.  [!] stores, [@] fetches; anything out of range raises -9 with the
    memory as it was.  (The first byte of the data space is not addressable by
    these words.) *)
Theorem C10_store {E : Env} : forall fuel ew v x xa a rest,
  ds_ok (v_ds v) -> stack_has (t_s (cur v)) (xa :: x :: rest) -> addr_of xa a ->
  start (v_ds v) < a -> a + 8 <= limit (v_ds v) ->
  exists v', exec_prim fuel ew P_store v = Ok (tt, v') /\ stack_has (t_s (cur v')) rest /\
    cell_at (v_ds v') a x /\ same_memory_but (v_ds v) (v_ds v') a 8 /\ here (v_ds v') = here (v_ds v) /\
    only_data_memory v v'.
Proof. exact (fun fuel ew => store_ok fuel ew). Qed.
Print Assumptions C10_store.

Theorem C10_fetch {E : Env} : forall fuel ew v x xa a rest,
  ds_ok (v_ds v) -> stack_has (t_s (cur v)) (xa :: rest) -> addr_of xa a ->
  start (v_ds v) < a -> a + 8 <= limit (v_ds v) -> cell_at (v_ds v) a x -> is_cell x ->
  exists v', exec_prim fuel ew P_fetch v = Ok (tt, v') /\ stack_has (t_s (cur v')) (x :: rest) /\
    only_data_stack v v'.
Proof. exact (fun fuel ew => fetch_ok fuel ew). Qed.
Print Assumptions C10_fetch.

Theorem C10_store_out_of_range {E : Env} : forall fuel ew v x xa a rest,
  stack_has (t_s (cur v)) (xa :: x :: rest) -> addr_of xa a -> a + 8 < 2 ^ 64 ->
  a <= start (v_ds v) \/ limit (v_ds v) < a + 8 ->
  exists v1, exec_prim fuel ew P_store v = abort_with ew (-9) v1 /\
    only_data_stack v v1 /\ stack_has (t_s (cur v1)) rest.
Proof. exact (fun fuel ew => store_bad fuel ew). Qed.
Print Assumptions C10_store_out_of_range.

Theorem C10_fetch_out_of_range {E : Env} : forall fuel ew v xa a rest,
  stack_has (t_s (cur v)) (xa :: rest) -> addr_of xa a -> a + 8 < 2 ^ 64 ->
  a <= start (v_ds v) \/ limit (v_ds v) < a + 8 ->
  exists v1, exec_prim fuel ew P_fetch v = abort_with ew (-9) v1 /\
    only_data_stack v v1 /\ stack_has (t_s (cur v1)) rest.
Proof. exact (fun fuel ew => fetch_bad fuel ew). Qed.
Print Assumptions C10_fetch_out_of_range.

(** The cell written is a function of the bytes alone: what [@] finds is unique *)
Theorem C10_cell_unique : forall d a x y,
  is_cell x -> is_cell y -> cell_at d a x -> cell_at d a y -> x = y.
Proof. exact cell_at_unique. Qed.
Print Assumptions C10_cell_unique.

Definition ma := start (v_ds vm_d) + 64.
Example C10_example :
  ds_ok (v_ds (ex_d [ma; -2])) /\ mem_ok (v_ds (ex_d [ma; -2])) /\
  stack_has (t_s (cur (ex_d [ma; -2]))) [ma; -2] /\ addr_of ma ma /\
  start (v_ds vm_d) < ma /\ ma + 8 <= limit (v_ds vm_d) /\
  out_s (bind (exec_prim 0 ew_nop P_store) (fun _ => exec_prim 0 ew_nop P_fetch) (ex_d [ma; -2; ma])) = Some [-2].
Proof.
  assert (H : ds_ok (v_ds (ex_d [ma; -2]))) by (split; [|split]; vm_compute; intuition discriminate).
  split; [exact H|]. split.
  { exact mem_ok_fresh. }
  split; [apply ex_d_has; vm_compute; discriminate|].
  split; [apply addr_of_id; vm_compute; intuition discriminate|].
  split; [reflexivity|]. split; [vm_compute; discriminate|]. ev.
Qed.

(** C11.  Bytes.  [c@] may also read the first byte. *)
Theorem C11_c_store {E : Env} : forall fuel ew v x xa a rest,
  ds_ok (v_ds v) -> stack_has (t_s (cur v)) (xa :: x :: rest) -> addr_of xa a ->
  start (v_ds v) < a < limit (v_ds v) ->
  exists v', exec_prim fuel ew P_c_store v = Ok (tt, v') /\ stack_has (t_s (cur v')) rest /\
    byte_at (v_ds v') a = x mod 256 /\ same_memory_but (v_ds v) (v_ds v') a 1 /\
    here (v_ds v') = here (v_ds v) /\ only_data_memory v v'.
Proof. exact (fun fuel ew => c_store_ok fuel ew). Qed.
Print Assumptions C11_c_store.

Theorem C11_c_fetch {E : Env} : forall fuel ew v xa a rest,
  stack_has (t_s (cur v)) (xa :: rest) -> addr_of xa a -> start (v_ds v) <= a < limit (v_ds v) ->
  exists v', exec_prim fuel ew P_c_fetch v = Ok (tt, v') /\
    stack_has (t_s (cur v')) (byte_at (v_ds v) a :: rest) /\ only_data_stack v v'.
Proof. exact (fun fuel ew => c_fetch_ok fuel ew). Qed.
Print Assumptions C11_c_fetch.

Theorem C11_out_of_range {E : Env} : forall fuel ew v xa a rest,
  addr_of xa a ->
  (forall x, stack_has (t_s (cur v)) (xa :: x :: rest) -> a <= start (v_ds v) \/ limit (v_ds v) <= a ->
    exists v1, exec_prim fuel ew P_c_store v = abort_with ew (-9) v1 /\
      only_data_stack v v1 /\ stack_has (t_s (cur v1)) rest) /\
  (stack_has (t_s (cur v)) (xa :: rest) -> a < start (v_ds v) \/ limit (v_ds v) <= a ->
    exists v1, exec_prim fuel ew P_c_fetch v = abort_with ew (-9) v1 /\
      only_data_stack v v1 /\ stack_has (t_s (cur v1)) rest).
Proof.
  exact (fun fuel ew v xa a rest Ha =>
    conj (fun x Hs Ho => c_store_bad fuel ew v x xa a rest Hs Ha Ho)
         (fun Hs Ho => c_fetch_bad fuel ew v xa a rest Hs Ha Ho)).
Qed.
Print Assumptions C11_out_of_range.

(** little-endian layout: byte k of a stored cell is x / 256^k mod 256 *)
Example C11_example :
  out_s (bind (exec_prim 0 ew_nop P_store) (fun _ => exec_prim 0 ew_nop P_c_fetch) (ex_d [ma; 258; ma])) = Some [2] /\
  out_s (bind (exec_prim 0 ew_nop P_store) (fun _ => exec_prim 0 ew_nop P_c_fetch) (ex_d [ma; 258; ma + 1])) = Some [1] /\
  out_s (bind (exec_prim 0 ew_nop P_c_store) (fun _ => exec_prim 0 ew_nop P_c_fetch) (ex_d [ma; -1; ma])) = Some [255].
Proof. conjs; ev. Qed.

(** C12.  MOVE for every overlap. *)
Theorem C12_move {E : Env} : forall fuel ew v x1 x2 u a1 a2 rest,
  ds_ok (v_ds v) -> stack_has (t_s (cur v)) (u :: x2 :: x1 :: rest) -> addr_of x1 a1 -> addr_of x2 a2 -> 0 < u ->
  start (v_ds v) < a1 -> a1 + u <= limit (v_ds v) -> start (v_ds v) < a2 -> a2 + u <= limit (v_ds v) ->
  exists v', exec_prim fuel ew P_p_move v = Ok (tt, v') /\ stack_has (t_s (cur v')) rest /\
    copied (v_ds v) (v_ds v') a1 a2 u /\ only_data_memory v v'.
Proof. exact (fun fuel ew => move_ok fuel ew). Qed.
Print Assumptions C12_move.

Theorem C12_move_nothing {E : Env} : forall fuel ew v x1 x2 u rest,
  stack_has (t_s (cur v)) (u :: x2 :: x1 :: rest) -> u <= 0 ->
  exists v', exec_prim fuel ew P_p_move v = Ok (tt, v') /\ stack_has (t_s (cur v')) rest /\ only_data_stack v v'.
Proof. exact (fun fuel ew => move_nop fuel ew). Qed.
Print Assumptions C12_move_nothing.

Theorem C12_move_out_of_range {E : Env} : forall fuel ew v x1 x2 u a1 a2 rest,
  stack_has (t_s (cur v)) (u :: x2 :: x1 :: rest) -> addr_of x1 a1 -> addr_of x2 a2 -> 0 < u ->
  a1 + u < 2 ^ 64 -> a2 + u < 2 ^ 64 ->
  a1 <= start (v_ds v) \/ limit (v_ds v) < a1 + u \/ a2 <= start (v_ds v) \/ limit (v_ds v) < a2 + u ->
  exists v1, exec_prim fuel ew P_p_move v = abort_with ew (-9) v1 /\
    only_data_stack v v1 /\ stack_has (t_s (cur v1)) rest.
Proof. exact (fun fuel ew => move_bad fuel ew). Qed.
Print Assumptions C12_move_out_of_range.

(** Overlapping copies in both directions *)
Definition mem4 (v : @vm env_d) : list Z := map (fun i => byte_at (v_ds v) (ma + i)) [0; 1; 2; 3; 4; 5].
Definition out_mem (r : res (unit * @vm env_d)) : option (list Z) :=
  match r with Ok (_, v) => Some (mem4 v) | _ => None end.
Definition filled (l : list Z) : @vm env_d :=
  let v := ex_d l in set_v_ds (write_bytes (v_ds v) ma [1; 2; 3; 4; 5; 6]) v.
Example C12_example :
  out_mem (exec_prim 0 ew_nop P_p_move (filled [4; ma + 1; ma])) = Some [1; 1; 2; 3; 4; 6] /\
  out_mem (exec_prim 0 ew_nop P_p_move (filled [4; ma; ma + 1])) = Some [2; 3; 4; 5; 5; 6].
Proof. conjs; ev. Qed.

(** C13.  The full statement is false.  In the release build [-8 @] and [0 -8 !]
    compute [addr + 8 = 0], pass the range check and access memory outside the data
    space (in the debug build they panic); when the limit of the data space is not
    a multiple of 8, [f@] just below it reads across the limit. *)
Theorem C13_memory_safety_refuted :
  (exists v : @vm env_r, ds_ok (v_ds v) /\ stack_has (t_s (cur v)) [-8] /\
     exec_prim 0 ew_nop P_fetch v = UB) /\
  (exists v : @vm env_r, ds_ok (v_ds v) /\ stack_has (t_s (cur v)) [-8; 0] /\
     exec_prim 0 ew_nop P_store v = UB) /\
  (exists v : @vm env_d, ds_ok (v_ds v) /\ stack_has (t_s (cur v)) [-8] /\
     exec_prim 0 ew_nop P_fetch v = Panic POverflow) /\
  (exists (v : @vm env_d) a, ds_ok (v_ds v) /\ stack_has (t_s (cur v)) [a] /\ a = 8 * (a / 8) /\
     exec_prim 0 ew_nop P_ffetch v = UB).
Proof.
  exact (conj (ex_intro _ (ex_r [-8]) (conj ex_r_ds (conj (ex_r_has [-8] ltac:(vm_compute; discriminate)) fetch_ub)))
        (conj (ex_intro _ (ex_r [-8; 0]) (conj ex_r_ds (conj (ex_r_has [-8; 0] ltac:(vm_compute; discriminate)) store_ub)))
        (conj (ex_intro _ (ex_d [-8]) (conj ex_d_ds (conj (ex_d_has [-8] ltac:(vm_compute; discriminate)) fetch_panic)))
              odd_limit))).
Qed.
Print Assumptions C13_memory_safety_refuted.

(** What holds: c@ and c! in every state; the others whenever the end address
    does not exceed 2^64 (and, for floats, the data space ends at a multiple of 8). *)
Theorem C13_memory_safety_partial {E : Env} : forall fuel ew v,
  safe_access ew (exec_prim fuel ew P_c_fetch) v /\
  safe_access ew (exec_prim fuel ew P_c_store) v /\
  (ds_ok (v_ds v) -> mem_ok (v_ds v) ->
   forall xa a d r f, stacks_are v (xa :: d) r f -> addr_of xa a ->
   (a + 8 < 2 ^ 64 -> safe_access ew (exec_prim fuel ew P_fetch) v) /\
   (forall x d', d = x :: d' -> a + 8 < 2 ^ 64 -> safe_access ew (exec_prim fuel ew P_store) v) /\
   (forall m, limit (v_ds v) = 8 * m -> a + 7 < 2 ^ 64 -> zlen f < 255 ->
      safe_access ew (exec_prim fuel ew P_ffetch) v) /\
   (forall m x f', limit (v_ds v) = 8 * m -> a + 7 < 2 ^ 64 -> f = x :: f' ->
      safe_access ew (exec_prim fuel ew P_fstore) v)) /\
  (ds_ok (v_ds v) -> forall x1 x2 u a1 a2 rest,
   stack_has (t_s (cur v)) (u :: x2 :: x1 :: rest) -> addr_of x1 a1 -> addr_of x2 a2 ->
   u <= 0 \/ (a1 + u < 2 ^ 64 /\ a2 + u < 2 ^ 64) ->
   safe_access ew (exec_prim fuel ew P_p_move) v).
Proof. exact all_safe. Qed.
Print Assumptions C13_memory_safety_partial.

(** C15.  Comma, and strings in the data space. *)
Theorem C15_comma {E : Env} : forall p fuel ew v x rest,
  In p [P_comma; P_compile_comma] ->
  ds_ok (v_ds v) -> stack_has (t_s (cur v)) (x :: rest) -> here (v_ds v) + 8 <= limit (v_ds v) ->
  exists v', exec_prim fuel ew p v = Ok (tt, v') /\ stack_has (t_s (cur v')) rest /\
    cell_at (v_ds v') (here (v_ds v)) x /\ same_memory_but (v_ds v) (v_ds v') (here (v_ds v)) 8 /\
    here (v_ds v') = here (v_ds v) + 8 /\ only_data_memory v v'.
Proof. exact (fun p fuel ew => comma_ok p fuel ew). Qed.
Print Assumptions C15_comma.

Theorem C15_string : forall chk d s,
  ds_ok d -> here d + 8 + zlen s <= limit d ->
  exists d', compile_str d s = Ok (here d, d') /\
    same_memory_but d d' (here d) (8 + zlen s) /\ here d' = here d + 8 + zlen s /\
    get_str chk d' (here d) = Ok s.
Proof. exact str_round. Qed.
Print Assumptions C15_string.

Example C15_example :
  ds_ok (v_ds vm_d) /\ here (v_ds vm_d) + 8 + zlen [104; 105] <= limit (v_ds vm_d) /\
  out_s (bind (exec_prim 0 ew_nop P_here) (fun _ => bind (exec_prim 0 ew_nop P_swap) (fun _ =>
     exec_prim 0 ew_nop P_comma)) (ex_d [7])) = Some [here (v_ds vm_d)].
Proof. split; [exact ex_d_ds|]. split; [vm_compute; discriminate|]. ev. Qed.

(** C16.  The full statement is false: an allotment that does not fit is ignored
    silently. *)
Theorem C16_allot_refuted :
  exists (v v' : @vm env_d) n,
    ds_ok (v_ds v) /\ stack_has (t_s (cur v)) [n] /\ limit (v_ds v) < here (v_ds v) + n /\
    exec_prim 0 ew_nop P_allot v = Ok (tt, v') /\ here (v_ds v') = here (v_ds v) /\ v_err v' = None.
Proof.
  exact (ex_intro _ (ex_d [1000000]) (ex_intro _ _ (ex_intro _ 1000000
   (conj ex_d_ds (conj (ex_d_has [1000000] ltac:(vm_compute; discriminate))
   (conj eq_refl (conj eq_refl (conj eq_refl eq_refl)))))))).
Qed.
Print Assumptions C16_allot_refuted.

Theorem C16_allot_partial {E : Env} : forall fuel ew v n rest,
  ds_ok (v_ds v) -> stack_has (t_s (cur v)) (n :: rest) ->
  (start (v_ds v) <= here (v_ds v) + n <= limit (v_ds v) ->
   exists v', exec_prim fuel ew P_allot v = Ok (tt, v') /\ stack_has (t_s (cur v')) rest /\
    here (v_ds v') = here (v_ds v) + n /\ same_memory_but (v_ds v) (v_ds v') (here (v_ds v)) 0 /\
    only_data_memory v v') /\
  (- 2 ^ 63 <= here (v_ds v) + n < 2 ^ 63 ->
   here (v_ds v) + n < start (v_ds v) \/ limit (v_ds v) < here (v_ds v) + n ->
   exists v', exec_prim fuel ew P_allot v = Ok (tt, v') /\ stack_has (t_s (cur v')) rest /\ only_data_stack v v').
Proof.
  exact (fun fuel ew v n rest Hd Hs => conj (allot_ok fuel ew v n rest Hd Hs) (allot_out fuel ew v n rest Hd Hs)).
Qed.
Print Assumptions C16_allot_partial.

Example C16_example :
  ds_ok (v_ds vm_d) /\ stack_has (t_s (cur (ex_d [24]))) [24] /\
  start (v_ds vm_d) <= here (v_ds vm_d) + 24 <= limit (v_ds vm_d).
Proof.
  split; [exact ex_d_ds|]. split; [apply ex_d_has; vm_compute; discriminate|]. vm_compute; intuition discriminate.
Qed.

(** C17.  Alignment: the function behind aligned, faligned and the 16-byte
    variant, and the words. *)
Theorem C17_aligned_to : forall chk k p, 0 <= k < 64 -> 0 <= p -> p + 2 ^ k - 1 < 2 ^ 64 ->
  exists a, aligned_to chk (2 ^ k) p = Ok a /\ least_multiple (2 ^ k) p a.
Proof. exact aligned_least. Qed.
Print Assumptions C17_aligned_to.

Theorem C17_aligned {E : Env} : forall p fuel ew v x a rest,
  In p [P_aligned; P_faligned] -> stack_has (t_s (cur v)) (x :: rest) -> addr_of x a -> a + 7 < 2 ^ 64 ->
  exists v' m r, exec_prim fuel ew p v = Ok (tt, v') /\ stack_has (t_s (cur v')) (r :: rest) /\
    least_multiple 8 a m /\ wraps_to m r /\ only_data_stack v v'.
Proof. exact aligned_word_least. Qed.
Print Assumptions C17_aligned.

Theorem C17_align {E : Env} : forall p fuel ew v m,
  In p [P_align; P_falign] -> ds_ok (v_ds v) -> least_multiple 8 (here (v_ds v)) m -> m <= limit (v_ds v) ->
  exists d', exec_prim fuel ew p v = Ok (tt, set_v_ds d' v) /\ here d' = m /\
    same_memory_but (v_ds v) d' (here (v_ds v)) 0.
Proof. exact align_word_least. Qed.
Print Assumptions C17_align.

Example C17_example :
  out_s (exec_prim 0 ew_nop P_aligned (ex_d [17])) = Some [24] /\
  out_s (exec_prim 0 ew_nop P_aligned (ex_d [24])) = Some [24] /\ least_multiple 8 17 24.
Proof. split; [ev|]. split; [ev|]. split; [lia|]. split; [exists 3; reflexivity|]. intros; lia. Qed.

(** C60.  Float stack and float memory. *)
Theorem C60_float_stack {E : Env} :
  (forall a, word_effect P_fdup [] [] [a] [] [] [a; a]) /\
  (forall a, word_effect P_fdrop [] [] [a] [] [] []) /\
  (forall a c, word_effect P_fswap [] [] [c; a] [] [] [a; c]) /\
  (forall a c, word_effect P_fnip [] [] [c; a] [] [] [c]) /\
  (forall a c, word_effect P_fover [] [] [c; a] [] [] [a; c; a]) /\
  (forall a c d, word_effect P_frot [] [] [d; c; a] [] [] [a; d; c]) /\
  (forall n x l, nth_error l n = Some x -> word_effect P_fpick [Z.of_nat n] [] l [] [] (x :: l)).
Proof.
  exact (conj fdup_eff (conj fdrop_eff (conj fswap_eff (conj fnip_eff (conj fover_eff (conj frot_eff fpick_eff)))))).
Qed.
Print Assumptions C60_float_stack.

Theorem C60_fstore {E : Env} : forall fuel ew v xa a t x d r f,
  ds_ok (v_ds v) -> stacks_are v (xa :: d) r (x :: f) -> addr_of xa a -> a + 7 < 2 ^ 64 -> least_multiple 8 a t ->
  start (v_ds v) <= t -> t + 8 <= limit (v_ds v) ->
  exists v', exec_prim fuel ew P_fstore v = Ok (tt, v') /\ stacks_are v' d r f /\
    cell_at (v_ds v') t x /\ same_memory_but (v_ds v) (v_ds v') t 8 /\ here (v_ds v') = here (v_ds v) /\
    only_stacks_memory v v'.
Proof. exact (fun fuel ew => fstore_ok fuel ew). Qed.
Print Assumptions C60_fstore.

Theorem C60_ffetch {E : Env} : forall fuel ew v xa a t x d r f,
  stacks_are v (xa :: d) r f -> addr_of xa a -> a + 7 < 2 ^ 64 -> least_multiple 8 a t ->
  start (v_ds v) <= t -> t + 8 <= limit (v_ds v) -> cell_at (v_ds v) t x -> 0 <= x < 2 ^ 64 -> zlen f < 255 ->
  exists v', exec_prim fuel ew P_ffetch v = Ok (tt, v') /\ stacks_are v' d r (x :: f) /\ only_stacks v v'.
Proof. exact (fun fuel ew => ffetch_ok fuel ew). Qed.
Print Assumptions C60_ffetch.

Example C60_example :
  stacks_are (set_f (push_all (f_stk (ex_d [])) [3; 2; 1]) (ex_d [ma])) [ma] [] [3; 2; 1].
Proof.
  split; [apply ex_d_has; vm_compute; discriminate|]. split.
  - split; [reflexivity|]. split; [vm_compute; discriminate|]. intros [|k] x; discriminate.
  - rewrite cur_set_f. apply push_all_has; [|vm_compute; discriminate].
    split; [reflexivity|]. split; [vm_compute; discriminate|]. intros [|k] x; discriminate.
Qed.

(** C68.  Return stack words: ( x -- ) ( R: -- x ) and so on. *)
Theorem C68_return_stack {E : Env} :
  (forall a, word_effect P_p_to_r [a] [] [] [] [a] []) /\
  (forall a, word_effect P_r_from [] [a] [] [a] [] []) /\
  (forall a, word_effect P_r_fetch [] [a] [] [a] [a] []) /\
  (forall a c, word_effect P_two_to_r [c; a] [] [] [] [c; a] []) /\
  (forall a c, word_effect P_two_r_from [] [c; a] [] [c; a] [] []) /\
  (forall a c, word_effect P_two_r_fetch [] [c; a] [] [c; a] [c; a] []).
Proof.
  exact (conj to_r_eff (conj r_from_eff (conj r_fetch_eff (conj two_to_r_eff (conj two_r_from_eff two_r_fetch_eff))))).
Qed.
Print Assumptions C68_return_stack.

Example C68_example :
  out_s (bind (exec_prim 0 ew_nop P_two_to_r) (fun _ => bind (exec_prim 0 ew_nop P_r_from) (fun _ =>
    exec_prim 0 ew_nop P_r_fetch)) (ex_d [3; 2; 1])) = Some [2; 3; 1].
Proof. ev. Qed.
