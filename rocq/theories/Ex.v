(** Small concrete machines used by the examples beside the theorems. *)
From Coq Require Import ZArith List Bool Lia FMapPositive.
From Verif Require Import Base Stack Mem Parser State CoreM Exec Boot Std Spec LBase LStack LState LMem.
Import ListNotations.
Open Scope Z_scope.

Definition vm_d : @vm env_d := @vm_init env_d 65536 65536 CCanary fs0.
Definition vm_r : @vm env_r := @vm_init env_r 65536 65536 CCanary fs0.

Definition push_all {T} (s : stack T) (l : list T) : stack T := fold_left push (rev l) s.

(** [vm_d] with the given data stack (top first), in the debug and release builds *)
Definition ex_d (l : list Z) : @vm env_d := set_s (push_all (s_stk vm_d) l) vm_d.
Definition ex_r (l : list Z) : @vm env_r := set_s (push_all (s_stk vm_r) l) vm_r.

Lemma push_all_has {T} (l : list T) s :
  stack_has s [] -> zlen l <= 255 -> stack_has (push_all s l) l.
Proof.
  intro Hs. unfold push_all. induction l as [|x l IH]; intro Hl; [exact Hs|].
  rewrite zlen_cons in Hl. cbn [rev]. rewrite fold_left_app. cbn [fold_left].
  apply push_has; [apply IH; pose proof (zlen_nonneg l); lia|]. lia.
Qed.

Lemma ex_d_has l : zlen l <= 255 -> stack_has (t_s (cur (ex_d l))) l.
Proof.
  intro H. unfold ex_d. rewrite cur_set_s. cbn [t_s set_t_s]. apply push_all_has; [|exact H].
  split; [reflexivity|]. split; [cbn; lia|]. intros [|k] x; discriminate.
Qed.

Lemma ex_r_has l : zlen l <= 255 -> stack_has (t_s (cur (ex_r l))) l.
Proof.
  intro H. unfold ex_r. rewrite cur_set_s. cbn [t_s set_t_s]. apply push_all_has; [|exact H].
  split; [reflexivity|]. split; [cbn; lia|]. intros [|k] x; discriminate.
Qed.
Lemma ex_d_ds : ds_ok (v_ds vm_d).
Proof. split; [|split]; vm_compute; intuition discriminate. Qed.
Lemma ex_r_ds : ds_ok (v_ds vm_r).
Proof. split; [|split]; vm_compute; intuition discriminate. Qed.
(** decidable forms of outcomes, cheap to evaluate *)
Definition panic_eq_dec (p q : panic_reason) : {p = q} + {p <> q}.
Proof. decide equality. Defined.
Definition is_ub {A} (r : res A) : bool := match r with UB => true | _ => false end.
Definition is_panic {A} (p : panic_reason) (r : res A) : bool :=
  match r with Panic q => if panic_eq_dec p q then true else false | _ => false end.
Lemma ub_eq {A} (r : res A) : is_ub r = true -> r = UB.
Proof. destruct r; cbn; congruence. Qed.
Lemma panic_eq {A} p (r : res A) : is_panic p r = true -> r = Panic p.
Proof. destruct r; cbn; try congruence. destruct (panic_eq_dec p p0); congruence. Qed.

(** A word that does nothing: the default handler *)
Definition ew_nop {E : Env} (i : Z) : M unit := ret tt.


Lemma fetch_ub : exec_prim 0 ew_nop P_fetch (ex_r [-8]) = UB.
Proof. apply ub_eq. lazy. reflexivity. Qed.
Lemma store_ub : exec_prim 0 ew_nop P_store (ex_r [-8; 0]) = UB.
Proof. apply ub_eq. lazy. reflexivity. Qed.
Lemma fetch_panic : exec_prim 0 ew_nop P_fetch (ex_d [-8]) = Panic POverflow.
Proof. apply panic_eq. lazy. reflexivity. Qed.

(** a data space of 65532 bytes *)
Definition vm_odd : @vm env_d := @vm_init env_d 65536 65532 CCanary fs0.
Definition ex_odd (l : list Z) : @vm env_d := set_s (push_all (s_stk vm_odd) l) vm_odd.
Lemma ex_odd_has l : zlen l <= 255 -> stack_has (t_s (cur (ex_odd l))) l.
Proof.
  intro H. unfold ex_odd. rewrite cur_set_s. cbn [t_s set_t_s]. apply push_all_has; [|exact H].
  split; [reflexivity|]. split; [cbn; lia|]. intros [|k] x; discriminate.
Qed.
Lemma odd_limit : exists (v : @vm env_d) a, ds_ok (v_ds v) /\ stack_has (t_s (cur v)) [a] /\ a = 8 * (a / 8) /\
  exec_prim 0 ew_nop P_ffetch v = UB.
Proof.
  exists (ex_odd [limit (v_ds vm_odd) - 4]), (limit (v_ds vm_odd) - 4).
  split; [split; [|split]; vm_compute; intuition discriminate|].
  split; [apply ex_odd_has; vm_compute; discriminate|]. split; [vm_compute; reflexivity|].
  apply ub_eq. lazy. reflexivity.
Qed.
Lemma mem_ok_fresh : mem_ok (v_ds vm_d).
Proof.
  change (v_ds vm_d) with (set_cell_bytes (mkDs 65536 65536 16 tempty) 10 (65536 + 8)).
  apply mem_ok_set_cell. intro a. unfold byte_at, tget, tempty. cbn [ds_mem].
  rewrite PositiveMap.gempty. lia.
Qed.

(** Observations on an outcome *)
Definition out_s {E : Env} {A} (r : res (A * vm)) : option (list Z) :=
  match r with Ok (_, v) => Some (rev (as_slice (t_s (cur v)))) | _ => None end.
Definition out_err {E : Env} {A} (r : res (A * vm)) : option (option Z) :=
  match r with Ok (_, v) => Some (v_err v) | _ => None end.
Ltac conjs := repeat match goal with |- _ /\ _ => split end.
(** evaluate both sides *)
Ltac ev := lazymatch goal with |- _ = _ => lazy; reflexivity end.
