(** Concrete states for the float properties. *)
From Coq Require Import ZArith List Bool Lia.
From Verif Require Import Base Stack Mem Parser Flt State CoreM FloatM Exec Boot Std LBase LStack Spec Spec2 LState Ex Spec21 LReal6.
Import ListNotations.
Open Scope Z_scope.

(** [vm_d] with the given data and float stacks (top first) *)
Definition fex (d f : list Z) : @vm env_d := set_f (push_all (f_stk (ex_d d)) f) (ex_d d).
Lemma fex_has d f : zlen d <= 255 -> zlen f <= 255 -> stacks_are (fex d f) d [] f.
Proof.
  intros Hd Hf. split; [unfold fex; rewrite cur_set_f; apply ex_d_has; exact Hd |]. split.
  - split; [reflexivity |]. split; [vm_compute; discriminate |]. intros [|k] x; discriminate.
  - unfold fex. rewrite cur_set_f. apply push_all_has; [| exact Hf].
    split; [reflexivity |]. split; [vm_compute; discriminate |]. intros [|k] x; discriminate.
Qed.
(** The data and the float stack after a run *)
Definition out_df {E : Env} {A} (r : res (A * vm)) : option (list Z * list Z) :=
  match r with
  | Ok (_, v) => Some (rev (as_slice (t_s (cur v))), rev (as_slice (t_f (cur v))))
  | _ => None
  end.
Definition runf (p : prim) (d f : list Z) := out_df (exec_prim 0 ew_nop p (fex d f)).

(** 0.1, 0.2, 0.3 plus one unit, 1, 2, -2.5, the largest and the smallest number *)
Definition f01 : Z := 4591870180066957722.
Definition f02 : Z := 4596373779694328218.
Definition f03' : Z := 4599075939470750516.
Definition f1 : Z := 4607182418800017408.
Definition f2 : Z := 4611686018427387904.
Definition fm25 : Z := 13836183955189006336.
Definition fmax : Z := 9218868437227405311.
Definition fmin1 : Z := 1.
Ltac fin := apply fin_b; vm_compute; reflexivity.
Lemma cases_finite : finite f01 /\ finite f02 /\ finite f1 /\ finite f2 /\ finite fm25 /\ finite fmax /\ finite fmin1.
Proof. repeat (split; [fin |]). fin. Qed.
Lemma nan_case : not_a_number 9221120237041090560.
Proof. split; [split; [discriminate | reflexivity] | split; [reflexivity | discriminate]]. Qed.
Definition overflowed {A} (r : res A) : bool := match r with Panic POverflow => true | _ => false end.
