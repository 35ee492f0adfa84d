(** Vocabulary of loading a file of numbers (C90). *)
From Coq Require Import ZArith List Bool.
From Verif Require Import Base Stack Mem Parser State CoreM Exec Spec Spec2 Spec5 Spec9 Spec10 Spec11 Spec12 Spec15 Spec16 Spec17 Spec25 Spec27 Spec28.
Import ListNotations.
Open Scope list_scope.
Open Scope Z_scope.

Section V.
Context {E : Env}.
(** The token [t] is no word, and it is an integer, with value [x] *)
Definition number_of (v : vm) (t : bytes) (x : Z) : Prop := newest v t None /\ integer_token v t x.
(** The text [c] consists of lines of integers [xs], in the base of [v] *)
Inductive numbers_in (v : vm) : bytes -> list Z -> Prop :=
| Ni_end : numbers_in v [] []
| Ni_line c ln r t cs ts xs ys : c <> [] -> first_line c ln r -> stripped ln t -> utf8_text t cs -> zlen t < 2 ^ 63 ->
    tokens t ts -> Forall2 (number_of v) ts xs -> numbers_in v r ys -> numbers_in v c (xs ++ ys).
(** The interpreter is in order: the dictionary is well formed, BASE is set, the stacks are sound, there is an input buffer,
    and the current token is there, it interprets; BASE is in allocated memory, and neither the dictionary nor BASE is in
    SRC-STACK or LOAD-LINE# *)
Definition in_order (n : names) (m : loader_names) (v : vm) : Prop :=
  dict_ok v /\ (exists b, in_base b v) /\ idx_flit (v_refs v) <> 0 /\ v_tkn v <> None /\ t_inbuf (cur v) <> None /\
  quiet 0 P_check_stacks v v /\ st_compiling (st v) = false /\ base_addr (v_ds v) + 8 <= here (v_ds v) /\
  (forall k, protected v k \/ base_addr (v_ds v) <= k < base_addr (v_ds v) + 8 ->
     (k < src_at m v \/ src_at m v + 272 <= k) /\ (k < line_at n v \/ line_at n v + 8 <= k)).
End V.
