(** Vocabulary of files that cannot be loaded (C91). *)
From Coq Require Import ZArith List Bool String.
From Verif Require Import Base Stack Mem Parser State CoreM FileM Exec Spec Spec2 Spec4 Spec5 Spec7 Spec9 Spec10 Spec11 Spec19 Spec24 Spec12 Spec15 Spec16 Spec17 Spec25 Spec27 Spec28 Spec29.
Import ListNotations.
Open Scope Z_scope.

Section V.
Context {E : Env}.
(** The file named [path], the bytes at [a], cannot be opened for reading: the name is longer than 256 bytes, or the operating
    system, which becomes [o], refuses *)
Definition cannot_open (path : bytes) (o : os) (a : Z) (v : vm) : Prop :=
  bytes_at (v_ds v) a path /\
  (256 < zlen path /\ o = v_os v \/ zlen path <= 256 /\ os_open (v_os v) path (mkOpts true false false false) = (o, None)).
(** [fl] are the files of [v] and one more, [h] *)
Definition one_more (v : vm) (h : handle) (fl : list (option handle)) : Prop :=
  exists k, nth_error fl k = Some (Some h) /\ (forall x, nth_error (t_files (cur v)) k <> Some (Some x)) /\
    forall j, j <> k -> nth_error fl j = nth_error (t_files (cur v)) j.

(** ** Lines that end in an exception *)
(** Executing the word [i], from wherever it is called, comes to an exception: the handler is given control, in a state in [P] *)
Definition fails_at (v : vm) (i : Z) (P : vm -> Prop) : Prop :=
  forall r, 0 <= r < 2 ^ 63 -> exists f u x, execute_word f i (set_ip r v) = Ok (tt, u) /\ breaks u (st_ip (st u)) x /\ P x.
(** EVALUATE-INPUT reads some tokens from the source [s], which act, and then one that ends in an exception, in a state in [P] *)
Definition line_fails (s : Z) (K : Z -> Prop) (n : names) (P : vm -> Prop) (v : vm) : Prop :=
  exists ts v0 t v1 fuel x, obeyed_on s K n v ts v0 /\ reads v0 t v1 /\ t <> [] /\ at_token fuel v1 t /\ fails K n fuel t (noted v1) x /\ P x.
(** [collapses c v]: some lines of the text [c] can be obeyed, and the next one ends in an exception, in a state in [P]
    (compare [follows]) *)
Inductive collapses (R : line_reader) (K : Z -> Prop) (n : names) (m : loader_names) (id : Z) (s : Z * Z) (l : list (Z * Z)) (P : vm -> Prop) :
    bytes -> vm -> Prop :=
| Co_now c ln r t v : c <> [] -> first_line c ln r -> stripped ln t ->
    (forall v1 ra, started R id t r v v1 -> line_fails id K n P (add_r ra v1)) -> collapses R K n m id s l P c v
| Co_later c ln r t v : c <> [] -> first_line c ln r -> stripped ln t ->
    (forall v1 ra, started R id t r v v1 ->
       exists ts v2, obeys_on id K n (add_r ra v1) ts v2 /\ loading R n m id s l r v2 /\
         forall v3, tallied n (drop_r 1 v2) v3 -> collapses R K n m id s l P r v3) ->
    collapses R K n m id s l P c v.
(** The token [t] is neither a word nor a number *)
Definition unknown_token (v : vm) (t : bytes) : Prop :=
  newest v t None /\ no_integer v t /\ (forall s i f es (z : list Z), ~ float_text s i f es z t).
(** The text [c] begins with lines of integers [xs], and the first token of the line after them is not known *)
Inductive typo_in (v : vm) : bytes -> list Z -> Prop :=
| Ti_now c ln r t cs k ts : c <> [] -> first_line c ln r -> stripped ln t -> utf8_text t cs -> zlen t < 2 ^ 63 ->
    tokens t (k :: ts) -> unknown_token v k -> typo_in v c []
| Ti_later c ln r t cs ts xs ys : c <> [] -> first_line c ln r -> stripped ln t -> utf8_text t cs -> zlen t < 2 ^ 63 ->
    tokens t ts -> Forall2 (number_of v) ts xs -> typo_in v r ys -> typo_in v c (xs ++ ys).
End V.
