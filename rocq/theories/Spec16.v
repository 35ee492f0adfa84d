(** Vocabulary of the properties of defining words (C57, C58). *)
From Coq Require Import ZArith List Bool String.
From Verif Require Import Base Stack Mem Parser State CoreM Exec Spec Spec2 Spec4 Spec5 Spec7 Spec10 Spec11 Spec15.
Import ListNotations.
Open Scope Z_scope.

Section V.
Context {E : Env}.

(** The next word of the input is [t] *)
Definition next_is (v : vm) (t : bytes) : Prop :=
  v_tkn v <> None /\ exists s cs ts, rest_of_input v s /\ utf8_text s cs /\ tokens s (t :: ts).

(** There is room for the header of a word called [t] and [n] bytes of data *)
Definition room_for (v : vm) (t : bytes) (n : Z) : Prop :=
  here (v_ds v) + 16 + zlen t + n <= limit (v_ds v).

(** A new word called [t] with action [a] has been added; everything that was in the dictionary and in the
    allocated part of the data space is still there *)
Definition makes (a : prim) (t : bytes) (v v' : vm) : Prop :=
  let w := word_of v' (words v) in
  dict_ok v' /\ older_kept v v' /\ words v' = words v + 1 /\
  (forall name, same_text t name -> newest v' name (Some (words v))) /\
  w_action w = a /\ w_imm w = false /\ w_co w = false /\
  here (v_ds v) + 8 + zlen t <= w_dfa w < here (v_ds v) + 16 + zlen t /\ w_dfa w mod 8 = 0 /\
  v_err v' = v_err v /\ v_cur v' = v_cur v /\ st_compiling (st v') = st_compiling (st v) /\ t_c (cur v') = t_c (cur v).
(** The same as far as defining words are concerned, except for the stacks and the input *)
Definition alike (v w : vm) : Prop :=
  v_ds w = v_ds v /\ v_wl w = v_wl v /\ v_err w = v_err v /\ v_cur w = v_cur v /\ st_compiling (st w) = st_compiling (st v) /\ t_c (cur w) = t_c (cur v).
(** The stacks hold the same *)
Definition same_stacks (v v' : vm) : Prop :=
  t_s (cur v') = t_s (cur v) /\ t_r (cur v') = t_r (cur v) /\ t_f (cur v') = t_f (cur v).
(** The address of the data of word [i] *)
Definition body (v : vm) (i : Z) : Z := w_dfa (word_of v i).

(** Word [i] pushes the cell [x] and does nothing else *)
Definition pushes (v : vm) (i x : Z) : Prop :=
  forall K d rs fs, stacks_are v d rs fs -> zlen d < 255 ->
    does K v i (fun v' => stacks_are v' (x :: d) rs fs /\ v_ds v' = v_ds v /\ v_out v' = v_out v /\ calm v v').

(** A constant with value [x] *)
Definition constant_is (v : vm) (i x : Z) : Prop :=
  word_is v i P_p_const /\ start (v_ds v) < body v i /\ body v i + 8 <= limit (v_ds v) /\ cell_at (v_ds v) (body v i) x.
(** Nobody has touched the header of word [i] nor the first [n] bytes of its data *)
Definition untouched (v v' : vm) (i n : Z) : Prop :=
  words v <= words v' /\ word_of v' i = word_of v i /\ start (v_ds v') = start (v_ds v) /\ limit (v_ds v') = limit (v_ds v) /\
  forall k, 0 <= k < n -> byte_at (v_ds v') (body v i + k) = byte_at (v_ds v) (body v i + k).

(** A history in which the first [n] bytes of the data of word [i] are never written to: new definitions, and anything
    else that leaves that word alone and does not give data space back *)
Inductive history (fuel : nat) (i n : Z) (v : vm) : vm -> Prop :=
| H_none : history fuel i n v v
| H_defs v1 v2 : history fuel i n v v1 -> redefinitions fuel v1 v2 -> history fuel i n v v2
| H_other v1 v2 : history fuel i n v v1 -> untouched v1 v2 i n -> dict_ok v2 -> here (v_ds v1) <= here (v_ds v2) -> history fuel i n v v2.

(** Word [i] was given the code [p] (followed by the final word [x], which is EXIT) by DOES> *)
Definition child (K : Z -> Prop) (v : vm) (i : Z) (p : prog) (x : Z) : Prop :=
  word_is v i P_xdoes /\ word_is v x P_exit /\ holds K v (Seq p (Op x)) (w_doer (word_of v i)) /\
  0 <= body v i < 2 ^ 63.
(** Running the code [p], wherever it is, ends in a state satisfying [Q] *)
Definition runs (K : Z -> Prop) (p : prog) (Q : vm -> Prop) (v : vm) : Prop :=
  forall a, holds K v p a -> exists v', part K v a v' (fin p a) /\ Q v'.

(** ** Defining words of core.fth *)
Section Text.
Variable ix : prim -> Z.
(* : variable create 0 , ; *)
Definition d_variable := block [wd ix P_create; Num 0; wd ix P_comma].
(* : 2variable create 0 , 0 , ; *)
Definition d_two_variable := block [wd ix P_create; Num 0; wd ix P_comma; Num 0; wd ix P_comma].
(* : 2constant create 2, does> 2@ ; *)
Definition d_two_constant (two_comma : Z) := block [wd ix P_create; Op two_comma; wd ix P__does].
Definition c_two_constant (two_fetch : Z) := Op two_fetch.
(* : +field create over , + does> @ + ; *)
Definition d_field := block [wd ix P_create; wd ix P_over; wd ix P_comma; wd ix P_plus; wd ix P__does].
Definition c_field := block [wd ix P_fetch; wd ix P_plus].
(* : defer create ['] noop , does> @ execute ; *)
Definition d_defer (nop : Z) := block [wd ix P_create; Num nop; wd ix P_comma; wd ix P__does].
Definition c_defer := block [wd ix P_fetch; wd ix P_execute].
(* : defer@ >body @ ; *)
Definition d_defer_fetch := block [wd ix P_to_body; wd ix P_fetch].
(* : defer! >body ! ; *)
Definition d_defer_store := block [wd ix P_to_body; wd ix P_store].
End Text.

(** A defining word: the body [p], EXIT, and then the code [c] for its children and EXIT again *)
Definition defining_word (K : Z -> Prop) (v : vm) (i : Z) (p c : prog) (x : Z) : Prop :=
  colon_word K v i p x /\ holds K v (Seq c (Op x)) (fin (Seq p (Op x)) (body v i)).

(** The code in [K] is in the allocated part of the data space *)
Definition old_code (K : Z -> Prop) (v : vm) : Prop := forall k, K k -> start (v_ds v) <= k < here (v_ds v).

(** ** Deferred words *)
(** [i] is a deferred word that will execute [xt] *)
Definition deferred (K : Z -> Prop) (ix : prim -> Z) (v : vm) (i xt : Z) : Prop :=
  child K v i (c_defer ix) (ix P_exit) /\ start (v_ds v) < body v i /\ body v i + 8 <= limit (v_ds v) /\
  cell_at (v_ds v) (body v i) xt /\ 0 <= xt < 2 ^ 63.
(** Executing word [i] in the situation of [v], with the data stack [d] and at most [n] cells on the return stack, leaves
    stacks, data space and output as [R] says, keeps the return stack and changes nothing else *)
Definition acts (K : Z -> Prop) (n : Z) (v : vm) (i : Z) (d fs : list Z) (R : list Z -> list Z -> dspace -> option bytes -> Prop) : Prop :=
  forall u rs, stacks_are u d rs fs -> zlen rs <= n -> v_ds u = v_ds v -> v_out u = v_out v -> calm v u ->
    does K u i (fun u' => exists d' fs', R d' fs' (v_ds u') (v_out u') /\ stacks_are u' d' rs fs' /\ calm u u').

(** The loaded system has these words: the names and the compiled definitions *)
Definition allocated (v : vm) (k : Z) : Prop := start (v_ds v) <= k < here (v_ds v).
Definition defining_installed (ix : prim -> Z) (v : vm) : Prop :=
  library ix v /\ let K := allocated v in let x := ix P_exit in
  (exists i, newest v (b "variable"%string) (Some i) /\ colon_word K v i (d_variable ix) x) /\
  (exists i, newest v (b "2variable"%string) (Some i) /\ colon_word K v i (d_two_variable ix) x) /\
  (exists i tc ts tf, newest v (b "2constant"%string) (Some i) /\ defining_word K v i (d_two_constant ix tc) (c_two_constant tf) x /\
     newest v (b "2,"%string) (Some tc) /\ colon_word K v tc (d_two_comma ix ts) x /\ newest v (b "2!"%string) (Some ts) /\ colon_word K v ts (d_two_store ix) x /\
     newest v (b "2@"%string) (Some tf) /\ colon_word K v tf (d_two_fetch ix) x) /\
  (exists i, newest v (b "+field"%string) (Some i) /\ defining_word K v i (d_field ix) (c_field ix) x) /\
  (exists i nop, newest v (b "defer"%string) (Some i) /\ defining_word K v i (d_defer ix nop) (c_defer ix) x /\
     newest v (b "noop"%string) (Some nop) /\ word_is v nop P_noop) /\
  (exists i, newest v (b "defer@"%string) (Some i) /\ colon_word K v i (d_defer_fetch ix) x) /\
  (exists i, newest v (b "defer!"%string) (Some i) /\ colon_word K v i (d_defer_store ix) x).
End V.
