(** Defining words: C57, C58.  The vocabulary is in Spec16. *)
From Coq Require Import ZArith List Bool Lia String.
From Verif Require Import Base Stack Mem Parser Flt State CoreM Exec Boot Std.
From Verif Require Import Spec Spec2 Spec4 Spec5 Spec7 Spec9 Spec10 Spec11 Spec15 Spec16.
From Verif Require Import LLib LLibWords LDefine LDefine2 Ex Ex10 Ex11.
Import ListNotations.
Open Scope list_scope.
Open Scope Z_scope.
Open Scope m_scope.

(** * C57: created words, constants, variables and DOES> *)

(** CREATE takes the next word of the input, adds a word of that name and leaves everything older as it was; the body of
    the new word is the next free address *)
Theorem C57_create {E : Env} : forall fuel v t,
  next_is v t -> dict_ok v -> words v < Z.of_nat fuel -> room_for v t 0 ->
  exists v', quiet fuel P_create v v' /\ makes P_p_var t v v' /\ same_stacks v v' /\
    here (v_ds v') = body v' (words v) /\ st_ip (st v') = st_ip (st v).
Proof. exact create_ok. Qed.
Print Assumptions C57_create.

(** CONSTANT takes the value from the stack as well *)
Theorem C57_constant {E : Env} : forall fuel v t x l,
  next_is v t -> dict_ok v -> words v < Z.of_nat fuel -> room_for v t 8 -> v_err v = None ->
  stack_has (t_s (cur v)) (x :: l) ->
  exists v', quiet fuel P_constant v v' /\ makes P_p_const t v v' /\ same_stacks (drop_s 1 v) v' /\
    constant_is v' (words v) x /\ here (v_ds v') = body v' (words v) + 8.
Proof. exact constant_ok. Qed.
Print Assumptions C57_constant.

(** A constant pushes its value, whatever is defined and whatever happens elsewhere after its definition *)
Theorem C57_constant_forever {E : Env} : forall fuel v v' i x,
  dict_ok v -> constant_is v i x -> body v i + 8 <= here (v_ds v) -> is_cell x ->
  history fuel i 8 v v' -> constant_is v' i x /\ pushes v' i x.
Proof. exact constant_forever. Qed.
Print Assumptions C57_constant_forever.

(** A created word pushes the address of its body, and that address never changes *)
Theorem C57_created_forever {E : Env} : forall fuel v v' i,
  dict_ok v -> word_is v i P_p_var -> start (v_ds v) <= body v i <= here (v_ds v) ->
  history fuel i 0 v v' -> body v' i = body v i /\ pushes v' i (body v i).
Proof. exact created_forever. Qed.
Print Assumptions C57_created_forever.

(** Of two words the body of the later one is above everything that was allotted before its definition, in particular
    above all the data of the earlier one *)
Theorem C57_bodies_disjoint {E : Env} : forall a a' t t' v0 v1 v2 v3,
  0 <= words v0 -> makes a t v0 v1 -> older_kept v1 v2 -> makes a' t' v2 v3 ->
  body v3 (words v0) = body v1 (words v0) /\ here (v_ds v2) < body v3 (words v2).
Proof. exact bodies_disjoint. Qed.
Print Assumptions C57_bodies_disjoint.

(** In the loaded system the names have the definitions in Spec16, in both builds *)
Theorem C57_installed : exists ix, @defining_installed env_d ix booted_d /\ @defining_installed env_r ix booted_r.
Proof. exact (ex_intro _ ix0 (conj booted_defining booted_defining_r)). Qed.
Print Assumptions C57_installed.

(** VARIABLE: a created word with one cell, which is 0 *)
Theorem C57_variable {E : Env} : forall (K : Z -> Prop) ix v i t d rs fs,
  library ix v -> colon_word K v i (d_variable ix) (ix P_exit) -> old_code K v ->
  next_is v t -> dict_ok v -> room_for v t 8 -> stacks_are v d rs fs -> zlen d < 255 -> zlen rs < 255 ->
  does K v i (fun v' => makes P_p_var t v v' /\ stacks_are v' d rs fs /\
    cell_at (v_ds v') (body v' (words v)) 0 /\ here (v_ds v') = body v' (words v) + 8).
Proof. exact variable_does. Qed.
Print Assumptions C57_variable.

Theorem C57_two_variable {E : Env} : forall (K : Z -> Prop) ix v i t d rs fs,
  library ix v -> colon_word K v i (d_two_variable ix) (ix P_exit) -> old_code K v ->
  next_is v t -> dict_ok v -> room_for v t 16 -> stacks_are v d rs fs -> zlen d < 255 -> zlen rs < 255 ->
  does K v i (fun v' => makes P_p_var t v v' /\ stacks_are v' d rs fs /\
    cell_at (v_ds v') (body v' (words v)) 0 /\ cell_at (v_ds v') (body v' (words v) + 8) 0 /\
    here (v_ds v') = body v' (words v) + 16).
Proof. exact two_variable_does. Qed.
Print Assumptions C57_two_variable.

(** A defining word whose body [p] creates a word and ends with what DOES> compiles: the new word is a child with the
    code [c] that follows *)
Theorem C57_does {E : Env} : forall (K : Z -> Prop) v i p c x d rs fs t (R : list Z -> dspace -> Z -> Prop),
  defining_word K v i p c x -> next_is v t -> old_code K v -> dict_ok v -> room_for v t 0 ->
  stacks_are v d rs fs -> zlen rs < 255 ->
  (forall r w, alike v w -> stacks_are w d (r :: rs) fs -> next_is w t -> forall a, holds K w p a ->
     exists w', part K w a w' (fin p a) /\ exists d', R d' (v_ds w') (body w' (words v)) /\
       w_doer (word_of w' (words v)) = fin p a + 8 /\ makes P_xdoes t w w' /\ stacks_are w' d' (r :: rs) fs) ->
  does K v i (fun v' => exists d', R d' (v_ds v') (body v' (words v)) /\ makes P_xdoes t v v' /\
    child K v' (words v) c x /\ stacks_are v' d' rs fs).
Proof. exact defining_does. Qed.
Print Assumptions C57_does.

(** A child pushes the address of its body and then performs the shared code, returning to its caller *)
Theorem C57_child {E : Env} : forall (K : Z -> Prop) v i p x d rs fs (R : list Z -> dspace -> option bytes -> Prop),
  child K v i p x -> stacks_are v d rs fs -> zlen d < 255 -> zlen rs < 255 ->
  (forall r u, stacks_are u (body v i :: d) (r :: rs) fs /\ v_ds u = v_ds v /\ v_out u = v_out v /\ calm v u ->
     runs K p (fun v' => exists d' m o, R d' m o /\ stacks_are v' d' (r :: rs) fs /\ v_ds v' = m /\ v_out v' = o /\ calm v v') u) ->
  does K v i (fun v' => exists d' m o, R d' m o /\ stacks_are v' d' rs fs /\ v_ds v' = m /\ v_out v' = o /\ calm v v').
Proof. exact child_lib. Qed.
Print Assumptions C57_child.

(** 2CONSTANT and its children *)
Theorem C57_two_constant {E : Env} : forall (K : Z -> Prop) ix tc ts tf v i t d rs fs x y,
  library ix v -> defining_word K v i (d_two_constant ix tc) (c_two_constant tf) (ix P_exit) ->
  colon_word K v tc (d_two_comma ix ts) (ix P_exit) -> colon_word K v ts (d_two_store ix) (ix P_exit) -> old_code K v ->
  next_is v t -> dict_ok v -> room_for v t 24 -> stacks_are v (x :: y :: d) rs fs -> zlen d <= 230 -> zlen rs <= 230 ->
  does K v i (fun v' => makes P_xdoes t v v' /\ child K v' (words v) (c_two_constant tf) (ix P_exit) /\
    cell_at (v_ds v') (body v' (words v)) x /\ cell_at (v_ds v') (body v' (words v) + 8) y /\
    stacks_are v' d rs fs /\ here (v_ds v') = body v' (words v) + 24).
Proof. exact two_constant_does. Qed.
Print Assumptions C57_two_constant.

Theorem C57_two_constant_pushes {E : Env} : forall (K : Z -> Prop) ix tf v i d rs fs x y,
  library ix v -> child K v i (c_two_constant tf) (ix P_exit) -> colon_word K v tf (d_two_fetch ix) (ix P_exit) -> ds_ok (v_ds v) ->
  start (v_ds v) < body v i -> body v i + 16 <= limit (v_ds v) ->
  cell_at (v_ds v) (body v i) x -> cell_at (v_ds v) (body v i + 8) y -> is_cell x -> is_cell y ->
  stacks_are v d rs fs -> zlen d <= 230 -> zlen rs <= 230 ->
  does K v i (fun v' => stacks_are v' (x :: y :: d) rs fs /\ v_ds v' = v_ds v /\ v_out v' = v_out v /\ calm v v').
Proof. exact two_constant_child. Qed.
Print Assumptions C57_two_constant_pushes.

(** +FIELD leaves the next offset; its children add their own *)
Theorem C57_field {E : Env} : forall (K : Z -> Prop) ix v i t d rs fs n k,
  library ix v -> defining_word K v i (d_field ix) (c_field ix) (ix P_exit) -> old_code K v ->
  next_is v t -> dict_ok v -> room_for v t 16 -> stacks_are v (k :: n :: d) rs fs -> zlen d < 250 -> zlen rs < 255 ->
  is_cell n -> is_cell k ->
  does K v i (fun v' => exists s, wraps_to (n + k) s /\ makes P_xdoes t v v' /\ child K v' (words v) (c_field ix) (ix P_exit) /\
    cell_at (v_ds v') (body v' (words v)) n /\ stacks_are v' (s :: d) rs fs /\ here (v_ds v') = body v' (words v) + 16).
Proof. exact field_does. Qed.
Print Assumptions C57_field.

Theorem C57_field_adds {E : Env} : forall (K : Z -> Prop) ix v i d rs fs n a,
  library ix v -> child K v i (c_field ix) (ix P_exit) -> ds_ok (v_ds v) ->
  start (v_ds v) < body v i -> body v i + 8 <= limit (v_ds v) -> cell_at (v_ds v) (body v i) n -> is_cell n -> is_cell a ->
  stacks_are v (a :: d) rs fs -> zlen d < 250 -> zlen rs < 255 ->
  does K v i (fun v' => exists s, wraps_to (a + n) s /\ stacks_are v' (s :: d) rs fs /\
    v_ds v' = v_ds v /\ v_out v' = v_out v /\ calm v v').
Proof. exact field_child. Qed.
Print Assumptions C57_field_adds.

Example C57_example : (* the loaded system with two cells and a name in the input, and lines of source *)
  def_ready [7; 8] (nd [7; 8]) /\
  after "variable x 5 x ! 3 constant k variable y 6 y ! create z 1 , 2 , x @ y @ k z @ z 8 + @ x y <" = Some [-1; 2; 1; 3; 6; 5] /\
  after "1 2 2constant pair 0 8 +field .a 16 +field .b pair 100 .a 100 .b" = Some [108; 100; 2; 1; 24] /\
  after ": array create cells allot does> swap cells + ; 3 array p 3 array q 1 0 p ! 2 2 p ! 5 0 q ! 6 2 q ! 0 p @ 2 p @ 0 q @ 2 q @" = Some [6; 5; 2; 1].
Proof. split; [apply nd_ready; vm_compute; reflexivity|]. repeat split; vm_compute; reflexivity. Qed.

(** * C58: deferred words *)

(** DEFER makes a word that executes NOOP *)
Theorem C58_new {E : Env} : forall (K : Z -> Prop) ix nop v i t d rs fs,
  library ix v -> word_is v nop P_noop -> defining_word K v i (d_defer ix nop) (c_defer ix) (ix P_exit) -> old_code K v ->
  next_is v t -> dict_ok v -> room_for v t 16 -> stacks_are v d rs fs -> zlen d < 250 -> zlen rs < 255 -> words v < 2 ^ 63 ->
  does K v i (fun v' => makes P_xdoes t v v' /\ deferred K ix v' (words v) nop /\ stacks_are v' d rs fs /\
    here (v_ds v') = body v' (words v) + 16).
Proof. exact defer_does. Qed.
Print Assumptions C58_new.

(** A deferred word acts as the word installed in it *)
Theorem C58_dispatch {E : Env} : forall (K : Z -> Prop) ix v i xt n d fs R,
  library ix v -> deferred K ix v i xt -> ds_ok (v_ds v) -> zlen d < 255 -> n < 255 ->
  acts K n v xt d fs R -> acts K (n - 1) v i d fs R.
Proof. exact deferred_acts. Qed.
Print Assumptions C58_dispatch.

(** For instance: the built-in words with an [effect] (Spec) act like this *)
Theorem C58_builtin {E : Env} : forall (K : Z -> Prop) p ins (Q : list Z -> Prop) v i rest fs n,
  effect p ins Q -> word_is v i p -> (forall outs, Q outs -> zlen (outs ++ rest) <= 255) ->
  acts K n v i (ins ++ rest) fs (fun d' fs' m o => (exists outs, Q outs /\ d' = outs ++ rest) /\ fs' = fs /\ m = v_ds v /\ o = v_out v).
Proof. exact acts_effect. Qed.
Print Assumptions C58_builtin.

(** DEFER! installs a word, and changes nothing else *)
Theorem C58_store {E : Env} : forall (K : Z -> Prop) ix v j i xt xt' d rs fs,
  library ix v -> colon_word K v j (d_defer_store ix) (ix P_exit) -> deferred K ix v i xt -> ds_ok (v_ds v) ->
  free_of K v (body v i) 8 -> 0 <= xt' < 2 ^ 63 -> stacks_are v (i :: xt' :: d) rs fs -> zlen rs < 255 -> i < 2 ^ 63 ->
  does K v j (fun v' => deferred K ix v' i xt' /\ stacks_are v' d rs fs /\
    same_memory_but (v_ds v) (v_ds v') (body v i) 8 /\ v_out v' = v_out v /\ calm v v').
Proof. exact defer_store_does. Qed.
Print Assumptions C58_store.

(** DEFER@ gives the word installed *)
Theorem C58_fetch {E : Env} : forall (K : Z -> Prop) ix v j i xt d rs fs,
  library ix v -> colon_word K v j (d_defer_fetch ix) (ix P_exit) -> deferred K ix v i xt -> ds_ok (v_ds v) ->
  stacks_are v (i :: d) rs fs -> zlen rs < 255 -> i < 2 ^ 63 ->
  does K v j (fun v' => stacks_are v' (xt :: d) rs fs /\ v_ds v' = v_ds v /\ v_out v' = v_out v /\ calm v v').
Proof. exact defer_fetch_does. Qed.
Print Assumptions C58_fetch.

(** Until DEFER! is used again, or its cell or the code written to, a deferred word keeps what was installed *)
Theorem C58_kept {E : Env} : forall (K : Z -> Prop) ix v u i xt,
  v_wl u = v_wl v -> kept K v u ->
  (forall k, 0 <= k < 8 -> byte_at (v_ds u) (body v i + k) = byte_at (v_ds v) (body v i + k)) ->
  deferred K ix v i xt -> deferred K ix u i xt.
Proof. exact deferred_kept. Qed.
Print Assumptions C58_kept.

Example C58_example : (* the loaded system with a name in the input, and lines of source *)
  def_ready [] (nd []) /\
  after "defer f f ' dup ' f defer! 3 f ' drop ' f defer! f ' f defer@ ' drop = : twice f f ; ' 1+ ' f defer! 5 twice" = Some [7; -1; 3] /\
  after "defer f defer g ' f ' g defer! ' negate ' f defer! 4 g" = Some [-4].
Proof. split; [apply nd_ready; vm_compute; reflexivity|]. repeat split; vm_compute; reflexivity. Qed.
