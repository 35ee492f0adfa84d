(** Compiling and interpreting: C59.  The vocabulary is in Spec20. *)
From Coq Require Import ZArith List Bool Lia String.
From Verif Require Import Base Stack Mem Parser Flt State CoreM Exec Boot Std.
From Verif Require Import Spec Spec2 Spec4 Spec5 Spec6 Spec7 Spec9 Spec10 Spec11 Spec15 Spec16 Spec20.
From Verif Require Import LSame4 LSame5 Ex Ex15.
Import ListNotations.
Open Scope list_scope.
Open Scope Z_scope.

(** * C59: compiling a line and running it does what interpreting it does *)

(** Full statement: for every line of numbers and words that neither parse nor touch the return stack, [: x LINE ; x]
    leaves the stacks, the memory below the new definition and the output that LINE leaves.

    Proved: if the words of the line take the configuration [c] (data stack, float stack, writable memory, output) to
    [c'] whatever the return stack and whatever has been defined in the meantime, then both ways of giving the line to the
    interpreter take the machine to [c'] and change nothing else; the name must be new.

    Missing: words that observe HERE, the dictionary or the input, and lines that raise an exception; there the claim is
    false, see the refutations below. *)
Theorem C59_partial {E : Env} : forall U v n items c c' ts nm s cs s2 cs2 rs ic isc,
  waiting U v -> n <= 64 -> chain U v n items c c' -> Forall2 (stands_for v) ts items ->
  shows U c v -> stack_has (t_r (cur v)) rs -> zlen rs < n ->
  tokens s ts -> utf8_text s cs -> zlen s < 2 ^ 63 ->
  tokens s2 (b ":" :: nm :: ts ++ [b ";"; nm]) -> utf8_text s2 cs2 -> zlen s2 < 2 ^ 63 -> newest v nm None ->
  newest v (b ":") (Some ic) -> w_action (word_of v ic) = P_colon -> w_co (word_of v ic) = false ->
  newest v (b ";") (Some isc) -> w_action (word_of v isc) = P_semicolon -> w_imm (word_of v isc) = true ->
  here (v_ds v) + 24 + zlen nm + 24 * zlen items <= limit (v_ds v) ->
  (exists fuel v1, load_str fuel s v = Ok (tt, v1) /\ shows U c' v1 /\ same_apart U v v1 rs) /\
  (exists fuel v2, load_str fuel s2 v = Ok (tt, v2) /\ shows U c' v2 /\ same_apart U v v2 rs).
Proof. exact both_ways. Qed.
Print Assumptions C59_partial.

(** Which words satisfy the premise: the words that only use the data stack, *)
Theorem C59_data_words {E : Env} : forall U v n i p ins (Q : list Z -> Prop) outs d f m o,
  word_is v i p -> effect p ins Q -> (forall l, Q l -> l = outs) -> zlen (outs ++ d) <= 64 -> zlen f <= 64 ->
  takes_to U v n i (Conf (ins ++ d) f m o) (Conf (outs ++ d) f m o).
Proof. exact takes_effect. Qed.
Print Assumptions C59_data_words.
(** the words that only use the data and the float stack, *)
Theorem C59_float_words {E : Env} : forall U v n i p d f d' f' dr fr m o, n <= 64 ->
  word_is v i p -> word_effect p d [] f d' [] f' -> zlen (d' ++ dr) <= 64 -> zlen (f' ++ fr) <= 64 ->
  takes_to U v n i (Conf (d ++ dr) (f ++ fr) m o) (Conf (d' ++ dr) (f' ++ fr) m o).
Proof. exact takes_word_effect. Qed.
Print Assumptions C59_float_words.
(** reading and writing the writable memory, *)
Theorem C59_memory_words {E : Env} : forall (U : Z -> Prop) v n i xa a x d f m o,
  addr_of xa a -> start (v_ds v) < a -> a + 8 <= limit (v_ds v) -> (forall k, U k -> start (v_ds v) <= k) ->
  (forall k, 0 <= k < 8 -> U (a + k)) -> zlen d < 64 -> zlen f <= 64 ->
  (word_is v i P_fetch -> is_cell x -> (forall k, 0 <= k < 8 -> m (a + k) = x / 256 ^ k mod 256) ->
     takes_to U v n i (Conf (xa :: d) f m o) (Conf (x :: d) f m o)) /\
  (word_is v i P_store -> takes_to U v n i (Conf (xa :: x :: d) f m o) (Conf d f (put_bytes m a 8 x) o)) /\
  (word_is v i P_c_fetch -> takes_to U v n i (Conf (xa :: d) f m o) (Conf (m a :: d) f m o)) /\
  (word_is v i P_c_store -> takes_to U v n i (Conf (xa :: x :: d) f m o) (Conf d f (put_bytes m a 1 x) o)).
Proof. exact takes_memory. Qed.
Print Assumptions C59_memory_words.
(** created words, constants, EMIT, *)
Theorem C59_other_words {E : Env} : forall (U : Z -> Prop) v n i d f m o, zlen d < 64 -> zlen f <= 64 ->
  (word_is v i P_p_var -> 0 <= body v i < 2 ^ 63 -> takes_to U v n i (Conf d f m o) (Conf (body v i :: d) f m o)) /\
  (forall x, constant_is v i x -> is_cell x -> body v i + 8 <= here (v_ds v) -> (forall k, 0 <= k < 8 -> ~ U (body v i + k)) ->
     takes_to U v n i (Conf d f m o) (Conf (x :: d) f m o)) /\
  (forall x, word_is v i P_emit -> 0 <= x < 128 ->
     takes_to U v n i (Conf (x :: d) f m o) (Conf d f m (match o with Some t => Some (t ++ [x]) | None => None end))).
Proof. exact takes_other. Qed.
Print Assumptions C59_other_words.
(** and the colon definitions made of such words. *)
Theorem C59_colon_words {E : Env} : forall (U : Z -> Prop) v n i x items c c',
  ds_ok (v_ds v) -> n < 64 -> (forall k, U k -> start (v_ds v) <= k) -> here (v_ds v) <= limit (v_ds v) ->
  colon_word (fun a => start (v_ds v) <= a < here (v_ds v) /\ ~ U a) v i (seqs items) x -> chain U v (n + 1) items c c' ->
  takes_to U v n i c c'.
Proof. exact takes_colon. Qed.
Print Assumptions C59_colon_words.

(** On the loaded system with a variable: 5 cnt ! cnt @ dup * 1 + 65 emit stores 5, leaves 26 and prints A, either way *)
Example C59_case : waiting U0 var_d /\
  chain U0 var_d 64 items59 (Conf [] [] (byte_at (v_ds var_d)) (v_out var_d)) (Conf [26] [] (put_bytes (byte_at (v_ds var_d)) A0 8 5) (Some [65])) /\
  stands59 var_d /\ tokens text59 line59 /\ tokens text59c (b ":" :: b "nine" :: line59 ++ [b ";"; b "nine"]) /\
  utf8_text text59 text59 /\ zlen text59 < 2 ^ 63 /\ utf8_text text59c text59c /\ zlen text59c < 2 ^ 63.
Proof.
  split; [exact var_d_waiting|]. split; [exact var_d_chain|]. split; [exact var_d_stands|]. split; [exact text59_tokens|]. split; [exact text59c_tokens|]. exact text59_utf8.
Qed.

(** The claim fails for words that observe where code is compiled: HERE is neither a parsing word nor does it touch the
    return stack, but a definition takes memory *)
Theorem C59_here_refuted : exists v1 v2 : @vm env_d,
  load_str 3000 (b "here") booted_d = Ok (tt, v1) /\ stack_has (t_s (cur v1)) [76760] /\ v_err v1 = None /\ v_out v1 = Some [] /\
  load_str 3000 (b ": x here ; x") booted_d = Ok (tt, v2) /\ stack_has (t_s (cur v2)) [76792] /\ v_err v2 = None /\ v_out v2 = Some [].
Proof. exact here_differs. Qed.
Print Assumptions C59_here_refuted.

(** It fails for lines that empty the stack too far: stacks are checked after every token of the text, not between the
    words of a definition, so that the compiled line prints an A before the underflow is found *)
Theorem C59_underflow_refuted : exists v1 v2 : @vm env_d,
  load_str 3000 (b "drop 65 emit") booted_d = Ok (tt, v1) /\ stack_has (t_s (cur v1)) [] /\ v_err v1 = Some (-4) /\ v_out v1 = Some [] /\
  load_str 3000 (b ": x drop 65 emit ; x") booted_d = Ok (tt, v2) /\ stack_has (t_s (cur v2)) [] /\ v_err v2 = Some (-4) /\ v_out v2 = Some [65].
Proof. exact error_differs. Qed.
Print Assumptions C59_underflow_refuted.
