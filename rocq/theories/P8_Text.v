(** Words, delimited text and numbers: C33 - C37, C39, C61. *)
From Coq Require Import ZArith List Bool Lia String.
From Verif Require Import Base Stack Mem Parser Flt State CoreM Exec Boot Std.
From Verif Require Import Spec Spec4 Spec5 Spec6 Spec9 Spec10 Spec11 LNum2 LParse LText Ex Ex2 Ex6 Ex7.
Import ListNotations.
Open Scope list_scope.
Open Scope Z_scope.

(** * C33: parsing words is exactly splitting at blanks *)

(** One word: the token becomes the first word of the rest of the input (the empty token if there is
    none), nothing else changes, and the rest is then the text after that word. *)
Theorem C33_next_word {E : Env} : forall v s cs ts,
  rest_of_input v s -> utf8_text s cs -> v_tkn v <> None -> tokens s ts -> forall fuel,
  exists n r cs' v', quiet fuel P_parse_word v v' /\ token_read v (hd [] ts) n v' /\ st_idx (st v) <= n /\
    rest_of_input v' r /\ utf8_text r cs' /\ tokens r (tl ts).
Proof. exact next_word. Qed.
Print Assumptions C33_next_word.

(** Any number of words: all words in order, then empty tokens *)
Theorem C33_words {E : Env} : forall n v s cs ts,
  rest_of_input v s -> utf8_text s cs -> v_tkn v <> None -> tokens s ts ->
  exists v', next_words n v = Ok (map (fun i => nth i ts []) (seq 0 n), v').
Proof. exact next_words_ok. Qed.
Print Assumptions C33_words.

(** Every text has exactly one list of words *)
Theorem C33_one_reading : forall s cs, utf8_text s cs -> exists ts, tokens s ts /\ forall ts', tokens s ts' -> ts' = ts.
Proof. exact one_reading. Qed.
Print Assumptions C33_one_reading.

Example C33_example : (* a line with three words, one of them not ASCII *)
  exists v', next_words 5 (tx line1) = Ok ([b "dup"; [206; 187; 120]; b "1+"; []; []], v').
Proof. exact (C33_words 5 (tx line1) line1 line1_cs words1 tx1_rest line1_utf8 (tx_tkn line1) line1_tokens). Qed.

(** * C34: PARSE and comments *)
Theorem C34_parse {E : Env} : forall v s cs d l,
  rest_of_input v s -> utf8_text s cs -> v_tkn v <> None -> stack_has (t_s (cur v)) (d :: l) -> forall fuel,
  exists t r v1 v', text_upto d s t r /\ quiet fuel P_parse v v' /\ only_data_stack v v1 /\ stack_has (t_s (cur v1)) l /\
    token_read v1 t (st_idx (st v) + (zlen s - zlen r)) v' /\ rest_of_input v' r.
Proof. exact parse_text. Qed.
Print Assumptions C34_parse.

(** ( and \ are PARSE with the delimiters ) and newline *)
Theorem C34_comments {E : Env} : forall v s cs d w l,
  rest_of_input v s -> utf8_text s cs -> v_tkn v <> None -> stack_has (t_s (cur v)) l -> zlen l < 255 ->
  In (w, d) [(P_imm_paren, 41); (P_imm_backslash, 10)] -> forall fuel,
  exists t r v1 v', text_upto d s t r /\ quiet fuel w v v' /\ only_data_stack1 v v1 /\ stack_has (t_s (cur v1)) l /\
    token_read v1 t (st_idx (st v) + (zlen s - zlen r)) v' /\ rest_of_input v' r.
Proof. exact comment_text. Qed.
Print Assumptions C34_comments.

(** The delimited text is determined by the input and the delimiter *)
Theorem C34_determined : forall d s t r t' r', text_upto d s t r -> text_upto d s t' r' -> t = t' /\ r = r'.
Proof. exact upto_unique. Qed.
Print Assumptions C34_determined.

Example C34_example : (* the comment ends at the first x, in the middle of the line *)
  exists v1 v', quiet 0 P_parse (set_s (push (t_s (cur (tx line1))) 120) (tx line1)) v' /\
    token_read v1 (b "  dup " ++ [206; 187]) 9 v' /\ rest_of_input v' ([9] ++ b "1+ ").
Proof. exact ex_parse. Qed.

(** * C35: numbers *)

(** A token that is an integer and not a word pushes its value *)
Theorem C35_interpreted {E : Env} : forall fuel v tok x l,
  dict_ok v -> words v < Z.of_nat fuel -> v_tkn v = Some tok -> newest v tok None ->
  st_compiling (st v) = false -> integer_token v tok x -> stack_has (t_s (cur v)) l -> zlen l < 255 ->
  exists v', quiet fuel P_interpret_token v v' /\ stack_has (t_s (cur v')) (x :: l) /\ only_data_stack (set_v_err None v) v'.
Proof. exact interpret_integer. Qed.
Print Assumptions C35_interpreted.

(** or compiles a literal *)
Theorem C35_compiled {E : Env} : forall fuel v tok x l n,
  dict_ok v -> words v < Z.of_nat fuel -> v_tkn v = Some tok -> newest v tok None ->
  st_compiling (st v) = true -> integer_token v tok x -> is_cell x -> can_compile l n v -> here (v_ds v) + 16 <= limit (v_ds v) ->
  exists v', quiet fuel P_compile_token v v' /\ v_err v' = None /\ v_tkn v' = Some tok /\ compiled (Num x) (set_v_err None v) v'.
Proof. exact compile_integer_token. Qed.
Print Assumptions C35_compiled.

(** Any other token that is not a word is rejected as an integer: if it is not a float literal either,
    it is refused with exception -13 (this is also the first half of C39). *)
Theorem C35_refused {E : Env} : forall fuel v tok,
  dict_ok v -> words v < Z.of_nat fuel -> v_tkn v = Some tok -> newest v tok None ->
  no_integer v tok -> (forall s i f es x, ~ float_text s i f es x tok) ->
  exists v1, raised (-13) v v1 /\ forall ew,
    exec_prim fuel ew P_interpret_token v = ew (v_handler v) v1 /\ exec_prim fuel ew P_compile_token v = ew (v_handler v) v1.
Proof. exact token_refused. Qed.
Print Assumptions C35_refused.

Example C35_example : (* $-fF is -255 *)
  exists v', quiet 400 P_interpret_token (bt (b "$-fF")) v' /\ stack_has (t_s (cur v')) [-255] /\ only_data_stack (set_v_err None (bt (b "$-fF"))) v'.
Proof. exact ex_hex. Qed.
Example C35_refused_example : (* 12x *)
  exists v1, raised (-13) (bt (b "12x")) v1 /\ forall ew, exec_prim 400 ew P_interpret_token (bt (b "12x")) = ew 0 v1.
Proof. exact ex_refused. Qed.

(** * C36: printing and reading are inverse *)

(** .R appends the number, padded with blanks to the width [w]; the appended text is one word, and
    interpreting this word in the same base pushes [n] again, whatever is on the stack. *)
Theorem C36_round_trip {E : Env} : forall fuel v b n w l o,
  In b [2; 8; 10; 16] -> base_is v b -> is_cell n -> - 2 ^ 63 + 65 <= w < 2 ^ 63 ->
  v_out v = Some o -> stack_has (t_s (cur v)) (w :: n :: l) ->
  exists k t v1 v', 0 <= k /\ k + zlen t = Z.max w (zlen t) /\ tokens (repeat 32 (Z.to_nat k) ++ t) [t] /\
    quiet fuel P_dot_r v v' /\ only_data_stack v v1 /\ stack_has (t_s (cur v1)) l /\
    v' = set_v_out (Some (o ++ repeat 32 (Z.to_nat k) ++ t)) (set_v_hld t v1) /\
    (forall u m, dict_ok u -> words u < Z.of_nat fuel -> v_tkn u = Some t -> newest u t None -> st_compiling (st u) = false -> base_is u b ->
       stack_has (t_s (cur u)) m -> zlen m < 255 ->
       exists u', quiet fuel P_interpret_token u u' /\ stack_has (t_s (cur u')) (n :: m) /\ only_data_stack (set_v_err None u) u').
Proof. exact round_trip. Qed.
Print Assumptions C36_round_trip.

Example C36_example : (* the smallest cell, in a field of 25 characters *)
  exists v', quiet 400 P_dot_r (set_v_out (Some []) (set_s (push_all (t_s (cur booted_d)) [25; - 2 ^ 63]) booted_d)) v' /\ v_out v' = Some (b "     -9223372036854775808").
Proof. exact ex_dot_r. Qed.

(** Not every width works: in a debug build a field width near the smallest cell overflows *)
Theorem C36_all_widths_refuted : exists (v : @vm env_d) n w, is_cell n /\ is_cell w /\ base_is v 10 /\ v_out v = Some [] /\ stack_has (t_s (cur v)) [w; n] /\
  forall fuel ew, exec_prim fuel ew P_dot_r v = Panic POverflow.
Proof. exact ex_dot_r_refuted. Qed.
Print Assumptions C36_all_widths_refuted.

(** * C37: a token without a digit can be accepted as an integer *)
Theorem C37_refuted : exists (v v' : @vm env_d) tok,
  v_tkn v = Some tok /\ no_digits tok /\ ~ quoted tok /\ newest v tok None /\ dict_ok v /\ stack_has (t_s (cur v)) [] /\
  quiet 400 P_interpret_token v v' /\ stack_has (t_s (cur v')) [0].
Proof. exact ex_no_digits. Qed.
Print Assumptions C37_refuted.

(** Only the tokens that consist of a prefix and a sign, and quoted characters, are *)
Theorem C37_digits_needed_partial {E : Env} : forall fuel v tok b,
  dict_ok v -> words v < Z.of_nat fuel -> v_tkn v = Some tok -> newest v tok None -> base_is v b ->
  no_digits tok -> ~ digitless b tok -> ~ quoted tok ->
  exists v1, raised (-13) v v1 /\ forall ew,
    exec_prim fuel ew P_interpret_token v = ew (v_handler v) v1 /\ exec_prim fuel ew P_compile_token v = ew (v_handler v) v1.
Proof. exact no_digits_refused. Qed.
Print Assumptions C37_digits_needed_partial.

(** * C39: compile-only words (the other half is C35_refused) *)
Theorem C39_unknown {E : Env} : forall fuel v tok,
  dict_ok v -> words v < Z.of_nat fuel -> v_tkn v = Some tok -> newest v tok None ->
  no_integer v tok -> (forall s i f es x, ~ float_text s i f es x tok) ->
  exists v1, raised (-13) v v1 /\ forall ew,
    exec_prim fuel ew P_interpret_token v = ew (v_handler v) v1 /\ exec_prim fuel ew P_compile_token v = ew (v_handler v) v1.
Proof. exact token_refused. Qed.
Print Assumptions C39_unknown.

Theorem C39_compile_only {E : Env} : forall fuel v tok i,
  dict_ok v -> words v < Z.of_nat fuel -> v_tkn v = Some tok -> newest v tok (Some i) -> w_co (word_of v i) = true ->
  exists v1, raised (-14) v v1 /\ forall ew, exec_prim fuel ew P_interpret_token v = ew (v_handler v) v1.
Proof. exact compile_only_refused. Qed.
Print Assumptions C39_compile_only.

Example C39_example : (* IF while interpreting *)
  exists v1, raised (-14) (bt (b "IF")) v1 /\ forall ew, exec_prim 400 ew P_interpret_token (bt (b "IF")) = ew 0 v1.
Proof. exact ex_if. Qed.

(** * C61: float literals *)

(** A literal whose exponent does not fit in 32 bits is misread: 1e4294967296 is 1.0 *)
Theorem C61_refuted : exists (v v' : @vm env_d) tok x,
  float_text 1 [1] None 1 x tok /\ positional 10 x = 2 ^ 32 /\ v_tkn v = Some tok /\ newest v tok None /\ dict_ok v /\ stack_has (t_f (cur v)) [] /\
  quiet 400 P_interpret_token v v' /\ stack_has (t_f (cur v')) [4607182418800017408].
Proof. exact ex_huge. Qed.
Print Assumptions C61_refuted.

(** Otherwise the literal is evaluated as documented, in double precision with every operation rounded.
    Missing for the full claim: that the result is the correctly rounded value (10^n is computed by the
    platform, and there are up to five roundings). *)
Theorem C61_value_partial {E : Env} : forall fuel v tok s i f es x l,
  dict_ok v -> words v < Z.of_nat fuel -> v_tkn v = Some tok -> newest v tok None -> no_integer v tok ->
  st_compiling (st v) = false -> idx_flit (v_refs v) <> 0 -> float_text s i f es x tok -> stack_has (t_f (cur v)) l -> zlen l < 255 ->
  - 2 ^ 31 <= es * positional 10 x < 2 ^ 31 ->
  let y := fmul (fmul (f_of_Z s false) (fadd (f_of_Z (positional 10 i) false)
             (match f with Some ds => fdiv (f_of_Z (positional 10 ds) false) (l_powi F_TEN (zlen ds)) | None => F_ZERO end)))
             (l_powi F_TEN (es * positional 10 x)) in
  exists v', quiet fuel P_interpret_token v v' /\ stack_has (t_f (cur v')) (y :: l) /\
    v' = set_v_tkn (Some tok) (set_f (push (t_f (cur v)) y) (set_v_err None v)).
Proof. exact float_literal. Qed.
Print Assumptions C61_value_partial.

Example C61_example : (* -1.25E1 is -12.5 *)
  exists v', quiet 400 P_interpret_token (bt (b "-1.25E1")) v' /\ stack_has (t_f (cur v')) [13846598529327300608].
Proof. exact ex_float. Qed.
