(** Printing, text and literal words defined in core.fth: C81 - C84. *)
From Coq Require Import ZArith List Bool Lia String.
From Verif Require Import Base Stack Mem Parser Flt State CoreM IoM Exec Boot Std.
From Verif Require Import Spec Spec2 Spec4 Spec5 Spec7 Spec10 Spec15 Spec16 Spec21 Spec24 Spec25 LPrint LPrint2 LPrint3 LPrint4 Ex10 Ex18 Ex19.
Import ListNotations.
Open Scope list_scope.
Open Scope Z_scope.

(** * C81: numbers printed by the words of core.fth *)

(** . prints the number in the current base and a space *)
Theorem C81_dot {E : Env} : forall n b sp,
  is_cell n -> lib_run 240 (fun ix => d_dot ix sp) [n] []
  (fun K ix v => in_base b v /\ lib_word d_space sp K ix v)
  (fun v outs fouts m text => outs = [] /\ fouts = [] /\ m = v_ds v /\ exists t, written b n t /\ text = t ++ [32]).
Proof. exact dot_run. Qed.
Print Assumptions C81_dot.

(** ? prints the cell at an address *)
Theorem C81_question {E : Env} : forall a n b dot sp,
  is_cell n -> lib_run 235 (fun ix => d_question ix dot) [a] []
  (fun K ix v => in_base b v /\ lib_word d_space sp K ix v /\ lib_word (fun ix => d_dot ix sp) dot K ix v /\
     start (v_ds v) < a /\ a + 8 <= limit (v_ds v) /\ cell_at (v_ds v) a n)
  (fun v outs fouts m text => outs = [] /\ fouts = [] /\ m = v_ds v /\ exists t, written b n t /\ text = t ++ [32]).
Proof. exact question_run. Qed.
Print Assumptions C81_question.

(** f. prints a float with seven digits after the point and a space *)
Theorem C81_f_dot {E : Env} : forall x sp,
  zlen (fmt_f64 7 x) < 2 ^ 63 -> lib_run 240 (fun ix => d_fdot ix sp) [] [x]
  (fun K ix v => lib_word d_space sp K ix v)
  (fun v outs fouts m text => outs = [] /\ fouts = [] /\ m = v_ds v /\ text = fmt_f64 7 x ++ [32]).
Proof. exact fdot_run. Qed.
Print Assumptions C81_f_dot.

(** hex and decimal set BASE and change nothing else *)
Theorem C81_base {E : Env} : forall n d,
  d = d_hex /\ n = 16 \/ d = d_decimal /\ n = 10 -> lib_run 240 d [] []
  (fun K ix v => free_of K v (base_addr (v_ds v)) 8)
  (fun v outs fouts m text => outs = [] /\ fouts = [] /\ text = [] /\ base_set v m n).
Proof. exact base_run. Qed.
Print Assumptions C81_base.

(** h. prints in hexadecimal whatever BASE is, and leaves BASE as it was *)
Theorem C81_h_dot {E : Env} : forall n b hex dot sp,
  is_cell n -> lib_run 230 (fun ix => d_hdot ix hex dot) [n] []
  (fun K ix v => base_cell b K v /\ lib_word d_space sp K ix v /\ lib_word (fun ix => d_dot ix sp) dot K ix v /\ lib_word d_hex hex K ix v)
  (fun v outs fouts m text => outs = [] /\ fouts = [] /\ same_data (v_ds v) m /\ exists t, written 16 n t /\ text = t ++ [32]).
Proof. exact hdot_run. Qed.
Print Assumptions C81_h_dot.

(** h.r prints in hexadecimal, right-aligned, and leaves BASE as it was *)
Theorem C81_h_dot_r {E : Env} : forall n b (w0 : Z) hex,
  is_cell n -> - 2 ^ 63 + 65 <= w0 < 2 ^ 63 -> lib_run 235 (fun ix => d_hdot_r ix hex) [w0; n] []
  (fun K ix v => base_cell b K v /\ lib_word d_hex hex K ix v)
  (fun v outs fouts m text => outs = [] /\ fouts = [] /\ same_data (v_ds v) m /\ exists t, written 16 n t /\ text = field w0 t).
Proof. exact hdot_r_run. Qed.
Print Assumptions C81_h_dot_r.

(** the booted machines have these words *)
Example C81_installed : @printing_installed env_d nums ix0 booted_d /\ @printing_installed env_r nums ix0 booted_r.
Proof. exact (conj booted_printing booted_printing_r). Qed.
(** and meet the hypotheses *)
Example C81_case : print_ready [255; 3] /\ is_cell 255.
Proof. exact (conj (print_ready_all [255; 3] eq_refl) cell_255). Qed.
Example C81_lines : ends "-7 . 255 h. 255 5 h.r 255 hex . decimal 10 . variable x 42 x ! x ?" [] None (b "-7 FF    FFFF 10 42 ") /\
  ends "1.5e 0.5e f> 0.5e 1.5e f>" [0; -1] None [].
Proof. exact print_lines. Qed.


(** * C82: f> and f, *)

(** f> compares as the real numbers (and infinities, NaN) do *)
Theorem C82_f_greater {E : Env} : forall x y,
  double x -> double y -> lib_run 240 d_f_greater [] [y; x] (fun _ _ _ => True)
  (fun v outs fouts m text => (exists fl, outs = [fl] /\ Spec.truth fl (less y x)) /\ fouts = [] /\ m = v_ds v /\ text = []).
Proof. exact f_greater_run. Qed.
Print Assumptions C82_f_greater.

(** f, stores the float at the next address that is a multiple of 8 and allots 8 bytes.  The full statement would be that
    the float lies in the space allotted; it is false, see below *)
Theorem C82_f_comma_partial {E : Env} : forall x,
  lib_run 240 d_f_comma [] [x]
  (fun K ix v => exists t, least_multiple 8 (here (v_ds v)) t /\ t + 8 <= limit (v_ds v) /\ forall k, K k -> start (v_ds v) <= k /\ (k < t \/ t + 8 <= k))
  (fun v outs fouts m text => outs = [] /\ fouts = [] /\ text = [] /\ here m = here (v_ds v) + 8 /\
     exists t, least_multiple 8 (here (v_ds v)) t /\ cell_at m t x /\ same_memory_but (v_ds v) m t 8).
Proof. exact f_comma_run. Qed.
Print Assumptions C82_f_comma_partial.

(** the float stored by f, behind a single byte is not inside the allotted space: the next cell compiled overwrites it *)
Theorem C82_f_comma_refuted : exists v v' : @vm env_d,
  load_str 3000 (b "create x 1 c, 2.5e f, x 8 + f@ f>s") booted_d = Ok (tt, v) /\ v_err v = None /\ stack_has (t_s (cur v)) [2] /\
  load_str 3000 (b "create x 1 c, 2.5e f, 7 , x 8 + f@ f>s") booted_d = Ok (tt, v') /\ v_err v' = None /\ stack_has (t_s (cur v')) [0].
Proof. exact f_comma_lost. Qed.
Print Assumptions C82_f_comma_refuted.
(** where HERE is a multiple of 8 it is *)
Theorem C82_f_comma_aligned {E : Env} : forall x, lib_run 240 d_f_comma [] [x]
  (fun K ix v => here (v_ds v) mod 8 = 0 /\ here (v_ds v) + 8 <= limit (v_ds v) /\ forall k, K k -> start (v_ds v) <= k < here (v_ds v))
  (fun v outs fouts m text => outs = [] /\ fouts = [] /\ text = [] /\ grown_by [x] (v_ds v) m).
Proof. exact f_comma_aligned_run. Qed.
Print Assumptions C82_f_comma_aligned.
Example C82_case : print_ready [] /\ double 4609434218613702656.
Proof. exact (conj (print_ready_all [] eq_refl) half_double). Qed.
Example C82_lines : ends "create x 2.5e f, x f@ f>s 7 , x f@ f>s x 8 + @" [7; 2; 2] None [].
Proof. exact f_comma_aligned. Qed.


(** * C83: text words and DUMP *)

(** pad is the next cell boundary at least 512 bytes behind HERE *)
Theorem C83_pad {E : Env} : lib_run 240 d_pad [] [] (fun _ _ v => here (v_ds v) + 519 < 2 ^ 63)
  (fun v outs fouts m text => (exists t, outs = [t] /\ least_multiple 8 (here (v_ds v) + 512) t) /\ fouts = [] /\ m = v_ds v /\ text = []).
Proof. exact pad_run. Qed.
Print Assumptions C83_pad.

(** append extends a counted string; the count is one byte *)
Theorem C83_append {E : Env} : forall a1 n a2 count,
  lib_run 235 (fun ix => d_append ix count) [a2; n; a1] []
  (fun K ix v => lib_word d_count count K ix v /\ 0 < n /\ start (v_ds v) < a1 /\ a1 + n <= limit (v_ds v) /\ 0 <= byte_at (v_ds v) a2 < 256 /\
     free_of K v a2 (1 + byte_at (v_ds v) a2 + n))
  (fun v outs fouts m text => outs = [] /\ fouts = [] /\ text = [] /\ appended (v_ds v) m a1 n a2).
Proof. exact append_run. Qed.
Print Assumptions C83_append.

(** >char makes a character printable *)
Theorem C83_to_char {E : Env} : forall bl x,
  lib_run 240 (fun ix => d_to_char ix bl) [x] [] (fun _ _ v => constant_is v bl 32)
  (fun v outs fouts m text => (exists y, outs = [y] /\ shown x y) /\ fouts = [] /\ m = v_ds v /\ text = []).
Proof. exact to_char_run. Qed.
Print Assumptions C83_to_char.

(** _type prints the characters of a memory range, made printable *)
Theorem C83_type {E : Env} : forall a n bounds count to_char bl,
  0 <= n -> lib_run 230 (fun ix => d_type ix bounds count to_char) [n; a] []
  (fun K ix v => lib_word d_bounds bounds K ix v /\ lib_word d_count count K ix v /\ lib_word (fun ix => d_to_char ix bl) to_char K ix v /\
     constant_is v bl 32 /\ start (v_ds v) <= a /\ a + n <= limit (v_ds v))
  (fun v outs fouts m text => outs = [] /\ fouts = [] /\ m = v_ds v /\ text_column (v_ds v) a n text).
Proof. exact type_run. Qed.
Print Assumptions C83_type.

(** _dump prints the bytes of a memory range in hexadecimal *)
Theorem C83_dump1 {E : Env} : forall a n bounds count hdot_r hex b,
  0 <= n -> lib_run 225 (fun ix => d_dump1 ix bounds count hdot_r) [n; a] []
  (fun K ix v => lib_word d_bounds bounds K ix v /\ lib_word d_count count K ix v /\ lib_word (fun ix => d_hdot_r ix hex) hdot_r K ix v /\ lib_word d_hex hex K ix v /\
     base_cell b K v /\ bytes_ok (v_ds v) /\ start (v_ds v) <= a /\ a + n <= limit (v_ds v))
  (fun v outs fouts m text => outs = [] /\ fouts = [] /\ same_data (v_ds v) m /\ hex_column (v_ds v) a n text).
Proof. exact dump1_run. Qed.
Print Assumptions C83_dump1.

(** dump prints a memory range in rows of eight bytes, in hexadecimal and as text; memory, BASE included, is as before *)
Theorem C83_dump {E : Env} : forall a n bounds count to_char bl hdot_r hex space dump1 type1 cr b,
  0 <= n -> lib_run 220 (fun ix => d_dump ix bounds hdot_r space dump1 type1 cr) [n; a] []
  (fun K ix v => lib_word d_bounds bounds K ix v /\ lib_word d_count count K ix v /\ lib_word (fun ix => d_to_char ix bl) to_char K ix v /\ constant_is v bl 32 /\
     lib_word (fun ix => d_hdot_r ix hex) hdot_r K ix v /\ lib_word d_hex hex K ix v /\ lib_word d_space space K ix v /\ lib_word d_cr cr K ix v /\
     lib_word (fun ix => d_dump1 ix bounds count hdot_r) dump1 K ix v /\ lib_word (fun ix => d_type ix bounds count to_char) type1 K ix v /\
     base_cell b K v /\ bytes_ok (v_ds v) /\ start (v_ds v) <= a /\ a + n <= limit (v_ds v) /\ a + (n + 7) / 8 * 8 <= limit (v_ds v))
  (fun v outs fouts m text => outs = [] /\ fouts = [] /\ same_data (v_ds v) m /\ dump_rows (v_ds v) (a + n) a text).
Proof. exact dump_run. Qed.
Print Assumptions C83_dump.

Example C83_case : print_ready [16; 70000].
Proof. exact (print_ready_all [16; 70000] eq_refl). Qed.
Example C83_lines :
  ends "create s 3 c, 65 c, 66 c, 67 c, 100 allot create u 1 c, 88 c, 100 allot s count u append u count type" [] None (b "XABC") /\
  ends "200 >char 65 >char" [65; 72] None [] /\
  ends "here 512 + pad -" [0] None [] /\
  ends "create s 65 c, 1 c, 127 c, 66 c, s 4 _type s 4 _dump" [] None (b "A__B 41  1 7F 42").
Proof. exact text_lines. Qed.


(** * C84: literals compiled by literal, 2literal and fliteral *)

(** literal appends the number of the word lit and the cell *)
Theorem C84_literal {E : Env} : forall x,
  lib_run 240 d_literal [x] [] (fun K ix v => appendable P_lit 16 K ix v)
  (fun v outs fouts m text => outs = [] /\ fouts = [] /\ text = [] /\ exists i, word_is v i P_lit /\ grown_by [i; x] (v_ds v) m).
Proof. exact literal_run. Qed.
Print Assumptions C84_literal.

(** 2literal appends two literals, the lower cell first *)
Theorem C84_two_literal {E : Env} : forall x y,
  lib_run 240 d_two_literal [y; x] [] (fun K ix v => appendable P_lit 32 K ix v)
  (fun v outs fouts m text => outs = [] /\ fouts = [] /\ text = [] /\ exists i, word_is v i P_lit /\ grown_by [i; x; i; y] (v_ds v) m).
Proof. exact two_literal_run. Qed.
Print Assumptions C84_two_literal.

(** fliteral appends the number of the word flit and the float *)
Theorem C84_fliteral {E : Env} : forall fcomma x,
  lib_run 235 (fun ix => d_fliteral ix fcomma) [] [x]
  (fun K ix v => appendable P_flit 16 K ix v /\ here (v_ds v) mod 8 = 0 /\ lib_word d_f_comma fcomma K ix v)
  (fun v outs fouts m text => outs = [] /\ fouts = [] /\ text = [] /\ exists i, word_is v i P_flit /\ grown_by [i; x] (v_ds v) m).
Proof. exact fliteral_run. Qed.
Print Assumptions C84_fliteral.

Example C84_case : print_ready [5; 7].
Proof. exact (print_ready_all [5; 7] eq_refl). Qed.
Example C84_lines :
  ends ": t [ 3 4 + ] literal 1 ; t" [1; 7] None [] /\ ends ": t [ 3 4 ] 2literal ; t" [4; 3] None [] /\ ends ": t [ 2.5e ] fliteral ; t t f+ f>s" [5] None [].
Proof. exact literal_lines. Qed.

