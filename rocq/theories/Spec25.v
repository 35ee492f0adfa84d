(** Vocabulary of the properties of the printing, literal and text words defined in core.fth (C81 - C84). *)
From Coq Require Import ZArith List Bool String.
From Verif Require Import Base Stack Mem State CoreM Exec Spec Spec2 Spec4 Spec5 Spec7 Spec10 Spec11 Spec15 Spec16 Spec24.
Import ListNotations.
Open Scope list_scope.
Open Scope Z_scope.

Section V.
Context {E : Env}.

(** ** The definitions, word by word; [ix] gives the numbers of the built-in words, the other parameters are the
    numbers of the words of core.fth used.  The comment is the line of core.fth. *)
Section Text.
Variable ix : prim -> Z.
Notation wd := (wd ix).
(* : . 0 .r space ; *)
Definition d_dot (space : Z) := block [Num 0; wd P_dot_r; Op space].
(* : f. 0 7 f.r space ; *)
Definition d_fdot (space : Z) := block [Num 0; Num 7; wd P_fdot_r; Op space].
(* : ? @ . ; *)
Definition d_question (dot : Z) := block [wd P_fetch; Op dot].
(* : decimal 10 base ! ; *)
Definition d_decimal := block [Num 10; wd P_base; wd P_store].
(* : hex 16 base ! ; *)
Definition d_hex := block [Num 16; wd P_base; wd P_store].
(* : h. base @ swap hex . base ! ; *)
Definition d_hdot (hex dot : Z) := block [wd P_base; wd P_fetch; wd P_swap; Op hex; Op dot; wd P_base; wd P_store].
(* : h.r base @ >r hex .r r> base ! ; *)
Definition d_hdot_r (hex : Z) := block [wd P_base; wd P_fetch; wd P_p_to_r; Op hex; wd P_dot_r; wd P_r_from; wd P_base; wd P_store].
(* : f> fswap f< ; *)
Definition d_f_greater := block [wd P_fswap; wd P_f_less_than].
(* : f, here 1 floats allot f! ; *)
Definition d_f_comma := block [wd P_here; Num 1; wd P_floats; wd P_allot; wd P_fstore].
(* : append 2>r 2r@ count + swap move 2r> dup >r c@ + r> c! ; *)
Definition d_append (count : Z) := block [wd P_two_to_r; wd P_two_r_fetch; Op count; wd P_plus; wd P_swap; wd P_p_move;
  wd P_two_r_from; wd P_dup; wd P_p_to_r; wd P_c_fetch; wd P_plus; wd P_r_from; wd P_c_store].
(* : pad here 512 + aligned ; *)
Definition d_pad := block [wd P_here; Num 512; wd P_plus; wd P_aligned].
(* : >char $7f and dup bl 127 within invert if drop [char] _ then ; *)
Definition d_to_char (bl : Z) := block [Num 127; wd P_and; wd P_dup; Op bl; Num 127; wd P_within; wd P_invert;
  IfThen (block [wd P_p_drop; Num 95])].
(* : _type chars bounds begin 2dup xor while count >char emit repeat 2drop ; *)
Definition d_type (bounds count to_char : Z) := block [Op bounds; While (block [wd P_two_dup; wd P_xor])
  (block [Op count; Op to_char; wd P_emit]); wd P_two_drop].
(* : _dump chars bounds begin 2dup xor while count 3 h.r repeat 2drop ; *)
Definition d_dump1 (bounds count hdot_r : Z) := block [Op bounds; While (block [wd P_two_dup; wd P_xor])
  (block [Op count; Num 3; Op hdot_r]); wd P_two_drop].
(* : dump chars bounds begin 2dup swap < while dup 4 h.r [char] : emit space 8 2dup _dump space space
     2dup _type chars + cr repeat 2drop ; *)
Definition d_dump (bounds hdot_r space dump1 type1 cr : Z) := block [Op bounds;
  While (block [wd P_two_dup; wd P_swap; wd P_less_than])
    (block [wd P_dup; Num 4; Op hdot_r; Num 58; wd P_emit; Op space; Num 8; wd P_two_dup; Op dump1; Op space; Op space;
            wd P_two_dup; Op type1; wd P_plus; Op cr]); wd P_two_drop].
(* : literal postpone lit , ; *)
Definition d_literal := block [Num (ix P_lit); wd P__postpone; wd P_comma].
(* : 2literal swap postpone lit , postpone lit , ; *)
Definition d_two_literal := block [wd P_swap; Num (ix P_lit); wd P__postpone; wd P_comma; Num (ix P_lit); wd P__postpone; wd P_comma].
(* : fliteral postpone flit f, ; *)
Definition d_fliteral (fcomma : Z) := block [Num (ix P_flit); wd P__postpone; Op fcomma].
End Text.

(** For every word defined with the body [d]: with the cells [ins] on the data stack and the floats [fins] on the float
    stack, and a situation satisfying [P], they are replaced by cells and floats as [Q] says, the data space and the
    output change as [Q] says, and nothing else changes; there may be up to [n] other cells on the stacks *)
Definition lib_run (n : Z) (d : (prim -> Z) -> prog) (ins fins : list Z) (P : (Z -> Prop) -> (prim -> Z) -> vm -> Prop)
    (Q : vm -> list Z -> list Z -> dspace -> bytes -> Prop) : Prop :=
  forall K ix v i rest rs fs, library ix v -> colon_word K v i (d ix) (ix P_exit) ->
    stacks_are v (ins ++ rest) rs (fins ++ fs) -> zlen rest <= n -> zlen rs <= n -> zlen fs <= n -> ds_ok (v_ds v) -> P K ix v ->
    does K v i (fun v' => exists outs fouts text, Q v outs fouts (v_ds v') text /\ stacks_are v' (outs ++ rest) rs (fouts ++ fs) /\
      v_out v' = match v_out v with Some t => Some (t ++ text) | None => None end /\ calm v v').

(** Word [i] is the word defined by the body [d] *)
Definition lib_word (d : (prim -> Z) -> prog) (i : Z) (K : Z -> Prop) (ix : prim -> Z) (v : vm) : Prop :=
  colon_word K v i (d ix) (ix P_exit).

(** The variable BASE holds [b]; its cell is not part of the code in [K] *)
Definition base_cell (b : Z) (K : Z -> Prop) (v : vm) : Prop :=
  cell_at (v_ds v) (base_addr (v_ds v)) b /\ is_cell b /\ free_of K v (base_addr (v_ds v)) 8.
(** The data space is as before: every byte, and the allocation pointer *)
Definition same_data (d d' : dspace) : Prop := same_memory_but d d' 0 0 /\ here d' = here d.

(** The data space consists of bytes *)
Definition bytes_ok (d : dspace) : Prop := forall i, start d <= i -> 0 <= byte_at d i < 256.

(** [t] right-aligned in a field of [w] characters *)
Definition field (w : Z) (t : bytes) : bytes := repeat 32 (Z.to_nat (w - zlen t)) ++ t.
(** How DUMP shows a byte: printable characters as they are, in ASCII without the highest bit *)
Definition shown (x y : Z) : Prop :=
  let c := x mod 128 in (32 <= c < 127 /\ y = c) \/ (~ 32 <= c < 127 /\ y = 95).
(** The hexadecimal column of a row: the bytes from [a] *)
Definition hex_column (d : dspace) (a n : Z) (t : bytes) : Prop :=
  exists ts, zlen ts = n /\ t = List.concat ts /\
    forall k x, nth_error ts k = Some x -> exists u, unsigned_in 16 (byte_at d (a + Z.of_nat k)) u /\ x = field 3 u.
(** The text column *)
Definition text_column (d : dspace) (a n : Z) (t : bytes) : Prop :=
  zlen t = n /\ forall k y, nth_error t k = Some y -> shown (byte_at d (a + Z.of_nat k)) y.
(** A row of DUMP: address, eight bytes in hexadecimal, eight characters *)
Definition dump_row (d : dspace) (a : Z) (t : bytes) : Prop :=
  exists ad h x, unsigned_in 16 a ad /\ hex_column d a 8 h /\ text_column d a 8 x /\
    t = field 4 ad ++ [58; 32] ++ h ++ [32; 32] ++ x ++ [10].
(** The rows from [a] up to the end [e] *)
Inductive dump_rows (d : dspace) (e : Z) : Z -> bytes -> Prop :=
| DR_end a : e <= a -> dump_rows d e a []
| DR_row a t r : a < e -> dump_row d a t -> dump_rows d e (a + 8) r -> dump_rows d e a (t ++ r).

(** The word of action [p] is compiled as its number; [n] bytes at the end of the used part are free, and no code is there *)
Definition appendable (p : prim) (n : Z) (K : Z -> Prop) (ix : prim -> Z) (v : vm) : Prop :=
  w_cs (word_of v (ix p)) <> CS_compile_leave /\ words v <= 2 ^ 63 /\ here (v_ds v) + n <= limit (v_ds v) /\
  forall k, K k -> start (v_ds v) <= k < here (v_ds v).
(** The cells [l] are appended *)
Definition grown_by (l : list Z) (d d' : dspace) : Prop :=
  here d' = here d + 8 * zlen l /\ same_memory_but d d' (here d) (8 * zlen l) /\
  forall k x, nth_error l k = Some x -> cell_at d' (here d + 8 * Z.of_nat k) x.

(** The numeric base is [b], one of those that number output knows *)
Definition in_base (b : Z) (v : vm) : Prop :=
  In b [2; 8; 10; 16] /\ cell_at (v_ds v) (base_addr (v_ds v)) b /\ base_addr (v_ds v) + 8 <= limit (v_ds v).
(** BASE is [b] in the data space [m], which otherwise is as before *)
Definition base_set (v : vm) (m : dspace) (b : Z) : Prop :=
  cell_at m (base_addr (v_ds v)) b /\ same_memory_but (v_ds v) m (base_addr (v_ds v)) 8 /\ here m = here (v_ds v).
(** The counted string at [a2] is extended by the [n] characters at [a1]; its count, one byte, wraps around *)
Definition appended (d d' : dspace) (a1 n a2 : Z) : Prop :=
  start d' = start d /\ limit d' = limit d /\ here d' = here d /\ let k := byte_at d a2 in
  byte_at d' a2 = (k + n) mod 256 /\ (forall i, 0 <= i < n -> byte_at d' (a2 + 1 + k + i) = byte_at d (a1 + i)) /\
  forall i, start d <= i -> i <> a2 -> i < a2 + 1 + k \/ a2 + 1 + k + n <= i -> byte_at d' i = byte_at d i.

(** ** The definitions in the dictionary *)
(** The allocated part of the data space after the variable BASE, where all the code is *)
Definition code_area (v : vm) (k : Z) : Prop := base_addr (v_ds v) + 8 <= k < here (v_ds v).
(** The name [s] finds word [i], defined by the body [p] *)
Definition has_def (ix : prim -> Z) (v : vm) (e : string * (Z * prog)) : Prop :=
  newest v (b (fst e)) (Some (fst (snd e))) /\ colon_word (code_area v) v (fst (snd e)) (snd (snd e)) (ix P_exit).
Record numbers := { n_space : Z; n_dot : Z; n_fdot : Z; n_question : Z; n_decimal : Z; n_hex : Z; n_hdot : Z; n_hdot_r : Z; n_f_greater : Z;
  n_f_comma : Z; n_append : Z; n_count : Z; n_pad : Z; n_to_char : Z; n_bl : Z; n_type : Z; n_bounds : Z; n_dump1 : Z; n_dump : Z; n_cr : Z;
  n_literal : Z; n_two_literal : Z; n_fliteral : Z }.
Definition printing_words (n : numbers) (ix : prim -> Z) : list (string * (Z * prog)) :=
  [("space", (n_space n, d_space ix)); ("cr", (n_cr n, d_cr ix)); ("bounds", (n_bounds n, d_bounds ix)); ("count", (n_count n, d_count ix));
   (".", (n_dot n, d_dot ix (n_space n))); ("f.", (n_fdot n, d_fdot ix (n_space n))); ("?", (n_question n, d_question ix (n_dot n)));
   ("decimal", (n_decimal n, d_decimal ix)); ("hex", (n_hex n, d_hex ix)); ("h.", (n_hdot n, d_hdot ix (n_hex n) (n_dot n)));
   ("h.r", (n_hdot_r n, d_hdot_r ix (n_hex n))); ("f>", (n_f_greater n, d_f_greater ix)); ("f,", (n_f_comma n, d_f_comma ix));
   ("append", (n_append n, d_append ix (n_count n))); ("pad", (n_pad n, d_pad ix)); (">char", (n_to_char n, d_to_char ix (n_bl n)));
   ("_type", (n_type n, d_type ix (n_bounds n) (n_count n) (n_to_char n))); ("_dump", (n_dump1 n, d_dump1 ix (n_bounds n) (n_count n) (n_hdot_r n)));
   ("dump", (n_dump n, d_dump ix (n_bounds n) (n_hdot_r n) (n_space n) (n_dump1 n) (n_type n) (n_cr n)));
   ("literal", (n_literal n, d_literal ix)); ("2literal", (n_two_literal n, d_two_literal ix));
   ("fliteral", (n_fliteral n, d_fliteral ix (n_f_comma n)))]%string.
Definition printing_installed (n : numbers) (ix : prim -> Z) (v : vm) : Prop :=
  library ix v /\ Forall (has_def ix v) (printing_words n ix) /\ newest v (b "bl"%string) (Some (n_bl n)) /\ constant_is v (n_bl n) 32.
End V.
