(** Specification vocabulary: text, tokens and numbers. *)
From Coq Require Import ZArith List Bool.
From Verif Require Import Base Stack Mem Flt State CoreM Exec Spec Spec10.
Import ListNotations.
Open Scope Z_scope.
Open Scope m_scope.

(** ** UTF-8 *)
Definition tail_byte (x : Z) : Prop := 128 <= x < 192.
(** The encoding of a character and its code *)
Inductive utf8_char : bytes -> Z -> Prop :=
| U1 a : 0 <= a < 128 -> utf8_char [a] a
| U2 a x : 194 <= a < 224 -> tail_byte x -> utf8_char [a; x] ((a - 192) * 64 + (x - 128))
| U3 a x y : 224 <= a < 240 -> tail_byte x -> tail_byte y -> (a = 224 -> 160 <= x) ->
    utf8_char [a; x; y] ((a - 224) * 4096 + (x - 128) * 64 + (y - 128))
| U4 a x y z : 240 <= a < 245 -> tail_byte x -> tail_byte y -> tail_byte z -> (a = 240 -> 144 <= x) ->
    utf8_char [a; x; y; z] ((a - 240) * 262144 + (x - 128) * 4096 + (y - 128) * 64 + (z - 128)).
(** A text and the codes of its characters *)
Inductive utf8_text : bytes -> list Z -> Prop :=
| T_nil : utf8_text [] []
| T_cons bs c s cs : utf8_char bs c -> utf8_text s cs -> utf8_text (bs ++ s) (c :: cs).

(** ** Words *)
(** The words of a text: its maximal runs of characters that are not blank *)
Inductive tokens : bytes -> list bytes -> Prop :=
| Tok_none s : Forall blank s -> tokens s []
| Tok_some w t r l : Forall blank w -> t <> [] -> Forall (fun c => ~ blank c) t ->
    (r = [] \/ exists c r', r = c :: r' /\ blank c) -> tokens r l -> tokens (w ++ t ++ r) (t :: l).

(** ** Delimited text *)
(** [text_upto d s t r]: [t] is what precedes the first character [d] of [s] and [r] what follows
    it; without such a character [t] is the whole of [s] *)
Inductive text_upto (d : Z) : bytes -> bytes -> bytes -> Prop :=
| Up_end s cs : utf8_text s cs -> ~ In d cs -> text_upto d s s []
| Up_found t ct db r cr : utf8_text t ct -> ~ In d ct -> utf8_char db d -> utf8_text r cr ->
    text_upto d (t ++ db ++ r) t r.

(** ** Numbers *)
(** The value of a digit *)
Inductive digit : Z -> Z -> Prop :=
| Dg_09 d : 0 <= d <= 9 -> digit (48 + d) d
| Dg_AF d : 10 <= d <= 15 -> digit (55 + d) d
| Dg_af d : 10 <= d <= 15 -> digit (87 + d) d.
(** The number written with the digits [ds] in base [b] *)
Definition positional (b : Z) (ds : list Z) : Z := fold_left (fun n d => n * b + d) ds 0.
(** An optional base prefix: % is binary, # decimal, $ hexadecimal *)
Inductive prefix (b : Z) : bytes -> Z -> Prop :=
| Pre_none : prefix b [] b
| Pre_2 : prefix b [37] 2
| Pre_10 : prefix b [35] 10
| Pre_16 : prefix b [36] 16.
Inductive signed : bytes -> Z -> Prop :=
| Sg_none : signed [] 1
| Sg_plus : signed [43] 1
| Sg_minus : signed [45] (-1).
(** [numeral b tok n]: read in base [b], the text [tok] is the number [n] *)
Inductive numeral (b : Z) : bytes -> Z -> Prop :=
| Numeral p b' g s t ds : prefix b p b' -> signed g s -> t <> [] ->
    Forall2 digit t ds -> Forall (fun d => d < b') ds ->
    numeral b (p ++ g ++ t) (s * positional b' ds).
(** Only a prefix and a sign, no digit *)
Inductive digitless (b : Z) : bytes -> Prop :=
| NoDigit p b' g s : prefix b p b' -> signed g s -> digitless b (p ++ g).

(** A character in quotes *)
Definition quoted (tok : bytes) : Prop := exists c, tok = [39; c; 39].
(** No digit at all *)
Definition no_digits (tok : bytes) : Prop := forall c d, In c tok -> ~ digit c d.

(** [float_text s i f es x tok]: the text [tok] is a float literal with sign [s], integer digits [i],
    optional fraction digits [f], exponent sign [es] and exponent digits [x]; the three numbers
    are below 2^63.  The exponent digits may be missing, the exponent mark may not. *)
Definition decimal (t ds : list Z) : Prop := Forall2 digit t ds /\ Forall (fun d => d < 10) ds /\ positional 10 ds < 2 ^ 63.
Inductive fraction_text : option (list Z) -> bytes -> Prop :=
| Fr_none : fraction_text None []
| Fr_some t ds : decimal t ds -> fraction_text (Some ds) (46 :: t).
Inductive float_text (s : Z) (i : list Z) (f : option (list Z)) (es : Z) (x : list Z) : bytes -> Prop :=
| FT g ti tf m eg tx : signed g s -> decimal ti i -> ti <> [] -> fraction_text f tf -> m = 69 \/ m = 101 ->
    signed eg es -> decimal tx x -> float_text s i f es x (g ++ ti ++ tf ++ [m] ++ eg ++ tx).

Section S.
Context {E : Env}.
(** The current base *)
Definition base_is (v : vm) (b : Z) : Prop := get_isize (v_ds v) (base_addr (v_ds v)) = Ok b.
(** [tok] is an integer in the current base, with value [x]: a numeral, a prefix or sign without any
    digit (0), or a character in quotes *)
Definition integer_token (v : vm) (tok : bytes) (x : Z) : Prop :=
  exists b, base_is v b /\ ((exists n, numeral b tok n /\ wraps_to n x) \/ (digitless b tok /\ x = 0) \/ tok = [39; x; 39]).
(** [tok] is not an integer in the current base *)
Definition no_integer (v : vm) (tok : bytes) : Prop := exists b, base_is v b /\ (forall n, ~ numeral b tok n) /\ ~ digitless b tok /\ ~ quoted tok.
(** The value of a float literal: sign * (integer + fraction / 10^digits) * 10^exponent, in double
    precision arithmetic; the exponent is a 32-bit number *)
Definition float_value (s : Z) (i : list Z) (f : option (list Z)) (es : Z) (x : list Z) : Z :=
  fmul (fmul (f_of_Z s false) (fadd (f_of_Z (positional 10 i) false)
         (match f with Some ds => fdiv (f_of_Z (positional 10 ds) false) (l_powi F_TEN (zlen ds)) | None => F_ZERO end)))
       (l_powi F_TEN (to_i32 (to_i64 (es * positional 10 x)))).

(** The rest of the input *)
Definition rest_of_input (v : vm) (s : bytes) : Prop :=
  exists buf pre, input_text v buf /\ buf = pre ++ s /\ st_idx (st v) = zlen pre /\ zlen buf < 2 ^ 63.
(** From [v] to [v'] only the current token and the position in the input change: the token
    becomes [t] and the position [n] *)
Definition token_read (v : vm) (t : bytes) (n : Z) (v' : vm) : Prop :=
  v' = set_v_tkn (Some t) (set_idx n v) \/ (n = st_idx (st v) /\ v' = set_v_tkn (Some t) v).
(** Only the data stack changes, using at most one more cell on the way *)
Definition only_data_stack1 (v v' : vm) : Prop :=
  exists v0, only_data_stack v v0 /\ len (t_s (cur v0)) = len (t_s (cur v)) + 1 /\ only_data_stack v0 v'.
(** Reading the next [n] words *)
Fixpoint next_words (n : nat) : M (list bytes) :=
  match n with
  | O => ret []
  | S n' => exec_prim 0 (fun _ => panic PIndex) P_parse_word ;;;
            t <- gets v_tkn ;; r <- next_words n' ;;
            ret (match t with Some s => s | None => [] end :: r)
  end.
End S.
