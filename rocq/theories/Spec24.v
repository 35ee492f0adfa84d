(** Vocabulary of the system words (C75 - C77): status, settings and listings. *)
From Coq Require Import ZArith List Bool String.
From Verif Require Import Base Stack Mem Flt State CoreM Exec Spec Spec2 Spec4 Spec9 Spec10 Spec11 Spec14 Spec15 Spec16.
Import ListNotations.
Open Scope list_scope.
Open Scope Z_scope.

(** ** How numbers are written *)

(** The digits 0-9 and A-F *)
Inductive upper_digit : Z -> Z -> Prop :=
| UD_09 d : 0 <= d <= 9 -> upper_digit (48 + d) d
| UD_AF d : 10 <= d <= 15 -> upper_digit (55 + d) d.
(** [t] is the number [n] in base [b], without superfluous zeros *)
Definition unsigned_in (b n : Z) (t : bytes) : Prop :=
  exists ds, Forall2 upper_digit t ds /\ Forall (fun d => d < b) ds /\ positional b ds = n /\
    (ds = [0] \/ exists d r, ds = d :: r /\ d <> 0).
(** [t] is the signed number [n] in decimal *)
Definition decimal_of (n : Z) (t : bytes) : Prop :=
  (0 <= n /\ unsigned_in 10 n t) \/ (n < 0 /\ exists t', t = 45 :: t' /\ unsigned_in 10 (- n) t').
(** [t] is how .R writes the cell [n] in base [b]: signed in decimal, the bits as an unsigned number in other bases *)
Definition written (b n : Z) (t : bytes) : Prop :=
  (b = 10 /\ decimal_of n t) \/ (In b [2; 8; 16] /\ exists m, 0 <= m < 2 ^ 64 /\ wraps_to m n /\ unsigned_in b m t).

(** Each of the texts followed by a blank *)
Definition spaced (ts : list bytes) : bytes := List.concat (map (fun t => t ++ [32]) ts).

Section S.
Context {E : Env}.

(** ** Words that report something *)

(** Executing [p] pushes a cell that satisfies [Q] and changes nothing else *)
Definition reports (p : prim) (v : vm) (Q : Z -> Prop) : Prop :=
  exists x, Q x /\
  forall d r f, stacks_are v d r f -> zlen d < 255 -> forall fuel, exists v', quiet fuel p v v' /\ stacks_are v' (x :: d) r f /\ only_stacks v v'.

(** Executing [p] appends [s] to the output and changes nothing else *)
Definition prints (p : prim) (v : vm) (s : bytes) : Prop :=
  forall fuel, exists v', quiet fuel p v v' /\ printed v s v'.

(** The cell [x] taken from the data stack *)
Definition took (p : prim) (v : vm) (Q : vm -> vm -> Prop) : Prop :=
  forall fuel, exists v1 v', quiet fuel p v v' /\ only_data_stack v v1 /\ len (t_s (cur v1)) = len (t_s (cur v)) - 1 /\ Q v1 v'.

(** ** Listings *)

(** The names of the words [n]-1 .. 1 that are not hidden, newest first *)
Inductive names_below (v : vm) : nat -> list bytes -> Prop :=
| NB_0 : names_below v 0 []
| NB_1 : names_below v 1 []
| NB_hidden n l : w_hidden (word_of v (Z.of_nat (S n))) = true -> names_below v (S n) l -> names_below v (S (S n)) l
| NB_shown n l t : w_hidden (word_of v (Z.of_nat (S n))) = false -> named v (Z.of_nat (S n)) t -> names_below v (S n) l ->
    names_below v (S (S n)) (t :: l).

(** The word in whose definition the address [a] lies: the last word whose name field does not begin after [a] *)
Definition owner (v : vm) (a i : Z) : Prop :=
  0 <= i < words v /\ w_nfa (word_of v i) <= a /\ forall j, i < j < words v -> a < w_nfa (word_of v j).
(** How an address is shown in a backtrace *)
Inductive location (v : vm) (a : Z) : bytes -> Prop :=
| Loc_word i t : owner v a i -> named v i t -> location v a (t ++ [32])
| Loc_unknown t : (forall i, 0 <= i < words v -> a < w_nfa (word_of v i)) -> unsigned_in 16 a t ->
    location v a (b "unknown(" ++ t ++ b ") ").

(** The execution times shown by .XTIME: of the words [n]-1 .. 1, those that have been measured *)
Inductive times_below (v : vm) : nat -> list bytes -> Prop :=
| TB_0 : times_below v 0 []
| TB_1 : times_below v 1 []
| TB_none n l : w_mint (word_of v (Z.of_nat (S n))) <= 0 -> times_below v (S n) l -> times_below v (S (S n)) l
| TB_some n l t lo hi : let w := word_of v (Z.of_nat (S n)) in 0 < w_mint w -> named v (Z.of_nat (S n)) t ->
    unsigned_in 10 (w_mint w) lo -> unsigned_in 10 (w_maxt w) hi -> times_below v (S n) l ->
    times_below v (S (S n)) ((t ++ b "|" ++ lo ++ b "," ++ hi) :: l).
(** Texts separated by a bar *)
Definition barred (ts : list bytes) : bytes :=
  match ts with [] => [] | t :: r => t ++ List.concat (map (fun x => 124 :: x) r) end.
End S.

Section T.
Context {E : Env}.
(** From [v] to [v'] only the execution times in the dictionary change; [lo] and [hi] are the new ones *)
Definition retimed (v : vm) (lo hi : Z -> Z) (v' : vm) : Prop :=
  v' = set_v_wl (v_wl v') v /\ words v' = words v /\ wl_last (v_wl v') = wl_last (v_wl v) /\ wl_buckets (v_wl v') = wl_buckets (v_wl v) /\
  forall j, 0 <= j < words v -> word_of v' j = set_w_maxt (hi j) (set_w_mint (lo j) (word_of v j)).
End T.

(** [d'] is [d] with the text [t], cut off at 255 bytes, stored at [a] behind a byte with its length *)
Definition counted (d : dspace) (a : Z) (t : bytes) (d' : dspace) : Prop :=
  let n := Z.min (zlen t) 255 in
  start d' = start d /\ limit d' = limit d /\ here d' = here d /\ byte_at d' a = n /\
  (forall k x, nth_error t k = Some x -> Z.of_nat k < n -> byte_at d' (a + 1 + Z.of_nat k) = x) /\
  (forall i, start d <= i -> i < a \/ a + 1 + n <= i -> byte_at d' i = byte_at d i).

(** ** Float constants *)
(** A float constant with value [x] *)
Definition fconstant_is {E : Env} (v : vm) (i x : Z) : Prop :=
  word_is v i P_p_fconst /\ body v i mod 8 = 0 /\ start (v_ds v) < body v i /\ body v i + 8 <= limit (v_ds v) /\ cell_at (v_ds v) (body v i) x.
(** Word [i] pushes the float [x] and does nothing else *)
Definition fpushes {E : Env} (v : vm) (i x : Z) : Prop :=
  forall K d rs fs, stacks_are v d rs fs -> zlen fs < 255 ->
    does K v i (fun v' => stacks_are v' d rs (x :: fs) /\ v_ds v' = v_ds v /\ v_out v' = v_out v /\ calm v v').
