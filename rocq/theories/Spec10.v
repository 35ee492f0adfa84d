(** Specification vocabulary: the dictionary. *)
From Coq Require Import ZArith List Bool.
From Verif Require Import Base Stack Mem State CoreM Exec Spec Spec4 Spec9.
Import ListNotations.
Open Scope Z_scope.
Open Scope m_scope.

(** Equal up to the case of ASCII letters *)
Definition same_letter (x y : Z) : Prop :=
  x = y \/ (65 <= x <= 90 /\ y = x + 32) \/ (65 <= y <= 90 /\ x = y + 32).
Definition same_text : bytes -> bytes -> Prop := Forall2 same_letter.

(** A counted text [n] at address [a] of the allocated part of the data space *)
Definition name_field (d : dspace) (a : Z) (n : bytes) : Prop :=
  start d <= a /\ a + 8 + zlen n <= here d /\ cell_at d a (zlen n) /\
  forall k x, nth_error n k = Some x -> byte_at d (a + 8 + Z.of_nat k) = x.

(** The newest of the words 1 .. [n]-1 that hash to bucket [k], 0 if there is none *)
Definition newest_below (l : wordlist) (n k i : Z) : Prop :=
  (i = 0 /\ forall j, 0 < j < n -> w_hash (wl_get l j) mod 64 <> k) \/
  (0 < i < n /\ w_hash (wl_get l i) mod 64 = k /\ forall j, i < j < n -> w_hash (wl_get l j) mod 64 <> k).

(** Every bucket starts a list of all its words, newest first *)
Definition chained (l : wordlist) : Prop :=
  (forall i, 0 <= i < wl_len l -> newest_below l i (w_hash (wl_get l i) mod 64) (w_link (wl_get l i))) /\
  (forall k, 0 <= k < 64 -> newest_below l (wl_len l) k (tget 0 (wl_buckets l) k)).

Section S.
Context {E : Env}.

Definition word_of (v : vm) (i : Z) : word := wl_get (v_wl v) i.
Definition words (v : vm) : Z := wl_len (v_wl v).
Definition named (v : vm) (i : Z) (n : bytes) : Prop := name_field (v_ds v) (w_nfa (word_of v i)) n.

(** A well-formed dictionary: the names are counted texts in the data space, in
    the order of the words and without overlap, the hash lists are complete, and
    the data of every marker is inside the allocated part of the data space. *)
Definition dict_ok (v : vm) : Prop :=
  ds_ok (v_ds v) /\ 1 <= words v /\ wl_last (v_wl v) = words v - 1 /\ chained (v_wl v) /\
  (forall i, 0 <= i < words v -> exists n, named v i n /\ w_hash (word_of v i) = hash n /\
     (i + 1 < words v -> w_nfa (word_of v i) + 8 + zlen n <= w_nfa (word_of v (i + 1)))) /\
  (forall i, 0 <= i < words v -> w_action (word_of v i) = P_unmark ->
     start (v_ds v) <= w_dfa (word_of v i) /\ w_dfa (word_of v i) + 520 <= here (v_ds v)).

(** Word [i] is not hidden and is called [name] *)
Definition visible (v : vm) (i : Z) (name : bytes) : Prop :=
  w_hidden (word_of v i) = false /\ exists n, named v i n /\ same_text n name.

(** [r] is the newest visible word called [name].  Word 0 is never found: it is
    the anonymous first word and its number marks the end of the lists. *)
Definition newest (v : vm) (name : bytes) (r : option Z) : Prop :=
  match r with
  | Some i => 0 < i < words v /\ visible v i name /\ forall j, i < j < words v -> ~ visible v j name
  | None => forall j, 0 < j < words v -> ~ visible v j name
  end.

(** Bytes the dictionary relies on: names, and the data of markers *)
Definition protected (v : vm) (a : Z) : Prop :=
  exists i, 0 <= i < words v /\
    ((exists n, named v i n /\ w_nfa (word_of v i) <= a < w_nfa (word_of v i) + 8 + zlen n) \/
     (w_action (word_of v i) = P_unmark /\ w_dfa (word_of v i) <= a < w_dfa (word_of v i) + 520)).

(** The same words, found in the same way *)
Definition same_words (v v' : vm) : Prop :=
  words v' = words v /\ wl_last (v_wl v') = wl_last (v_wl v) /\
  (forall i, 0 <= i < words v -> word_of v' i = word_of v i) /\
  (forall k, 0 <= k < 64 -> tget 0 (wl_buckets (v_wl v')) k = tget 0 (wl_buckets (v_wl v)) k).

(** What programs do between definitions: anything that leaves the words and the
    protected bytes alone and does not give data space back *)
Definition goes_on (v v' : vm) : Prop :=
  same_words v v' /\ ds_ok (v_ds v') /\ start (v_ds v') = start (v_ds v) /\ limit (v_ds v') = limit (v_ds v) /\
  here (v_ds v) <= here (v_ds v') /\
  forall a, protected v a -> byte_at (v_ds v') a = byte_at (v_ds v) a.

Definition defining_words : list prim := [P_colon; P_create; P_constant; P_fconstant; P_marker].
Definition finishing_words : list prim := [P_semicolon; P_immediate; P_compile_only; P__does].

(** Any sequence of definitions: defining words, words that finish or modify the
    newest definition, and anything else in between *)
Inductive definitions (fuel : nat) (v : vm) : vm -> Prop :=
| D_none : definitions fuel v v
| D_new p v1 v2 : definitions fuel v v1 -> In p defining_words -> quiet fuel p v1 v2 -> definitions fuel v v2
| D_last p v1 v2 : definitions fuel v v1 -> In p finishing_words -> quiet fuel p v1 v2 -> definitions fuel v v2
| D_other v1 v2 : definitions fuel v v1 -> goes_on v1 v2 -> definitions fuel v v2.

(** Everything compiled before is as it was *)
Definition older_kept (v v' : vm) : Prop :=
  words v <= words v' /\ start (v_ds v') = start (v_ds v) /\ limit (v_ds v') = limit (v_ds v) /\
  here (v_ds v) <= here (v_ds v') /\
  (forall i, 0 <= i < words v -> word_of v' i = word_of v i) /\
  (forall a, start (v_ds v) <= a < here (v_ds v) -> byte_at (v_ds v') a = byte_at (v_ds v) a).

(** Any sequence of new definitions and changes of the newest one, starting with a
    new definition *)
Inductive redefinitions (fuel : nat) (v : vm) : vm -> Prop :=
| R_first p v' : In p defining_words -> quiet fuel p v v' -> redefinitions fuel v v'
| R_new p v1 v2 : redefinitions fuel v v1 -> In p defining_words -> quiet fuel p v1 v2 -> redefinitions fuel v v2
| R_last p v1 v2 : redefinitions fuel v v1 -> In p finishing_words -> quiet fuel p v1 v2 -> redefinitions fuel v v2.

(** Name fields at increasing addresses *)
Definition increasing (l : wordlist) : Prop :=
  0 <= wl_len l < 2 ^ 63 /\ forall i, 0 <= i -> i + 1 < wl_len l -> w_nfa (wl_get l i) < w_nfa (wl_get l (i + 1)).

(** The text being interpreted, and: nothing but blanks is left of it *)
Definition input_text (v : vm) (buf : bytes) : Prop :=
  (st_sid (st v) <= 0 /\ t_inbuf (cur v) = Some buf) \/
  (0 < st_sid (st v) /\ nth_error (t_lines (cur v)) (Z.to_nat (st_sid (st v) - 1)) = Some (Some buf)).
Definition blank (c : Z) : Prop := In c [9; 10; 13; 32].
Definition nothing_left (v : vm) : Prop :=
  v_tkn v <> None /\ exists buf, input_text v buf /\ 0 <= st_idx (st v) < two64 /\ zlen buf < two64 /\
    Forall blank (skipn (Z.to_nat (st_idx (st v))) buf).

End S.
