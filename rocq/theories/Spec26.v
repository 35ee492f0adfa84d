(** Vocabulary of the properties of the line editor (C85, C86): an editor on characters instead of bytes. *)
From Coq Require Import ZArith List Bool.
From Verif Require Import Base State Term Spec11.
Import ListNotations.
Open Scope Z_scope.

(** The line being edited: the characters before the cursor and those after it; the lines that can be recalled, the
    last one being that of the line being entered; which of them is being edited *)
Record sheet := mkSheet { before : list Z; after : list Z; recalls : list (list Z); place : nat }.
(** The characters of the line *)
Definition text_of (s : sheet) : list Z := before s ++ after s.
(** The lines to be recalled, after the edited one has been put in its place *)
Definition kept_lines (s : sheet) (l : list (list Z)) : Prop :=
  length l = length (recalls s) /\ nth_error l (place s) = Some (text_of s) /\
  forall i, i <> place s -> nth_error l i = nth_error (recalls s) i.

(** What a key does *)
Inductive pressed : keycode -> sheet -> sheet -> Prop :=
| Pr_char c l r q h : pressed (Char c) (mkSheet l r q h) (mkSheet (l ++ [c]) r q h)
| Pr_rub c l r q h : pressed Backspace (mkSheet (l ++ [c]) r q h) (mkSheet l r q h)
| Pr_rub_none r q h : pressed Backspace (mkSheet [] r q h) (mkSheet [] r q h)
| Pr_left c l r q h : pressed Left (mkSheet (l ++ [c]) r q h) (mkSheet l (c :: r) q h)
| Pr_left_none r q h : pressed Left (mkSheet [] r q h) (mkSheet [] r q h)
| Pr_right c l r q h : pressed Right (mkSheet l (c :: r) q h) (mkSheet (l ++ [c]) r q h)
| Pr_right_none l q h : pressed Right (mkSheet l [] q h) (mkSheet l [] q h)
| Pr_up s q h t : kept_lines s q -> h = Nat.pred (place s) -> nth_error q h = Some t -> pressed Up s (mkSheet t [] q h)
| Pr_down s q h t : kept_lines s q -> h = Nat.min (S (place s)) (length (recalls s) - 1) -> nth_error q h = Some t -> pressed Down s (mkSheet t [] q h)
| Pr_other s : pressed OtherKey s s.

(** Keys with these modifiers count *)
Definition plain (m : modifiers) : Prop := m = NoMod \/ m = Shift.
(** Events without effect *)
Definition ignored (ev : event) : Prop :=
  ev = OtherEvent \/ exists k, ev = Key OtherMod k \/ (ev = Key Control k /\ k <> Char 100).

(** How entering a line ends: the line, with the history afterwards *)
Inductive ended := Entered (line : list Z) | At_eof | Broken.
Inductive entering : list event -> sheet -> ended -> list (list Z) -> list event -> Prop :=
| E_enter m s evs : plain m -> text_of s <> [] -> entering (Key m Enter :: evs) s (Entered (text_of s)) (removelast (recalls s) ++ [text_of s]) evs
| E_empty m s evs : plain m -> text_of s = [] -> entering (Key m Enter :: evs) s (Entered []) (removelast (recalls s)) evs
| E_eof s evs : entering (Key Control (Char 100) :: evs) s At_eof (recalls s) evs
| E_broken s evs : entering (ReadFails :: evs) s Broken (recalls s) evs
| E_key m k s s' evs o q r : plain m -> k <> Enter -> pressed k s s' -> entering evs s' o q r -> entering (Key m k :: evs) s o q r
| E_ignored ev s evs o q r : ignored ev -> entering evs s o q r -> entering (ev :: evs) s o q r.

(** The beginning: an empty line behind the history *)
Definition fresh (q : list (list Z)) : sheet := mkSheet [] [] (q ++ [[]]) (length q).

(** A Unicode character *)
Definition unicode (c : Z) : Prop := 0 <= c < 55296 \/ 57344 <= c < 1114112.
Definition typed_ok (ev : event) : Prop := match ev with Key _ (Char c) => unicode c | _ => True end.
Definition all_unicode (q : list (list Z)) : Prop := Forall (Forall unicode) q.
(** An event that ends the line *)
Definition finishing (ev : event) : Prop := ev = ReadFails \/ ev = Key Control (Char 100) \/ exists m, plain m /\ ev = Key m Enter.
(** Typing the characters [cs] *)
Definition typing (cs : list Z) : list event := map (fun c => Key NoMod (Char c)) cs.
(** The bytes of the lines *)
Definition texts (l : list bytes) (q : list (list Z)) : Prop := Forall2 utf8_text l q.
Definition shows (o : received) (e : ended) : Prop :=
  match o, e with
  | Line s, Entered cs => utf8_text s cs
  | Eof, At_eof => True
  | Failed, Broken => True
  | _, _ => False
  end.

(** ** The history file *)
(** A line that can be written to the file and read back: text of at least one character, without line ends *)
Definition storable (s : bytes) : Prop := exists cs, utf8_text s cs /\ Forall unicode cs /\ cs <> [] /\ ~ In 10 cs /\ ~ In 13 cs.
(** [k] are the last [n] lines of [l], or all when there are fewer *)
Definition newest_lines {A} (n : nat) (l k : list A) : Prop := exists older, l = older ++ k /\ (length k <= n)%nat /\ (older = [] \/ length k = n)%nat.
(** [k] are the lines of [l] that are not empty *)
Inductive non_empty : list bytes -> list bytes -> Prop :=
| N_nil : non_empty [] []
| N_skip l k : non_empty l k -> non_empty ([] :: l) k
| N_keep x s l k : non_empty l k -> non_empty ((x :: s) :: l) ((x :: s) :: k).
