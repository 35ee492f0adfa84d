(** The line editor of the terminal program and its history file: C85, C86. *)
From Coq Require Import ZArith List Bool Lia String.
From Verif Require Import Base State Term Spec11 Spec26 LTerm LTerm2.
Import ListNotations.
Open Scope list_scope.
Open Scope Z_scope.

(** * C85: the line editor *)

(** On every sequence of events the editor does what the editor on characters does: same line or end, same history *)
Theorem C85_line : forall hist q evs en q' r,
  texts hist q -> Forall typed_ok evs -> entering evs (fresh q) en q' r ->
  exists o hist', read_line hist evs = Ok (o, hist', r) /\ shows o en /\ texts hist' q'.
Proof. exact read_line_run. Qed.
Print Assumptions C85_line.
(** Type U+E9 and b, go left twice, type a, rub it out, type U+20AC, go right, rub out: U+20AC b *)
Example C85_line_ex : read_line [b "x"] [Key NoMod (Char 233); Key Shift (Char 98); Key NoMod Left; Key NoMod Left; OtherEvent; Key NoMod (Char 97); Key NoMod Backspace;
    Key NoMod (Char 8364); Key NoMod Right; Key NoMod Backspace; Key NoMod Enter; Key NoMod (Char 99)] = Ok (Line [226; 130; 172; 98], [b "x"; [226; 130; 172; 98]], [Key NoMod (Char 99)]).
Proof. reflexivity. Qed.

(** One of the events Enter, Ctrl-D, read error suffices for the line to end; the lines in the history remain text, so this is so again for the next line *)
Theorem C85_ends : forall hist q evs,
  texts hist q -> all_unicode q -> Forall typed_ok evs -> Exists finishing evs ->
  exists o hist' q' r en, read_line hist evs = Ok (o, hist', r) /\ entering evs (fresh q) en q' r /\ shows o en /\ texts hist' q' /\ all_unicode q'.
Proof. exact next_line. Qed.
Print Assumptions C85_ends.
Example C85_ends_ex : Exists finishing [Key NoMod Up; Key Control (Char 99); ReadFails] /\
  read_line [b "x"] [Key NoMod Up; Key Control (Char 99); ReadFails] = Ok (Failed, [b "x"; []], []).
Proof. split; [right; right; left; left; reflexivity|reflexivity]. Qed.

(** Without such an event the editor waits for more; in no case does it crash *)
Theorem C85_waits : forall hist q evs,
  texts hist q -> Forall typed_ok evs -> ~ Exists finishing evs -> read_line hist evs = OutOfFuel.
Proof. exact read_line_waits. Qed.
Print Assumptions C85_waits.
Example C85_waits_ex : ~ Exists finishing [Key NoMod Left; Key OtherMod Enter].
Proof.
  intro H. inversion H as [? ? F|? ? H2]; subst; [destruct F as [F|[F|(m & _ & F)]]; discriminate|].
  inversion H2 as [? ? F|? ? H3]; subst; [|inversion H3]. destruct F as [F|[F|(m & [->| ->] & F)]]; discriminate.
Qed.

(** The editor on characters is deterministic *)
Theorem C85_deterministic : forall k s s1 s2, pressed k s s1 -> pressed k s s2 -> s1 = s2.
Proof. exact (fun k s s1 s2 H1 H2 => pressed_unique k s s1 H1 s2 H2). Qed.
Print Assumptions C85_deterministic.

(** Typing characters and Enter gives these characters and adds them to the history *)
Theorem C85_typed : forall hist q cs s evs,
  texts hist q -> Forall unicode cs -> cs <> [] -> utf8_text s cs -> Forall typed_ok evs ->
  read_line hist (typing cs ++ Key NoMod Enter :: evs) = Ok (Line s, hist ++ [s], evs).
Proof. exact typed_line. Qed.
Print Assumptions C85_typed.
(** An empty line is not added *)
Theorem C85_empty : forall hist q evs,
  texts hist q -> Forall typed_ok evs -> read_line hist (Key NoMod Enter :: evs) = Ok (Line [], hist, evs).
Proof. exact empty_line. Qed.
Print Assumptions C85_empty.
(** Up and Enter repeat the last line *)
Theorem C85_recalled : forall hist q cs s evs,
  texts hist q -> utf8_text s cs -> cs <> [] -> Forall typed_ok evs ->
  read_line (hist ++ [s]) (Key NoMod Up :: Key NoMod Enter :: evs) = Ok (Line s, hist ++ [s; s], evs).
Proof. exact recalled_line. Qed.
Print Assumptions C85_recalled.
(** Looking at an older line and coming back loses nothing *)
Theorem C85_up_down : forall hist q cs s evs,
  texts hist q -> hist <> [] -> Forall unicode cs -> cs <> [] -> utf8_text s cs -> Forall typed_ok evs ->
  read_line hist (typing cs ++ Key NoMod Up :: Key NoMod Down :: Key NoMod Enter :: evs) = Ok (Line s, hist ++ [s], evs).
Proof. exact up_down_line. Qed.
Print Assumptions C85_up_down.
Example C85_typed_ex : utf8_text [195; 169] [233] /\ unicode 233 /\
  read_line [b "x"] (typing [233] ++ [Key NoMod Up; Key NoMod Down; Key NoMod Enter]) = Ok (Line [195; 169], [b "x"; [195; 169]], []).
Proof. split; [apply utf8_one; apply (U2 195 169); unfold tail_byte; lia|]. split; [unfold unicode; lia|reflexivity]. Qed.

(** False: entering lines only adds to the history.  A recalled line that was edited and left again stays edited *)
Theorem C85_history_grows_refuted : exists hist hist' s evs,
  (exists q, texts hist q) /\ Forall typed_ok evs /\ read_line hist evs = Ok (Line s, hist', []) /\ ~ exists l, hist' = hist ++ l.
Proof. exact recall_rewrites. Qed.
Print Assumptions C85_history_grows_refuted.

(** * C86: the history file *)

(** Whatever the file contains, the history loaded from it consists of at most 32 lines of text, as C85 requires *)
Theorem C86_loaded : forall s, exists q, texts (load_history s) q /\ all_unicode q /\ (List.length q <= 32)%nat.
Proof. exact loaded. Qed.
Print Assumptions C86_loaded.
Example C86_loaded_ex : load_history (b "ab" ++ [13; 10] ++ [200; 10] ++ b "c") = [b "ab"; []; b "c"].
Proof. reflexivity. Qed.

(** What is loaded from the saved file is the non-empty ones of the last 32 lines *)
Theorem C86_saved : forall hist k e,
  newest_lines 32 hist k -> non_empty k e -> Forall storable e -> load_history (save_history hist) = e.
Proof. exact saved_loaded. Qed.
Print Assumptions C86_saved.
Example C86_saved_ex : newest_lines 32 [b "1"; []; b "2"] [b "1"; []; b "2"] /\ non_empty [b "1"; []; b "2"] [b "1"; b "2"] /\ Forall storable [b "1"; b "2"].
Proof.
  split; [exists []; split; [reflexivity|]; split; [cbn; lia|left; reflexivity]|]. split; [repeat constructor|].
  constructor; [apply (storable_char 49); lia|]. constructor; [apply (storable_char 50); lia|]. constructor.
Qed.

(** Fewer than 32 lines survive leaving the program with Ctrl-D *)
Theorem C86_quit : forall hist evs hist',
  (List.length hist < 32)%nat -> Forall storable hist ->
  read_line hist (Key Control (Char 100) :: evs) = Ok (Eof, hist', evs) -> load_history (save_history hist') = hist.
Proof. exact survives_quit. Qed.
Print Assumptions C86_quit.
(** False: the last 32 lines survive it.  Ctrl-D leaves an empty line at the end of the history, which is counted but not written *)
Theorem C86_quit_32_refuted : exists hist hist',
  (List.length hist = 32)%nat /\ Forall storable hist /\ read_line hist [Key Control (Char 100)] = Ok (Eof, hist', []) /\ load_history (save_history hist') <> hist.
Proof. exact lost_on_quit. Qed.
Print Assumptions C86_quit_32_refuted.
