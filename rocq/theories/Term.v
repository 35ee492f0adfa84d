(** The line editor of the terminal program (rtf/src/term.rs).

    Modelled: the history, the edited line and the cursor, key by key; loading and saving of the history file as
    functions on its contents.  Not modelled: raw mode, the drawing of the line (except that the slice
    [self.buffer[..x]] that is drawn must end at a character boundary), and the place of the history file.
    Indices are [Z]; a [String] is the list of its bytes. *)
From Coq Require Import ZArith List Bool.
From Verif Require Import Base State.
Import ListNotations.
Open Scope Z_scope.

(** ** Strings *)

(** char::encode_utf8 *)
Definition encode_utf8 (c : Z) : bytes :=
  if c <? 128 then [c]
  else if c <? 2048 then [192 + c / 64; 128 + c mod 64]
  else if c <? 65536 then [224 + c / 4096; 128 + c / 64 mod 64; 128 + c mod 64]
  else [240 + c / 262144; 128 + c / 4096 mod 64; 128 + c / 64 mod 64; 128 + c mod 64].
(** String::insert *)
Definition str_insert (s : bytes) (x c : Z) : res bytes :=
  if is_boundary s x then Ok (firstn (Z.to_nat x) s ++ encode_utf8 c ++ skipn (Z.to_nat x) s) else Panic PSlice.
(** String::remove *)
Definition str_remove (s : bytes) (x : Z) : res bytes :=
  if is_boundary s x then
    match skipn (Z.to_nat x) s with
    | [] => Panic PExpect
    | c :: r => Ok (firstn (Z.to_nat x) s ++ skipn (utf8_width c) (c :: r))
    end
  else Panic PSlice.
(** [while !s.is_char_boundary(x) { x -= 1; }]; 0 is a boundary *)
Fixpoint back_to_boundary (fuel : nat) (s : bytes) (x : Z) : res Z :=
  if is_boundary s x then Ok x
  else match fuel with O => OutOfFuel | S f => back_to_boundary f s (x - 1) end.
(** [while !s.is_char_boundary(x) { x += 1; }] *)
Fixpoint on_to_boundary (fuel : nat) (s : bytes) (x : Z) : res Z :=
  if is_boundary s x then Ok x
  else match fuel with O => OutOfFuel | S f => on_to_boundary f s (x + 1) end.
Definition go_back (s : bytes) (x : Z) : res Z := back_to_boundary (S (Z.to_nat x)) s x.
Definition go_on (s : bytes) (x : Z) : res Z := on_to_boundary (S (length s)) s x.

(** ** Keys (crossterm's [Event], [KeyModifiers], [KeyCode]; what the editor does not distinguish is merged) *)
Inductive modifiers := NoMod | Shift | Control | OtherMod.
Inductive keycode := Backspace | Enter | Char (c : Z) | Up | Down | Left | Right | OtherKey.
Inductive event := Key (m : modifiers) (k : keycode) | OtherEvent | ReadFails.

(** ** The state of [read_line]: rtf/src/term.rs 20-23 and the locals [h], [x] *)
Record editor := mkEd { e_hist : list bytes; e_buf : bytes; e_h : Z; e_x : Z }.

(** Vec index *)
Definition vec_get (l : list bytes) (i : Z) : res bytes :=
  match nth_error l (Z.to_nat i) with Some s => if 0 <=? i then Ok s else Panic PIndex | None => Panic PIndex end.
Definition vec_set (l : list bytes) (i : Z) (s : bytes) : res (list bytes) :=
  if (0 <=? i) && (i <? zlen l) then Ok (firstn (Z.to_nat i) l ++ [s] ++ skipn (S (Z.to_nat i)) l) else Panic PIndex.

(** rtf/src/term.rs 95-114: what the up and down keys do after changing [h] *)
Definition recall (e : editor) (h : Z) (hist : list bytes) : res editor :=
  rbind (vec_get hist h) (fun s => Ok (mkEd hist s h (zlen s))).

(** rtf/src/term.rs 70-133: one key without modifier or with SHIFT; the flag says whether the line is finished *)
Definition key_step (e : editor) (k : keycode) : res (editor * bool) :=
  match k with
  | Backspace =>
    if 0 <? e_x e then
      rbind (go_back (e_buf e) (e_x e - 1)) (fun x =>
      rbind (str_remove (e_buf e) x) (fun s => Ok (mkEd (e_hist e) s (e_h e) x, false)))
    else Ok (e, false)
  | Enter => Ok (mkEd (e_hist e) (e_buf e) (e_h e) (zlen (e_buf e)), true)
  | Char c =>
    rbind (str_insert (e_buf e) (e_x e) c) (fun s =>
    rbind (go_on s (e_x e + 1)) (fun x => Ok (mkEd (e_hist e) s (e_h e) x, false)))
  | Up =>
    rbind (vec_set (e_hist e) (e_h e) (e_buf e)) (fun hist =>
    rbind (recall e (if e_h e =? 0 then 0 else e_h e - 1) hist) (fun e' => Ok (e', false)))
  | Down =>
    rbind (vec_set (e_hist e) (e_h e) (e_buf e)) (fun hist =>
    let h := if zlen hist - 1 <? e_h e + 1 then zlen hist - 1 else e_h e + 1 in
    rbind (recall e h hist) (fun e' => Ok (e', false)))
  | Left =>
    let x := if 0 <? e_x e then e_x e - 1 else e_x e in
    rbind (go_back (e_buf e) x) (fun x => Ok (mkEd (e_hist e) (e_buf e) (e_h e) x, false))
  | Right =>
    let x := if e_x e <? zlen (e_buf e) then e_x e + 1 else e_x e in
    rbind (go_on (e_buf e) x) (fun x => Ok (mkEd (e_hist e) (e_buf e) (e_h e) x, false))
  | OtherKey => Ok (e, false)
  end.

(** rtf/src/term.rs 151-159: the end of [read_line] *)
Definition finish (e : editor) : res (received * list bytes) :=
  match e_buf e with
  | [] => Ok (Line [], removelast (e_hist e))
  | s => rbind (vec_set (e_hist e) (zlen (e_hist e) - 1) s) (fun hist => Ok (Line s, hist))
  end.

(** rtf/src/term.rs 64-150: the loop.  The events still to come are a list; [OutOfFuel]: it waits for another one.
    The result is what is returned, the history afterwards and the events not consumed. *)
Fixpoint editing (evs : list event) (e : editor) : res (received * list bytes * list event) :=
  match evs with
  | [] => OutOfFuel
  | ev :: evs' =>
    match ev with
    | ReadFails => Ok (Failed, e_hist e, evs')
    | Key Control (Char 100) => Ok (Eof, e_hist e, evs')
    | _ =>
      rbind (match ev with
             | Key NoMod k | Key Shift k => key_step e k
             | _ => Ok (e, false)
             end) (fun '(e', done) =>
      (* [self.buffer[..x]] is drawn *)
      if is_boundary (e_buf e') (e_x e') then
        if done then rbind (finish e') (fun '(o, hist) => Ok (o, hist, evs')) else editing evs' e'
      else Panic PSlice)
    end
  end.

(** rtf/src/term.rs 57-63 [read_line] *)
Definition read_line (hist : list bytes) (evs : list event) : res (received * list bytes * list event) :=
  editing evs (mkEd (hist ++ [[]]) [] (zlen hist) 0).

(** ** The history file *)

(** str::from_utf8 succeeds *)
Definition tailb (x : Z) : bool := (128 <=? x) && (x <? 192).
Fixpoint utf8_valid (fuel : nat) (s : bytes) : bool :=
  match fuel with
  | O => match s with [] => true | _ => false end
  | S f =>
    match s with
    | [] => true
    | a :: r =>
      if (0 <=? a) && (a <? 128) then utf8_valid f r
      else if (194 <=? a) && (a <? 224) then
        match r with x :: r => tailb x && utf8_valid f r | _ => false end
      else if (224 <=? a) && (a <? 240) then
        match r with
        | x :: y :: r => tailb x && tailb y && (negb (a =? 224) || (160 <=? x)) && (negb (a =? 237) || (x <? 160)) && utf8_valid f r
        | _ => false
        end
      else if (240 <=? a) && (a <? 245) then
        match r with
        | x :: y :: z :: r => tailb x && tailb y && tailb z && (negb (a =? 240) || (144 <=? x)) && (negb (a =? 244) || (x <? 144)) && utf8_valid f r
        | _ => false
        end
      else false
    end
  end.
(** BufRead::lines: the parts ended by a newline, without a carriage return before it, and the rest if it is not empty *)
Definition chomp (s : bytes) : bytes := if last s 0 =? 13 then removelast s else s.
Fixpoint file_lines (s : bytes) (line : bytes) : list bytes :=
  match s with
  | [] => match line with [] => [] | _ => [line] end
  | c :: r => if c =? 10 then chomp line :: file_lines r [] else file_lines r (line ++ [c])
  end.
(** rtf/src/term.rs 33-51: the history kept from a file with contents [s] *)
Definition last32 {A} (l : list A) : list A := skipn (length l - 32) l.
Definition load_history (s : bytes) : list bytes :=
  last32 (map (fun l => if utf8_valid (length l) l then l else []) (file_lines s [])).
(** rtf/src/term.rs 173-187: the contents of the file written from the history *)
Definition save_history (hist : list bytes) : bytes :=
  flat_map (fun l => match l with [] => [] | _ => l ++ [10] end) (last32 hist).
