(** The fixed-size stacks of src/core.rs 183-289. *)
From Coq Require Import ZArith List Bool.
From Verif Require Import Base.
Import ListNotations.
Open Scope Z_scope.

(** src/core.rs 190-194 [Stack<T>].  The array [inner] of 256 slots is a total
    map whose default is the canary: [Stack::new] fills all slots with it
    (196-205) and the canary field never changes afterwards. *)
Record stack (T : Type) := mkStack {
  inner : tmap T;
  len : Z;              (* u8 *)
  canary : T
}.
Arguments mkStack {T}.
Arguments inner {T}.
Arguments len {T}.
Arguments canary {T}.

Section Ops.
Context {T : Type}.

(** u8::wrapping_add / wrapping_sub *)
Definition w8add (a c : Z) : Z := (a + c) mod 256.
Definition w8sub (a c : Z) : Z := (a - c) mod 256.

(** src/core.rs 291-332 [Index<u8>] / [IndexMut<u8>]; the index is a u8, so in range. *)
Definition sget (s : stack T) (i : Z) : T := tget (canary s) (inner s) i.
Definition sset (s : stack T) (i : Z) (v : T) : stack T :=
  mkStack (tset (inner s) i v) (len s) (canary s).
Definition set_len (s : stack T) (l : Z) : stack T := mkStack (inner s) l (canary s).

(** src/core.rs 196-205 [new] (which calls [reset]) *)
Definition stack_new (c : T) : stack T := mkStack tempty 0 c.

(** src/core.rs 207-212 [reset] *)
Definition stack_reset (s : stack T) : stack T := mkStack tempty 0 (canary s).

(** src/core.rs 214-216 [underflow]; [eqb] is the PartialEq instance of the element type *)
Definition underflow (eqb : T -> T -> bool) (s : stack T) : bool :=
  negb (eqb (sget s 255) (canary s)) || (128 <? len s).

(** src/core.rs 218-220 [overflow] *)
Definition overflow (eqb : T -> T -> bool) (s : stack T) : bool :=
  negb (eqb (sget s 64) (canary s)) || ((64 <? len s) && (len s <=? 128)).

(** src/core.rs 222-226 [push] *)
Definition push (s : stack T) (v : T) : stack T :=
  let l := w8add (len s) 1 in
  sset (set_len s l) (w8sub l 1) v.

(** src/core.rs 228-232 [pop] *)
Definition pop (s : stack T) : T * stack T :=
  let r := sget s (w8sub (len s) 1) in
  (r, set_len s (w8sub (len s) 1)).

(** src/core.rs 234-239 [push2] *)
Definition push2 (s : stack T) (v1 v2 : T) : stack T :=
  let l := w8add (len s) 2 in
  let s := set_len s l in
  let s := sset s (w8sub (len s) 2) v1 in
  sset s (w8sub (len s) 1) v2.

(** src/core.rs 241-247 [push3] *)
Definition push3 (s : stack T) (v1 v2 v3 : T) : stack T :=
  let l := w8add (len s) 3 in
  let s := set_len s l in
  let s := sset s (w8sub (len s) 3) v1 in
  let s := sset s (w8sub (len s) 2) v2 in
  sset s (w8sub (len s) 1) v3.

(** src/core.rs 249-256 [pop2] *)
Definition pop2 (s : stack T) : (T * T) * stack T :=
  ((sget s (w8sub (len s) 2), sget s (w8sub (len s) 1)), set_len s (w8sub (len s) 2)).

(** src/core.rs 258-266 [pop3] *)
Definition pop3 (s : stack T) : (T * T * T) * stack T :=
  ((sget s (w8sub (len s) 3), sget s (w8sub (len s) 2), sget s (w8sub (len s) 1)),
   set_len s (w8sub (len s) 3)).

(** src/core.rs 268-270 [last] (always Some) *)
Definition last (s : stack T) : T := sget s (w8sub (len s) 1).

(** src/core.rs 286-288 [as_slice] *)
Definition as_slice (s : stack T) : list T :=
  map (fun k => sget s (Z.of_nat k)) (seq 0 (Z.to_nat (len s))).

End Ops.
