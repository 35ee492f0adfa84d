(** Machine integers, results of Rust computations, total maps and byte strings.

    Conventions (target: 64-bit little-endian):
    - [isize] values are [Z] in [-2^63, 2^63), [usize] values are [Z] in [0, 2^64),
      [u8] values are [Z] in [0, 256); the Rust casts are the explicit functions below. *)
From Coq Require Import ZArith List Bool String Ascii FMapPositive.
Import ListNotations.
Open Scope Z_scope.

(** ** Results of Rust code *)

(** Why a Rust panic happened.  Only used to make the model's outcomes readable. *)
Inductive panic_reason :=
| POverflow      (* arithmetic overflow with overflow checks enabled *)
| PIndex         (* slice / Vec index out of bounds *)
| PSlice         (* str slicing out of bounds or not on a char boundary *)
| PExpect        (* Option::expect / unwrap on None *)
| PFull.         (* the explicit panic!("... while space is full.") of src/memory.rs *)

(** Outcome of a computation: normal result, Rust panic, undefined behaviour
    (a raw access outside the allocated data space), or not finished within the fuel. *)
Inductive res (A : Type) :=
| Ok (a : A)
| Panic (p : panic_reason)
| UB
| OutOfFuel.
Arguments Ok {A} a.
Arguments Panic {A} p.
Arguments UB {A}.
Arguments OutOfFuel {A}.

Definition rbind {A B} (r : res A) (k : A -> res B) : res B :=
  match r with
  | Ok a => k a
  | Panic p => Panic p
  | UB => UB
  | OutOfFuel => OutOfFuel
  end.

(** ** Integer casts *)

Definition two64 : Z := 18446744073709551616.   (* 2^64 *)
Definition two63 : Z := 9223372036854775808.    (* 2^63 *)
Definition imin : Z := -9223372036854775808.    (* isize::MIN *)
Definition imax : Z := 9223372036854775807.     (* isize::MAX *)

(** [x as usize] *)
Definition to_u64 (z : Z) : Z := z mod two64.
(** [x as isize] *)
Definition to_i64 (z : Z) : Z :=
  let u := z mod two64 in if u <? two63 then u else u - two64.
(** [x as u8] *)
Definition to_u8 (z : Z) : Z := z mod 256.
(** [x as u32] *)
Definition to_u32 (z : Z) : Z := z mod 4294967296.
(** [x as i32] *)
Definition to_i32 (z : Z) : Z :=
  let u := z mod 4294967296 in if u <? 2147483648 then u else u - 4294967296.

Definition in_i64 (z : Z) : bool := (imin <=? z) && (z <=? imax).
Definition in_u64 (z : Z) : bool := (0 <=? z) && (z <? two64).
Definition in_u8 (z : Z) : bool := (0 <=? z) && (z <? 256).

(** src/lib.rs 33-35 *)
Definition TRUE : Z := -1.
Definition FALSE : Z := 0.
Definition NUM_TASKS : Z := 5.
Definition flag (b : bool) : Z := if b then TRUE else FALSE.

(** ** Total maps from non-negative integers (arrays with a default) *)

Definition tmap (A : Type) := PositiveMap.t A.
Definition tkey (i : Z) : positive := Z.to_pos (i + 1).
Definition tempty {A} : tmap A := PositiveMap.empty A.
Definition tget {A} (d : A) (m : tmap A) (i : Z) : A :=
  match PositiveMap.find (tkey i) m with Some x => x | None => d end.
Definition tset {A} (m : tmap A) (i : Z) (x : A) : tmap A :=
  PositiveMap.add (tkey i) x m.

(** ** Byte strings: Rust [String]/[&str]/[&[u8]] are lists of bytes *)

Definition bytes := list Z.

Definition zlen {A} (l : list A) : Z := Z.of_nat (List.length l).

(** Source-text literals. *)
Fixpoint b (s : string) : bytes :=
  match s with
  | EmptyString => []
  | String c r => Z.of_nat (nat_of_ascii c) :: b r
  end.

(** u8::to_ascii_lowercase *)
Definition lower (c : Z) : Z := if (65 <=? c) && (c <=? 90) then c + 32 else c.

Fixpoint bytes_eqb (x y : bytes) : bool :=
  match x, y with
  | [], [] => true
  | a :: x', c :: y' => (a =? c) && bytes_eqb x' y'
  | _, _ => false
  end.

(** str::eq_ignore_ascii_case *)
Definition eq_ignore_case (x y : bytes) : bool :=
  bytes_eqb (map lower x) (map lower y).

(** Length in bytes of the UTF-8 character starting with byte [c]. *)
Definition utf8_width (c : Z) : nat :=
  if c <? 128 then 1%nat
  else if c <? 224 then 2%nat
  else if c <? 240 then 3%nat
  else 4%nat.

(** Scalar value of a UTF-8 character given its bytes. *)
Definition utf8_value (bs : bytes) : Z :=
  match bs with
  | [a] => a
  | [a; x] => (a - 192) * 64 + (x - 128)
  | [a; x; y] => ((a - 224) * 64 + (x - 128)) * 64 + (y - 128)
  | [a; x; y; z] => (((a - 240) * 64 + (x - 128)) * 64 + (y - 128)) * 64 + (z - 128)
  | _ => 0
  end.

(** str::char_indices as a list of (char, its bytes).  Rust strings are valid
    UTF-8 by type; on invalid input this function still returns a partition of
    the bytes but the values are meaningless. *)
Fixpoint utf8_chars (fuel : nat) (bs : bytes) : list (Z * bytes) :=
  match fuel with
  | O => []
  | S f =>
    match bs with
    | [] => []
    | c :: _ =>
      let w := utf8_width c in
      let h := firstn w bs in
      (utf8_value h, h) :: utf8_chars f (skipn w bs)
    end
  end.

Definition chars_of (bs : bytes) : list (Z * bytes) := utf8_chars (List.length bs) bs.

(** char as u8 encoding of String::push for chars below 256 (emit). *)
Definition utf8_latin1 (c : Z) : bytes :=
  if c <? 128 then [c] else [192 + c / 64; 128 + c mod 64].

(** str::is_char_boundary *)
Definition is_boundary (s : bytes) (i : Z) : bool :=
  if i =? 0 then true
  else if i =? zlen s then true
  else if (0 <? i) && (i <? zlen s)
       then let c := nth (Z.to_nat i) s 0 in (c <? 128) || (192 <=? c)
       else false.

(** [&s[i..]]: [None] stands for the panic. *)
Definition slice_from (s : bytes) (i : Z) : option bytes :=
  if is_boundary s i then Some (skipn (Z.to_nat i) s) else None.
