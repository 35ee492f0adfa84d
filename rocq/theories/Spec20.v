(** Vocabulary of the comparison of compiled and interpreted code (C59). *)
From Coq Require Import ZArith List Bool String.
From Verif Require Import Base Stack Mem Parser State CoreM Exec Spec Spec2 Spec4 Spec5 Spec6 Spec7 Spec9 Spec10 Spec11 Spec15 Spec16.
Import ListNotations.
Open Scope list_scope.
Open Scope Z_scope.

Section V.
Context {E : Env}.

(** ** What a line works on *)

(** The part of the machine that lines of code compute with: the data stack, the float stack (top first), the bytes of
    the memory that they may write to, and the output *)
Record conf := Conf { c_data : list Z; c_float : list Z; c_mem : Z -> Z; c_out : option bytes }.

Section U.
(** [U a]: the byte at address [a] may be written to *)
Variable U : Z -> Prop.

(** The machine [u] is in the configuration [c] *)
Definition shows (c : conf) (u : vm) : Prop :=
  stack_has (t_s (cur u)) (c_data c) /\ stack_has (t_f (cur u)) (c_float c) /\
  (forall a, U a -> byte_at (v_ds u) a = c_mem c a) /\ v_out u = c_out c.
(** The rest of the data space *)
Definition outside (v : vm) (a : Z) : Prop := start (v_ds v) <= a < limit (v_ds v) /\ ~ U a.

(** The guard cells of a stack are intact and at most 64 cells are in use *)
Definition intact {T} (s : stack T) : Prop := 0 <= len s <= 64 /\ sget s 64 = canary s /\ sget s 255 = canary s.
Definition stacks_intact (u : vm) : Prop :=
  intact (t_s (cur u)) /\ intact (t_r (cur u)) /\ intact (t_c (cur u)) /\ intact (t_f (cur u)).

(** [u] is a later state of the machine [v]: the words of [v] are as they were and so is the memory allocated in [v],
    except for the writable part; there may be new words and more memory may be allocated *)
Definition later (v u : vm) : Prop :=
  words v <= words u /\ (forall i, 0 <= i < words v -> word_of u i = word_of v i) /\ v_refs u = v_refs v /\
  start (v_ds u) = start (v_ds v) /\ limit (v_ds u) = limit (v_ds v) /\ here (v_ds v) <= here (v_ds u) /\ ds_ok (v_ds u) /\
  forall a, start (v_ds v) <= a < here (v_ds v) -> ~ U a -> byte_at (v_ds u) a = byte_at (v_ds v) a.

(** Executing word [i], from wherever it is called, raises no exception at once and returns to the caller in a state
    satisfying [Q]; the memory outside the writable part is unchanged *)
Definition calls (u : vm) (i : Z) (Q : vm -> Prop) : Prop :=
  forall r, 0 <= r < 2 ^ 63 ->
    exists f u1 u', execute_word f i (set_ip r u) = Ok (tt, u1) /\ v_err u1 = v_err u /\
      goes u1 (st_ip (st u1)) u' r /\ kept (outside u) u u' /\ Q u'.

(** Word [i] takes the configuration [c] to [c']: this depends on nothing but the words and the memory allocated in [v],
    not on the return stack (which has at most [n] cells), and the word leaves everything else alone *)
Definition takes_to (v : vm) (n i : Z) (c c' : conf) : Prop :=
  forall u rs, later v u -> shows c u -> stack_has (t_r (cur u)) rs -> zlen rs <= n -> stacks_intact u ->
    calls u i (fun u' => shows c' u' /\ stack_has (t_r (cur u')) rs /\ here (v_ds u') = here (v_ds u) /\ stacks_intact u' /\ calm u u').

(** ** Lines of numbers and ordinary words *)
Inductive item := Push (x : Z) | FPush (x : Z) | Call (i : Z).

(** What the text [t] stands for in the machine [v]: a number that is not the name of a word, or a word that is neither
    immediate nor compile-only *)
Definition stands_for (v : vm) (t : bytes) (it : item) : Prop :=
  match it with
  | Push x => newest v t None /\ integer_token v t x /\ is_cell x
  | FPush x => newest v t None /\ no_integer v t /\ (exists s i f es e, float_text s i f es e t /\ x = float_value s i f es e) /\ 0 <= x < 2 ^ 64
  | Call i => newest v t (Some i) /\ w_imm (word_of v i) = false /\ w_co (word_of v i) = false /\ w_cs (word_of v i) <> CS_compile_leave
  end.

(** The items take [c] to [c'], one after the other *)
Inductive chain (v : vm) (n : Z) : list item -> conf -> conf -> Prop :=
| C_end c : chain v n [] c c
| C_push x l d f m o c' : zlen d < 64 -> chain v n l (Conf (x :: d) f m o) c' -> chain v n (Push x :: l) (Conf d f m o) c'
| C_fpush x l d f m o c' : zlen f < 64 -> chain v n l (Conf d (x :: f) m o) c' -> chain v n (FPush x :: l) (Conf d f m o) c'
| C_call i l c c1 c' : takes_to v n i c c1 -> chain v n l c1 c' -> chain v n (Call i :: l) c c'.

(** The code of items *)
Definition item_code (it : item) : prog := match it with Push x => Num x | FPush x => Flo x | Call i => Op i end.
Definition seqs (l : list item) : prog := fold_right (fun it p => Seq (item_code it) p) Skip l.

(** [m] with the lowest [n] bytes of [x] at [a] *)
Definition put_bytes (m : Z -> Z) (a n x : Z) : Z -> Z := fun k => if (a <=? k) && (k <? a + n) then x / 256 ^ (k - a) mod 256 else m k.

(** ** The machine before the line *)

(** No code is being run: the instruction pointer is outside the data space *)
Definition idle (v : vm) : Prop :=
  0 <= st_ip (st v) < 2 ^ 63 /\ (st_ip (st v) < start (v_ds v) \/ limit (v_ds v) < st_ip (st v) + 8).
(** The interpreter waits for a line: nothing is being compiled or run, no exception is pending, and the writable memory
    is allocated and contains neither parts of the dictionary nor the number base *)
Definition waiting (v : vm) : Prop :=
  dict_ok v /\ compiler_ready v /\ w_cs (word_of v (idx_exit (v_refs v))) <> CS_compile_leave /\ idx_flit (v_refs v) <> 0 /\ (exists base, base_is v base) /\ base_addr (v_ds v) + 8 <= here (v_ds v) /\
  v_err v = None /\ v_fwd v = [] /\ st_compiling (st v) = false /\ idle v /\ stack_has (t_c (cur v)) [] /\ stacks_intact v /\
  v_tkn v <> None /\ t_inbuf (cur v) <> None /\ st_sid (st v) <= 0 /\
  (forall a, U a -> start (v_ds v) <= a < here (v_ds v) /\ ~ protected v a /\ (a < base_addr (v_ds v) \/ base_addr (v_ds v) + 8 <= a)).

(** Nothing but the configuration has changed: the same return stack, the memory allocated in [v] as before outside the
    writable part, no exception, not compiling *)
Definition same_apart (v v' : vm) (rs : list Z) : Prop :=
  stack_has (t_r (cur v')) rs /\ v_err v' = None /\ st_compiling (st v') = false /\ idle v' /\ v_cur v' = v_cur v /\
  (forall a, start (v_ds v) <= a < here (v_ds v) -> ~ U a -> byte_at (v_ds v') a = byte_at (v_ds v) a).
End U.
End V.
