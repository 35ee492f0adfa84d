(** Vocabulary of the file properties (C50 - C53, C64). *)
From Coq Require Import ZArith List Bool.
From Verif Require Import Base Stack Mem State Exec Spec.
Import ListNotations.
Open Scope Z_scope.

Section F.
Context {E : Env}.

(** ** Identifiers *)

(** The file [h] is open in the current task under the identifier [id] *)
Definition open_as (v : vm) (id : Z) (h : handle) : Prop :=
  1 <= id /\ nth_error (t_files (cur v)) (Z.to_nat (id - 1)) = Some (Some h).
Definition is_open (v : vm) (id : Z) : Prop := exists h, open_as v id h.
(** The source text [s] is open in the current task under the identifier [id] *)
Definition source_as (v : vm) (id : Z) (s : source) : Prop :=
  1 <= id /\ nth_error (t_sources (cur v)) (Z.to_nat (id - 1)) = Some (Some s).
Definition is_source (v : vm) (id : Z) : Prop := exists s, source_as v id s.

(** The file words that take an identifier on top of the stack, and the number of cells below it
    that they take *)
Definition id_words : list (prim * Z) :=
  [(P_file_size, 0); (P_file_position, 0); (P_close_file, 0); (P_read_file, 2); (P_write_file, 2);
   (P_resize_file, 2); (P_reposition_file, 2)].

(** Stack comments of the file words: cells consumed and produced *)
Definition file_words : list (prim * Z * Z) :=
  [(P_file_size, 1, 3); (P_file_position, 1, 3); (P_close_file, 1, 1); (P_create_file, 3, 2);
   (P_open_file, 3, 2); (P_read_file, 3, 2); (P_write_file, 3, 1); (P_resize_file, 3, 1);
   (P_reposition_file, 3, 1)].

(** The address and the length of the buffer among the operands (top first) *)
Definition buffer (w : prim) (ins : list Z) : option (Z * Z) :=
  match w, ins with
  | P_delete_file, [u; a] => Some (a, u)
  | P_create_file, [_; u; a] | P_open_file, [_; u; a] | P_read_file, [_; u; a] | P_write_file, [_; u; a] => Some (a, u)
  | _, _ => None
  end.

(** Only the data stack, the open files, the operating system and the bytes of the data space may differ *)
Definition only_files (v v' : vm) : Prop :=
  v_cur v' = v_cur v /\ v_err v' = v_err v /\ v_handler v' = v_handler v /\
  v_wl v' = v_wl v /\ v_tkn v' = v_tkn v /\ v_out v' = v_out v /\
  v_hld v' = v_hld v /\ v_refs v' = v_refs v /\ v_now v' = v_now v /\ v_fwd v' = v_fwd v /\
  v_res v' = v_res v /\ v_labels v' = v_labels v /\ v_stdout v' = v_stdout v /\ v_stderr v' = v_stderr v /\
  same_other_tasks v v' /\
  t_awake (cur v') = t_awake (cur v) /\ t_state (cur v') = t_state (cur v) /\ t_c (cur v') = t_c (cur v) /\
  t_inbuf (cur v') = t_inbuf (cur v) /\ t_sources (cur v') = t_sources (cur v) /\ t_lines (cur v') = t_lines (cur v) /\
  t_r (cur v') = t_r (cur v) /\ t_f (cur v') = t_f (cur v) /\ high_slots_kept (t_s (cur v)) (t_s (cur v')) /\
  ds_inner (v_ds v') = ds_inner (v_ds v) /\ ds_cap (v_ds v') = ds_cap (v_ds v) /\ ds_len (v_ds v') = ds_len (v_ds v).

(** Only the data stack, the files, the sources and their lines, and the operating system may differ *)
Definition only_sources (v v' : vm) : Prop :=
  v_cur v' = v_cur v /\ v_err v' = v_err v /\ v_handler v' = v_handler v /\ v_wl v' = v_wl v /\ v_ds v' = v_ds v /\ v_tkn v' = v_tkn v /\
  v_out v' = v_out v /\ v_hld v' = v_hld v /\ v_refs v' = v_refs v /\ v_now v' = v_now v /\ v_fwd v' = v_fwd v /\
  v_res v' = v_res v /\ v_labels v' = v_labels v /\ v_stdout v' = v_stdout v /\ v_stderr v' = v_stderr v /\ same_other_tasks v v' /\
  t_awake (cur v') = t_awake (cur v) /\ t_state (cur v') = t_state (cur v) /\ t_c (cur v') = t_c (cur v) /\
  t_inbuf (cur v') = t_inbuf (cur v) /\ t_r (cur v') = t_r (cur v) /\ t_f (cur v') = t_f (cur v) /\ high_slots_kept (t_s (cur v)) (t_s (cur v')).

(** Histories of opening and closing files, with the pairs (identifier, file) that are open *)
Inductive history (fuel : nat) : list (Z * handle) -> vm -> Prop :=
| Hist_start v : t_files (cur v) = [] -> history fuel [] v
| Hist_open ids v v' w ew fam u a id h l :
    history fuel ids v -> In w [P_create_file; P_open_file] -> stack_has (t_s (cur v)) (fam :: u :: a :: l) ->
    exec_prim fuel ew w v = Ok (tt, v') -> stack_has (t_s (cur v')) (0 :: id :: l) -> open_as v' id h ->
    history fuel ((id, h) :: ids) v'
| Hist_close ids v v' ew id l :
    history fuel ids v -> stack_has (t_s (cur v)) (id :: l) -> exec_prim fuel ew P_close_file v = Ok (tt, v') ->
    history fuel (filter (fun p => negb (fst p =? id)) ids) v'
| Hist_other ids v v' : (* anything that leaves the task's files alone *)
    history fuel ids v -> t_files (cur v') = t_files (cur v) -> history fuel ids v'.

(** ** Text lines *)

(** [stripped l t]: [t] is the line [l] without its terminator, a newline or a carriage return and a newline *)
Inductive stripped : bytes -> bytes -> Prop :=
| Strip_crlf t : stripped (t ++ [13; 10]) t
| Strip_lf t : (forall s, t <> s ++ [13]) -> stripped (t ++ [10]) t
| Strip_none t : (forall s, t <> s ++ [10]) -> stripped t t.

(** [first_line c l r]: the text [c] starts with the line [l] (with its terminator, if it has one) and
    goes on with [r] *)
Inductive first_line : bytes -> bytes -> bytes -> Prop :=
| Line_end l r : ~ In 10 l -> first_line (l ++ 10 :: r) (l ++ [10]) r
| Line_last l : ~ In 10 l -> first_line l l [].
(** The lines of a text, without their terminators *)
Inductive text_lines : bytes -> list bytes -> Prop :=
| Lines_nil : text_lines [] []
| Lines_cons c l r t ts : c <> [] -> first_line c l r -> stripped l t -> text_lines r ts -> text_lines c (t :: ts).

(** A well-behaved line reader: [rest o r] is the text the reader has still to deliver *)
Record line_reader := mkLineReader {
  rest : os -> reader -> option bytes;
  lr_line : forall o rd c, rest o rd = Some c -> exists o' rd' l r,
    os_read_line o rd = (o', rd', Some l) /\ first_line c l r /\ rest o' rd' = Some r
}.

(** The line kept for the source [id] *)
Definition line_of (v : vm) (id : Z) : option bytes :=
  match nth_error (t_lines (cur v)) (Z.to_nat (id - 1)) with Some (Some t) => Some t | _ => None end.

(** Repeated calls of (LOAD-LINE) for the source [id]: each leaves a length and a flag, and a line *)
Inductive loads (id : Z) : vm -> list (Z * Z * bytes) -> vm -> Prop :=
| Loads_nil v : loads id v [] v
| Loads_cons v v1 v2 v' ew n f t k l : stack_has (t_s (cur v)) (id :: l) ->
    exec_prim 0 ew P_p_load_line v = Ok (tt, v1) -> stack_has (t_s (cur v1)) (f :: n :: l) -> line_of v1 id = Some t ->
    (* in between, anything that leaves the sources alone *)
    v_os v2 = v_os v1 -> t_sources (cur v2) = t_sources (cur v1) -> t_lines (cur v2) = t_lines (cur v1) -> loads id v2 k v' ->
    loads id v ((n, f, t) :: k) v'.
(** What the calls should report for a text with the lines [ts]: each line with its length and a true flag,
    then empty lines with the flag 0 *)
Fixpoint reported (ts : list bytes) (n : nat) : list (Z * Z * bytes) :=
  match n, ts with
  | O, _ => []
  | S n, t :: ts => (zlen t, -1, t) :: reported ts n
  | S n, [] => (0, 0, []) :: reported [] n
  end.

(** ** An ideal file system *)

(** [c] cut, or extended with zeros, to [n] bytes *)
Definition padded (c : bytes) (n : Z) : bytes := firstn (Z.to_nat n) (c ++ repeat 0 (Z.to_nat (n - zlen c))).
(** [c] with [bs] written at position [p]; a gap is filled with zeros *)
Definition written (c : bytes) (p : Z) (bs : bytes) : bytes := padded c p ++ bs ++ skipn (Z.to_nat (p + zlen bs)) c.
(** [f'] is [f] except that the value at [k] is [x] *)
Definition is_upd {A B} (f f' : A -> B) (k : A) (x : B) : Prop := f' k = x /\ forall i, i <> k -> f' i = f i.
Definition same_fun {A B} (f f' : A -> B) : Prop := forall i, f' i = f i.

(** Files are named byte arrays; an open file is a name and a position.  These are laws of a well-behaved
    operating system: what succeeds does what it should (reading may be short, but gives something
    unless nothing is left), and what fails changes nothing.  A deleted file that is still open is no longer
    described.  Names are compared as byte strings: links and equivalent paths are ignored. *)
Record ideal := mkIdeal {
  content : os -> bytes -> option bytes;
  pointer : os -> handle -> option (bytes * Z);
  live : os -> handle -> Prop;
  id_read : forall o h u n p c, pointer o h = Some (n, p) -> content o n = Some c -> 0 <= u -> 0 <= p ->
    forall o' r, os_read o h u = (o', Some r) ->
    (exists k, r = firstn k (skipn (Z.to_nat p) c) /\ zlen r <= u /\ (r = [] -> u = 0 \/ skipn (Z.to_nat p) c = [])) /\
    is_upd (pointer o) (pointer o') h (Some (n, p + zlen r)) /\ same_fun (content o) (content o');
  id_write : forall o h bs n p c, pointer o h = Some (n, p) -> content o n = Some c -> 0 <= p ->
    forall o', os_write_all o h bs = (o', true) ->
    is_upd (pointer o) (pointer o') h (Some (n, p + zlen bs)) /\ is_upd (content o) (content o') n (Some (written c p bs));
  id_seek : forall o h q n p, pointer o h = Some (n, p) -> forall o', os_seek o h q = (o', true) ->
    is_upd (pointer o) (pointer o') h (Some (n, q)) /\ same_fun (content o) (content o');
  id_set_len : forall o h q n p c, pointer o h = Some (n, p) -> content o n = Some c -> 0 <= q ->
    forall o', os_set_len o h q = (o', true) ->
    same_fun (pointer o) (pointer o') /\ is_upd (content o) (content o') n (Some (padded c q));
  id_size : forall o h n p c, pointer o h = Some (n, p) -> content o n = Some c -> forall z, os_size o h = Some z -> z = zlen c;
  id_tell : forall o h o' z, os_tell o h = (o', Some z) ->
    (forall n p, pointer o h = Some (n, p) -> z = p) /\ same_fun (pointer o) (pointer o') /\ same_fun (content o) (content o');
  (** opening gives a file that was not open, at position 0 *)
  id_open : forall o n op o' h, os_open o n op = (o', Some h) ->
    ~ live o h /\ live o' h /\ (forall k, live o k -> live o' k) /\
    is_upd (pointer o) (pointer o') h (Some (n, 0)) /\
    exists c, is_upd (content o) (content o') n (Some c) /\ (oo_trunc op = true -> c = []) /\
      (oo_trunc op = false -> forall c0, content o n = Some c0 -> c = c0);
  id_close : forall o h, is_upd (pointer o) (pointer (os_close o h)) h None /\ same_fun (content o) (content (os_close o h)) /\
    forall k, k <> h -> live o k -> live (os_close o h) k;
  id_remove : forall o n o', os_remove o n = (o', true) ->
    is_upd (content o) (content o') n None /\ (forall k, live o k -> live o' k) /\
    forall k, pointer o' k = match pointer o k with Some (m, p) => if bytes_eqb m n then None else Some (m, p) | None => None end;
  (** what fails changes nothing; only closing ends a file's life *)
  id_fail : forall o o',
    (exists h u, os_read o h u = (o', None)) \/ (exists h bs, os_write_all o h bs = (o', false)) \/
    (exists h q, os_seek o h q = (o', false)) \/ (exists h q, os_set_len o h q = (o', false)) \/
    (exists h, os_tell o h = (o', None)) \/ (exists n op, os_open o n op = (o', None)) \/
    (exists n, os_remove o n = (o', false)) ->
    same_fun (pointer o) (pointer o') /\ same_fun (content o) (content o') /\ forall k, live o k -> live o' k;
  id_live : forall o o',
    (exists h u r, os_read o h u = (o', Some r)) \/ (exists h bs, os_write_all o h bs = (o', true)) \/
    (exists h q, os_seek o h q = (o', true)) \/ (exists h q, os_set_len o h q = (o', true)) \/
    (exists h z, os_tell o h = (o', Some z)) ->
    forall k, live o k -> live o' k
}.

(** ** The abstract file system seen by a program: named byte arrays, and identifiers of open files *)
Record fsys := mkFsys { f_content : bytes -> option bytes; f_open : Z -> option (bytes * Z) }.

Definition described (F : ideal) (v : vm) (A : fsys) : Prop :=
  same_fun (content F (v_os v)) (f_content A) /\
  (forall id h, open_as v id h -> f_open A id = pointer F (v_os v) h /\ live F (v_os v) h) /\
  (forall id, ~ is_open v id -> f_open A id = None) /\
  forall id id' h, open_as v id h -> open_as v id' h -> id = id'.

Inductive fop :=
| Write (id : Z) (bs : bytes) | Read (id u : Z) (bs : bytes) | Seek (id q : Z) | Resize (id q : Z)
| Size (id z : Z) | Tell (id z : Z) | Open (n : bytes) (id : Z) | Create (n : bytes) (id : Z) | Close (id : Z) | Delete (n : bytes)
| Nothing.

(** What an operation does to the abstract file system *)
Definition fstep (op : fop) (A B : fsys) : Prop :=
  match op with
  | Write id bs => forall n p c, f_open A id = Some (n, p) -> f_content A n = Some c -> 0 <= p ->
      is_upd (f_open A) (f_open B) id (Some (n, p + zlen bs)) /\ is_upd (f_content A) (f_content B) n (Some (written c p bs))
  | Read id u bs => forall n p c, f_open A id = Some (n, p) -> f_content A n = Some c -> 0 <= p ->
      (exists k, bs = firstn k (skipn (Z.to_nat p) c) /\ zlen bs <= u /\ (bs = [] -> u = 0 \/ skipn (Z.to_nat p) c = [])) /\
      is_upd (f_open A) (f_open B) id (Some (n, p + zlen bs)) /\ same_fun (f_content A) (f_content B)
  | Seek id q => forall n p, f_open A id = Some (n, p) ->
      is_upd (f_open A) (f_open B) id (Some (n, q)) /\ same_fun (f_content A) (f_content B)
  | Resize id q => forall n p c, f_open A id = Some (n, p) -> f_content A n = Some c ->
      same_fun (f_open A) (f_open B) /\ is_upd (f_content A) (f_content B) n (Some (padded c q))
  | Size id z => (forall n p c, f_open A id = Some (n, p) -> f_content A n = Some c -> z = zlen c) /\
      same_fun (f_open A) (f_open B) /\ same_fun (f_content A) (f_content B)
  | Tell id z => (forall n p, f_open A id = Some (n, p) -> z = p) /\
      same_fun (f_open A) (f_open B) /\ same_fun (f_content A) (f_content B)
  | Open n id => f_open A id = None /\ is_upd (f_open A) (f_open B) id (Some (n, 0)) /\
      exists c, is_upd (f_content A) (f_content B) n (Some c) /\ forall c0, f_content A n = Some c0 -> c = c0
  | Create n id => f_open A id = None /\ is_upd (f_open A) (f_open B) id (Some (n, 0)) /\
      is_upd (f_content A) (f_content B) n (Some [])
  | Close id => is_upd (f_open A) (f_open B) id None /\ same_fun (f_content A) (f_content B)
  | Delete n => is_upd (f_content A) (f_content B) n None /\
      forall id, f_open B id = match f_open A id with Some (m, p) => if bytes_eqb m n then None else Some (m, p) | None => None end
  | Nothing => same_fun (f_open A) (f_open B) /\ same_fun (f_content A) (f_content B)
  end.

(** The [n] bytes from [a] in the data space *)
Definition in_space (d : dspace) (a n : Z) : Prop := start d <= a /\ 0 <= n /\ a + n <= limit d.
Definition bytes_at (d : dspace) (a : Z) (bs : bytes) : Prop :=
  0 < a /\ in_space d a (zlen bs) /\ forall k x, nth_error bs k = Some x -> byte_at d (a + Z.of_nat k) = x.

(** [does w v v' op]: the word, executed in [v] with result [v'], has performed [op] according to its operands
    and results on the stack (the ior, on top, is 0), or nothing if the ior is not 0 *)
Inductive does : prim -> vm -> vm -> fop -> Prop :=
| D_write v v' xa a u id bs l : stack_has (t_s (cur v)) (id :: u :: xa :: l) -> addr_of xa a -> addr_of u (zlen bs) ->
    bytes_at (v_ds v) a bs -> stack_has (t_s (cur v')) (0 :: l) -> does P_write_file v v' (Write id bs)
| D_read v v' xa a u u1 u2 id bs l : is_cell id -> stack_has (t_s (cur v)) (id :: u :: xa :: l) -> addr_of xa a -> addr_of u u1 ->
    stack_has (t_s (cur v')) (0 :: u2 :: l) -> u2 = zlen bs -> bytes_at (v_ds v') a bs -> does P_read_file v v' (Read id u1 bs)
| D_seek v v' xq q id l : stack_has (t_s (cur v)) (id :: 0 :: xq :: l) -> addr_of xq q -> stack_has (t_s (cur v')) (0 :: l) ->
    does P_reposition_file v v' (Seek id q)
| D_resize v v' xq q id l : stack_has (t_s (cur v)) (id :: 0 :: xq :: l) -> addr_of xq q -> stack_has (t_s (cur v')) (0 :: l) ->
    does P_resize_file v v' (Resize id q)
| D_size v v' id z l : stack_has (t_s (cur v)) (id :: l) -> stack_has (t_s (cur v')) (0 :: 0 :: z :: l) ->
    does P_file_size v v' (Size id z)
| D_tell v v' id z l : stack_has (t_s (cur v)) (id :: l) -> stack_has (t_s (cur v')) (0 :: 0 :: z :: l) ->
    does P_file_position v v' (Tell id z)
| D_open v v' xa a u fam id n l : stack_has (t_s (cur v)) (fam :: u :: xa :: l) -> addr_of xa a -> addr_of u (zlen n) ->
    bytes_at (v_ds v) a n -> stack_has (t_s (cur v')) (0 :: id :: l) -> does P_open_file v v' (Open n id)
| D_create v v' xa a u fam id n l : stack_has (t_s (cur v)) (fam :: u :: xa :: l) -> addr_of xa a -> addr_of u (zlen n) ->
    bytes_at (v_ds v) a n -> stack_has (t_s (cur v')) (0 :: id :: l) -> does P_create_file v v' (Create n id)
| D_close v v' id l : stack_has (t_s (cur v)) (id :: l) -> stack_has (t_s (cur v')) (0 :: l) -> does P_close_file v v' (Close id)
| D_delete v v' xa a u n l : stack_has (t_s (cur v)) (u :: xa :: l) -> addr_of xa a -> addr_of u (zlen n) ->
    bytes_at (v_ds v) a n -> stack_has (t_s (cur v')) (0 :: l) -> does P_delete_file v v' (Delete n)
| D_failed w v v' ins ior l l' : In (w, zlen ins) [(P_write_file, 3); (P_read_file, 3); (P_reposition_file, 3); (P_resize_file, 3);
      (P_file_size, 1); (P_file_position, 1); (P_open_file, 3); (P_create_file, 3); (P_close_file, 1); (P_delete_file, 2)] ->
    stack_has (t_s (cur v)) (ins ++ l) -> zlen l < 253 -> stack_has (t_s (cur v')) (ior :: l') -> ior <> 0 -> does w v v' Nothing.

(** Histories of file words, with the operations they performed *)
Inductive file_history (fuel : nat) : list fop -> vm -> vm -> Prop :=
| FH_nil v : file_history fuel [] v v
| FH_word w v v1 v' ew op ops : exec_prim fuel ew w v = Ok (tt, v1) -> does w v v1 op -> file_history fuel ops v1 v' ->
    file_history fuel (op :: ops) v v'
| FH_other v v1 v' ops : v_os v1 = v_os v -> t_files (cur v1) = t_files (cur v) -> file_history fuel ops v1 v' ->
    file_history fuel ops v v'.
Inductive fsteps : list fop -> fsys -> fsys -> Prop :=
| FS_nil A B : same_fun (f_open A) (f_open B) -> same_fun (f_content A) (f_content B) -> fsteps [] A B
| FS_cons op ops A B C : fstep op A B -> fsteps ops B C -> fsteps (op :: ops) A C.
End F.
