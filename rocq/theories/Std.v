(** A concrete environment and the booted VM, for examples and regression tests.

    Nothing in this file is part of the code's model: the theorems quantify over
    every environment; this instance only shows that their hypotheses can be met. *)
From Coq Require Import ZArith List Bool String.
From Verif Require Import Base Stack Mem Parser Flt State CoreM IoM FloatM FileM Exec Boot Term.
From Coq Require Import Floats.SpecFloat.
Import ListNotations.
Open Scope Z_scope.

(** A toy file system: named byte arrays; open files are (name, position). *)
Record fs := mkFs {
  fs_files : list (bytes * bytes);
  fs_open : list (Z * (bytes * Z));
  fs_next : Z;
  (** the terminal: the history and the events to come *)
  fs_hist : list bytes;
  fs_keys : list event
}.

Definition fs_lookup (s : fs) (n : bytes) : option bytes :=
  match List.find (fun p => bytes_eqb (fst p) n) (fs_files s) with Some p => Some (snd p) | None => None end.
Definition fs_put (s : fs) (n c : bytes) : fs :=
  mkFs ((n, c) :: filter (fun p => negb (bytes_eqb (fst p) n)) (fs_files s)) (fs_open s) (fs_next s) (fs_hist s) (fs_keys s).
Definition fs_handle (s : fs) (h : Z) : option (bytes * Z) :=
  match List.find (fun p => fst p =? h) (fs_open s) with Some p => Some (snd p) | None => None end.
Definition fs_set_pos (s : fs) (h : Z) (n : bytes) (p : Z) : fs :=
  mkFs (fs_files s) ((h, (n, p)) :: filter (fun q => negb (fst q =? h)) (fs_open s)) (fs_next s) (fs_hist s) (fs_keys s).
Definition fs_pad (c : bytes) (n : Z) : bytes :=
  firstn (Z.to_nat n) (c ++ repeat 0 (Z.to_nat (n - zlen c))).

Definition fs_openf (s : fs) (n : bytes) (o : open_opts) : fs * option Z :=
  let go (s : fs) :=
    (mkFs (fs_files s) ((fs_next s, (n, 0)) :: fs_open s) (fs_next s + 1) (fs_hist s) (fs_keys s), Some (fs_next s)) in
  match fs_lookup s n with
  | Some _ => go (if oo_trunc o then fs_put s n [] else s)
  | None => if oo_create o then go (fs_put s n []) else (s, None)
  end.
Definition fs_close (s : fs) (h : Z) : fs :=
  mkFs (fs_files s) (filter (fun q => negb (fst q =? h)) (fs_open s)) (fs_next s) (fs_hist s) (fs_keys s).
Definition fs_remove (s : fs) (n : bytes) : fs * bool :=
  match fs_lookup s n with
  | Some _ => (mkFs (filter (fun p => negb (bytes_eqb (fst p) n)) (fs_files s))
                    (filter (fun q => match fs_handle s (fst q) with Some (m, _) => negb (bytes_eqb m n) | None => true end)
                            (fs_open s)) (fs_next s) (fs_hist s) (fs_keys s), true)
  | None => (s, false)
  end.
Definition fs_content (s : fs) (h : Z) : option (bytes * bytes * Z) :=
  match fs_handle s h with
  | Some (n, p) => match fs_lookup s n with Some c => Some (n, c, p) | None => None end
  | None => None
  end.
Definition fs_size (s : fs) (h : Z) : option Z :=
  match fs_content s h with Some (_, c, _) => Some (zlen c) | None => None end.
Definition fs_tell (s : fs) (h : Z) : fs * option Z :=
  (s, match fs_content s h with Some (_, _, p) => Some p | None => None end).
Definition fs_seek (s : fs) (h p : Z) : fs * bool :=
  match fs_content s h with Some (n, _, _) => (fs_set_pos s h n p, true) | None => (s, false) end.
Definition fs_set_len (s : fs) (h l : Z) : fs * bool :=
  match fs_content s h with Some (n, c, _) => (fs_put s n (fs_pad c l), true) | None => (s, false) end.
Definition fs_read (s : fs) (h u : Z) : fs * option bytes :=
  match fs_content s h with
  | Some (n, c, p) =>
    let r := firstn (Z.to_nat u) (skipn (Z.to_nat p) c) in
    (fs_set_pos s h n (p + zlen r), Some r)
  | None => (s, None)
  end.
Definition fs_write (s : fs) (h : Z) (bs : bytes) : fs * bool :=
  match fs_content s h with
  | Some (n, c, p) =>
    let c' := fs_pad c p ++ bs ++ skipn (Z.to_nat (p + zlen bs)) c in
    (fs_set_pos (fs_put s n c') h n (p + zlen bs), true)
  | None => (s, false)
  end.
Fixpoint take_line (c : bytes) : bytes :=
  match c with
  | [] => []
  | x :: r => if x =? 10 then [x] else x :: take_line r
  end.
Definition fs_read_line (s : fs) (h : Z) : fs * Z * option bytes :=
  match fs_content s h with
  | Some (n, c, p) =>
    let l := take_line (skipn (Z.to_nat p) c) in
    (fs_set_pos s h n (p + zlen l), h, Some l)
  | None => (s, h, None)
  end.

(** f64::powi by repeated multiplication / division (examples only) *)
Fixpoint pow_loop (n : nat) (x acc : Z) : Z :=
  match n with O => acc | S n' => pow_loop n' x (fmul acc x) end.
Definition std_powi (x n : Z) : Z :=
  if n <? 0 then fdiv F_ONE (pow_loop (Z.to_nat (- n)) x F_ONE)
  else pow_loop (Z.to_nat n) x F_ONE.

(** Exact decimal rendering with [p] fraction digits, round half to even *)
Definition std_fmt (p x : Z) : bytes :=
  match sf_of_bits x with
  | SpecFloat.S754_nan => b "NaN"
  | SpecFloat.S754_infinity s => if s then b "-inf" else b "inf"
  | f =>
    let '(s, m, e) := match f with
                      | SpecFloat.S754_finite s m e => (s, Zpos m, e)
                      | SpecFloat.S754_zero s => (s, 0, 0)
                      | _ => (false, 0, 0)
                      end in
    let num := m * 10 ^ p * 2 ^ (Z.max e 0) in
    let den := 2 ^ (Z.max (- e) 0) in
    let q := num / den in
    let r := num mod den in
    let q := if (den <? 2 * r) || ((den =? 2 * r) && Z.odd q) then q + 1 else q in
    let fr := digits_loop 400 10 (q mod 10 ^ p) [] in
    (if s : bool then b "-" else []) ++ digits_loop 400 10 (q / 10 ^ p) [] ++
    (if p =? 0 then [] else b "." ++ repeat 48 (Z.to_nat (p - zlen fr)) ++ fr)
  end.

(** The terminal is the line editor of Term.v; when the events are used up, reading fails. *)
Definition fs_receive (s : fs) : fs * received :=
  match read_line (fs_hist s) (fs_keys s) with
  | Ok (o, h, k) => (mkFs (fs_files s) (fs_open s) (fs_next s) h k, o)
  | _ => (s, Failed)
  end.

Definition std_env (overflow_checks : bool) : Env := {|
  chk := overflow_checks;
  os := fs; handle := Z; reader := Z;
  os_open := fs_openf; os_close := fs_close; os_remove := fs_remove;
  os_size := fs_size; os_tell := fs_tell; os_seek := fs_seek; os_set_len := fs_set_len;
  os_read := fs_read; os_write_all := fs_write;
  os_reader := fun _ h => h; os_read_line := fs_read_line; os_close_reader := fs_close;
  os_receive := fs_receive;
  l_sin := fun x => x; l_cos := fun x => x; l_tan := fun x => x;
  l_asin := fun x => x; l_acos := fun x => x; l_atan := fun x => x;
  l_atan2 := fun x _ => x; l_powf := fun x _ => x; l_powi := std_powi;
  fmt_f64 := std_fmt
|}.

Definition fs0 : fs := mkFs [] [] 1 [] [].
Definition FUEL : nat := Z.to_nat 20000.

Definition env_d : Env := std_env true.     (* debug profile: overflow checks *)
Definition env_r : Env := std_env false.    (* release profile *)

Definition from_ok {A} (d : A) (r : res A) : A := match r with Ok a => a | _ => d end.

(** The VM of src/mock_vm.rs booted with core.fth, debug and release profile *)
Definition booted_d : @vm env_d := Eval vm_compute in
  from_ok (@vm_init env_d 65536 65536 CCanary fs0) (@vm_new env_d FUEL 65536 65536 CCanary fs0).
Definition booted_r : @vm env_r := Eval vm_compute in
  from_ok (@vm_init env_r 65536 65536 CCanary fs0) (@vm_new env_r FUEL 65536 65536 CCanary fs0).

Example boot_d_ok : @vm_new env_d FUEL 65536 65536 CCanary fs0 = Ok booted_d.
Proof. vm_cast_no_check (@eq_refl (res (@vm env_d)) (Ok booted_d)). Qed.
Example boot_r_ok : @vm_new env_r FUEL 65536 65536 CCanary fs0 = Ok booted_r.
Proof. vm_cast_no_check (@eq_refl (res (@vm env_r)) (Ok booted_r)). Qed.
