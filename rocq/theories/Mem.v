(** The data space of src/memory.rs. *)
From Coq Require Import ZArith List Bool.
From Verif Require Import Base.
Import ListNotations.
Open Scope Z_scope.

(** src/memory.rs 21-27 [DataSpace].  [ds_inner] is the address of the
    allocation, [ds_mem] its bytes (keyed by offset from [ds_inner], zero
    initially because of alloc_zeroed).  [layout] and [marker] carry no
    behaviour. *)
Record dspace := mkDs {
  ds_inner : Z;
  ds_cap : Z;
  ds_len : Z;
  ds_mem : tmap Z
}.

(** src/memory.rs 76-90 [start], [limit], [here] *)
Definition start (d : dspace) : Z := ds_inner d.
Definition limit (d : dspace) : Z := ds_inner d + ds_cap d.
Definition here (d : dspace) : Z := ds_inner d + ds_len d.

(** Raw accesses.  Outside the allocation they are undefined behaviour.
    Misaligned cell accesses behave as on x86-64 (plain access). *)
Definition in_ds (d : dspace) (addr n : Z) : bool :=
  (start d <=? addr) && (addr + n <=? limit d).
Definition byte_at (d : dspace) (addr : Z) : Z := tget 0 (ds_mem d) (addr - ds_inner d).
Definition set_byte (d : dspace) (addr v : Z) : dspace :=
  mkDs (ds_inner d) (ds_cap d) (ds_len d) (tset (ds_mem d) (addr - ds_inner d) v).

(** src/memory.rs 127-129 [get_u8] *)
Definition get_u8 (d : dspace) (addr : Z) : res Z :=
  if in_ds d addr 1 then Ok (byte_at d addr) else UB.

(** src/memory.rs 163-165 [put_u8] *)
Definition put_u8 (d : dspace) (v addr : Z) : res dspace :=
  if in_ds d addr 1 then Ok (set_byte d addr v) else UB.

(** Little-endian composition of eight bytes. *)
Definition cell_bytes_val (d : dspace) (addr : Z) : Z :=
  byte_at d addr + 256 * (byte_at d (addr + 1) + 256 * (byte_at d (addr + 2) +
  256 * (byte_at d (addr + 3) + 256 * (byte_at d (addr + 4) + 256 * (byte_at d (addr + 5) +
  256 * (byte_at d (addr + 6) + 256 * byte_at d (addr + 7))))))).

Definition set_cell_bytes (d : dspace) (v addr : Z) : dspace :=
  let d := set_byte d addr (v mod 256) in
  let d := set_byte d (addr + 1) (v / 256 mod 256) in
  let d := set_byte d (addr + 2) (v / 65536 mod 256) in
  let d := set_byte d (addr + 3) (v / 16777216 mod 256) in
  let d := set_byte d (addr + 4) (v / 4294967296 mod 256) in
  let d := set_byte d (addr + 5) (v / 1099511627776 mod 256) in
  let d := set_byte d (addr + 6) (v / 281474976710656 mod 256) in
  set_byte d (addr + 7) (v / 72057594037927936 mod 256).

(** src/memory.rs 131-133 [get_usize] *)
Definition get_usize (d : dspace) (addr : Z) : res Z :=
  if in_ds d addr 8 then Ok (cell_bytes_val d addr) else UB.

(** src/memory.rs 135-137 [get_isize] *)
Definition get_isize (d : dspace) (addr : Z) : res Z :=
  if in_ds d addr 8 then Ok (to_i64 (cell_bytes_val d addr)) else UB.

(** src/memory.rs 139-141 [get_f64]: the 64-bit pattern *)
Definition get_f64 (d : dspace) (addr : Z) : res Z := get_usize d addr.

(** src/memory.rs 180-182, 202-204, 217-219 [put_usize], [put_isize], [put_f64] *)
Definition put_cell (d : dspace) (v addr : Z) : res dspace :=
  if in_ds d addr 8 then Ok (set_cell_bytes d (to_u64 v) addr) else UB.

(** src/memory.rs 149-159 [str_from_raw_parts], [buffer_from_raw_parts]:
    [n] bytes from [addr].  A zero-length slice only needs a non-null pointer.
    The UTF-8 validity that [&str] requires is not checked by the code (transmute)
    and not modelled. *)
Definition read_bytes (d : dspace) (addr n : Z) : res bytes :=
  if n =? 0 then (if addr =? 0 then UB else Ok [])
  else if in_ds d addr n
       then Ok (map (fun k => byte_at d (addr + Z.of_nat k)) (seq 0 (Z.to_nat n)))
       else UB.

Fixpoint write_bytes (d : dspace) (addr : Z) (bs : bytes) : dspace :=
  match bs with
  | [] => d
  | x :: r => write_bytes (set_byte d addr x) (addr + 1) r
  end.

(** src/memory.rs 92-101 [set_here]; the boolean is [is_ok()] *)
Definition set_here (d : dspace) (pos : Z) : bool * dspace :=
  if (start d <=? pos) && (pos <=? limit d)
  then (true, mkDs (ds_inner d) (ds_cap d) (pos - ds_inner d) (ds_mem d))
  else (false, d).

(** src/memory.rs 304-307 [allot] with the overflow-check setting [chk] of the
    build: [here as isize + v]; the result of [set_here] is dropped. *)
Definition ds_allot (chk : bool) (d : dspace) (v : Z) : res dspace :=
  let z := to_i64 (here d) + v in
  if in_i64 z then Ok (snd (set_here d (to_u64 z)))
  else if chk then Panic POverflow
  else Ok (snd (set_here d (to_u64 z))).

(** src/memory.rs 168-178 [compile_u8].  [here + n] cannot overflow: an
    allocation never extends beyond isize::MAX (Layout's contract). *)
Definition compile_u8 (d : dspace) (v : Z) : res dspace :=
  let h := here d in
  if h <? limit d
  then rbind (put_u8 d v h) (fun d => Ok (snd (set_here d (h + 1))))
  else Panic PFull.

(** src/memory.rs 184-194, 206-216, 221-231 [compile_usize], [compile_isize],
    [compile_f64] *)
Definition compile_cell (d : dspace) (v : Z) : res dspace :=
  let h := here d in
  if h + 8 <=? limit d
  then rbind (put_cell d v h) (fun d => Ok (snd (set_here d (h + 8))))
  else Panic PFull.

Fixpoint compile_bytes (d : dspace) (bs : bytes) : res dspace :=
  match bs with
  | [] => Ok d
  | x :: r => rbind (compile_u8 d x) (fun d => compile_bytes d r)
  end.

(** src/memory.rs 253-266 [compile_str]; returns the address of the length cell *)
Definition compile_str (d : dspace) (s : bytes) : res (Z * dspace) :=
  let h := here d in
  if h + zlen s + 8 <=? limit d
  then rbind (compile_cell d (zlen s)) (fun d =>
       rbind (compile_bytes d s) (fun d => Ok (h, d)))
  else Panic PFull.

(** src/memory.rs 269-272, 281-284 [aligned], [aligned_f64] (align 8) and
    293-296 [aligned_16bytes]: [(pos + align - 1) & -align] *)
Definition aligned_to (chk : bool) (al pos : Z) : res Z :=
  if in_u64 (pos + al - 1) then Ok (Z.land (pos + al - 1) (to_u64 (- al)))
  else if chk then Panic POverflow
  else Ok (Z.land (to_u64 (pos + al - 1)) (to_u64 (- al))).

(** src/memory.rs 275-278, 287-290 [align], [align_f64]; the result of
    [set_here] is dropped *)
Definition ds_align (chk : bool) (d : dspace) : res dspace :=
  rbind (aligned_to chk 8 (here d)) (fun p => Ok (snd (set_here d p))).

(** src/memory.rs 309-311 [truncate] *)
Definition ds_truncate (d : dspace) (pos : Z) : dspace := snd (set_here d pos).

(** src/memory.rs 143-147 [get_str] *)
Definition get_str (chk : bool) (d : dspace) (addr : Z) : res bytes :=
  rbind (get_usize d addr) (fun n =>
  if in_u64 (addr + 8) then read_bytes d (addr + 8) n
  else if chk then Panic POverflow
  else read_bytes d (to_u64 (addr + 8)) n).

(** src/memory.rs 234-251 [put_cstr] *)
Definition put_cstr (chk : bool) (d : dspace) (s : bytes) (pos : Z) : res dspace :=
  let n := Z.min (zlen s) 255 in
  let ok (e : Z) := if e <=? limit d
                    then (if in_ds d pos (n + 1)
                          then Ok (write_bytes (set_byte d pos n) (pos + 1) (firstn (Z.to_nat n) s))
                          else UB)
                    else Panic PFull in
  if in_u64 (pos + n + 8) then ok (pos + n + 8)
  else if chk then Panic POverflow
  else ok (to_u64 (pos + n + 8)).

(** src/memory.rs 35-54 [with_capacity]: zeroed memory, two system variables
    ([null] at offset 0, [base] = 10 at offset 8; the struct is assumed to be
    laid out in declaration order). *)
Definition ds_new (addr cap : Z) : dspace :=
  set_cell_bytes (mkDs addr cap 16 tempty) 10 (addr + 8).

(** src/memory.rs 15-17 [SystemVariables::base_addr] *)
Definition base_addr (d : dspace) : Z := ds_inner d + 8.
