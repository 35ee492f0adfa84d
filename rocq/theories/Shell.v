(** The terminal program: [VM::new], [repl] and the handling of the command line of rtf/src/main.rs, and the text of
    rtf/rtf.fth, generated verbatim.

    The virtual machine of rtf/src/main.rs has the fields and accessors of that of src/mock_vm.rs; the control stack
    canary is [Control::Default] and the data space has 1024 pages of the system's size.  Its terminal is [os_receive].
    Not modelled: option parsing, the version and usage texts. *)
From Coq Require Import ZArith List Bool String.
From Verif Require Import Base Stack Mem Parser Flt State CoreM IoM FloatM FileM Exec CoreFth Boot.
Import ListNotations.
Open Scope Z_scope.
Open Scope m_scope.

(** rtf/rtf.fth 1-27 *)
Definition rtf_fth_lines : list string :=
  ["-work";
   "";
   ": quit";
   "    reset";
   "    begin receive .""  "" evaluate-input";
   "    compiling? not if .""  ok""  then";
   "    13 emit flush-output";
   "    again ;";
   "";
   ": (abort)";
   "    0stacks error -2 1 within not if";
   "      .token space .error";
   "      source-id dup if dup";
   "        .""  ("" .source-path";
   "        ."" :""  load-line# @  0 .r ."" : "" .source-line ."" )""";
   "      else drop";
   "      then";
   "      ."" , "" .backtrace  13 emit";
   "    then flush-output 0error quit ;";
   "";
   "\ Cold start";
   ": cold";
   "    2 halt  3 halt  4 halt  5 halt";
   "    ['] (abort) handler!";
   "    evaluate-input quit ;";
   "";
   "marker -work"]%string.
Definition rtf_fth : bytes := List.concat (map (fun l => b l ++ [10]) rtf_fth_lines).

Section Shell.
Context {E : Env}.

(** rtf/src/main.rs 132 *)
Definition add_receive : M unit := add_word (KP, "receive"%string, P_receive).

(** rtf/src/main.rs 95-145 [VM::new]: the words, core.fth, rtf.fth *)
Definition load_rtf_fth (fuel : nat) : M unit :=
  load_str fuel rtf_fth ;;;
  e <- gets v_err ;;
  (match e with Some _ => panic PExpect | None => ret tt end) ;;;
  flush_output.
Definition shell_new (fuel : nat) (addr cap : Z) (o : os) : res vm :=
  match (add_words ;;; add_receive ;;; load_core_fth fuel ;;; load_rtf_fth fuel) (vm_init addr cap CDefault o) with
  | Ok (_, v) => Ok v
  | Panic p => Panic p
  | UB => UB
  | OutOfFuel => OutOfFuel
  end.

(** rtf/src/main.rs 316-325: a word of the command line *)
Definition push_argument (word : bytes) : M unit :=
  o <- get_inbuf ;;
  match o with Some buf => put_inbuf (buf ++ word ++ [32]) | None => ret tt end.

(** rtf/src/main.rs 358-363 [repl] *)
Definition repl (fuel : nat) : M unit :=
  cold <- find_expect (b "COLD") ;;
  execute_word fuel cold ;;;
  run fuel ;;;
  flush_output.

(** rtf/src/main.rs 315-331: the program started with the words [args] *)
Definition shell_main (fuel : nat) (args : list bytes) : M unit :=
  mapM_ push_argument args ;;; repl fuel.

End Shell.
