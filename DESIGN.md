# Formal model of rtForth

Target: 64-bit little-endian, `isize`/`usize`/`f64` are 8 bytes, `align_of` 8.

## What is modelled

An executable Gallina model of the virtual machine of `src/mock_vm.rs`
(`VM`), function by function: `src/core.rs`, `src/memory.rs`,
`src/parser.rs`, `src/output.rs`, `src/tools.rs`, `src/loader.rs`,
`src/file_access.rs`, `src/float.rs`, `src/units.rs`, `src/facility.rs`,
`src/env.rs`, `src/exception.rs`, and the Forth text of `core.fth`, which the
model itself compiles.

* Cells are `Z` in the signed or unsigned 64-bit range; wrapping is explicit.
* Plain `+ - *` of Rust depend on the build: with overflow checks they panic,
  without they wrap. A boolean parameter of the model selects the behaviour and
  theorems are stated for both unless they say otherwise.
* A function returns `Ok`, `Panic` (Rust panic), `UB` (an access outside the
  allocated data space) or `OutOfFuel` (only for unbounded loops/recursion).
* `fn` pointers stored in words are an enumeration of primitives.
* Memory is a map from addresses to bytes; the placement of the data space
  (`start`, capacity) is a parameter.
* Floats are 64-bit patterns; IEEE operations come from the standard library's
  `SpecFloat`; `libm` functions are a parameter.
* The operating system (files) is a parameter.

## Files

* `Base Stack Mem Parser Flt State CoreM IoM FloatM FileM Exec CoreFth Boot Std Term` — the model. Each definition cites the
  lines it transcribes. `CoreFth` is the text of `core.fth`; `Boot` is `VM::new` of `src/mock_vm.rs`; `Std` runs it on
  that text for both build settings.
* `UnitTests` — the project's unit tests (`src/core.rs`, `src/float.rs`, ...), transcribed and evaluated on the model.
  They are tests of the model, not proofs.
* `Spec*` — the vocabulary in which the theorems are stated.
* `L*` — lemmas. `Ex*` — concrete machines for the examples and witnesses.
* `P*_*` — the property theorems, nothing else. Each is followed by `Print Assumptions`.

## What is modelled and what is not

Modelled, every function that is reachable from a word of the mock machine:

| source | model | remarks |
|---|---|---|
| `src/core.rs` 1-3300 | `Stack State CoreM Exec` | all 4 stacks, dictionary, compiler, interpreter, tasks, exceptions |
| `src/memory.rs` | `Mem` | placement and size of the data space are parameters; its base is aligned to 8 |
| `src/parser.rs` | `Parser` | |
| `src/float.rs` | `Flt FloatM` | IEEE operations by `SpecFloat`; sin, cos, powi, ... are parameters |
| `src/output.rs src/tools.rs src/env.rs src/facility.rs src/units.rs src/loader.rs src/exception.rs` | `IoM FloatM CoreM` | formatting of floats in `{:e}`-like output is a parameter |
| `src/file_access.rs` | `FileM` | the file system is a parameter, with one concrete instance for C53 |
| `src/mock_vm.rs` | `State Boot` | |
| `core.fth` | `CoreFth` | compiled by the model itself |
| `rtf/src/term.rs` | `Term` | line editor, history file; keys the editor does not distinguish are merged; events are a list |
| `rtf/src/main.rs` 95-145, 315-363, `rtf/rtf.fth` | `Shell`, `receive` in `FileM` | the terminal is the parameter `os_receive`, in the examples the line editor of `Term`; option parsing is left out |

Not modelled: the command line options of `rtf/src/main.rs` (`-h`, `-v`), the drawing of the edited line and raw mode in `rtf/src/term.rs`, `examples/`, `benches/`, the test modules other than `UnitTests`, allocation
failure, the Rust call stack (recursion depth), real time (the clock is a parameter), the capacity of `Vec`s (they
grow), and the layout of anything outside the data space: an access outside it is reported as `UB`.

Simplifications are stated at the definitions. The main ones: strings are byte lists and the texts given to the
machine are assumed to be valid UTF-8 where a theorem says so; fuel bounds the loops of the code that need not
terminate, and a theorem about a result holds for every fuel that is large enough; the array behind a stack is a
total map on 0..255.

## Trusted base

* the kernel of Coq 8.16.1, including its virtual machine (`vm_compute`, used to evaluate the model on concrete
  machines: the boot on `core.fth`, examples, refutation witnesses);
* the standard library. `Print Assumptions` says `Closed under the global context` for every theorem that is not
  listed in the section on assumptions below. `coqchk` reports seven constants `Coq.ssr.ssrunder.Under_rel.*`, a
  module of the standard library loaded through `ssreflect`; no theorem depends on them;
* the faithfulness of the model to the cited lines.

## Plan per property

* **C01** Stack words have their documented stack effect — Model: Stack record (256-slot list, u8 length, canary). Spec: pure function on lists of cells per word. Proof: forward simulation lemma per word through a representation predicate.
* **C02** Stacks are LIFO for every in-capacity history — Spec: list as stack, histories as lists of operations. Induction on the history.
* **C03** check_stacks raises no false alarm — Invariant over histories: slot 255 and slots >= 64 hold the canary while depth stays in 0..64.
* **C04** check_stacks reports every persisting overflow and underflow — Induction on histories relating u8 length to the integer depth modulo 256.
* **C05** Underflow by reading below the bottom is detected — False for the code (the tests' own comments say so); a refutation with witness, plus the list of words for which detection does hold.
* **C06** Integer arithmetic wraps modulo 2^64 — Primitives against Z arithmetic modulo 2^64.
* **C07** Division identity — Z.quot/Z.rem against the identity of the statement; the three abort paths.
* **C08** Bitwise words and shifts — Bit-level statement with Z.testbit.
* **C09** Comparisons return canonical flags and form the integer orders — Statement with < and = on Z.
* **C10** Cell store/fetch round trip and frame — Byte-map memory, little-endian cell codec; frame via byte lookup.
* **C11** Byte store/fetch round trip and frame — Same memory model.
* **C12** MOVE copies correctly for every overlap — The zip/for loops of p_move as recursion on the length; memmove spec on byte lookups.
* **C13** Memory words never touch memory outside the data space — Overflow-check flag is a parameter of the model. Safe words proved for both settings; @ and ! refuted for the release setting, proved for the checked one (panic instead of access).
* **C14** HERE always lies inside the data space — State invariant over all primitives and all runs.
* **C15** Comma and compiled strings are laid out contiguously — Layout lemmas about compile_isize/compile_str.
* **C16** ALLOT moves HERE by exactly n or reports an error — In-range case proved; the reporting part is false (result of set_here discarded): refutation.
* **C17** ALIGN/ALIGNED return the least multiple of the alignment not below the address — Arithmetic on the rounding expression; HERE as in C14.
* **C18** FIND returns the newest visible definition with the name, ignoring ASCII case — Wordlist as in the code (words, buckets, links, hashes). Spec: search the list of words from the newest. Invariant preserved by every dictionary operation.
* **C19** A definition is invisible until ; and early binding is permanent — Hidden flag in the find spec; threaded code refers to word indexes that define never changes.
* **C20** Executing a marker restores the dictionary — marker/unmark against the find spec and HERE.
* **C21** Address-to-word lookup — Binary search loop against the linear specification.
* **C22** A failing defining word leaves the dictionary alone — Per defining word; refutation for marker and fconstant.
* **C23** Unbalanced control structures are always rejected — Spec: a pushdown recogniser independent of the model; simulation of the c-stack.
* **C24** IF ELSE THEN compiles to a correct two-way branch — Code-layout predicates + execution of threaded code from them.
* **C25** BEGIN loops compile correctly — as C24, induction on iterations.
* **C26** DO ... LOOP iterates over start..limit-1 — Loop counter algebra and induction on the trip count.
* **C27** +LOOP terminates exactly on crossing the limit boundary — Arithmetic characterisation of checked_add on the biased counter.
* **C28** ?DO skips empty loops; LEAVE and UNLOOP restore the return stack — Execution lemmas for _qdo/leave/unloop/p_j.
* **C29** CASE selects the first matching OF — Induction on clause list.
* **C30** Every GOTO/CALL reaches its LABEL — Chain invariant for forward references.
* **C31** Calls and returns match — Induction on call nesting: big-step relation for bodies.
* **C32** Literals survive compilation — Codec round trip.
* **C33** Tokenisation is exactly whitespace splitting — Spec: splitting function on characters; induction on input.
* **C34** PARSE and comments consume exactly up to the delimiter — Spec: span up to delimiter.
* **C35** Number recognition computes the positional value — Spec: fold of digits in Z, reduced to 64 bits at the end only.
* **C36** Printing and reading numbers are inverse — Printer model + parser model, round trip for all cells.
* **C37** Tokens without digits are not numbers — False: `$` etc. Refutation.
* **C38** The interpreter executes a line left to right and stops at the first error — Big-step relation over token lists.
* **C39** Unknown and compile-only words are refused — Case analysis of interpret/compile token.
* **C40** No input line crashes the interpreter — False: several panicking lines; refutations. Positive part: a class of harmless words (`Spec23`), an invariant kept by each of them (`LTame`), induction on fuel with a return-stack invariant for threaded code (`LCrash*`).
* **C41** Raising an exception clears the stacks and records the error — Direct; any handler that is a primitive no-op, then general.
* **C42** An exception terminates the running definition — False with the default handler (0): refutation; proved for handlers of the rtf kind (colon definition resetting the return stack).
* **C43** Exception handling always terminates — False: refutation (divergence for every fuel); termination for valid colon-definition handlers.
* **C44** PAUSE switches to the next awake task in round-robin order — Spec: first awake in cyclic order.
* **C45** No awake task starves — Induction over pause sequences.
* **C46** PAUSE returns — pause terminates iff some task is awake; refutation of the unconditional claim.
* **C47** Tasks are isolated — Frame theorem over all primitives.
* **C48** GET/RELEASE give mutual exclusion — Transition system of tasks running get/release code on the VM model.
* **C49** ACTIVATE starts the rest of the definition in the chosen task — Direct.
* **C50** File and source identifiers are unique while open — File table as list of options; OS abstract.
* **C51** READ-FILE writes only inside the caller's buffer — as C50; address arithmetic with both overflow settings.
* **C52** File words keep their documented stack effect on every path — Refutation for delete-file; proof for the others.
* **C53** File contents behave as a byte array with a position — Concrete in-memory OS instance.
* **C54** Nested source loading restores the outer source — Symbolic execution of the code compiled from core.fth.
* **C55** Core.fth arithmetic and memory helpers meet their stack comments — Boot the model on the text of core.fth inside Coq, extract the compiled code, execute symbolically.
* **C56** FILL and SPACES loops — as C55 with induction.
* **C57** Variables, constants and DOES> words keep separate storage — Definitions histories.
* **C58** DEFER/DEFER! dispatch — as C55.
* **C59** Compiling then running equals interpreting — Simulation between interpreter and compiled run.
* **C60** Float stack words and float memory round trip — f64 as bit patterns.
* **C61** Float literals with huge exponents are rejected or rounded, never misread — False: refutation by evaluating the model.
* **C62** Parsing words do not panic in background tasks — False: refutation.
* **C63** The dictionary index invariants hold in every reachable state — Global invariant.
* **C64** Evaluated strings and included lines are stripped of exactly their line terminator — Spec on byte lists.
* **C65** Control state never leaks between definitions — Invariants of semicolon/abort.
* **C66** TYPE/EMIT/quotes append exactly their text — Output buffer as byte list.
* **C67** Exception descriptions are total — Finite case analysis on codes; distinctness is false for -1/-2.
* **C68** Return stack words move cells unchanged — as C01 with two stacks.
* **C69** Float arithmetic is correctly rounded — Doubles as bit patterns with a real value (`Spec21`, written without Flocq); Flocq's theorems about the standard library's `SpecFloat` operations.
* **C70** Float comparisons agree with the order of the reals — as C69.
* **C71** Conversions between cells and floats — as C69; round trip false above 2^53.
* **C72** f~ decides whether two floats are close — as C69; completeness false because the distance is rounded first.
* **C73** Units and constants are correctly rounded — bounds of pi by Machin-like series from the standard library; library functions stay parameters.
* **C74** Address unit words — `word_effect`, both build settings.
* **C75** Words that report or change the state — `reports p v Q`: one cell satisfying `Q` is pushed, nothing else changes (`Spec24`).
* **C76** Listings and printed numbers — `prints p v s`; the texts are specified by relations (`written`, `names_below`, `location`), not by the formatting functions.
* **C77** The table of execution times — `retimed`: only the times change; minimum false for measured times of 0.
* **C78** Words that take a name from the input — `next_is` (C57) and `compiled` (C09).
* **C79** POSTPONE — as C78; false for immediate words.
* **C80** Float constants and DOES> — as C57.
* **C81** Printing numbers — `lib_run`: for every word with the body given in `Spec25`, the cells, floats, memory and text it leaves; the bodies are checked against the booted dictionary (`C81_installed`).
* **C82** f> and f, — real comparison as C70; `f,` refuted where HERE is not a multiple of 8.
* **C83** Text words and DUMP — `dump_rows`: the rows as an inductive relation, each row given by the digits of its bytes.
* **C84** Literals — `grown_by l`: exactly the cells `l` are appended.
* **C85** Line editor — `entering`: an inductive editor on lists of characters; refinement by a representation relation between byte string with cursor and characters before/after the cursor.
* **C86** History file — file contents as bytes; lines and validity as inductive relations on UTF-8.
* **C87** Obeying a line — `shell K n v`: the machine has the words of the terminal program, with the bodies written as structured programs (`d_quit`, `d_evaluate`, ...; checked on the loaded system by `pv_shell`). `obeyed`/`session`: inductive, each token by `performs` of C38; the proof runs the compiled code of QUIT and EVALUATE-INPUT symbolically.
* **C88** Recovery — `fails`: the three ways in which a token can give control to the handler; `report`, `recovered`: what is printed and what is reset; symbolic execution of (ABORT) including the backtrace of C75.
* **C89** End of the run — termination by `run f = Ok`; non-termination by induction on the fuel with an invariant that is re-established at every prompt.
* **C90** Loading files — `loader K n m v`: the machine has the words of core.fth that load files, with the bodies written as structured programs (checked on the loaded system by `lv_loader`). `follows`: the lines of the text, one after the other, each obeyed as in C87; `opened`, `closed_again`: the machine after opening and after closing the file. Symbolic execution of the compiled code of INCLUDED and LOAD-SOURCE-FILE, induction on the text; `numbers_in`: files of integers, for which all premises of the general rule are discharged.
* **C91** Files that cannot be loaded — `cannot_open`: the name is too long or the operating system refuses; `throws` (Spec17) for the exceptions that INCLUDED itself raises. `collapses` is to `follows` (C90) what `fails` is to `acts` (C88): some lines are obeyed and the next one ends in an exception; `fails_at v i P`: executing word `i`, called from anywhere, gives control to the handler in a state in `P`. A second set of rules for structured programs (`wpb`: this part ends in an exception), the same symbolic execution and induction as C90. `typo_in`: lines of integers and then an unknown token, for which all premises are discharged.

## Findings

Claims that are false of the code, each with a machine-checked witness (`…_refuted`):

* C05: `dup` on an empty stack and `over` on one cell are not reported as underflows.
* C13, C51: `@`, `!`, `read-file` compute `address + length` without checking for wrap-around: undefined behaviour in
  release builds, panic in debug builds. `f@` just below an unaligned limit reads beyond it.
* C16: an ALLOT that does not fit is silently ignored.
* C22: `marker` and `fconstant` without a name raise -39 and compile their data nevertheless.
* C36: `.r` with a width near the smallest cell overflows in debug builds.
* C37: `$`, `%`, `#`, `-` are accepted as the number 0.
* C38: a pending exception delays the code of the next line's first word; `evaluate-input` clears exceptions.
* C40: eight lines that panic or are undefined on the freshly loaded system.
* C42, C43: with the default handler an exception does not stop the running definition; `' abort handler!` recurses
  for ever.
* C46, C48: PAUSE spins when no task is awake; GET by the owner of a facility never returns.
* C47, C49: with PAUSE as exception handler a failing `;` changes another task; a task that activates itself loses its
  return address.
* C50: `.source-line` does not refuse a closed identifier.
* C52: `delete-file` leaves two cells when the name is longer than 256 bytes.
* C59: HERE and underflows distinguish a compiled line from an interpreted one.
* C61: the exponent of a float literal is truncated to 32 bits (`1e4294967296` is 1).
* C62: PARSE and other scanning words panic in a background task.
* C63: overwriting the saved image of a marker makes lookups panic.
* C65: labels leak into the next definition.
* C66: `emit` of 128..255 appends two bytes; `type` does not check its address.
* C71: `s>f f>s` loses cells above 2^53.
* C72: `f~` rounds the distance before comparing it, so it can deny a proximity that holds.
* C74: `cells`, `cell+`, `char+`, `floats`, `float+` panic in debug builds when the result is not a cell.
* C76: `.word` leaves its argument on the stack when there is no output buffer.
* C77: an execution time of 0 is forgotten by the next measurement, so the recorded minimum can be too large.
* C79: `postpone` of an immediate word compiles the word instead of executing it.
* C82: `f,` with HERE not a multiple of 8 stores the float beyond the space it allots; the next `,` overwrites it.
* C85: a history line that was recalled, edited and left again stays edited.
* C86: after leaving with Ctrl-D only 31 lines of a full history are kept.
* C87: of the 64 cells of the data stack only 62 can be used at the prompt: with 63 the next line reports an overflow.
* C88: an exception in a background task makes the terminal program panic when the next line arrives.
* C89: when the terminal cannot be read any more the terminal program prints `Other  ok` for ever.
* C90: INCLUDED executes `postpone [`, which compiles the word `[` at HERE (see C79): every file loaded costs a cell of
  the dictionary, and a file included in the middle of a definition is compiled, not interpreted.
* C91: with sixteen saved sources INCLUDED raises -1 after opening the file, and nothing closes it (`C91_closed_refuted`).
  An exception in a line of a file leaves the file open and the previous source saved in SRC-STACK (`C91_unknown`), so
  after sixteen failed files nothing can be included any more.

## Assumptions

`Print Assumptions` lists axioms only for theorems about the real numbers in `P17_Float` and `P19_Printing`: C69_arithmetic, C69_signs,
C69_nan, C69_infinite, C69_division_by_zero, C69_sqrt_special, C69_integers, C70_comparisons, C70_min_max_abs_negate,
C71_s_to_f, C71_f_to_s, C71_round_trip, C71_integral, C72_*, C73_pi, C73_units, C73_scaled_units,
and for C82_f_greater.
They are axioms of the standard library, used by its construction of the real numbers:

* `ClassicalDedekindReals.sig_forall_dec`, `ClassicalDedekindReals.sig_not_dec`
* `FunctionalExtensionality.functional_extensionality_dep`
* `Classical_Prop.classic`
