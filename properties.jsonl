{"id": "C01", "title": "Stack words have their documented stack effect", "statement": "For every data stack whose depth leaves room for the result, executing a stack-manipulation word (dup drop swap over nip rot -rot pick 2drop 2dup 2swap 2over depth) leaves exactly the cells prescribed by its stack comment on top, keeps every deeper cell unchanged, and touches nothing else in the VM.", "quantifier": "every word of the group x every stack content and depth within capacity", "why_tests_cant": "Infinitely many stack contents; the implementation indexes a 256-slot ring with wrapping u8 arithmetic so a wrong offset can agree on the tested depths.", "anchors": ["src/core.rs: dup, drop, swap, over, nip, rot, pick, two_drop, two_dup, two_swap, two_over, depth", "src/core.rs: Stack"]}
{"id": "C02", "title": "Stacks are LIFO for every in-capacity history", "statement": "For every sequence of pushes and pops that starts from an empty (reset) stack and never goes below 0 or above 255 items, each pop returns the most recent not-yet-popped value and the visible contents are exactly the pending values in order.", "quantifier": "every finite push/pop history, every element value, all four stacks", "why_tests_cant": "Quantifies over unbounded histories.", "anchors": ["src/core.rs: Stack::push, pop, push2, pop2, push3, pop3, last, get, as_slice, reset"]}
{"id": "C03", "title": "check_stacks raises no false alarm", "statement": "If, since the last reset of a stack, its depth has always stayed between 0 and 64, the overflow/underflow check never reports that stack, whatever values were pushed (including the canary value itself).", "quantifier": "every push/pop history bounded by the documented capacity", "why_tests_cant": "The check compares two slots against a magic value; a test cannot try all histories and values.", "anchors": ["src/core.rs: Stack::underflow, overflow", "src/core.rs: check_stacks"]}
{"id": "C04", "title": "check_stacks reports every persisting overflow and underflow", "statement": "After any history of pushes and pops whose final depth is between 65 and 128 or between -127 and -1 relative to the empty stack, check_stacks aborts with the overflow, respectively underflow, exception of that stack.", "quantifier": "every push/pop history with such a final depth", "why_tests_cant": "Unbounded histories; the wrap-around of the u8 length must be right for all of them.", "anchors": ["src/core.rs: Stack::underflow, overflow", "src/core.rs: check_stacks"]}
{"id": "C05", "title": "Underflow by reading below the bottom is detected", "statement": "A word that consumes more cells than the data stack holds is reported as stack underflow by the check that follows it.", "quantifier": "every stack word x every stack too shallow for it", "why_tests_cant": "Detection relies on a canary value in one slot; which combinations of word, depth and value evade it cannot be enumerated by tests.", "anchors": ["src/core.rs: swap, dup, over, check_stacks", "src/core.rs: Stack::underflow"]}
{"id": "C06", "title": "Integer arithmetic wraps modulo 2^64", "statement": "+ - * negate abs 1+ 1- return the mathematically exact result reduced to the signed 64-bit range, never panic, and consume exactly their operands.", "quantifier": "all pairs of 64-bit cells, all stacks within capacity", "why_tests_cant": "2^128 operand pairs, boundary behaviour at i64::MIN.", "anchors": ["src/core.rs: plus, minus, star, negate, abs, one_plus, one_minus"]}
{"id": "C07", "title": "Division identity", "statement": "For every dividend n and divisor d<>0, n d /mod leaves r q with n = q*d + r (mod 2^64), |r|<|d|, r having the sign of n or zero; / and mod agree with it; MIN -1 / does not panic; d = 0 aborts with exception -10 in / mod and /mod and pushes no result.", "quantifier": "all pairs of cells", "why_tests_cant": "2^128 operand pairs including the one overflowing pair.", "anchors": ["src/core.rs: slash, p_mod, slash_mod"]}
{"id": "C08", "title": "Bitwise words and shifts", "statement": "and or xor invert act bit by bit on the 64-bit two's complement representation; lshift and rshift are logical shifts for counts 0..63; for other counts the count is taken modulo 64.", "quantifier": "all pairs of cells and every bit position", "why_tests_cant": "2^128 operand pairs.", "anchors": ["src/core.rs: and, or, xor, invert, lshift, rshift"]}
{"id": "C09", "title": "Comparisons return canonical flags and form the integer orders", "statement": "0= 0< 0> 0<> = < > <> within return exactly -1 or 0, with -1 iff the mathematical relation on the signed values holds; within is x2<=x1<x3.", "quantifier": "all operand tuples", "why_tests_cant": "2^192 operand triples for within.", "anchors": ["src/core.rs: zero_equals, zero_less, zero_greater, zero_not_equals, equals, less_than, greater_than, not_equals, within"]}
{"id": "C10", "title": "Cell store/fetch round trip and frame", "statement": "After x addr !, addr @ returns x, and every byte outside addr..addr+7 is unchanged; an out-of-range address aborts with -9 and changes no memory.", "quantifier": "every address, every cell, every prior memory content", "why_tests_cant": "2^64 addresses x contents.", "anchors": ["src/core.rs: fetch, store", "src/memory.rs: get_isize, put_isize"]}
{"id": "C11", "title": "Byte store/fetch round trip and frame", "statement": "After x addr c!, addr c@ returns the low 8 bits of x and every other byte is unchanged; a cell is eight bytes in little-endian order, so c@ over a stored cell returns its bytes.", "quantifier": "every address, value and memory content", "why_tests_cant": "2^64 addresses x contents.", "anchors": ["src/core.rs: c_fetch, c_store", "src/memory.rs: get_u8, put_u8"]}
{"id": "C12", "title": "MOVE copies correctly for every overlap", "statement": "For in-range regions, addr1 addr2 u move makes the destination equal the former contents of the source for every overlap, and changes no byte outside the destination; u<=0 changes nothing.", "quantifier": "all address pairs and lengths, all memory contents", "why_tests_cant": "Overlap geometry is a three-parameter space; the loop must be right for each length.", "anchors": ["src/core.rs: p_move"]}
{"id": "C13", "title": "Memory words never touch memory outside the data space", "statement": "@ ! c@ c! f@ f! move either access only bytes in [start, limit) or abort with -9, for every operand and for both overflow-check settings of the build.", "quantifier": "every operand value, every data-space placement, debug and release arithmetic", "why_tests_cant": "The bad operands are those for which addr+8 wraps; safety must hold for all addresses.", "anchors": ["src/core.rs: fetch, store, c_fetch, c_store, p_move", "src/float.rs: ffetch, fstore"]}
{"id": "C14", "title": "HERE always lies inside the data space", "statement": "In every reachable VM state start <= here <= limit; no word, in any order, with any operands moves here outside the data space.", "quantifier": "every program and every execution", "why_tests_cant": "Quantifies over all programs.", "anchors": ["src/memory.rs: DataSpace::set_here, allot, align, compile_usize, compile_u8, compile_f64, compile_str, truncate", "src/core.rs: allot, comma, align"]}
{"id": "C15", "title": "Comma and compiled strings are laid out contiguously", "statement": "x , writes x at the former here, advances here by 8 and changes nothing else; a compiled string of bytes b is readable back as exactly b, occupies 8+len(b) bytes from here, and earlier bytes are unchanged.", "quantifier": "every cell, every byte string that fits, every memory", "why_tests_cant": "Unbounded strings and memories.", "anchors": ["src/memory.rs: compile_isize, compile_str, get_str", "src/core.rs: comma"]}
{"id": "C16", "title": "ALLOT moves HERE by exactly n or reports an error", "statement": "n allot makes here increase by exactly n when the result is inside the data space; otherwise an exception is raised.", "quantifier": "every n and every here", "why_tests_cant": "All 2^64 values of n.", "anchors": ["src/core.rs: allot", "src/memory.rs: allot, set_here"]}
{"id": "C17", "title": "ALIGN/ALIGNED return the least multiple of the alignment not below the address", "statement": "aligned (8), faligned (8) and the 16-byte variant return the smallest multiple not below the argument and align advances here to it.", "quantifier": "every address", "why_tests_cant": "2^64 addresses.", "anchors": ["src/memory.rs: aligned, aligned_f64, aligned_16bytes, align", "src/core.rs: aligned, align"]}
{"id": "C18", "title": "FIND returns the newest visible definition with the name, ignoring ASCII case", "statement": "Looking a name up returns the most recently defined, not hidden word whose name equals it up to ASCII case, and nothing iff there is no such word; hash collisions and bucket order never change the answer.", "quantifier": "every dictionary built by any sequence of definitions, every name", "why_tests_cant": "64 buckets and a 32-bit hash: tests cannot cover collisions between arbitrary names.", "anchors": ["src/core.rs: find, Wordlist::hash, push, bucket, truncate", "src/core.rs: define"]}
{"id": "C19", "title": "A definition is invisible until ; and early binding is permanent", "statement": "While : name ... is being compiled, name still refers to the previous definition; redefining a word never changes the behaviour of words compiled before.", "quantifier": "every name, every dictionary, every later redefinition", "why_tests_cant": "All dictionaries and histories.", "anchors": ["src/core.rs: colon, semicolon, define, compile_comma, nest"]}
{"id": "C20", "title": "Executing a marker restores the dictionary", "statement": "After marker m, any sequence of definitions, then m: here, the number of words and the result of looking up every name are exactly as before the marker was created.", "quantifier": "every dictionary, every sequence of later definitions, every looked-up name", "why_tests_cant": "All names and histories; hash buckets must all be restored.", "anchors": ["src/core.rs: marker, unmark", "src/core.rs: Wordlist::truncate"]}
{"id": "C21", "title": "Address-to-word lookup", "statement": "find_xt(addr) returns the last word whose name field is at or below addr and nothing iff addr is below the first word.", "quantifier": "every address and every dictionary with increasing name fields", "why_tests_cant": "Binary search over arbitrary lengths.", "anchors": ["src/core.rs: Wordlist::find_xt", "src/tools.rs: dot_backtrace"]}
{"id": "C22", "title": "A failing defining word leaves the dictionary alone", "statement": "If a defining word is executed with no name left in the input it aborts with -39 and neither the dictionary nor here changes.", "quantifier": "every defining word (: create constant fconstant marker), every state", "why_tests_cant": "All states; error path.", "anchors": ["src/core.rs: define, colon, create, constant, marker", "src/float.rs: fconstant"]}
{"id": "C23", "title": "Unbalanced control structures are always rejected", "statement": "A definition whose control-structure words are not properly nested raises exception -22 no later than at its ; and the compiler returns to interpretation state.", "quantifier": "every sequence of control-structure words", "why_tests_cant": "Unbounded sequences of words.", "anchors": ["src/core.rs: imm_if, imm_else, imm_then, imm_begin, imm_while, imm_repeat, imm_until, imm_again, imm_case, imm_of, imm_endof, imm_endcase, imm_do, imm_qdo, imm_loop, imm_plus_loop, semicolon"]}
{"id": "C24", "title": "IF ELSE THEN compiles to a correct two-way branch", "statement": "For every flag and all bodies, the compiled if A else B then runs A when the flag is non-zero and B otherwise, and control then continues after then.", "quantifier": "every flag, every pair of bodies, every nesting", "why_tests_cant": "Bodies and nesting are unbounded.", "anchors": ["src/core.rs: imm_if, imm_else, imm_then, zero_branch, branch"]}
{"id": "C25", "title": "BEGIN loops compile correctly", "statement": "begin A until repeats A until it leaves a non-zero flag; begin A while B repeat runs A, then B as long as A leaves non-zero; begin A again never leaves the loop by itself.", "quantifier": "every body, every number of iterations", "why_tests_cant": "Iteration counts are unbounded.", "anchors": ["src/core.rs: imm_begin, imm_until, imm_while, imm_repeat, imm_again"]}
{"id": "C26", "title": "DO ... LOOP iterates over start..limit-1", "statement": "limit start do ... loop runs the body exactly (limit-start) mod 2^64 times (2^64 when they are equal) with I taking start, start+1, ... (wrapping), and leaves the return stack as it found it.", "quantifier": "every limit and start (2^128), every body that preserves the return stack", "why_tests_cant": "Wrapped representation of the loop counters must work for every pair.", "anchors": ["src/core.rs: _do, _loop, p_i, imm_do, imm_loop"]}
{"id": "C27", "title": "+LOOP terminates exactly on crossing the limit boundary", "statement": "With a step s, +loop ends the loop iff the index crosses the boundary between limit-1 and limit (in either direction), otherwise the new index is old+s (wrapping).", "quantifier": "every limit, index and step (2^192)", "why_tests_cant": "Three full-width parameters.", "anchors": ["src/core.rs: _plus_loop, _do"]}
{"id": "C28", "title": "?DO skips empty loops; LEAVE and UNLOOP restore the return stack", "statement": "?do with equal limit and start skips the body and leaves the return stack unchanged; leave exits to just after loop from any nesting depth of if; unloop discards exactly one loop frame; J returns the index of the next outer loop.", "quantifier": "every limit/start/body", "why_tests_cant": "All operands and nestings.", "anchors": ["src/core.rs: _qdo, leave, unloop, p_j, leave_part, imm_qdo"]}
{"id": "C29", "title": "CASE selects the first matching OF", "statement": "For every selector and list of OF values the compiled case runs exactly the body of the first equal OF, dropping the selector, and the default otherwise.", "quantifier": "every selector, any number of OF clauses", "why_tests_cant": "Clause lists are unbounded.", "anchors": ["src/core.rs: imm_case, imm_of, imm_endof, imm_endcase"]}
{"id": "C30", "title": "Every GOTO/CALL reaches its LABEL", "statement": "In a definition accepted by ;, each forward or backward goto n (and call n) branches to the position of label n; a label defined twice or out of range and an unresolved forward label are rejected.", "quantifier": "any number of gotos to any number of labels, in any order", "why_tests_cant": "Forward references are threaded through the code cells: an invariant over arbitrary chains.", "anchors": ["src/core.rs: imm_label, imm_goto, imm_call, imm_clear_labels, semicolon"]}
{"id": "C31", "title": "Calls and returns match", "statement": "Executing a colon definition runs its body and continues just after the call for every nesting depth within the return stack; recurse calls the definition being compiled.", "quantifier": "every call depth and caller", "why_tests_cant": "Unbounded nesting of definitions.", "anchors": ["src/core.rs: nest, exit, run, imm_recurse"]}
{"id": "C32", "title": "Literals survive compilation", "statement": "Every integer, character or float literal compiled into a definition is pushed unchanged when the definition runs, whatever its bit pattern.", "quantifier": "all 2^64 integers and bit patterns", "why_tests_cant": "All values.", "anchors": ["src/core.rs: compile_integer, lit, compile_float, flit", "src/memory.rs: compile_isize, compile_f64"]}
{"id": "C33", "title": "Tokenisation is exactly whitespace splitting", "statement": "Repeatedly parsing words from any input line yields exactly the maximal runs of non-whitespace characters in order, then empty tokens forever; the input index never decreases or passes the end.", "quantifier": "every UTF-8 input line", "why_tests_cant": "Unbounded inputs including multi-byte characters.", "anchors": ["src/core.rs: parse_word, token_empty"]}
{"id": "C34", "title": "PARSE and comments consume exactly up to the delimiter", "statement": "parse leaves the text up to, not including, the first delimiter (or the rest of the line) and positions the input just after it; ( ... ) and \\ skip exactly their comment.", "quantifier": "every input line, delimiter and position", "why_tests_cant": "Unbounded inputs.", "anchors": ["src/core.rs: parse, imm_paren, imm_backslash, _skip"]}
{"id": "C35", "title": "Number recognition computes the positional value", "statement": "A token of optional base prefix (% # $), optional sign and digits valid in the base is accepted and yields its positional value modulo 2^64; a token containing any other character is rejected as an integer.", "quantifier": "every token and every current base", "why_tests_cant": "Unbounded strings.", "anchors": ["src/core.rs: evaluate_integer", "src/parser.rs: sign, base, uint_in_base, quoted_char"]}
{"id": "C36", "title": "Printing and reading numbers are inverse", "statement": "For every cell n and each base 2, 8, 10, 16, the text printed by .r (any field width) read back in the same base gives n; the width of the printed field is at least the requested one.", "quantifier": "all 2^64 cells, 4 bases, all widths", "why_tests_cant": "2^64 values.", "anchors": ["src/output.rs: dot_r", "src/core.rs: evaluate_integer", "core.fth: ."]}
{"id": "C37", "title": "Tokens without digits are not numbers", "statement": "A token that contains no digit is never accepted as an integer.", "quantifier": "every token", "why_tests_cant": "Unbounded strings.", "anchors": ["src/core.rs: evaluate_integer", "src/parser.rs: uint_in_base"]}
{"id": "C38", "title": "The interpreter executes a line left to right and stops at the first error", "statement": "Evaluating a line performs the interpretation semantics of each token in order; after the first token that raises an exception no later token of the line has any effect.", "quantifier": "every line", "why_tests_cant": "Unbounded lines.", "anchors": ["src/core.rs: evaluate_input, interpret_token, compile_token"]}
{"id": "C39", "title": "Unknown and compile-only words are refused", "statement": "An unknown non-number token aborts with -13 and a compile-only word met while interpreting aborts with -14, in both cases without executing anything else.", "quantifier": "every token and dictionary", "why_tests_cant": "All tokens and dictionaries.", "anchors": ["src/core.rs: interpret_token, compile_token"]}
{"id": "C40", "title": "No input line crashes the interpreter", "statement": "Evaluating any input line never panics; every error is reported as a Forth exception.", "quantifier": "every input line from the freshly loaded system", "why_tests_cant": "Unbounded inputs.", "anchors": ["src/core.rs: evaluate_input", "src/output.rs: s_quote", "src/tools.rs: dot_backtrace, set_execution_times"]}
{"id": "C41", "title": "Raising an exception clears the stacks and records the error", "statement": "abort_with(e) from any state leaves data, float and control stacks empty and healthy, records e as the last error, remembers the aborted word, and then runs the handler.", "quantifier": "every state and exception", "why_tests_cant": "All states, including corrupted stacks.", "anchors": ["src/core.rs: abort_with, abort, clear_stacks, reset"]}
{"id": "C42", "title": "An exception terminates the running definition", "statement": "After abort_with in the middle of a colon definition no further word of that definition is executed.", "quantifier": "every definition, every handler setting", "why_tests_cant": "All programs and handler settings.", "anchors": ["src/core.rs: abort_with, run, handler_store"]}
{"id": "C43", "title": "Exception handling always terminates", "statement": "abort_with returns for every value stored by handler!.", "quantifier": "every handler value", "why_tests_cant": "All handler values; non-termination is not observable by a test.", "anchors": ["src/core.rs: abort_with, execute_word, handler_store"]}
{"id": "C44", "title": "PAUSE switches to the next awake task in round-robin order", "statement": "pause makes the first awake task after the current one (cyclically, the current task last) current and changes nothing else.", "quantifier": "every awake pattern and current task", "why_tests_cant": "Together with histories this is unbounded.", "anchors": ["src/core.rs: pause", "src/mock_vm.rs: set_current_task, awake"]}
{"id": "C45", "title": "No awake task starves", "statement": "Under any sequence of pauses, an awake task becomes current within NUM_TASKS pauses as long as it stays awake.", "quantifier": "every schedule", "why_tests_cant": "Quantifies over infinite schedules.", "anchors": ["src/core.rs: pause"]}
{"id": "C46", "title": "PAUSE returns", "statement": "pause always returns, i.e. never spins forever.", "quantifier": "every awake pattern", "why_tests_cant": "Non-termination is not observable by a test.", "anchors": ["src/core.rs: pause, suspend, resume"]}
{"id": "C47", "title": "Tasks are isolated", "statement": "Executing any word other than activate, suspend, resume and pause in one task leaves the current task number and the stacks, interpreter state and return addresses of every other task unchanged.", "quantifier": "every word, every state, every task", "why_tests_cant": "All words and states.", "anchors": ["src/core.rs: Core", "src/mock_vm.rs: Task"]}
{"id": "C48", "title": "GET/RELEASE give mutual exclusion", "statement": "If all tasks use get and release on a facility variable, at most one task holds it at any time for every cooperative interleaving; release by a non-owner has no effect; a woken waiter can take it after release.", "quantifier": "every interleaving at pause points, every number of tasks up to 5", "why_tests_cant": "Unbounded schedules.", "anchors": ["core.fth: get, release", "src/core.rs: pause, me"]}
{"id": "C49", "title": "ACTIVATE starts the rest of the definition in the chosen task", "statement": "i activate makes task i awake with an empty return stack, no pending input and the code after activate as its instruction pointer (its data, float and control stacks are kept), while the caller returns to its own caller; invalid task numbers are refused with exception -24.", "quantifier": "every task number and state", "why_tests_cant": "All states and numbers.", "anchors": ["src/core.rs: activate, suspend, resume, me"]}
{"id": "C50", "title": "File and source identifiers are unique while open", "statement": "open/create return an identifier different from all identifiers currently open; a closed or never-issued identifier is refused by every file word with a non-zero ior (-24 for an unknown identifier), without touching other files.", "quantifier": "every history of open/close operations", "why_tests_cant": "Unbounded histories with id reuse.", "anchors": ["src/file_access.rs: open_file, create_file, close_file, file_size, file_position, read_file, write_file, resize_file, reposition_file", "src/loader.rs: open_source, close_source"]}
{"id": "C51", "title": "READ-FILE writes only inside the caller's buffer", "statement": "read-file stores at most u1 bytes, all inside caddr..caddr+u1, or reports an error; it never writes elsewhere, whatever the file and operands.", "quantifier": "every operand tuple, every file content", "why_tests_cant": "All operands, incl. ones for which caddr+u1 wraps.", "anchors": ["src/file_access.rs: read_file, write_file"]}
{"id": "C52", "title": "File words keep their documented stack effect on every path", "statement": "Every file word consumes and produces the number of cells in its stack comment on success and on every error path.", "quantifier": "every word, every error path", "why_tests_cant": "Combinatorial error paths depending on OS results.", "anchors": ["src/file_access.rs: delete_file, open_file, create_file, read_file"]}
{"id": "C53", "title": "File contents behave as a byte array with a position", "statement": "Against an ideal file system: written bytes read back, position advances by the bytes transferred, reposition and resize do what they say, and other files are unaffected.", "quantifier": "every history of file operations", "why_tests_cant": "Unbounded histories.", "anchors": ["src/file_access.rs"]}
{"id": "C54", "title": "Nested source loading restores the outer source", "statement": "save-source/restore-source nest properly up to 16 levels: after any balanced nesting the source id and position are those before; the 17th level and an extra restore abort instead of corrupting memory.", "quantifier": "every balanced nesting", "why_tests_cant": "Unbounded histories.", "anchors": ["core.fth: save-source, restore-source, included, evaluate"]}
{"id": "C55", "title": "Core.fth arithmetic and memory helpers meet their stack comments", "statement": "2* 2/ max min <= >= ?dup tuck +! 2@ 2! count /string chars c, on off , as compiled from core.fth, compute their documented results for all operands.", "quantifier": "all operand values, all memory contents", "why_tests_cant": "All 64-bit values.", "anchors": ["core.fth"]}
{"id": "C56", "title": "FILL and SPACES loops", "statement": "caddr n char fill sets exactly the n bytes to char; n spaces emits exactly max(n,0) blanks.", "quantifier": "every n, address and memory", "why_tests_cant": "Loop counts are unbounded.", "anchors": ["core.fth: fill, spaces"]}
{"id": "C57", "title": "Variables, constants and DOES> words keep separate storage", "statement": "constants return their value forever; each created word returns its own body address, disjoint from all other bodies; a does> child pushes its body address and then runs the shared code.", "quantifier": "every sequence of definitions", "why_tests_cant": "Unbounded histories.", "anchors": ["src/core.rs: create, constant, p_var, p_const, does, xdoes, _does", "core.fth: variable"]}
{"id": "C58", "title": "DEFER/DEFER! dispatch", "statement": "A deferred word executes exactly the most recently installed execution token.", "quantifier": "every token and history", "why_tests_cant": "All tokens.", "anchors": ["core.fth: defer, defer@, defer!"]}
{"id": "C59", "title": "Compiling then running equals interpreting", "statement": "For any line made of numbers and non-immediate words that have no parsing or return-stack effect, : x LINE ; x leaves the same stacks, memory (below the new definition) and output as interpreting LINE.", "quantifier": "every such line", "why_tests_cant": "Unbounded programs.", "anchors": ["src/core.rs: compile_token, interpret_token, run, semicolon"]}
{"id": "C60", "title": "Float stack words and float memory round trip", "statement": "fswap fover frot fdup fdrop fnip fpick have their documented effect; f! then f@ returns the same bits and touches only its eight bytes.", "quantifier": "all bit patterns and stacks", "why_tests_cant": "2^64 patterns.", "anchors": ["src/float.rs"]}
{"id": "C61", "title": "Float literals with huge exponents are rejected or rounded, never misread", "statement": "A float literal denotes mantissa*10^exponent rounded; an exponent outside the i32 range is not silently reduced.", "quantifier": "every literal", "why_tests_cant": "Unbounded strings.", "anchors": ["src/core.rs: evaluate_float", "src/parser.rs: uint, fraction"]}
{"id": "C62", "title": "Parsing words do not panic in background tasks", "statement": "A task without an input buffer that executes a parsing word gets a Forth exception.", "quantifier": "every parsing word, every background task", "why_tests_cant": "All task/word combinations.", "anchors": ["src/core.rs: parse, _skip, parse_word", "src/output.rs: s_quote"]}
{"id": "C63", "title": "The dictionary index invariants hold in every reachable state", "statement": "In every reachable state links point to strictly older words, every bucket heads a terminating chain of words of that bucket, and the stacks keep 256 slots, so no lookup or stack access can go out of bounds or loop.", "quantifier": "every program", "why_tests_cant": "All executions.", "anchors": ["src/core.rs: Wordlist, Stack, find"]}
{"id": "C64", "title": "Evaluated strings and included lines are stripped of exactly their line terminator", "statement": "Reading a source line removes one trailing \\n or \\r\\n and nothing else; at end of file the flag is 0 and the line empty.", "quantifier": "every file content", "why_tests_cant": "Unbounded inputs.", "anchors": ["src/loader.rs: load_line"]}
{"id": "C65", "title": "Control state never leaks between definitions", "statement": "After ; succeeds, or after any exception, the compiler's control stack is empty and the next definition starts from a clean state.", "quantifier": "every history", "why_tests_cant": "Unbounded histories.", "anchors": ["src/core.rs: semicolon, abort_with, imm_clear_labels"]}
{"id": "C66", "title": "TYPE/EMIT/quotes append exactly their text", "statement": "emit, type, .\" , .( and s\" append or produce exactly the given bytes, in order, to the output buffer and change nothing else.", "quantifier": "every string", "why_tests_cant": "Unbounded strings.", "anchors": ["src/output.rs: emit, p_type, s_quote, dot_quote, dot_paren"]}
{"id": "C67", "title": "Exception descriptions are total", "statement": "Every exception code the system can raise has a description and distinct codes raised by the system have distinct descriptions.", "quantifier": "every exception code", "why_tests_cant": "All codes including user-supplied ones.", "anchors": ["src/exception.rs: description"]}
{"id": "C68", "title": "Return stack words move cells unchanged", "statement": ">r r> r@ 2>r 2r> 2r@ transfer exactly the stated cells between the data and the return stack in the stated order, keep every deeper cell of both stacks and touch nothing else.", "quantifier": "all stack contents with room, all cell values", "why_tests_cant": "the cells are machine words and the depth arithmetic is 8-bit wrapping; tests sample a few depths and values", "anchors": ["src/core.rs: p_to_r, r_from, r_fetch, two_to_r, two_r_from, two_r_fetch"]}
{"id": "C69", "title": "Float arithmetic is correctly rounded", "statement": "f+ f- f* f/ fsqrt leave the IEEE double nearest to the exact real result (ties to even; too large magnitudes give the infinity of that sign), zero results have the IEEE sign, NaNs propagate, the infinities and division by zero behave as in IEEE 754, and sums, differences and products of integers up to 2^53 are exact; the deeper floats, the data stack and the rest of the machine are unchanged.", "quantifier": "all doubles", "why_tests_cant": "2^128 operand pairs; rounding ties, subnormals and overflow are isolated points", "anchors": ["src/float.rs: fplus, fminus, fstar, fslash, fsqrt"]}
{"id": "C70", "title": "Float comparisons agree with the order of the reals", "statement": "f< f0< f0= answer -1 exactly when the relation holds between the real numbers (or infinities) denoted, 0 otherwise and for every NaN; fmin and fmax leave one of their operands with the smaller or larger value and ignore a single NaN; fabs and fnegate change the sign only.", "quantifier": "all doubles", "why_tests_cant": "signed zeros, NaNs and infinities are isolated points of a 2^128 space", "anchors": ["src/float.rs: f_less_than, f_zero_less_than, f_zero_equals, fmin, fmax, fabs, fnegate"]}
{"id": "C71", "title": "Conversions between cells and floats", "statement": "s>f rounds the integer correctly, f>s cuts off the fraction and saturates at the ends of the cell range (0 for NaN), floor fceil fround leave the integral float below, above and nearest with ties away from zero, and s>f f>s is the identity on every cell.", "quantifier": "all cells and all doubles", "why_tests_cant": "the identity fails only above 2^53", "anchors": ["src/float.rs: s_to_f, f_to_s, floor, fceil, fround"]}
{"id": "C72", "title": "f~ decides whether two floats are close", "statement": "With a positive tolerance f~ answers true exactly when the distance of the two numbers is below it, with zero when they are equal, with a negative tolerance when the distance is below the tolerance times the sum of the magnitudes.", "quantifier": "all finite doubles", "why_tests_cant": "the rounding of the distance matters only for rare triples", "anchors": ["src/float.rs: fproximate"]}
{"id": "C73", "title": "Units and constants are correctly rounded", "statement": "pi is the double nearest to the real number pi; every unit word multiplies by the correctly rounded factor with one rounding per operation; the trigonometric words replace their operands by the result of the platform function.", "quantifier": "all finite doubles", "why_tests_cant": "all operands; correctness of the constants against the real numbers is not testable with doubles", "anchors": ["src/float.rs: pi, fsin ... fpowf", "src/units.rs: all words"]}
{"id": "C74", "title": "Address unit words", "statement": "char+ cell+ float+ cells floats add 1, 8, 8 and multiply by 8; if the result is not a cell the debug build panics and the release build wraps, and nothing else changes.", "quantifier": "all cells", "why_tests_cant": "2^64 operands and two build settings", "anchors": ["src/core.rs: char_plus, cell_plus, cells", "src/float.rs: float_plus, floats"]}
{"id": "C75", "title": "Words that report or change the state of the interpreter", "statement": "compiling? token-empty? error max-n max-u mtime utime base >name push the value they are named after and change nothing else; handler! 0error 0labels 0stacks flush-output flush-to-err !token change exactly the thing they are named after.", "quantifier": "all states", "why_tests_cant": "the frame (everything that is not changed) and all states", "anchors": ["src/core.rs: p_compiling, token_empty, error, handler_store, clear_error, clear_stacks, imm_clear_labels, base, to_name, store_token", "src/env.rs: max_n, max_u", "src/output.rs: flush_output", "src/facility.rs: mtime, utime", "src/tools.rs: flush_to_err"]}
{"id": "C76", "title": "Listings and printed numbers show the real state", "statement": ".r prints the canonical representation of every cell in bases 2, 8, 10 and 16, right-aligned; f.r the float with the given number of digits; words lists all names, newest first; .s .memory .backtrace .token .input .word print exactly what is on the stacks, in the dictionary and in the input, and change nothing but the output.", "quantifier": "all stacks, dictionaries, inputs and numbers", "why_tests_cant": "2^64 numbers, arbitrary dictionaries and stacks", "anchors": ["src/output.rs: dot_r, fdot_r", "src/tools.rs: words, dot_word, dot_s, dot_memory, dot_backtrace, dot_input", "src/core.rs: dot_token"]}
{"id": "C77", "title": "The table of execution times", "statement": "(xtime) records the smallest and the greatest execution time of a word and changes no other word; .xtime lists the words that were measured; 0xtime forgets all times.", "quantifier": "all dictionaries, all times", "why_tests_cant": "all histories of measurements", "anchors": ["src/tools.rs: set_execution_times, dot_xtime, clear_xtime"]}
{"id": "C78", "title": "Words that take a name from the input", "statement": "' and ['] push and compile the execution token of the newest visible word with the next name of the input, and raise -13 if there is none; char and [char] push and compile the code of the first character of the next word, also if it is not ASCII; each takes exactly one word from the input.", "quantifier": "all inputs, all dictionaries", "why_tests_cant": "arbitrary dictionaries with shadowed and hidden names, arbitrary UTF-8 input", "anchors": ["src/core.rs: p_char, bracket_char, tick, bracket_tick"]}
{"id": "C79", "title": "POSTPONE defers the compilation of a word", "statement": "After postpone name in a definition, executing that definition does what the text interpreter does with name when compiling: it appends the execution token of a word that is not immediate, and executes an immediate one.", "quantifier": "all words, all dictionaries", "why_tests_cant": "all words of all dictionaries", "anchors": ["src/core.rs: postpone, _postpone"]}
{"id": "C80", "title": "Float constants and DOES>", "statement": "fconstant takes one name from the input and one float and defines a word that pushes this float for ever after, whatever is defined later; does> appends exactly the code that hands the rest of the definition to the newest word.", "quantifier": "all floats, names and later definitions", "why_tests_cant": "all later histories", "anchors": ["src/float.rs: fconstant, p_fconst", "src/core.rs: does"]}
{"id": "C81", "title": "Printing numbers with the library words", "statement": ". prints the top cell in the current base followed by a space, ? does so for the cell at an address, f. prints the top float with seven digits; h. and h.r print in hexadecimal whatever BASE is and leave BASE and all other memory as they were; hex and decimal set BASE and nothing else.", "quantifier": "all numbers, bases, stacks and machines that have these definitions", "why_tests_cant": "all numbers in all bases, and memory must be unchanged everywhere", "anchors": ["core.fth: . f. ? decimal hex h. h.r", "src/output.rs: dot_r"]}
{"id": "C82", "title": "Comparing and compiling floats", "statement": "f> is true exactly if the first float is greater than the second as real numbers (NaN is never greater); f, appends the float to the data space, where it stays until it is stored to.", "quantifier": "all pairs of doubles; all data spaces", "why_tests_cant": "2^128 pairs; all positions of the allocation pointer", "anchors": ["core.fth: f> f,"]}
{"id": "C83", "title": "Text words and DUMP", "statement": "pad is the first cell boundary at least 512 bytes behind HERE; append extends a counted string by a text and changes nothing else; >char replaces exactly the unprintable characters; dump prints every row of a memory range, address, eight bytes in hexadecimal and as text, and leaves BASE and memory as they were.", "quantifier": "all memory ranges and contents, all bases", "why_tests_cant": "all memory contents and lengths", "anchors": ["core.fth: pad append >char _type _dump dump"]}
{"id": "C84", "title": "Compiling literals by hand", "statement": "literal, 2literal and fliteral append to the current definition exactly what the text interpreter appends for the number: the word that pushes it and the cell or float.", "quantifier": "all cells and floats, all definitions under construction", "why_tests_cant": "all values at all places", "anchors": ["core.fth: literal 2literal fliteral", "src/core.rs: _postpone"]}
{"id": "C85", "title": "The line editor edits characters", "statement": "Reading a line in the terminal program behaves like an editor on characters: every key inserts, deletes, moves over or recalls whole characters and lines, Enter returns exactly the line shown and appends it to the history when it is not empty, Ctrl-D and read errors end without a line; it never crashes, and it ends as soon as one of these events comes. (Entering a line may also change older history lines: refuted that it only appends.)", "quantifier": "all event sequences over all Unicode characters, all histories", "why_tests_cant": "unbounded key sequences and multi-byte characters; no tests exist for the terminal", "anchors": ["rtf/src/term.rs: Term::read_line"]}
{"id": "C86", "title": "The history file keeps the last lines", "statement": "Whatever the history file contains, at most 32 lines of valid text are loaded; lines saved on exit are exactly those loaded at the next start. (That the last 32 lines survive leaving with Ctrl-D is refuted: only 31 do.)", "quantifier": "all file contents, all histories", "why_tests_cant": "all byte strings, all history lengths", "anchors": ["rtf/src/term.rs: Term::new, Drop for Term"]}
{"id": "C87", "title": "A line typed at the prompt is obeyed", "statement": "When the terminal program waits at its prompt and a line arrives, the tokens of the line act one after the other as C38 says, the output of the line is shown followed by ' ok' (unless a definition is open) and the end of the line, and the program waits at its prompt again with its own words and code unchanged; so for any number of lines. Integers push their value, built-in and library words do what is proved about them. (With 63 cells on the stack, accepted on one line, the next line fails with a stack overflow: refuted there; proved up to 62.)", "quantifier": "all machines with the words of the terminal program, all lines, all sessions, all terminals", "why_tests_cant": "unbounded sessions and arbitrary user definitions; the repository has no test of the terminal program", "anchors": ["rtf/src/main.rs: repl, receive", "rtf/rtf.fth: evaluate-input, quit"]}
{"id": "C88", "title": "An exception at the prompt leads back to the prompt", "statement": "When a token of a typed line ends in an exception - by itself, in the code it starts, or because the stacks are out of order - the output so far and a report (token, description, words being executed) are printed, the stacks are emptied, interpretation state and input are reset, nothing else is changed, and the program waits at its prompt. In particular unknown words (-13) and compile-only words (-14). (An exception in a background task crashes the program: refuted there.)", "quantifier": "all machines with the words of the terminal program, all lines, all failing tokens, all exception numbers", "why_tests_cant": "exceptions can occur in any state, at any depth of calls", "anchors": ["rtf/rtf.fth: (abort), quit", "src/core.rs: abort_with, abort"]}
{"id": "C89", "title": "The terminal program ends when it is told to", "statement": "The end of the input at the prompt ends the run and changes nothing else; a token that stops the machine, such as bye, ends the run in the state it leaves, without reading the rest of the line. (A terminal that keeps failing does not end the run: it prints a message and ok for ever; refuted.)", "quantifier": "all machines with the words of the terminal program, all lines, all terminals", "why_tests_cant": "non-termination cannot be observed by a test", "anchors": ["rtf/src/main.rs: repl, receive", "src/core.rs: run, bye"]}
{"id": "C90", "title": "INCLUDED obeys the lines of a file and comes back", "statement": "INCLUDED, given the name of a readable file, obeys its lines one after the other, closes the file, and makes the source that was current before current again at the same position, with the sources saved earlier still saved. A file of integers pushes them in order and otherwise changes only SRC-STACK, LOAD-LINE# and one more allocated cell. (That the file is interpreted even when INCLUDED runs in the middle of a definition, and that INCLUDED allocates nothing itself, is refuted: POSTPONE [ compiles [ at HERE instead of executing it.)", "quantifier": "all machines with the words of the terminal program and of core.fth, all files that can be read line by line, files of integers of any number of lines, all numbers of saved sources below 16", "why_tests_cant": "the effect must hold for every file and every state of the machine; the leaked cell is invisible unless HERE is compared", "anchors": ["core.fth: load-source-file, included, save-source, restore-source", "src/core.rs: postpone, _postpone", "src/file_access.rs: open_file", "src/loader.rs: open_source, load_line, close_source"]}
{"id": "C91", "title": "INCLUDED reports a file that it cannot load", "statement": "INCLUDED, given the name of a file that cannot be opened, or when sixteen sources are saved already, raises exception -1 with memory, words and current source as before. When a line of the file ends in an exception, after the lines before it have been obeyed, INCLUDED ends in that exception; in particular -13 for a line that begins with an unknown token after any number of lines of integers. (That no file stays open is refuted: with sixteen saved sources the file just opened is never closed. After an exception in a line the file stays the current source and the source before it stays saved.)", "quantifier": "all machines with the words of the terminal program and of core.fth, all files, all file names, all numbers of saved sources, all exceptions in any line", "why_tests_cant": "errors can occur in any line of any file and in any state; the leaked file and the leaked saved source are invisible until the table of sixteen is full", "anchors": ["core.fth: load-source-file, included, save-source", "src/file_access.rs: open_file", "src/loader.rs: open_source, load_line"]}
