{"id": "C01", "title": "Dictionary hash respects the key equality", "statement": "For string keys that the dictionary considers equal (stricmp == 0) hash_function returns the same 32-bit value, so two spellings of one symbol always fall in the same bucket at every table size; the result is always in [0, 2^32).", "quantifier": "all byte strings of any length, all table sizes > 0", "why_tests_cant": "Every pair of spellings of every length would have to be hashed; the alternating toupper/tolower scheme is only right if the two folds induce the same equivalence on all 256 bytes.", "anchors": ["CMakePasm/source/hash.cc:11-25", "CMakePasm/source/memory.cc:173-185"]}
{"id": "C02", "title": "stricmp decides case-insensitive equality and is antisymmetric in sign", "statement": "stricmp(a,b)==0 iff a and b have the same length and agree after ASCII folding at every index; sign(stricmp(a,b)) = -sign(stricmp(b,a)); the induced order is transitive (so qsort with it is well defined).", "quantifier": "all pairs/triples of C strings", "why_tests_cant": "Order laws quantify over triples of unbounded strings.", "anchors": ["CMakePasm/source/memory.cc:173-185"]}
{"id": "C03", "title": "Dictionary refines a finite map across growth", "statement": "For any sequence of dict_insert (of keys not currently present), dict_search and dict_delete, starting from dict_create, dict_search returns exactly the value an abstract case-insensitive finite map holds, whatever number of table growths happened in between; other keys are unaffected by an insert or delete.", "quantifier": "all operation sequences, any length, any number of growths", "why_tests_cant": "Growth happens first at 921 elements and then at 1843, ...; the interaction of delete, insert and growth is unbounded.", "anchors": ["CMakePasm/source/dictionary.cc:113-138", "CMakePasm/source/dictionary.cc:147-294", "CMakePasm/source/dictionary.h:60-100"]}
{"id": "C04", "title": "Duplicate keys: which record is found", "statement": "With duplicate keys a search finds the most recently inserted record not yet deleted, as dictionary.h promises, as long as the table has not grown; each growth (caused by the insertion that makes the table nine tenths full) turns the order of the records under every key round, and so the oldest is found afterwards.", "quantifier": "all sequences with duplicate insertions, across growth", "why_tests_cant": "Needs a history with at least 921 insertions including a duplicate.", "anchors": ["CMakePasm/source/dictionary.h:69-75", "CMakePasm/source/dictionary.cc:113-138"]}
{"id": "C05", "title": "Dictionary structural invariant", "statement": "After any operation sequence: number_elements equals the number of records in the table (the assert of dump_dictionary can never fail), every record sits in the bucket of its own hash, the table size is 1024*2^k, and number_elements < 0.9*size.", "quantifier": "all operation sequences", "why_tests_cant": "Inductive invariant over unbounded histories.", "anchors": ["CMakePasm/source/dictionary.cc:45-78", "CMakePasm/source/dictionary.cc:113-211", "CMakePasm/source/dictionary.cc:255-294", "CMakePasm/source/dictionary.cc:302-339"]}
{"id": "C06", "title": "Stack is a LIFO list with capacity a multiple of 25", "statement": "Any legal sequence of push/pop/top/clear on the C stack behaves as a list; the buffer always has room for the live elements and its size is a multiple of 25; pop/top on an empty stack hit the assert. item_at(i) gives the i-th live element from the bottom, and is rejected exactly for an index outside the buffer: cells above the top are handed out.", "quantifier": "all operation sequences", "why_tests_cant": "Reallocation every 25 pushes mixed with pops; unbounded.", "anchors": ["CMakePasm/source/stacks.cc:19-140"]}
{"id": "C07", "title": "String escape decoding", "statement": "sanitize_string maps a string without backslashes to itself, decodes each escape of the documented set to its byte, decodes \\x followed by any number of hex pairs to those bytes, turns any other escape into a question mark and one error, leaves every other character as it is, and never produces more bytes than it read. A quoted string of the source becomes the decoded text between its quotes, up to the first NUL, and every unknown escape in it is reported once.", "quantifier": "all byte strings", "why_tests_cant": "Unbounded strings; escapes at every position and nested.", "anchors": ["CMakePasm/source/str.cc:18-111", "CMakePasm/source/node.cc:120-154"]}
{"id": "C08", "title": "String escape decoding: when it reads past the terminator", "statement": "sanitize_string stops at the NUL of its argument for every input, except exactly for the strings that end in an odd number of backslashes, or in an odd number of backslashes followed by x or X: there it reads behind the NUL.", "quantifier": "all byte strings", "why_tests_cant": "The failing inputs read adjacent memory and usually look fine in a test.", "anchors": ["CMakePasm/source/str.cc:18-111"]}
{"id": "C09", "title": "6502 opcode table agrees with the architecture", "statement": "For the NMOS 6502, get_op_code(instr,mode) is exactly the opcode given by an independent description of the 6502 opcode map (aaabbbcc decomposition plus the single-byte group), -1 where the CPU has no such instruction; undocumented instructions are only available with -i.", "quantifier": "all 118 instructions x 15 modes x both flags", "why_tests_cant": "Table of 1770 entries entered by hand; tests cover a sample.", "anchors": ["CMakePasm/source/opcodes.cc:167-299", "CMakePasm/source/opcodes.cc:447-466", "CMakePasm/source/opcodes.h:1-180"]}
{"id": "C10", "title": "Opcode bytes determine instruction, mode and length", "statement": "Two different (instruction, mode) pairs of the 6502 table never share an opcode byte, apart from the implied/accumulator spellings of the four shifts; hence code can be disassembled. On the 65C02 the same holds for all documented instructions; exactly the 36 bytes of columns 7 and F, $9C, $9E, $CB and $DB are shared, each between a documented and an undocumented NMOS instruction.", "quantifier": "all pairs of table entries, both CPUs", "why_tests_cant": "Pairwise comparison of 1770 entries.", "anchors": ["CMakePasm/source/opcodes.cc:167-466"]}
{"id": "C11", "title": "65C02 zero-page-indirect takes three bytes", "statement": "On the 65C02 the eight instructions with the mode (zp) are assembled as opcode and two operand bytes, although the processor takes one operand byte: the table has them in the absolute-indirect column. (The expected two bytes are refuted.)", "quantifier": "all eight instructions, all zero-page operands", "why_tests_cant": "Needs the table and the size computation together.", "anchors": ["CMakePasm/source/opcodes.cc:309-331", "CMakePasm/source/expand.cc:757-792", "CMakePasm/source/genoutput.cc:202-246", "CMakePasm/source/genoutput.cc:314-352"]}
{"id": "C12", "title": "Instruction encoding round trip", "statement": "The bytes written for an instruction are the opcode and exactly the operand bytes the processor expects; an independent 6502/65C02 decoder recovers the instruction and the selected addressing mode, the operand read little-endian is the value modulo 256^n (for a branch the address reached), and the program counter moves by the number of bytes. Covers all documented instructions except the bit branches and the (zp) mode of the 65C02 (see C11).", "quantifier": "all instructions, modes and operand values", "why_tests_cant": "Operand values are unbounded integers.", "anchors": ["CMakePasm/source/genoutput.cc:202-246", "CMakePasm/source/genoutput.cc:314-352", "CMakePasm/source/expand.cc:757-792"]}
{"id": "C13", "title": "Branch displacement lands on the target", "statement": "A relative branch whose target lies -127..128 bytes from the next instruction is written without error; decoding the displacement as a signed byte gives the target for every distance except +128, where it gives the target minus 256 (a whole program shows it).", "quantifier": "all branch instructions, all PCs and targets", "why_tests_cant": "Boundary value; needs the CPU reading of the byte.", "anchors": ["CMakePasm/source/expand.cc:800-1017", "CMakePasm/source/genoutput.cc:202-246"]}
{"id": "C14", "title": "Out-of-range branch is replaced by an equivalent inverted branch and jmp", "statement": "A branch whose target is out of reach is replaced by five bytes which, executed on a 6502 from any flag state, continue at the value the operand has two bytes later iff the original condition holds and otherwise fall through, for bcc/bcs/beq/bne/bmi/bpl; for bvc/bvs/bra the condition is not inverted and they jump iff they should not. A target containing * is therefore two bytes too high.", "quantifier": "all flag states, all PCs, all targets", "why_tests_cant": "Behavioural equivalence over all CPU states.", "anchors": ["CMakePasm/source/expand.cc:868-960"]}
{"id": "C15", "title": "Far branch in code expanded twice", "statement": "Expanding the same far-branch node a second time in the final pass writes, instead of the five bytes, the original two-byte branch to the end of the first five bytes (used twice in a row: a branch to itself), without error; a macro used twice shows it.", "quantifier": "all expansion counts", "why_tests_cant": "Needs two expansions of one node in one pass.", "anchors": ["CMakePasm/source/expand.cc:868-960"]}
{"id": "C16", "title": "Expression operators compute their arithmetic meaning", "statement": "Each operator node returns the C value of its operator on its operand values (+,-,*,/,<<,>>,&,|,^,~,<,>,<=,>=,==,!=,&&,||,unary -,lo byte,hi byte); division by zero is reported as an error rather than executed; evaluation does not change the PC, the output or any symbol value.", "quantifier": "all expression trees of any depth, all symbol environments", "why_tests_cant": "Unbounded trees.", "anchors": ["CMakePasm/source/expand.cc:1034-1073", "CMakePasm/source/expand.cc:1756-1928"]}
{"id": "C17", "title": "Operator precedence in the grammar", "statement": "The parse chosen for a chain of binary operators groups by the %left/%nonassoc table: * / tightest, then + -, bitwise, comparisons and logical, shifts, with equal levels associating to the left.", "quantifier": "all operator chains of any length", "why_tests_cant": "Unbounded chains; every pair of operators.", "anchors": ["CMakePasm/source/pasm.y:53-59", "CMakePasm/source/pasm.y:200-245"]}
{"id": "C18", "title": "Defined symbols keep values in 16 bits", "statement": "set_symbol_value never stores a value outside [0,0xFFFF] in a symbol that is not a .VAR variable; it reports an error and leaves the symbol unchanged instead.", "quantifier": "all values, all symbol states, all call sequences", "why_tests_cant": "Invariant over histories.", "anchors": ["CMakePasm/source/sym.cc:277-298"]}
{"id": "C19", "title": "Change counter tracks label changes exactly", "statement": "sym_value_changed increases by one exactly when set_symbol_value changes the stored value of a symbol that is neither a variable nor a macro parameter; so a pass that leaves it at 0 performed no such change.", "quantifier": "all call sequences", "why_tests_cant": "The fixed point test of the assembler rests on it.", "anchors": ["CMakePasm/source/sym.cc:277-298", "CMakePasm/source/pass.cc:101-303"]}
{"id": "C20", "title": "Scoped lookup", "statement": "look_up_symbol returns the record scope.name if it exists, otherwise the record name, otherwise nothing, and changes nothing but the record's use counter. Adding a name inside a section never changes what any undotted name resolves to globally or in a different section; adding a global name changes only what that name resolves to; in both cases the name itself then resolves. (Names are unique in the table; the addition keeps them unique.)", "quantifier": "all names, scopes and tables", "why_tests_cant": "Interaction of name mangling, scoping and hashing.", "anchors": ["CMakePasm/source/sym.cc:127-275"]}
{"id": "C21", "title": "Anonymous + and - labels resolve to the nearest definition", "statement": "In the current file, '-' resolves to the last '-' at or before the line, '--' to the one before it, and so on; '+' to the first after the line, '++' to the second; with no label in that direction the search returns nothing; the tables stay sorted. Executing such a label's definition leaves exactly one label of that file and line in the table, with the value given, and asks for another pass if and only if it was there with another value; using one gives the value of the label meant. With some labels but fewer than the depth asks for, the code does not return nothing: the index can belong to a label of another file or lie outside the table.", "quantifier": "all tables, files, lines and depths", "why_tests_cant": "Unbounded tables; boundary cases read outside the array.", "anchors": ["CMakePasm/source/sym.cc:58-63", "CMakePasm/source/sym.cc:328-437"]}
{"id": "C22", "title": "Macro parameters are saved and restored", "statement": "push_macro_params followed by arbitrary changes to macro parameters and pop_macro_params restores every parameter value and the parameter stack, and leaves every other symbol, the error count and the change counter as they were.", "quantifier": "all parameter counts and nestings", "why_tests_cant": "Nested macros of any depth.", "anchors": ["CMakePasm/source/sym.cc:448-517", "CMakePasm/source/expand.cc:1390-1414"]}
{"id": "C23", "title": "Output file is append-only and has no gaps", "statement": "During a run bytes already written to the output never change, and the count kept by the program is the number of bytes written. generate_output writes an item only if the file (with its C64 header) has reached the item's address minus the origin. The converse fails: after the program counter is moved back, and after .ds 1 or .ds 2 in a C64 file, items are written at an offset that is not their address minus the origin, without any error.", "quantifier": "all programs", "why_tests_cant": "Every write in every program.", "anchors": ["CMakePasm/source/genoutput.cc:49-108", "CMakePasm/source/genoutput.cc:258-307"]}
{"id": "C24", "title": "Bytes written equal the program counter advance", "statement": "In the final pass every instruction (also a far branch written as two instructions) and every .BYTE/.WORD list with values in range writes exactly as many bytes as it advances the program counter. It is false for .DS, for .STR values below -65280 and for data values out of range, shown by programs.", "quantifier": "all statements and states", "why_tests_cant": "Hidden dependency between two independent size computations.", "anchors": ["CMakePasm/source/expand.cc:683-696", "CMakePasm/source/expand.cc:1118-1302", "CMakePasm/source/expand.cc:1627", "CMakePasm/source/genoutput.cc:146-307"]}
{"id": "C25", "title": "No output before the final pass", "statement": "While final_pass is false, expanding any tree writes no output byte and no listing record.", "quantifier": "all trees, all states", "why_tests_cant": "Every handler must respect it.", "anchors": ["CMakePasm/source/expand.cc:800-1302", "CMakePasm/source/genoutput.cc:258-307", "CMakePasm/source/pass.cc:101-160"]}
{"id": "C26", "title": "Nothing happens after .END", "statement": "Once end_expansion is set, expanding any tree returns 0 and changes nothing; for the rest of the pass (all remaining lines of all remaining files) no byte is written, no symbol is added or given a value, the program counter does not move, nothing is printed. Lines are still parsed: errors found by the parser are still reported.", "quantifier": "all trees and states", "why_tests_cant": "Every node type.", "anchors": ["CMakePasm/source/expand.cc:1667-1673", "CMakePasm/source/expand.cc:1951-1983"]}
{"id": "C27", "title": "The pass loop terminates and is bounded", "statement": "assemble performs at most 19 analysis passes and one output pass, for every program on which a pass terminates.", "quantifier": "all programs", "why_tests_cant": "Bound over all pass behaviours.", "anchors": ["CMakePasm/source/pass.cc:162-303"]}
{"id": "C28", "title": "Output only after a clean pass", "statement": "assemble opens the output file only if some analysis pass finished with no errors, no symbol value change and no unresolved symbol; in every other case in which it returns, it returns -1 and leaves no output file. An exit() during the final pass leaves a partly written file.", "quantifier": "all programs and histories of passes", "why_tests_cant": "Quantifies over pass histories.", "anchors": ["CMakePasm/source/pass.cc:162-303"]}
{"id": "C29", "title": "Return value 0 speaks for the analysis passes only", "statement": "If assemble returns 0 the last analysis pass had no error, no symbol change and no unresolved symbol, and the error counter is the number of messages of the final pass; the final pass itself may have reported errors and dropped bytes (there is a program with return value 0, an error message and an output file without the byte in error).", "quantifier": "all programs", "why_tests_cant": "Needs an error that appears only in the final pass.", "anchors": ["CMakePasm/source/pass.cc:230-303"]}
{"id": "C30", "title": "A clean analysis pass predicts the final pass", "statement": "For a program with one .ORG with a positive number in front of its instructions and data, with at least one label (or no assignments at all), that assembles with status 0 and no error: the last analysis pass was clean, and the final pass ends at the same address, gives every symbol the value it had after that analysis pass, and writes exactly the bytes laid out under those values. Without a label, or with anonymous + labels, this fails (counterexamples proved).", "quantifier": "all programs whose lines are labels, assignments, .ORG, instructions and data directives, with plain names, expressions without && and ||, no statement mentioning its own label more than once; any number of input files, any processor flags", "why_tests_cant": "Global simulation argument between two passes.", "anchors": ["CMakePasm/source/expand.cc:533-1302", "CMakePasm/source/expand.cc:1678-1749", "CMakePasm/source/pass.cc:162-303"]}
{"id": "C31", "title": "Zero-page form is used exactly when the operand fits", "statement": "For an instruction with initialised operand v in an absolute-class mode, the zero-page form is written iff the instruction has one and 0<=v<=255 or there is no absolute form; otherwise the absolute form is written. An error is reported iff only the zero-page form exists and 256<=v<=65535.", "quantifier": "all instructions, modes, values", "why_tests_cant": "Two optimisation steps in two functions.", "anchors": ["CMakePasm/source/node.cc:321-439", "CMakePasm/source/expand.cc:800-1017"]}
{"id": "C32", "title": "Immediate operands: exactly 256..65535 are rejected", "statement": "An immediate operand is written as its low byte; an error is reported iff the value is in 256..65535. Negative values and values above 65535 are accepted without any message.", "quantifier": "all operand values", "why_tests_cant": "Boundary at 0x10000.", "anchors": ["CMakePasm/source/expand.cc:835-905"]}
{"id": "C33", "title": "Register FOR loops run the stated number of times", "statement": "A register loop .FOR .REGX/.REGY = a .TO/.DOWNTO b emits code which, executed on a 6502, runs the body for a..b inclusive, each once, and goes on behind the loop; exceptions are exactly an upward loop to 255, which leaves out 255, and a downward loop to 0 with more than one turn, which goes on (0, 255, 254, ...) as long as the body leaves the carry set and ends the first time it is clear. With the bounds the wrong way round no code is emitted.", "quantifier": "all start/end values", "why_tests_cant": "CPU-level behaviour of generated code.", "anchors": ["CMakePasm/source/expand.cc:558-678"]}
{"id": "C34", "title": ".IFDEF nesting", "statement": "For all nestings of .IFDEF/.IFNDEF/.ELSE/.ENDIF and .IF, the text reaching the parser is the one selected by the usual semantics, with one exception: a conditional inside another one that ends in a skipped part goes on skipping after its .ENDIF, until an .ELSE of an enclosing .IFDEF or the outermost .ENDIF. The result is given for every nesting.", "quantifier": "all nestings", "why_tests_cant": "Unbounded nesting.", "anchors": ["CMakePasm/source/pasm.l:158-249"]}
{"id": "C35", "title": "Command line definitions", "statement": "-d NAME VALUE defines NAME with the value written as $hex, %binary, 0xhex or 0bbinary (below 2^31), or in decimal with at most two digits; every decimal number of three or more digits defines the value 0.", "quantifier": "all numerals", "why_tests_cant": "Digit strings of any length.", "anchors": ["CMakePasm/source/parseargs.cc:304-328"]}
{"id": "C36", "title": "File search order", "statement": "open_file opens the plain name if it exists, else the first existing dir+name in the search path order, else fails; it never opens any other name.", "quantifier": "all file systems and search paths", "why_tests_cant": "Unbounded paths; separators in odd places.", "anchors": ["CMakePasm/source/file.cc:31-112"]}
{"id": "C37", "title": "End of line conversion", "statement": "replace_eol turns LF, CR and CRLF texts into the same LF text, is idempotent, and preserves all other bytes in order. In a text of nonempty lines with mixed line ends every end becomes one LF, except that a CRLF after a line ended by a single CR becomes two.", "quantifier": "all texts", "why_tests_cant": "Unbounded texts and mixtures.", "anchors": ["CMakePasm/eolconvert/eolconvert.cc:223-300"]}
{"id": "C38", "title": "Memory tracker accounting", "statement": "With the debug allocator, after any sequence of malloc/realloc/free of live pointers (addresses not reused), the total reported equals the sum of the sizes of the live blocks plus the sizes of the blocks that were moved by a realloc and afterwards freed or reallocated; it is exact when no realloc moves. The frees of moved blocks, and no others, are reported as errors. A block that is freed a second time, after operations that do not concern its address, is reported as an error and the total stays.", "quantifier": "all operation sequences", "why_tests_cant": "Address behaviour of realloc.", "anchors": ["CMakePasm/source/memory.cc:47-145"]}
{"id": "C39", "title": "Error counting", "statement": "error_count never decreases during a pass; every error() call adds exactly one; error2 adds one, or two when message and parameter exceed the buffer of 2048; warnings never add. Each report prints its message followed by its parameter, in order; only one that does not fit prints the message alone and then another text. Every enum value indexes its own message.", "quantifier": "all call sequences, all message lengths", "why_tests_cant": "Length boundary at 2048.", "anchors": ["CMakePasm/source/error.cc:1-140", "CMakePasm/source/error.h:1-70"]}
{"id": "C40", "title": "Local symbol mangling is unambiguous", "statement": "Distinct (label, @local) pairs get distinct mangled names (up to letter case), for all label names the lexer can deliver, so a local of one label never resolves to a local of another. Outside sections, looking up or adding @n below a label gives the record of that label's local, the one it had if it had one, and leaves the locals of all other labels and all other locals as they were.", "quantifier": "all label and local names", "why_tests_cant": "Unbounded names.", "anchors": ["CMakePasm/source/sym.cc:127-222", "CMakePasm/source/sym.cc:579-625"]}
{"id": "C41", "title": "Unresolved symbols block output", "statement": "If an instruction, an assignment, .ORG, * = or an operand of an operator uses a name that no line of the program defines, the assembler does not return 0 and writes nothing, however it ends. A lone undefined name as a data item is not detected: it assembles to 0 without an error (counterexample proved).", "quantifier": "all programs whose lines are labels, assignments, any number of .ORG and * =, instructions and data directives, with plain names, expressions without && and ||, no statement mentioning its own label more than once; any number of input files, any processor flags", "why_tests_cant": "All reference positions.", "anchors": ["CMakePasm/source/sym.cc:788-810", "CMakePasm/source/pass.cc:162-303"]}
{"id": "C42", "title": "Loop directives execute their body the stated number of times", "statement": ".WHILE, .REPEAT and .DO expand their body exactly as the abstract loop over the control expression does, or stop with an error when the program counter leaves 64K. .FOR evaluates step, start and end once; when the body leaves the variable alone it runs once for each of start, start+step, ... not past the end, that is (end-start)/step+1 times. With step 0, or when a plain symbol cannot hold the value past the end (below 0 or above 65535), it ends only by leaving 64K, and with an empty body never.", "quantifier": "all loops", "why_tests_cant": "Unbounded iteration counts.", "anchors": ["CMakePasm/source/expand.cc:1447-1569"]}
{"id": "C43", "title": "Data directives encode their operands in order", "statement": ".BYTE/.WORD/.STR emit the values in order, one or two bytes little-endian each, for lists of any length; values out of range are reported.", "quantifier": "all lists", "why_tests_cant": "Unbounded lists.", "anchors": ["CMakePasm/source/expand.cc:1118-1302", "CMakePasm/source/genoutput.cc:124-200"]}
{"id": "C44", "title": "Include stack", "statement": "Including files restores file name and line number of the including file when the included file ends, for any nesting.", "quantifier": "all nestings", "why_tests_cant": "Unbounded nesting.", "anchors": ["CMakePasm/source/file.cc:185-216", "CMakePasm/source/pasm.l:429-449"]}
{"id": "C45", "title": "Number literals", "statement": "The lexer's conversion of decimal, $hex, %binary and character literals gives the positional value of the digits reduced to a C int; in particular the positional value itself when it fits, and a silently wrapped value when it does not.", "quantifier": "all digit strings", "why_tests_cant": "Unbounded digit strings.", "anchors": ["CMakePasm/source/pasm.l:360-369"]}
{"id": "C46", "title": "Sections scope their symbols", "statement": "For section names without a dot .ENDS restores exactly the scope (and the whole state) before the matching .SECTION, and any well nested sequence leaves the scope unchanged; an unmatched .ENDS is reported. A section name containing a dot is not undone by its .ENDS.", "quantifier": "all nestings", "why_tests_cant": "Unbounded nesting.", "anchors": ["CMakePasm/source/expand.cc:701-750"]}
{"id": "C47", "title": "Symbol dump is sorted and complete", "statement": "dump_symbols prints exactly the symbols passing its filter, in non-decreasing value order.", "quantifier": "all symbol tables", "why_tests_cant": "All tables.", "anchors": ["CMakePasm/source/sym.cc:651-706"]}
{"id": "C48", "title": "Relocation data of mergerelocate", "statement": "Applying the emitted relocation list to the first image yields the second image wherever the two images differ by a page-relocated word.", "quantifier": "all image pairs", "why_tests_cant": "All images.", "anchors": ["CMakePasm/samples/Commodore/supermon64-master/mergerelocate.cpp"]}
{"id": "C49", "title": "Programs of labels, assignments, instructions and data assemble to the specified bytes", "statement": "For a program with one .ORG with a positive number in front of its instructions and data, with at least one label (or no assignments at all), on which the assembler returns 0 and reports no error, the output file is (after the load address of a C64 file) the concatenation of the architectural encodings of its statements from the origin on, where every label (with or without a colon behind it) denotes origin plus the sizes of the statements before it, every assigned name the value of its expression, names alike but for case are one name, and every name needed is defined. Without .ORG nothing is written and no error reported (counterexample proved).", "quantifier": "all programs whose lines are labels, assignments, .ORG, instructions and data directives, with plain names, expressions without && and ||, no statement mentioning its own label more than once; any number of input files, any processor flags", "why_tests_cant": "End-to-end functional correctness.", "anchors": ["CMakePasm/source/node.cc:321-439", "CMakePasm/source/expand.cc:800-1017", "CMakePasm/source/genoutput.cc:202-307", "CMakePasm/source/pass.cc:162-303"]}
{"id": "C50", "title": "Pointer-key hash has no defined value", "statement": "hash_pointer_function shifts an int by its width or more for every pointer value, so that it is undefined for every argument: no table keyed by pointers can rely on it.", "quantifier": "all pointer values", "why_tests_cant": "UB is silent in tests.", "anchors": ["CMakePasm/source/hash.cc:27-43"]}
{"id": "C51", "title": "Record handles stay attached exactly until growth", "statement": "A record pointer returned by dict_insert or dict_search stays attached (updates through it are seen by later searches) as long as the table does not grow; at a growth every record is copied to a fresh address, so that all handles obtained before are detached.", "quantifier": "all operation sequences", "why_tests_cant": "Growth happens only after hundreds of insertions.", "anchors": ["CMakePasm/source/dictionary.cc:109-300"]}
{"id": "C52", "title": "Source lines for the listing", "statement": "read_file_lines returns the file's text cut into pieces numbered 1,2,3,...; concatenated they are the file. The pieces are the lines, except that a line is cut every 2047 characters, which shifts all later numbers.", "quantifier": "all file contents", "why_tests_cant": "All texts.", "anchors": ["CMakePasm/source/file.cc:133-159"]}
{"id": "C53", "title": "Command line options mean what they say", "statement": "Any list of distinct options in any order, mixed with input files, is parsed to the configuration that lists exactly those settings; inputs and definitions keep their order.", "quantifier": "all option lists", "why_tests_cant": "All permutations of options.", "anchors": ["CMakePasm/source/parseargs.cc:53-355"]}
{"id": "C54", "title": ".FILL writes the requested number of bytes", "statement": ".FILL v,n writes exactly n bytes v and moves the program counter by n in the final pass; the analysis passes move it by n, or by 1 for n = 0; v outside 0..255 or n < 0 is reported and ends the assembly. The number written is false where the fill is the first output of a C64 file, shown by a program.", "quantifier": "all values, counts and states", "why_tests_cant": "Unbounded counts; analysis and final pass compute the size independently.", "anchors": ["CMakePasm/source/expand.cc:351-411", "CMakePasm/source/genoutput.cc:258-307"]}
{"id": "C55", "title": "The bytes shown in the list file are the bytes written", "statement": "After an assembly without errors, the rows of the list file read from top to bottom ($HHHH: and the bytes in hex, checked against the .db statement beside them) give exactly the bytes of the output file after the C64 load address. False for .WORD with a string of odd length divisible by three, whose padding byte has an unreadable row, and for code between .PRINT OFF and .PRINT ON.", "quantifier": "all programs of labels, assignments, instructions and data with one .ORG with a positive number, all file texts, all readers' results", "why_tests_cant": "The listing and the output are computed by separate code from separate evaluations of every operand; all programs and values.", "anchors": ["CMakePasm/source/node.cc:1517-1864", "CMakePasm/source/genlist.cc:79-185", "CMakePasm/source/genoutput.cc:124-307"]}
{"id": "C56", "title": "The list file shows every source line once", "statement": "After an assembly without errors the list file contains every line of every input file exactly once, in order; no program makes it print a line twice. It is written without overrunning its buffer as long as lines stay below 1900 characters; a line of 2002 characters overruns it.", "quantifier": "all programs of the fragment, several input files; all record lists for the absence of duplicates", "why_tests_cant": "Every interleaving of statements, comments and blank lines; all record sequences.", "anchors": ["CMakePasm/source/genlist.cc:25-199", "CMakePasm/source/pass.cc:270-289"]}
{"id": "C57", "title": "Macro calls", "statement": "A call outside sections of a macro, with any number of arguments whose names are known and whose values fit in 16 bits, expands the macro's body once, with \\1, \\2, ... equal to the arguments in order, every other name unchanged, local names belonging to a label of their own for each call (two local names are the same only if they are the same name in the same call of the same macro), and nothing yet written; afterwards the parameters and the current label are what they were before the call, and everything else is as the body left it. This fails for a call in a section (the program is ended), for a nested call that exchanges parameters (an argument is passed twice), for a missing argument (the value of an earlier call is used silently) and for a value below 0 (refused, even if it is below 0 only in the first pass).", "quantifier": "all macros, argument lists, nesting depths and states with a well-formed table", "why_tests_cant": "Any body, any arguments, any earlier calls and their parameter values.", "anchors": ["CMakePasm/source/expand.cc:1175-1206", "CMakePasm/source/expand.cc:1315-1441", "CMakePasm/source/sym.cc:448-517"]}
{"id": "C58", "title": ".IFDEF and .IFNDEF from the second pass on", "statement": "A name that has been entered in the symbol table stays there, through the lines of a pass and from each pass to the next. So in every pass that begins with a name in the table, an .IFNDEF of it passes its lines over and an .IFDEF of it has its first part read, wherever they stand in the source. In particular a block under its own guard (.IFNDEF guard, guard=1, lines, .ENDIF) is read in the first pass only, and its bytes are missing from the output file, without an error; and a name defined further down, or only used, counts as defined.", "quantifier": "all programs, names, positions of the conditional and numbers of passes", "why_tests_cant": "A test shows one program; the claim is about every execution in which the name was ever entered.", "anchors": ["CMakePasm/source/pasm.l:158-185", "CMakePasm/source/sym.cc:237-275", "CMakePasm/source/pass.cc:28-91", "CMakePasm/source/pass.cc:183-303"]}
{"id": "C59", "title": "The list file shows every byte at its address", "statement": "After an assembly without errors every row of the list file can be read as $HHHH: and bytes, and the bytes with their addresses (that of the row and the following ones) are exactly the bytes of the output file, without the C64 load address, at the addresses from the .ORG on, modulo 65536, in order and without gaps. The only rows that cannot be read are those of the padding byte of a .WORD string (see C55).", "quantifier": "all programs of labels, assignments, instructions and data with one .ORG with a positive number, all file texts", "why_tests_cant": "The address column is filled from the program counter at the time each row is printed, separately from the output; all programs, statement lengths and values.", "anchors": ["CMakePasm/source/node.cc:1517-1864", "CMakePasm/source/genlist.cc:79-185", "CMakePasm/source/genoutput.cc:124-307"]}
{"id": "C60", "title": "The list file shows the bytes of a line beside that line", "statement": "After an assembly without errors, the first row of the list file with bytes of a line is the row of that source line, its further rows follow directly below, and together these rows show exactly the bytes of that line: what its instruction or data directive denotes under the final values of the names at the address where the line is placed. Lines without bytes have no such rows.", "quantifier": "all programs of labels, assignments, instructions and data with one .ORG with a positive number in distinct input files, all file texts", "why_tests_cant": "The listing merges source lines and output rows in separate loops driven by line numbers of syntax nodes and files; all interleavings of comments, blank lines, labels, multi-row data and files.", "anchors": ["CMakePasm/source/genlist.cc:25-199", "CMakePasm/source/node.cc:1517-1864"]}
{"id": "C61", "title": "Directives that move the program counter", "statement": ".ORG v and * = v set the program counter, and the address that the next byte of the file stands for, to v. A second .ORG is reported and has no other effect. .DS n moves the program counter by n and writes nothing; a negative n ends the program with status -1. An instruction placed beyond the bytes written so far ends the program with status -1 and none of its bytes is written.", "quantifier": "all states of any pass, all operand expressions and values", "why_tests_cant": "The operand is any expression over the symbol table; the program counter, the origin and the number of bytes written are separate variables whose relation decides whether the output stops.", "anchors": ["CMakePasm/source/expand.cc:1080-1111", "CMakePasm/source/expand.cc:1627-1643", "CMakePasm/source/genoutput.cc:86-130", "CMakePasm/source/genoutput.cc:258-330"]}
{"id": "C62", "title": ".LOAD writes the file", "statement": ".LOAD of a readable file writes exactly the file's bytes in order in the final pass, and moves the program counter by the number of bytes in every pass; no error is reported and no name changes.", "quantifier": "all non-empty files, all states", "why_tests_cant": "The file is cut into words and at most one byte, each turned into a syntax tree and expanded; all lengths and byte values.", "anchors": ["CMakePasm/source/expand.cc:416-458"]}
{"id": "C63", "title": ".PRINT shows its operands", "statement": ".PRINTALL shows, in every pass, its operands in order, each after a space: a string as written, a value as one byte in hexadecimal, or two when the second is not zero, and a line feed at the end. .PRINT does so in the final pass only. Nothing but the console changes.", "quantifier": "all non-empty lists of expressions and strings, all states", "why_tests_cant": "Lists of any length and expressions of any depth over any symbol table.", "anchors": ["CMakePasm/source/expand.cc:1273-1299", "CMakePasm/source/expand.cc:1594-1620"]}
{"id": "C64", "title": "Processor switches", "statement": ".6502 ON, .65C02 ON, .ILLEGAL ON/OFF and .C64 set the processor, the permission for unofficial opcodes or the file format and nothing else. The setting stays until the next switch.", "quantifier": "all states, all syntax trees expanded after the switch", "why_tests_cant": "No statement of any kind may change the settings; the switches act while the text is scanned, not when the statement is carried out.", "anchors": ["CMakePasm/source/pasm.l:312-318", "CMakePasm/source/pass.cc:60-140"]}
{"id": "C65", "title": ".VAR declares a variable", "statement": ".VAR name = expression gives the name the expression's value, whatever its size. No other name changes, no error is reported and the variable does not cause another pass.", "quantifier": "all states outside sections, all expressions without the name itself", "why_tests_cant": "Expressions of any depth over any symbol table; whether the initial value is a name alone decides what the list walk does.", "anchors": ["CMakePasm/source/expand.cc:1104-1166", "CMakePasm/source/pasm.y:141-150", "CMakePasm/source/sym.cc:277-298"]}
{"id": "C66", "title": "Programs in several parts", "statement": "A program may set the program counter any number of times with .ORG or * =, to any expression, also over names defined later. After an assembly without errors the output file is (after the address of the first instruction or data line, in a C64 file) the encodings of the instruction and data lines in the order of the source, where the lines after a change of the program counter are placed from the value of its expression on, and every label denotes the address of its line. The list file shows every byte at the address of its part and beside its line. Nothing is written for the distance between two parts (counterexample proved: a byte is not loaded where it was assembled), and .DS after a second * = is only skipped (counterexample proved).", "quantifier": "all programs of labels, assignments, instructions, data and any number of .ORG and * =, with no instruction or data before the first of them, at least one label not at address 0 (or no definitions at all), plain names, expressions without && and ||; any number of input files, any processor flags", "why_tests_cant": "The targets, the sizes of the instructions and the labels depend on one another over the passes; any number of parts, forward references and overlaps.", "anchors": ["CMakePasm/source/expand.cc:1080-1111", "CMakePasm/source/node.cc:321-439", "CMakePasm/source/genoutput.cc:202-307", "CMakePasm/source/pass.cc:162-303", "CMakePasm/source/genlist.cc:79-185"]}
{"id": "C67", "title": "The words of a source text", "statement": "A source text is read as the words it is written with: numbers as $ and hexadecimal digits, % and binary digits, decimal digits or a quoted character, with their value; mnemonics, directives and register names in any case; names with letters, digits, underscores, dots, a leading @ and a final colon; operators, strings, macro parameters and runs of + and -. Blanks and comments (;, // and /* */) between words mean nothing, also when they contain such words, and every word is numbered with its line. Every name in the opcode charts of the 6502, the 65C02 and (with illegal opcodes on) the undocumented 6502 is read, in any case, as an instruction that has the opcode of its place in the chart. A name that begins with the letters of a mnemonic or directive is a name; a longer operator is not split. No text can be read as two different lists of words. A label of + or - on the first line of a file is not seen as one (counterexample proved).", "quantifier": "all texts of any length made of these words (SrcText.v lists what must not follow a word directly)", "why_tests_cant": "Any number of words in any order: whether a rule wins depends on what follows, on 150 other rules and on case.", "anchors": ["CMakePasm/source/pasm.l:57-428"]}
{"id": "C68", "title": "The statements of a source text", "statement": "The words of a text are read as the statements they are written as: for every instruction the operand form (implied, #, absolute, indexed by X or Y, indirect, (,X) and (),Y), every directive with its operands, assignments, blocks (.IF .ELSE, .REPEAT, .DO, .WHILE, .FOR, .FOR .REGX/.REGY, .MACRO) with their bodies nested to any depth, labels, macro calls and the conditional directives; expressions are grouped by the declared precedences; every statement has the number of its last line. A parenthesised expression as the whole operand is indirect, with an operator behind the closing parenthesis it is absolute. No text can be read as two different programs.", "quantifier": "all texts of any length made of these statements; directives spelled .PRINT, .6502, .ILLEGAL, .WARN only as words, not in a text", "why_tests_cant": "Nesting to any depth, expressions of any size in every operand, and an LALR grammar with precedences: which reading wins depends on what follows.", "anchors": ["CMakePasm/source/pasm.y:49-245", "CMakePasm/source/pasm.l:57-428"]}
{"id": "C69", "title": "From source texts to the output file", "statement": "If the texts of the input files are written as the lines of a program of labels, assignments, instructions and data behind one .ORG, then after an assembly without errors the output file consists (after the load address of a C64 file) of exactly the encodings of the written instructions and data, one after the other from the address of .ORG on, where every label denotes the address of its line and every assigned name the value of its expression.", "quantifier": "all texts of such programs: any blanks, comments, case of letters, notations of numbers, grouping of expressions; any number of files, any processor flags", "why_tests_cant": "Quantifies over every text of every such program, through scanner, grammar, all passes and the generator.", "anchors": ["CMakePasm/source/pasm.l:57-428", "CMakePasm/source/pasm.y:69-245", "CMakePasm/source/pass.cc:162-303", "CMakePasm/source/genoutput.cc:202-307"]}
{"id": "C70", "title": ".IF assembles exactly one branch", "statement": "The condition of .IF is evaluated once. If it is not 0 the statements up to .ELSE or .ENDIF are assembled, those between .ELSE and .ENDIF have no effect at all; if it is 0 it is the other way round, and without .ELSE nothing is assembled. An error or exit in the condition or in the assembled branch is passed on.", "quantifier": "all conditions, branches and assembler states, at any nesting depth and in any pass", "why_tests_cant": "The branches contain arbitrary statements, nested conditions and loops, in any state of the symbol table.", "anchors": ["CMakePasm/source/expand.cc:1576-1587"]}
{"id": "C71", "title": "Programs with variables, conditions and loops", "statement": "A program that sets its address and then declares variables with .VAR, assigns to them, emits .BYTE and .WORD data and instructions and contains .IF/.ELSE, .WHILE, .REPEAT/.UNTIL, .DO/.WHILE and .FOR/.NEXT blocks nested in any way, and whose lines of data or of one instruction, or empty lines, may begin with labels (with or without a colon), assembles without an error, with exit status 0, to exactly the bytes it emits when it is run as a program: conditions and operands are evaluated with the values the variables have at that moment, upper and lower case of names are the same, the end and step of a .FOR are evaluated once, a step of any sign ends the loop when the variable has passed the end, * is the address of the data item or instruction, and an instruction in a loop is encoded anew in each turn, in the shortest mode that fits the value its operand has in that turn. A label stands for the address of its line in all lines below it, inside conditions and loops too. With the C64 option the load address stands in front. In the end the variables have the values that run leaves and the labels their addresses.", "quantifier": "all such programs (any nesting, any number of turns, any expressions; data items, operands and initial values without && and ||) that terminate, stay in 64K while looping, use only names declared above, have different names for all labels and variables, whose labelled lines use no names, and whose instruction operands have a value where the outermost block begins, fit their mode and, in branches, are in reach; all texts of them; each setting of the processor flags", "why_tests_cant": "Loops may turn any number of times, and blocks nest to any depth; the result depends on all values of all variables.", "anchors": ["CMakePasm/source/expand.cc:1104-1166", "CMakePasm/source/expand.cc:1447-1587", "CMakePasm/source/expand.cc:1678-1749", "CMakePasm/source/pasm.y:130-200", "CMakePasm/source/pass.cc:162-303", "CMakePasm/source/expand.cc:847-1001"]}
