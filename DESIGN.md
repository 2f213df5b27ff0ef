# Formal model of pebmeister/Pasm

Pasm is a multi-pass 6502/65C02 assembler written in C++ with flex and bison.
This directory holds a Rocq (Coq 8.16.1) model of it and machine-checked proofs.
The code in `/repo` was read as text. It was never built or run.

## 1. How the model is organised

All files are in `rocq/theories`. Model files hold definitions only; every definition cites the file and lines it models and says where it
simplifies. Proofs are in separate files. The property theorems are in the `Prop_*.v` files, one line of proof each (`exact lemma`), each followed by
`Print Assumptions` and by an `Example` that meets its hypotheses or runs a program.

### Model files

| Layer | Model | Code |
|---|---|---|
| signed char strings, case folding, 32-bit wrap | `Base.v` | `memory.cc` stricmp, `<cctype>` in the C locale |
| `strtol` | `CNum.v` | C library, as used in `parseargs.cc`, `pasm.l`, `str.cc` |
| hashing | `Hash.v` | `hash.cc` |
| dictionary over a heap of records | `Dict.v` | `dictionary.cc` |
| stack | `Stack.v` | `stacks.cc` |
| escapes | `Str.v` | `str.cc` |
| debug allocator | `MemTrack.v` | `memory.cc` |
| error counting and messages | `Err.v` | `error.cc`, `error.h` |
| opcode tables | `Opcodes.v` | `opcodes.cc`, `opcodes.h` (transcribed by script) |
| file search, source lines | `File.v` | `file.cc` |
| command line | `Args.v` | `parseargs.cc` |
| conditional text as a lexer of its own | `IfDef.v` | `pasm.l:158-249` |
| line end tool | `Eol.v` | `eolconvert.cc` |
| relocation tool and its stub | `Merge.v` | `mergerelocate.cpp`, `relocate.asm` |
| state of the assembler, monad, syntax of statements | `State.v` | globals of all files |
| symbols | `Sym.v` | `sym.cc` |
| expansion, output, listing records | `Machine.v` | `expand.cc`, `genoutput.cc`, `node.cc`, `genlist.cc` |
| parser actions | `Build.v` | `pasm.y`, `node.cc`, actions of `pasm.l` |
| scanner | `Lexer.v` | rules of `pasm.l` |
| grammar | `Parser.v` | `pasm.y` |
| passes, include stack, whole run | `Pass.v` | `pass.cc`, `pasm.l:430-450` |
| text of the list file | `List.v` | `node.cc:1517-1864`, `genlist.cc` |
| programs as text, for examples | `Prog.v` | - |

### Specifications, written independently of the model

`Cpu.v` (opcode maps from their bit structure), `CpuStep.v` (execution of branches and index instructions), `Sem.v` (meaning of expressions),
`Layout.v` (what a program of labels, assignments, instructions and data stands for), `Struct.v` (what a program of variables, conditions and loops does when run). The remaining specifications are small functions
next to the lemma that uses them (e.g. `lrun` for stacks, `selected` for conditionals, `cl_run` for allocator clients).

### Proof files

* Utilities: `BaseProofs`, `HashProofs`, `DictProofs`, `DictMore`, `StackProofs`, `StrProofs`, `EolProofs`, `MemTrackProofs`, `ErrProofs`, `OpcodesProofs`,
  `OpcodesMore`, `FileProofs`, `ArgsProofs`, `IfDefProofs`, `FrontMore`, `MergeProofs`, `UtilExact` (exact behaviour where the expected one fails).
* Symbols and generic invariants of the whole interpreter: `SymProofs`, `SymMore`, `SymEx`, `PmDef`, `LocalAdd`, `StrNode`, `GenX`, `Gen`, `GenFront`, `Inv`. `Gen` lifts any reflexive, transitive
  state relation kept by the primitive actions to `expand`, and `GenFront` to a whole pass.
* Expressions, instructions, data: `ExprProofs`, `ExprMore`, `ExprShape`, `OpProofs`, `OpMore`, `OpWalk`, `InstrProofs`, `InstrMore`, `FarTwice`, `ZpiProofs`, `DataProofs`, `DataMore`, `DataWalk`,
  `Colon`, `DefProofs`, `BadProofs`, `FillProofs`.
* Macro calls: `MacroProofs`, `MacroMore`, `MacroLabel`.
* Conditionals in the assembler, and names that stay: `IfdefPass`, `NamesStay`.
* Flow: `IfProofs`, `StructRep`, `StructOp`, `StructRun`, `StructExec`, `StructBuild`, `StructLine`, `StructVar`, `StructLabel`, `StructProg`, `StructEx` (programs of variables, conditions and loops), `LoopProofs`, `FlowEx`, `RegLoop`, `RegRun`, `RegDown`, `RegEx`.
* Output, passes, include: `OutProofs`, `PassProofs`, `IncProofs`.
* Scanner and grammar: `LexProofs`, `ParseProofs`, `SourceEx`; how texts are written: `SrcText`, `SrcProg`; that they are read so: `LexText`, `ParseText`; `TextEx` (a case).
* Whole programs: `LineProofs`, `LineTwo`..`LineFive` (one line in any pass), `Frag` (one pass), `FragPass` (two passes compared), `FragProg` (from a line list to
  a pass), `FragAsm` (the pass loop), `FragSeg` (several parts), `FragEx` (counterexamples).
* List file: `ListRel` and `RecProofs` (records against output and lines, carried through the files above), `ListProofs` (a reader of rows), `ListFile`, `ListLines`,
  `ListOnce`, `ListAsm`, `ListBeside`, `ListAddr`, `ListSeg`, `TextLines` (the scanner and the parser number the statements as the text's lines).
* Directives: `DirProofs` (.ORG, `* =`, .DS, .LOAD, .PRINT, switches), `VarProofs`.
* `UnitTests.v`: computed examples of the model (tests, no properties).

Outcomes are explicit: `Ok`, `Exit` (a call of `exit`), `Ub` (undefined behaviour or failed `assert`), `OutOfFuel` (loops and recursion without a
bound in the code). No theorem counts `OutOfFuel` or `Ub` as success.

## 2. Properties

"R": the statement one would expect is false of the code; a theorem named `..._refuted` gives the witness and the property states what is true instead.
`..._partial` theorems are the part of the expected statement that holds; where an exact theorem exists as well the property counts as proved.

| Id | Modelled | How proved |
|---|---|---|
| C01 | `hash_function`, `stricmp` | induction on the string |
| C02 | `stricmp` | induction; order laws at the first difference |
| C03 | dictionary | refinement to a finite map by induction over operations, with a growth lemma |
| C04 | dictionary | refinement to lists per key that are reversed at growth; R across growth |
| C05 | dictionary | inductive invariant |
| C06 | stack | refinement to lists; `item_at` for every index; R for dead cells |
| C07 | `sanitize_string` | induction on the string; `C07_decodes` compares with a relation that says what every text decodes to; `C07_quoted` carries that over to a quoted string of the source (`StrNode`) |
| C08 | `sanitize_string` | exact set of strings read past the end; R |
| C09 | tables, `get_op_code` | sweep over the whole finite domain, lifted to all integers; against `Cpu.v` |
| C10 | tables | same; exact list of shared bytes on the 65C02; R |
| C11 | tables, instruction builder and writer | composition of the table lemma with the instruction theorem; R |
| C12 | `build_op`, `expand` on instructions | symbolic evaluation of the interpreter, then decoding with `Cpu.v` |
| C13 | branches in reach | same, arithmetic; R at +128 |
| C14 | branches out of reach | the five bytes executed on `CpuStep.v`; R for bvc/bvs/bra and `*` |
| C15 | second expansion of a far branch | symbolic evaluation; R |
| C16 | expression nodes | induction on expressions, against `Sem.v` |
| C17 | grammar of expressions | the parser inverts a printer with minimal brackets; uniqueness |
| C18, C19 | `set_symbol_value`, whole runs | case analysis; invariant lifted by `Gen` to expansion and passes |
| C20 | `look_up_symbol`, `add_symbol` | via the dictionary refinement |
| C21 | anonymous labels | search in sorted tables; the definition and the use of a label as steps of the expansion (`PmDef`); R across files and past the table |
| C22 | macro parameter stack | round trip lemma |
| C23, C25, C26 | expansion, lines, passes | relations lifted by `Gen`/`GenFront` (induction on fuel over all node kinds); R for offsets |
| C24 | instructions, data | corollary of C12, C14, C43; R for .DS, .STR, range |
| C27, C28, C29 | `assemble` | induction over the pass loop; R for exit and for errors of the final pass |
| C30 | whole run, fragment | two passes compared line by line; R without labels and with anonymous ones |
| C31, C32 | operand forms | case analysis over modes, all values |
| C33 | register loops | bytes by symbolic evaluation; executed on `CpuStep.v` by induction over turns; R at 255 and 0 |
| C34 | conditional scanner | exact compositional function by induction over nestings; R |
| C35 | `-d` values | digit induction |
| C36 | `open_file` | induction on the search path |
| C37 | `replace_eol` | induction; mixed texts exact for nonempty lines; R |
| C38 | allocator | invariant over client operations, with moving reallocs; R |
| C39 | `error`, `error2`, `warning` | induction over calls; R |
| C40 | local names | injectivity over the identifier alphabet |
| C41 | whole run, fragment | an unresolved name makes every pass unclean |
| C42 | loops | induction on fuel, both directions against abstract loops |
| C43 | data lists | induction on the list |
| C44 | include | generic relation over lines and files |
| C45 | literals | longest match of the rules, digit induction |
| C46 | sections | stack discipline; R for dotted names |
| C47 | `dump_symbols` | permutation and sortedness |
| C48 | `mergerelocate`, stub | induction over the images; R for the marker byte |
| C49 | whole run, fragment | composition: `LineProofs` .. `FragAsm`, against `Layout.v`; R without .ORG |
| C50 | `hash_pointer_function` | evaluation of C shift rules |
| C51 | record handles | dictionary invariant; R at growth |
| C52 | `read_file_lines` | induction; R for long lines |
| C53 | `parse_arguments` | induction over options |
| C54 | `.FILL` | induction over the fill loop; R for 0 and the C64 header |
| C55 | list file, fragment | records carry the bytes written (relation kept by every step), reader of the rows; R for odd .WORD strings, .PRINT OFF |
| C56 | list file | invariant of the shown marks; blocks of records per file; scanner and parser number statements as the text's lines; R for long lines |
| C57 | macro calls | arguments bound one by one (relation mv kept by evaluation and by writing a parameter record), body expanded once, parameters restored; R for sections, exchanged, missing and negative arguments |
| C58 | conditionals after the first pass | no step removes a key from the table (closed relation `Rnames`), so the tests of later passes are fixed; R: the body of an include guard is not in the output |
| C59 | list file, fragment | every record carries the address of its bytes and they follow one another (`addressed`, kept by every step); the reader of the rows with addresses is total unless a row holds the padding's " $00.db" |
| C60 | list file, fragment | the bytes of each line (`lined`, from the layout of C49) are spread over the records with its number (`spread`); the list file puts the first record of a line into the row of that line and its other records directly below (`beside`) |
| C61 | .ORG, * =, .DS | build and expansion of the statement for any operand expression; R: `.DS 0`, code behind `.DS`, addresses behind a second `* =` |
| C62 | .LOAD | induction over the bytes two at a time (relation `stepped`); R: a missing file is used after the report |
| C63 | .PRINT | walk over the operand list (`list_print`), as for .BYTE |
| C64 | processor switches | the statement itself, and a closed relation for every other step of the expansion; R: carried into the next pass, obeyed in branches not taken |
| C65 | .VAR | the declaration updates one record (`dfn`), the tree of the initial value is unaffected, the second element sets the value; R: a name as initial value is itself declared |
| C66 | whole run, fragment | the passes of C49 with a change of the program counter as one more kind of line; the records of each line against `arranged`; R: gaps, `.DS` behind a second `* =` |
| C67 | scanner | `SrcText.v` is a relation between texts and words; which rule is longest is proved per kind of word from what may follow it; induction over the text; the instruction names are compared with opcode charts written out in `Prop_Text.v`; R: + on the first line |
| C68 | scanner and grammar | `SrcProg.v` is a relation between words and statements; mutual induction over statements and bodies, with C17 for the expressions |
| C69 | from texts to the file | C67, C68 and C49 |
| C70 | .IF | unfolding of the node, both branches |
| C71 | variables, conditions, loops, from lines or texts to the file | `Struct.v` gives the programs a meaning; mutual induction over runs for trees (`StructExec`), instructions in bodies keep their source form across turns because the tried mode is put back (`StructOp`), then lines, labels (`StructLabel`: a label is new in the first pass, which then makes a second one, and the same in all later ones), passes and the pass loop; the tree built for a statement is shown to represent it whatever the table's handles (`StructBuild`) |

The fragment of C30, C41, C49, C66 and of the list file: any number of files of at most 65535 lines; lines with an optional named label (with or without a colon, which is no part of the name) and one of: nothing, `.ORG e` or `* = e`
(without a label), `name = expression`, an instruction in any addressing mode with an expression operand, `.BYTE`/`.WORD` lists of expressions and strings. `Prop_Prog.v` states it exactly.
C41 and C66 allow any number of `.ORG` and `* =`; C30, C49 and C55 to C60 are about programs with a single `.ORG` with a positive number in front of code, where the addresses follow from
the text alone. Not in it: macros, loops, conditionals, sections, local and anonymous labels, `.DS`, `.FILL`, `.STR`, includes.

The fragment of C71: one file; the first line is `.ORG` or `* =` with a number; then lines: `.VAR` with one name and an optional initial value (not a name alone), assignments,
`.BYTE`/`.WORD` of expressions and strings, instructions (implied, on the accumulator written `A` or `a`, or with an operand; operands have a value where the outermost block begins, since the tree is built there), `.IF`, `.WHILE`, `.REPEAT`, `.DO`, `.FOR` with bodies of these (without `.VAR`), where every name used is declared before. Empty lines and lines of data or of one instruction that use no names may have a label, with or without a colon: inserting a new name may move all records of the table, which is why a statement behind a new label may not have looked up names already; unlabelled lines below use the labels freely, and assignments only go to variables.

`MANIFEST.json` lists the theorems and the status of every property.

## 3. Tests of the theorems

`seeded/LOG.jsonl` records edits of the model that imitate realistic bugs: the definition, the edit, the claim it breaks, the theorems that no longer prove,
and the theorems added or tightened because an edit had gone unnoticed.

## 4. Trusted base

* The Coq 8.16.1 kernel, including `vm_compute`.
* `Print Assumptions` is run under every property theorem. The answer is "Closed under the global context" for all of them: no axiom is used. Checking the
  compiled library as a whole lists the seven constants `Coq.ssr.ssrunder.Under_rel.*` of Coq's own ssreflect module, which comes in with a library loaded
  and which no theorem here uses.
* The reading of the C++ source. Nothing was extracted from or run against the program.
* The specifications named in section 1.

### Modelled

Everything listed under "Model files", function by function, including error paths, `exit`, and undefined behaviour where a property turns on it. The model of
`expand_node` covers every node kind the grammar can build.

### Not modelled

* The automata generated by flex and bison: `Lexer.v` implements longest match over the rules, `Parser.v` recursive descent with the declared precedences; a statement that does not parse
  is a syntax error as a whole, bison's error recovery token is modelled at line level.
* The text of diagnostics (error numbers only, `Err.v` apart) and `printf` formatting.
* `.DEBUG_*` directives, the `-v` trace output.
* Failure of `malloc`, `fwrite`, overflow of counters and of the program counter beyond `int`.
* Order of evaluation of operands where C++ leaves it open: left to right.
* Reuse of freed memory, `qsort` on equal keys, Windows-only code, the graphical tools and samples other than `mergerelocate`.
