# Design: a machine-checked model of APG (PTSSpace/APG)

APG reads ASN.1 modules (textX grammar), checks them, and generates C headers
(cFS messages, plain C, binary images) and COSMOS telemetry definitions.
This directory holds a Rocq (Coq 8.16.1) model of its logic and theorems about it.

## 1. Layout

| File (rocq/theories) | Contents | Code modelled |
|---|---|---|
| `Base.v` | result type (exceptions as values, out-of-fuel as a third outcome), list helpers | Python exceptions, loops |
| `PyStr.v` | Python string functions used by the code | `str.replace/upper/lower/find`, `str(int)`, `%X` formats |
| `PyNum.v` | Python numbers: unbounded int, double | comparisons, true division, `struct.pack` of doubles |
| `Ast.v` | objects handed over by textX | `asn1/grammar.py`, `asn1/grammar_elements/*.py` |
| `PyFloat.v` | decimal text to double, `repr` of a double | CPython `float()`, `repr` |
| `Grammar.v` | parser combinators with Arpeggio's meaning, every rule of the grammar | `asn1/grammar.py` |
| `Regex.v` | Python's regular expressions, those of the grammar | `asn1/grammar.py` 22-32 |
| `Peg.v` | the rules of the grammar as they are written, the meaning of its operators on Unicode texts | `asn1/grammar.py` 1-142 |
| `GrammarText.v` | the text of the grammar, and how textX reads it into rules and regular expressions | `asn1/grammar.py` 1-142 |
| `Source.v` | reading of files, command line to command | `asn1/parser.py`, `main.py` |
| `Cli.v` | command line words, output paths, whole runs | `cli/cli_arg_parser.py`, `main.py`, argparse |
| `Status.v` | exit codes | `main.py`, argparse |
| `Tree.v` | whole runs on a directory tree: paths, output folders, errors of the system | `main.py`, `asn1/parser.py`, the four generators, `c_printer.py`, pathlib, posixpath |
| `Size.v` | POSIX table, bit sizes | `utils/size.py`, `get_size_bits` methods |
| `Processor.v` | object and model processors | `asn1/processor.py`, `asn1/parser.py` |
| `Bundle.v` | bundle building and validation | `asn1/asn1_bundle*.py`, `asn1/validation/*.py` |
| `Sorter.v` | the two ordering loops | `generators/cfs/module_sorter.py` |
| `CCommon.v` | ASN.1 to C conversion, C data, printing | `generators/generator.py`, `c_data.py`, `c_printer.py` |
| `GenCfs.v`, `GenC.v`, `GenBinary.v`, `GenCosmos.v` | the four generators | `generators/{cfs,c,binary,cosmos}/*.py` |
| `Main.v` | command dispatch, effects on files | `main.py` |
| `Pprint.v` | the outline a module prints of itself | the `pprint` methods of `grammar_elements/`, `Asn1Type.__str__` |
| `Log.v` | loggers, their levels and lines, over a history of calls | `log/logger.py`, `log/colored_formatter.py` |
| `Conformance.v` | tests: the model run on inputs of the repository's own tests, compared with the expected files | `tests/` |
| `Samples.v` | sample bundles used by the satisfiability examples | - |
| `Spec_*.v` | small specifications used by the statements, independent of the model's helpers | - |
| `*_proofs.v` | proofs | - |
| `Props_*.v` | the property theorems, with `Print Assumptions` and a satisfiability `Example` each | - |

`Spec_*` and `Props_*` by topic:

| Topic | Specification | Theorems |
|---|---|---|
| enumerations (C01, C02) | `Spec_Enum` | `Props_Enum` |
| what one module may contain (C15, C22-C26, C49) | `Spec_Check`, `Spec_Num` | `Props_Check` |
| what a bundle may contain (C16-C21, C47, C50) | `Spec_Bundle` | `Props_Bundle` |
| sizes and C types of integers (C04-C06, C08, C09) | `Spec_Size` | `Props_Size` |
| sizes of messages (C07) | `Spec_Layout` | `Props_Layout` |
| order of modules and definitions (C11-C14) | `Spec_Order` | `Props_Order` |
| files, names, repeated runs (C31, C32, C34, C43, C46) | `Spec_Files`, `Spec_Gen` | `Props_Files` |
| message IDs and defines (C27-C30) | `Spec_Cfs`, `Spec_Text` | `Props_Cfs` |
| declared types, initialisers (C33, C35, C36) | `Spec_C` | `Props_C` |
| binary images (C37-C40) | `Spec_Binary`, `Spec_Ieee` | `Props_Binary` |
| COSMOS packets (C41, C42, C44, C45, C48) | `Spec_Cosmos` | `Props_Cosmos` |
| C against COSMOS (C03, C10) | `Spec_Packed` | `Props_Packed` |
| what the grammar guarantees (hypothesis `grammatical`) | `Spec_Grammar` | C51 in `Props_Syntax` |
| reading generated headers, what they should declare (C57) | `Spec_Header` | `Props_Header` |
| which inputs the commands process (C58-C60) | `Spec_Runs` | `Props_Runs` |
| which inputs the cosmos command processes (C61) | `Spec_Cosmos_runs` | `Props_Cosmos_runs` |
| command lines and whole runs (C62-C65) | `Spec_Cli` | `Props_Cli` |
| headers as valid C (C33, C66-C68) | `Spec_Valid` | `Props_Valid` |
| reading COSMOS files, valid packets (C69-C71) | `Spec_Telemetry` | `Props_Telemetry` |
| what failing runs leave behind (C72) | `Spec_Failures` | `Props_Failures` |
| termination of all commands (C73) | `Spec_Order` | `Props_Termination` |
| the regular expressions of the grammar (C82) | `Spec_Regex` | `Props_Regex` |
| the parser of the model and the rules of the grammar (C83) | `Spec_Regex`, `Spec_Peg`, `Spec_Utf8` | `Props_Peg` |
| the text of grammar.py (C91) | `Spec_Regex`, `Spec_Peg`, `Spec_Utf8` | `Props_GrammarText` |
| definitions in another order (C92) | `Spec_Reorder`, `Spec_Failures` | `Props_Reorder` |
| modules without their comments (C93) | `Spec_Plain`, `Spec_Check` | `Props_Plain` |
| further definitions in the modules (C94) | `Spec_Grown`, `Spec_Reorder`, `Spec_Failures` | `Props_Grown` |
| the text of the headers, comments included (C95) | `Spec_Printed`, `Spec_Header`, `Spec_Layout` | `Props_Printed` |
| other names for the types (C96) | `Spec_Rename`, `Spec_Binary`, `Spec_Cfs`, `Spec_Bundle` | `Props_Rename` |
| binary images as COSMOS packets (C97) | `Spec_Sent`, `Spec_Telemetry`, `Spec_Binary`, `Spec_Cosmos` | `Props_Sent` |
| order of the definitions in C files (C98) | `Spec_Place`, `Spec_Printed`, `Spec_C`, `Spec_Rename` | `Props_Place` |
| headers included on their own (C99) | `Spec_Unit`, `Spec_Valid`, `Spec_Header` | `Props_Unit` |
| what the printed outline of a module tells (C100) | `Spec_Outline` | `Props_Outline` |
| when a generated C source compiles (C101) | `Spec_Compile` | `Props_Compile` |
| the exception that ends a run (C102) | `Spec_Raise`, `Spec_Message`, `Spec_Check` | `Props_Raise` |
| the exit code (C103) | `Spec_Status`, `Spec_Cli` | `Props_Status` |
| when a run is finished, what it leaves, and doing it again (C104) | `Spec_Done`, `Spec_Tree`, `Spec_Runs`, `Spec_Failures`, `Spec_History` | `Props_Done` |
| the order of the modules and runs that hang (C105) | `Spec_Hang`, `Spec_Failures`, `Spec_Order` | `Props_Hang` |
| files of c, cfs and binary letter by letter (C106) | `Spec_Letters`, `Spec_Printed`, `Spec_C`, `Spec_Cfs`, `Spec_Binary`, `Spec_Place`, `Spec_Text` | `Props_Letters` |
| file of cosmos letter by letter (C107) | `Spec_Target`, `Spec_History`, `Spec_Cosmos` | `Props_Target` |
| files on disk letter by letter (C108) | `Spec_Letters`, `Spec_Target`, `Spec_Tree`, `Spec_Done`, `Spec_Cli` | `Props_Ondisk` |
| loggers (C109) | `Spec_Log`, `at_left` of `Spec_Cosmos` | `Props_Log` |
| files left by runs that fail (C110) | `Spec_Letters`, `Spec_Hang` (the order), `Spec_Failures`, `Spec_Done`, `Spec_Tree` | `Props_Half` |
| several runs into one folder (C111) | `Spec_Series`, `Spec_Processes`, `Spec_Letters`, `Spec_Failures`, `Spec_Done`, `Spec_Tree` | `Props_Series` |
| reading and printing floats (C74) | `Spec_Floats`, `Spec_Ieee`, `Spec_Syntax` | `Props_Floats` |
| sources against headers, variables in headers (C75, C76) | `Spec_Init`, `Spec_C`, `Spec_Header` | `Props_Init` |
| an initialised C object and its binary image (C77) | `Spec_Object`, `Spec_C`, `Spec_Header`, `Spec_Binary`, `Spec_Floats` | `Props_Object` |
| packets of the cFS message ID and COSMOS identifications (C78) | `Spec_Ident`, `Spec_Cfs`, `Spec_Cosmos`, `Spec_Telemetry` | `Props_Ident` |
| runs on a directory tree (C79, C80) | `Spec_Tree`, `Spec_Cli`, `Spec_Source` | `Props_Tree` |
| faults reported with a message (C81) | `Spec_Report`, `Spec_Check`, `Spec_Bundle`, `Spec_Tree` | `Props_Report` |
| the order of the modules, further modules (C84, C85) | `Spec_Inputs`, `Spec_Bundle`, `Spec_Files`, `Spec_Failures` | `Props_Inputs` |
| the types the commands declare (C86) | `Spec_Agree`, `Spec_Header`, `Spec_Printed` | `Props_Agree` |
| from input files to output files (C87) | `Spec_Tree`, `Spec_Source`, `Spec_Header`, `Spec_Printed`, `Spec_Reread`, `Spec_Binary`, `Spec_Cfs`, `Spec_Telemetry` | `Props_Whole` |
| values of COSMOS items for all clauses (C88) | `Spec_History`, `Spec_Cosmos` | `Props_History` |
| telemetry files read back for all clauses (C89) | `Spec_Reread`, `Spec_History`, `Spec_Telemetry` | `Props_Reread` |
| the message about a rejected input (C90) | `Spec_Message`, `Spec_Report`, `Spec_Check`, `Spec_Bundle` | `Props_Message` |
| texts, files, arguments (C51-C56) | `Spec_Syntax`, `Spec_Source`, `Spec_Utf8` | `Props_Syntax` |

## 2. Modelling decisions

* Exceptions are values `Err e` where `e` is the exception class. The messages of the checks are modelled apart, in `Messages`, which is proved to
  agree with the model without messages; sets in messages are iterated in an arbitrary order. The texts of the exceptions of textX and of the
  interpreter are not modelled.
* `while` loops and unbounded recursion take fuel and return `OutOfFuel`. "Terminates" is
  "for some fuel, and all larger fuel, not `OutOfFuel`"; "never terminates" is "`OutOfFuel` for every fuel".
  Python's recursion limit is not modelled: `OutOfFuel` of a loop is a hang, `OutOfFuel` of a
  recursion is Python's `RecursionError`.
* Objects with identity (modules, definitions) are identified by their position.
* A float is an IEEE double (type `double` of `PyNum.v`: sign, mantissa, exponent) together with its
  `repr`.  Both are computed by `PyFloat.v` (nearest double, shortest digits that read back), for the
  texts the grammar accepts.
* Two levels of input: `Main.run` takes the object graph textX builds (before object processors),
  `Source.main` takes file contents and arguments and reads the graph with `Grammar.v`.
* A grammar rule is a function from the rest of the text to an object and the new rest, with Arpeggio's
  ordered choice, greedy repetition, blanks skipped before every match unless `[noskipws]`.  Regular
  expressions are written out as functions on characters; `Regex.v` defines Python's matching of the
  expressions themselves and C82 proves that the functions agree with it.  Texts are bytes;
  `Peg.v` has the rules of the grammar one by one over Unicode texts, and C83 proves that the parser
  functions agree with them on the UTF-8 encoding of every text without decimal digits of other
  scripts (which `\d` matches, see C82).  `GrammarText.v` has the text of grammar.py character by character
  and a reader of textX's grammar language; C91 proves that the rules it reads are those of `Peg.v`.
* C text produced through the `cgen` library is modelled structurally and rendered with `cgen`'s formats.
* The file system is a map from names to contents; a command is a list of writes plus an outcome.
  `Tree.v` runs the same generators on a tree of folders and files, with relative paths, `.` and `..`,
  creation of folders and the errors of the system.  Links, permissions and limits are not modelled.
* Input files are decoded as UTF-8 (`utf8_valid`; others raise `UnicodeDecodeError`) and read in text mode: CR LF and CR
  become LF.  All files are read before the first is parsed.  The text stays in its UTF-8 form.
* COSMOS: `str()` of a clause (a list of objects) depends on memory addresses; a fixed text stands for it.
  The component lists that the code extends in place are explicit state; a recursive type, whose list
  would change while it is read, does not end in either.
* `Spec_Packed` assumes of the C compiler: widths of the basic types as on the platforms of cFS (int 32,
  packed enum as small as possible), bit-fields of a packed struct follow each other without gap,
  everything else starts at a byte.

## 3. Plan per property

| Id | Plan |
|---|---|
| C01 | model `check_enumerated` with Python negative indexing; prove the result is a permutation with value = index |
| C02 | expected false (sum 0 is renumbered): `_refuted` + exact characterisation as `_partial` |
| C03 | C enumerators vs COSMOS states and widths, from C01; minimality of `bit_length` |
| C04, C05 | arithmetic on `Z` |
| C06 | true division through doubles; `_refuted` beyond 2^53, `_partial` below |
| C07 | size recursion with fuel; relational specification of size; divergence on recursive types |
| C08 | width/type table; `_partial` for 1..64 bits, `_refuted` outside |
| C09 | expected false for ranges not named IntN-t: `_refuted` + `_partial` |
| C10 | packed-layout specification for C; flattening; `_refuted` (arrays, unaligned bit-fields) + `_partial` |
| C11 | loop invariant of the mutating loop, permutation, order; acyclic as well-foundedness |
| C12 | expected false: the loop never terminates for any cyclic bundle: `_refuted` (and for all cyclic bundles) |
| C13 | loop invariant; permutation; order |
| C14 | as C12 |
| C15 | exact characterisation (iff) |
| C16 | iff |
| C17 | iff with NoDup |
| C18 | proved for cfs/c/binary, `_refuted` for cosmos |
| C19 | iff |
| C20 | relational specification of valid clauses, induction on clauses |
| C21 | `_refuted` |
| C22, C23 | induction on types |
| C24 | range part proved; kind part `_refuted` |
| C25 | comparison of doubles |
| C26 | all comments of an accepted module |
| C27 | bit arithmetic, permutation invariance, hexadecimal round trip |
| C28, C29 | `_refuted`; what the code does instead is characterised |
| C30 | value list proved; uniqueness of names `_refuted`, `_partial` for flat clauses |
| C31 | injectivity of the naming functions on grammar names |
| C32 | proved for cfs; `_refuted` for c/binary |
| C33 | from C13, C15, C16; CHOICE excluded (`_refuted`) |
| C34 | injectivity of the naming functions |
| C35 | parser for the emitted initialiser; round trip |
| C36 | `_refuted`; exact condition |
| C37 | byte-level codec |
| C38 | IEEE encoding of `spec_float`; double round trip; single rounding |
| C39 | `_refuted` for reordered clauses; `_partial` for clauses in declaration order |
| C40 | `_refuted`; `_partial` |
| C41 | relational flattening specification |
| C42 | mutation of the clause lists as explicit state; `_refuted`; `_partial` for bundles without nested clauses on the path |
| C43 | cfs/c/binary proved; cosmos `_refuted` (append mode) |
| C44 | graph search with fuel |
| C45 | `_refuted` for BOOLEAN, `_partial` otherwise |
| C46 | effects of `main` |
| C47 | iff |
| C48 | parser for item lines; `_refuted` for quotes in comments |
| C49, C50 | iff, from the characterisations of the single checks; for cosmos also with repeated module names, of which imports find the last and messages the first |
| C51-C53 | relational specification of spellings; inversion and introduction lemma per rule |
| C54 | `_refuted`; what a comment takes as `_partial` |
| C55, C56 | composition with the command; splitting |
| C57 | a tokenizer and reader for headers; each rendered piece reads back as what it was rendered from; fields case by case on the member's type |
| C58-C60 | each step of the generators succeeds exactly under a condition on the input; steps enough for the loops and sizes; nearest doubles agree on being too large |
| C61 | C41/C42 and C50 in both directions; leaves do not depend on the order of enumeration items |
| C62 | words classified as arguments or options; the state machine over words against options, one run of paths, options |
| C63, C64 | C55 and the names of C31 placed with os.path.join, which is injective on names without "/" |
| C65 | C62, C63 with C58-C60 and C88 |
| C66, C67 | C57 (what the header text declares) with the distinctness of names of C34; both directions; `_refuted` |
| C68, C33 (header types) | C57, case by case on what a member becomes; both directions; `_refuted` |
| C69 | a reader of the file format written from scratch, applied to the lines of C41; compositional over files that end with a line; `_refuted` |
| C70, C71 | C69 with the uniqueness of leaves; both directions; `_refuted` |
| C72 | C58-C60 module by module; termination of each conversion; the written modules are a prefix of the order; `_refuted` |
| C73 | paths of distinct names in the containment relation, acyclic since imports and local uses are; every function monotone in its fuel; `_refuted` on types that contain each other |
| C74 | fractions within half a unit of a double are rounded to it; the double nearest to a fraction depends on the fraction only; 17 digits are within half a unit; a decimal between a double and a decimal read as it is read as it too, so only the k-digit decimals just below and above the double matter; `_refuted` on infinity |
| C75 | induction on the initialiser tree along the structs read back from the headers (C35, C57); `_refuted` on arrays, built-in types, strings, values without C constant |
| C76 | the declarations of C57; `_refuted` on a CHOICE and on a clause |
| C77 | induction on clauses: the trees of C35, the structs of C57 and the images of C39 walked together; integers up to 2^53 are doubles, so rounding twice is rounding once; `_refuted` on small signed INTEGERs, other orders, missing components, further members, large integers for a single |
| C78 | C27 and C69 on one input: the clause of the header found by both generators, induction on the path; positional value of bit lists; `_refuted` on a BOOLEAN given as 1 and an APID out of range |
| C79, C80 | kinds of nodes after `put`, by induction on the place; `mkdir` with parents by induction from the last name; names without "" and "." visit the same places; the files of the run (C31) have proper names |
| C81 | the set of errors a check can raise, closed under sequencing and loops; with the acceptance theorems C49 and C50 a check that does not succeed raises one of them |
| C82 | every way to match is characterised (sound and complete); with a look-ahead all ways end at the same place, without one the greedy way is the first; `_refuted` on U+0663 |
| C83 | the rules are a big-step relation with success and failure; each parser function agrees with its rule (combinator lemmas, induction on the length for the recursive rules); determinism by induction; consumed characters by induction on the derivation; `_refuted` on U+0663 |
| C84, C85 | the files of a module depend only on the types it meets, its imported simple types and the users of its simple types (congruence lemmas for every generator function); success carried over by C59; cosmos: the two walks run in step, with the modules renumbered; `_refuted` on a module that uses a type, and on two modules with the same name |
| C86 | both headers are written as C95 says and read as C57 says; what a definition says and the order of the definitions do not depend on the command (C57) nor on further modules (C84, C85) |
| C87 | a finished run on a directory tree is a run on the modules the files spell (C79, C80), whose files are where the command line says; C57, C95, C39, C27, C69 and C89 are carried over to them |
| C88 | members met are numbered over the whole run; the components handed on by an occurrence are given by an equation over the earlier occurrences, of which the lists the generator extends in place are shown to be the only solution, by an invariant on the state of the clauses; success by the same walk, read in both directions |
| C89 | the printing and reading lemmas of C69 for one item, with the values of C88; appended packets do not disturb earlier ones |
| C90 | `Messages` repeats the checks with the texts of their exceptions; forgetting the texts gives back the checks (erasure lemmas, one per function), and every text is traced back to the fault by inversion, with induction on clauses |
| C91 | the text is read by computation; expressions with pointwise equal classes match alike, rules with such expressions have the same derivations; totality as in Ford's well-formed grammars, by induction on the rest of the text, the rank of the rule and the expression |
| C92 | success by the conditions of C73 and C88, which do not mention an order; the collected data of a module is a sum of one piece for each definition, and the piece is the same in both runs; cosmos by a simulation that pairs the positions of equal definitions |
| C93 | every function of the model commutes with dropping the comments of its arguments, down to the data the files are rendered from; the renderings are compared piece by piece |
| C94 | success by the conditions of C73 and C88, which are inherited by fewer definitions; sorting commutes with leaving out definitions nobody kept refers to, so the pieces of C92 stand in the same order; the piece of a definition depends only on definitions it refers to; cosmos by a one-way version of the simulation of C92 |
| C95 | the declarations of C57 with what is printed for each of them, the sizes of C24 for the notes of cfs |
| C96 | renaming commutes with the model of cosmos, stage by stage; for the other commands the conditions for success (C58-C60) and the bytes of C39 do not depend on the names |
| C97 | the leaves of the clause in order give both the bytes (C35-C39) and the items with their values (C41, C42, C69); kind by kind, the text of the value is read as the number the bytes stand for |
| C98 | induction on the rounds over definitions tagged with their positions; the rounds are unique by induction on round and position |
| C99 | a small preprocessor as a relation; induction on the modules that are not open, acyclic imports keep open modules from being included; validity module by module from C33 and C66-C68 |
| C100 | lines of greater depth belong to the line above them, so that the text splits into blocks; labels split at blanks and brackets; integers are read back, floats by the scanner of the grammar |
| C101 | the file of C98 has an include exactly if a clause ends it; with imports the header cannot be read (C99); without, the run on this module alone writes the same header (C84), to which the equivalences of C66 to C68, C75 and C99 apply |
| C102 | erasure lemmas as for C90; each text is traced back by inversion, with induction on types, clauses and the items placed so far of an enumeration; the faults without a text of the tool are found by the same inversions |
| C103 | the classes of words are characterised one by one; the words read before the help word by induction on the length of the line; accepted lines are shown to have no such word |
| C104 | the exact names of the files of each module, from what every definition hands to the writer; then C79, C80 and C103 for the tree, and determinism of reading for doing it again |
| C105 | each pass of the loop is shown to be a walk, by induction on the steps with the list split at the index; cycles are decided by removing names without predecessors; then the course of the run module by module |
| C106 | C98, C35 and C30 say that the files meet their specification; each part of it is shown to have one solution: numerals by the positional range of digit strings, message numbers bit by bit, clauses by induction, types and notes by C57; images because the nearest double and single are unique (two candidates at the same distance would both be even, and neighbours are not), the IEEE fields determine the pattern and each type has one encoding |
| C107 | C88 gives the values and that the history of a run is unique; renumbered enumerations, the first module of a name, columns, states, limits and units have one solution each; that addresses are avoided: all components handed on come from clauses of the modules, by induction on the number of the occurrence |
| C108 | C104 says which places on disk are written and that the rest is as before, C106 and C107 which texts the run makes from an empty folder; a place holds one text only |
| C109 | invariant: after a history the library keeps, for each name, the level of the class when it was made last and the number of times it was made; the names above a name are its beginnings, each once, so the handlers asked sum up to the loggers made; by induction on the history |
| C110 | the loop over the modules stops at the first that fails and keeps the files of those before (C105's order); the lemmas of C106 about one module need only that this module was converted; C72's lemmas on one module say which modules convert |
| C111 | induction over the series with C110 for each run; the last run by C106, its success does not depend on the folder |

## 4. Trusted base

* Coq 8.16.1 kernel and `coqchk`.
* Axioms: none.  `Print Assumptions` stands under every theorem and prints "Closed under the global
  context" each time.  (`coqchk -o` lists `Coq.ssr.ssrunder.Under_rel.*`: the standard library's
  ssreflect files, loaded by `lia` and others, declare them; no theorem depends on them.)
* Faithfulness of the model: by reading; every definition cites file and lines.  `Conformance.v` runs
  the model on inputs of the repository's tests and compares with their expected files.

Modelled: all of `asn1/grammar.py`, `asn1/processor.py`, `asn1/parser.py`, `asn1_bundle*.py`,
`validation/`, `utils/`, `grammar_elements/`, the four generators, `c_data.py`, `c_printer.py`,
`cosmos/templates.py`, `main.py`, `cli/cli_arg_parser.py`, `log/` (as a component of its own, C109; the
runs of the generators do not record their debug and info messages).

Trusted about libraries: the meaning of `logging`'s loggers, levels and handlers, of textX/Arpeggio operators, of the built-in rules INT and
STRICTFLOAT (their regular expressions are written from the published textX 2.3.0 source, which is not
in the sandbox), `cgen`'s layout, argparse's treatment of words (written from CPython 3.6's `Lib/argparse.py`), CPython's `float`, `repr`, `struct.pack`.

Not modelled: argparse's messages, option words of the form `--option=--`, input with decimal
digits of other scripts, the positions and messages of syntax errors, the `__str__` methods other than that of `Asn1Type`, links and permissions in the file system, running out of space, the order in which Python
iterates over sets (arbitrary in messages; elsewhere the code sorts or only tests them), Python's recursion limit and memory.

## 5. Wrong programs

`seeded/LOG.jsonl` lists edits made to a scratch copy of the model as realistic bugs, which theorems
failed, and which were tightened because they still proved. A theorem counts as failed if its proof, or
the proof of a lemma it uses, no longer goes through after the edit; this by itself does not show that its
statement is false of the edited model.
