# Formal model of mutagenyx in Rocq (Coq 8.16.1)

Source: `/repo` (swwilso1/mutagenyx, Rust).  The code was read as text, never built or run.
All Coq sources live in `rocq/theories`; build with
`coq_makefile -f _CoqProject -o Makefile && make -j4` in `rocq/`.

* `properties.jsonl` - the properties, in English.
* `MANIFEST.json` - which theorems prove which property.
* `seeded/LOG.jsonl` - wrong programs the theorems were tested against.

## 1. Architecture

Four kinds of files, never mixed:

1. **Model** - Gallina versions of the Rust functions.  Every definition cites file and lines.
2. **Spec** - small vocabulary for the statements.  Mentions the data types of the model, none of its helpers.
3. **Facts/Claims** - all the proofs.
4. **Prop** - the property theorems only.  Each is closed by `exact some_lemma.`, followed by
   `Print Assumptions` and accompanied by an `Example` that meets its hypotheses.

| Model file | Code modelled |
|---|---|
| `Base.v` | results (`Ok`, `Err`, `Panic`, `Diverge`), byte strings, numerals, machine integers |
| `Json.v` | `serde_json::Value`, `json.rs`, `json_ast.rs`, `json_namer.rs`, `json_ast_id_maker.rs` |
| `Rng.v` | the `rand` calls |
| `Permissions.v` | `permissions.rs`, `permit.rs` |
| `MutationType.v` | `mutation.rs`, `operators.rs`, `vyper/operators.rs` |
| `Traverse.v` | `ast.rs`, `visitor.rs`, `mutation_visitor.rs`, `mutator.rs`, `mutator_result.rs`, `json_ast_permitter.rs` |
| `OpCommon.v`, `SolMutators.v`, `VyMutators.v` | `solidity/mutators.rs`, `vyper/mutators.rs` (all operators) |
| `Comments.v` | `json_comment_inserter.rs`, `json_comment_helpers.rs`, `json_finder_helpers.rs`, `*/commenter.rs`, `*/node_finder.rs` |
| `Language.v` | `json_ast_language_interface.rs`: counting, mutating, node paths |
| `Paths.v` | the parts of `std::path` that are used, for Unix |
| `Generator.v` | `mutation_generator.rs`: `generate_mutations` |
| `Printer.v` | `pretty_printer.rs`, `string.rs`, `node_printer_helpers.rs` |
| `SolPrinter.v`, `VyPrinter.v` | `solidity/pretty_printer.rs`, `vyper/pretty_printer.rs` (all node printers), `pretty_print_visitor.rs` |
| `Prefs.v`, `Config.v` | `preferences.rs`, `config_file.rs`, `language.rs` |
| `Compiler.v` | `compiler_settings.rs`, the compiler calls of `*/language_interface.rs` |
| `Info.v` | `mutations_info.rs`, the description table of `mutation.rs` |
| `Cli.v` | `mutation_generator.rs`: `generate_mutants`; `pretty_printing.rs`; `recognizer.rs`; `generator_parameters.rs` |
| `Main.v` | `main.rs`: `main`; the lines that `mutation_generator.rs` and `pretty_printing.rs` write to the standard output |

### Modelling decisions

* JSON objects are association lists in ascending key order (`serde_json`'s `Map` is a `BTreeMap` because
  `preserve_order` is off).  Strings are byte strings holding UTF-8.
* A Rust panic, an `Err` and a loop without end are results of their own.  Retry loops take fuel.  "Never stops"
  is stated as "`Diverge` for every fuel", "stops" as "some fuel suffices" or without fuel where the loop is bounded.
* Random numbers: an arbitrary infinite stream of naturals and a position.  A call for a number in a range takes the
  next draw and reduces it to the range.  Whatever `Pcg64` does is one stream; theorems quantify over all streams, or
  over all *fair* streams where the statement is about retry loops coming to an end.
* The order in which a `HashMap` yields its entries is an arbitrary permutation.
* SHA-256, the conversion of floats to text and bytes, random floats, and "is this text a float" are fields of an
  arbitrary record `env`.  Only C71 assumes anything of it: that the hash has no collisions.
* Compilers, files and the clock are fields of an arbitrary record `machine` or `world`.
* Floats are never computed with; a JSON float is an uninterpreted token.

## 2. Per property: what is modelled and how it is proved

"Refuted" means that the faithful model violates the statement: there is a `_refuted` theorem with a concrete witness,
and the `_partial` theorem next to it proves the statement outside the violating case.

| | Model | Proof |
|---|---|---|
| C01 | maker visitor | induction over the tree: result differs from the input at one path only |
| C02, C03 | counter and maker visitors | both traversals against the list of accepted positions in document order |
| C04 | permission state of the visitors | invariant of the suspension flag |
| C05 | same | refuted (nested nodes with allowed names); partial without such nesting |
| C06 | counter | count = number of accepted positions, for every order of the operator map |
| C07 | path visitor | path = ancestor chain, defined inductively |
| C08, C09 | comment inserter | frame theorem; Vyper complete; Solidity refuted for a block that is itself a branch |
| C10, C61 | `write_flowable_text` | every line after splitting starts with the marker; refuted when the marker touches the margin |
| C11, C62 | comment-out printers | single-line statements; Solidity refuted by named arguments; Vyper complete |
| C12-C15, C18-C20, C22, C24-C28, C57 | one function per operator | per operator, over all accepted nodes and all streams |
| C16, C17 | panics, retry loops | refuted with witnesses; partial for nodes with the fields the compilers emit |
| C21, C60 | hash map orders | two orders give one result; Solidity SwapFunctionArguments refuted |
| C23 | Integer operators | refuted (replacement may equal the old value); partial says exactly when |
| C29, C30 | JSON layer | invariants of the editing functions |
| C31-C33, C53, C59 | `generate_mutations` | invariant of the selection loop over the event list |
| C34 | same, with the compiler's verdict as oracle | same |
| C35 | retry limit of 50 | measure; for fair streams also that every operator call returns |
| C36 | same | refuted; partial: a missing mutant cost 50 tries |
| C37 | saving and rereading configurations | refuted in five cases; partial outside them, up to the whole event list of the rerun |
| C38, C39 | file names | injectivity of the naming function; refuted for equal base names, printed originals |
| C40-C42 | permissions, names | by history; finite tables lifted to lists |
| C43-C48 | layout engine and all node printers | invariants of the engine; per printer: balanced indentation, reads only the node |
| C49, C65, C78 | Vyper and Solidity printers | programs as an inductive type with their text (`SpecVyText.v`, `SpecSolText.v`); printing a node that stands for a program gives the text.  Dropped code: refuted |
| C50, C63, C64 | literal printers | readers written from the language grammars; exactly which characters survive |
| C51 | preferences | laws over histories; JSON round trip refuted for slash keys and large integers |
| C52, C68-C70 | `generate_mutants`, `pretty_print` | functional characterisation of the parameters of each run |
| C54 | two runs sharing files | refuted; partial for disjoint files |
| C55 | acceptance tests | equivalence with a description written from the documentation |
| C56 | acceptance tests | no panic; refuted for Vyper operators missing from the table |
| C58, C74 | records | type and node number of the record against the changed node |
| C66, C67 | compiler calls | acceptance and argument lists; Solidity refuted (parse-only fallback) |
| C71, C72 | duplicate detection | record determines mutant (given a collision-free hash), refuted for Integer; different records give different trees, refuted for SwapLines |
| C73 | Vyper DeleteStatement | refuted for return types the operator does not know |
| C75, C76 | `algorithms` command on the layout engine | words and characters of the output for every key order and width; the widths for which it ends.  Ending on narrow terminals: refuted |
| C77 | description table | against the acceptance tests; refuted for Vyper's unary minus and shifts |
| C79 | all node printers | induction over the position: each printer calls the printers of its children without looking into them, except under the keys of `sol_inspected` / `vy_inspected` |
| C80 | same, with each operator | the replaced node is printed with one token replaced; lifted by C79 |
| C81 | `BinaryOperation` printer, Solidity operators | precedences of the language (`SpecGroup.v`); a row of operands has one well grouped reading; per operator whether the replacement is as tight as the replaced node.  Refuted for six operators |
| C82, C83 | operators of both languages | catalogue of results per operator (`SpecReach.v`); forwards by choosing the draws, backwards by the facts of each operator.  Every value of a type, every pair of arguments: refuted, with the exact set that comes out |
| C84 | `generate_mutations` | draws for the selection, the node and the operator one after the other |
| C85 | all node printers | every printer is `paced`: it never aborts on regular nodes, and text flows only where the words fit; induction over the tree.  Refuted for long words in remarks, commented-out statements and calls with odd names |
| C86 | all operators, comment insertion, `generate`, all node printers | "regular, and every remark is in R" is kept by each operator at its node and by replacing a node in the tree (what the parents read of their children is unchanged); the run's one new remark is the comment.  With C85, mutants with short words print.  Refuted by a run on a program with a name of 150 characters |
| C87 | `assemble`, `requested_types`, `initial_seed` (Cli.v) | without configurations the list of parameters is the list of files mapped through `plain_params`; the operators are compared with the table of names in SpecInput.v |
| C88 | `recognize`, `is_source`, `is_ast`, `recognize_config`, `load_ast`, `run_one` | SpecInput.v says what a file is (`file_is`) and in which order that counts (`precedence`); each test of the recognizer is shown equivalent to its `file_is`, so the answer is the first that holds.  `..` has no file name: `unwrap` aborts |
| C89 | the Vyper printer | SpecVyRead.v: tokens, indentation and precedence levels of Python as a reader with fuel; `reads` asks for the answer with all sufficient fuel.  VyReadLex/Toks give the tokens of a text, VyReadParse/Stmt/Def read them; with C65 for the printer.  Outside `easy_def`: refuted |
| C90 | the Vyper printer with comments | SpecVyEdit.v: `cprogram_node`, nodes of a program with comment nodes between them.  VyReadNote: the reader skips a line that is blank or a comment, wherever it is inserted between lines (`adds`).  VyNoteExec: printing requests with comments added (`commented`) gives the text of the requests without them, with such lines inserted; VyNoteText: the printers produce such requests |
| C91 | all Vyper operators, comment insertion, `generate`, the Vyper printer | SpecVyEdit.v: `step` says how a part sits in a program, `edited` follows steps down to one changed part, `vy_edit` lists the edits per kind.  VyPlace: replacing a node of a type the operators accept, in a tree that holds nothing but the program, replaces one part; VyEditFacts: each outcome of C82's catalogue is an edit; VyEditClaims: the comment is between statements, hence C90 |
| C92 | the Solidity printer | SpecSolRead.v: tokens, comments, types, precedence levels, declarations, statements, members and source files of Solidity as a reader with fuel.  SolReadLex/Toks/Toks2/Toks3 give the tokens of a text, SolReadParse/Exp read expressions and types, SolReadVar/Stmt/Top the rest; with C78 for the printer.  Not in the reader: inline assembly, escapes other than the printer's in file names, definitions of operators with a body.  Outside `easy_top_level`: refuted |
| C93 | all Solidity operators, comment insertion, `generate` | SpecSolEdit.v: `step`, `edited` and `sol_edit` as for C91, `brace` for the braces that comment insertion adds, `without_comments` to compare programs.  SolPlace: replacing an active node of a lean tree replaces one part; SolStrip: taking comments out commutes with the rest; SolMade/SolEditFacts: each outcome of C82's catalogue is an edit; SolEditClaims: the comment goes into a statement list or into new braces.  A branch block with swapped lines is outside (it is lost: `C93_branch_lost`).  `XTuple` of C78 now also covers tuples without the key isInlineArray, which the operators build |
| C94 | the Solidity printer with comments | SpecSolNote.v: `noted`, a tree with comments added in its statement and member lists.  SolNoteLex: no step of the reader's lexer over a printed text leaves its line, so a line that is blank or a comment can be inserted anywhere between lines (`adds_tokens`).  SolNoteExec: printing requests with comments added (`commented`) gives the text of the requests without them, with such lines inserted; SolNoteText: the printers produce such requests, by induction on `noted` |
| C95 | all Solidity operators, comment insertion, `generate`, the Solidity printer | C93 gives the edited program, C94 the reading; what is left is that the mutant is that program's tree with comments only where C94 allows them.  SolHouse: `housed`, trees whose comments stand in statement and member lists that have another element; SolHouseUnit: every program of C92's kind is `housed`; `made_placed`: an operator keeps it; SolHouseNote: comment insertion keeps it, except in an empty block.  Without parentheses where the grammar needs them: another program (`C95_other_program`).  "UncheckedBlock" and "ContractDefinition" count as active nodes, so `lean` asks that they too stand under the keys of the program |
| C96 | all operators of both languages, comment insertion, `generate`, both printers | By C91 and C95 a mutant is the program with one edit, so the question is when an edit changes nothing.  SpecSolIdle/SpecVyIdle list the `idle` parts; SolIdle/VyIdle: an edit leaves the program as it is exactly when it has one (`idle_exact`), and adding braces cannot undo an edit (`edit_and_braces`, by counting blocks).  Refuted by a run on "a - a"; a number is always idle for the Integer operator, because the new number may be the old one (C23) |
| C97 | all Vyper operators, comment insertion, `generate`, the Vyper printer | C91's reading theorem with its provisos moved from the mutant to the original program.  SpecVyTight: how tightly each place asks its expression to bind (`asks`), and the `loose` parts for each kind of edit; VyTight: an edit of a program without loose parts keeps it printable and spelled (`one_edit_easy`, `one_edit_spelled`), and a loose part always lets some edit break it (`tight_exact`).  Refuted for four operators by runs whose mutants are read as other programs.  For Assignment and DeleteStatement the made-up statement has to be spelled with Vyper's words (negative decimals, C23; emptied bodies are not) |
| C98 | all Solidity operators, comment insertion, `generate`, the Solidity printer | C95's reading theorem with its provisos moved from the mutant to the original program.  SpecSolTight: what each place asks of its expression (`asks`), and the `loose` parts for each kind of edit; SolTightLevel: more levels of indentation do no harm; SolTight: an edit of a program without loose parts keeps it printable, with one more level, and spelled, and so do the braces around a branch; a loose part always lets some edit break it (`tight_exact`).  Refuted for seven operators by runs whose mutants are read as other programs.  For Assignment and Integer the made-up number has to be spelled as Solidity's numbers are (negative numbers are not) |
| C99 | all Solidity operators, comment insertion, `generate`, the Solidity printer and reader | SolWords: the operators and member names of a tree in the order of its parts (`jwords`); comments and identifiers do not matter to it; a tree with one label changed at one place has another list than with one label changed at another place.  SolWordsText: the list is a function of the program (`unit_words`).  SolOnce: a mutation of one of the `word_kinds` changes one label, two written mutants change different places or differently (C32), so their programs differ.  Refuted for FunctionCall by a run on `g(g(a))` that writes one text twice |
| C100 | all Vyper operators, comment insertion, `generate`, the Vyper printer and reader | VyWords: the operators of a tree in the order of its parts (`jwords`), and what changing one of them at one place does to the list; VyWordsText: the list is a function of the program (`program_words`); VyOnce: two written mutants of the `operator_kinds` change different places or differently (C32), so their programs differ.  Refuted for FunctionCall by a run on `g(g(x))` that writes one text twice |
| C101-C104 | the events of `generate` and of the mutate command; SpecDisk: what each event does to the disk | DiskFacts: every event names a file of one of four forms (`generate_known`), whose last names differ; the disk is a fold over the events, so a file stays as it was last written.  C102-C104 refuted by concrete commands, with partial theorems outside these cases.  Simplified: a path leads to a file, links are left out; the files that the compilers write are not events |
| C105 | as C95, C91, C99-C101 | SolDisk, VyDisk: the theorems about mutants and texts joined with C101 |
| C106 | docker calls of the Vyper interface (Compiler.v), against a small account of what a container sees of the host's files (SpecDocker.v: mount, working directory `/code`, bare names are volumes; from the documentation of docker and of the image, trusted) | refuted; the files that are in view characterized exactly by the components of the path |
| C107 | the body of `main` (Main.v: what is written to the standard output, in order, and how the program ends; the texts of errors and the time are parameters) | refuted by a readable program whose outputs cannot be read; the outputs characterized exactly |
| C108 | as C107; lines against the events of the run (SpecMain.v) | induction over the events and the runs |
| C109 | as C107; a panic ends with status 101 | refuted by a file that is not there; success gives 0 |
| C110 | `SpecYul.v` is the assembly language, its text and its nodes, written without the printer. `YulText.v` proves, by induction on the assembly program, that what the printers of `SolPrinter.v` write for its node is that text (`says`, as for C78). Variables without a value, several results, hexadecimal literals and characters to be escaped are excluded by `yeasy` and refuted with witnesses. |
| C111 | `SpecYulRead.v` is a parser for assembly on the tokens of `SpecSolRead.v` (`:=` is two tokens, a name with dots several), and the spelling of names and literals. `YulRead.v`: the text of SpecYul.v gives the tokens, the parser gives the program back, by induction on it; with C110 the printed text is read as the program. Refuted by witnesses whose text is read as another program. |
| C112 | `StructuredDocumentationPrinter`, `write_flowable_text` | SpecDoc.v: `skipped`, one step of the reader of SpecSolRead.v takes the text and nothing else; `doc_comment`, its lines.  DocFacts: the flowed text has the words of the documentation (C46), the characters `*/` can only be inside a word, so none of the lines has them; refuted with `contracts/**/*.sol`, which `///` allows |
| C113 | `print_documentation_helper` and the printers of contracts, functions, modifiers, variables | `documented_emit`: the requests of the documented declaration are those of the comment, a line break, and those of the declaration without it, for every node; then C112 and `lexes_skip`; refuted with the same text |
| C114 | the Solidity printer with documentation and comments | SpecDoc.v: `unit_doc`, a tree with documentation added.  DocWhole: printing requests with documentation after an indentation gives the text of the requests without it, with comments inserted between lines (`exec_docced`, any geometry); no step of the reader leaves its line, so the tokens are the same (`wv_lexes`).  DocTree: the printers produce such requests; then C94 and C92.  Refuted by two printed texts |
| C115 | the doc strings of `FunctionDefPrinter` and `ModulePrinter`, `write_triple_string`, `write_flowable_text` | SpecVyDoc.v: `upto_quotes`, a reader of strings in three quotes; `doc_literal`.  VyDocFacts: a scan that sees only words (`scan_words`) finds a backslash, three quotes in a row or a quote at the end in the flowed text exactly when it finds them in the doc string; the requests with and without the doc string (`with_doc_emit`), executed from states that differ in the row only; for a whole module `documents`, the text with the doc strings put in (VyDocTree: `exec_vdocced`); refuted with `The counter "x"` and `Kept in C:\` |
| C116 | the documentation of `InlineAssemblyPrinter`, `write_flowable_text` | SpecAsmDoc.v: `slash_comment`, lines that each begin with three slashes.  AsmDoc: `noted_emit`, the requests with documentation are those of the comment and those without; at the margin the slashes and the blank stay on one line; the pieces of flowed text (C46) have no line break, so the reader drops each up to its end (`slash_lexes`).  A line ends at a line feed only, in the printer and in the reader |
| C117 | `BlockPrinter`, `InlineAssemblyPrinter` with documentation | SpecAsmDoc.v: `assembly_documented`.  AsmDocTree: the requests with comments after some indentations (`slashed`) give the text of those without, with dropped lines inserted (`exec_slashed`; the indentation never exceeds 36, so the slashes fit); `wv_lexes` of C114, then C110 and C111 |

The operators print nodes into their comments.  The printer is the field `e_pp` of the record `env`.  C16, C17, C35, C56
and C82-C84 assume that it prints *plain* nodes (`SpecPlain.v`: regular, without remarks) and that the node in question
is plain; C85 proves that the modelled printers do print plain nodes.  A Vyper function or module may also have a doc
string (`vy_clear`).

## 3. Trusted base

* Coq's kernel (8.16.1).  No native compilation; `vm_compute` is used in proofs about concrete witnesses and examples.
* `Print Assumptions` after every theorem of the `Prop*.v` files reports `Closed under the global context`: no axiom
  at all, neither own nor from the standard library.
* A check of the compiled library lists the seven parameters of `Coq.ssr.ssrunder.Under_rel`.  They belong to a module type of the
  standard library that is loaded along with its tactics; no theorem here depends on them.
* The reading of the Rust code: each model definition cites file and lines.
* The modelling decisions above.

## 4. Code that is not modelled

* the clap definitions of `main.rs` (its `main` is in Main.v), `error.rs` (error texts), logging.
* Parsing JSON text and printing JSON text (`serde_json` itself): the model starts from and ends with JSON values.
* Starting processes and reading their output: `Compiler.v` builds the argument list and takes the verdict from the
  `machine` record.
* Concrete behaviour of `Pcg64`, SHA-256, and of floating point.  "Can come out" (C82-C84) is about some sequence of
  draws; whether a 64 bit seed leads to that sequence is a matter of `Pcg64`.
* Concurrency other than the interleavings of C54.
