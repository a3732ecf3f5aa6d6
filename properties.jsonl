{"id": "C01", "title": "Mutation is local", "statement": "A successful mutation of an AST returns an AST that is the input AST with the subtree at exactly one position replaced by what the mutation operator produced for that node (before the explanatory comment is added); every other position of the tree is identical to the input.", "quantifier": "every JSON AST, every mutation type of both languages, every index, every permission set, every random stream", "why_tests_cant": "ASTs are unbounded trees and the replaced position depends on the index, the permissions and the random stream; a test only inspects a few trees.", "anchors": ["mutagenyx_lib/src/mutation_visitor.rs: MutationMaker", "mutagenyx_lib/src/ast.rs: ASTTraverser::traverse_mut", "mutagenyx_lib/src/json_ast_language_interface.rs: mutate_ast"]}
{"id": "C02", "title": "Index selects the index-th counted node", "statement": "If the counting pass reports n mutable nodes for a mutation type then, for every index i < n, asking for mutation i applies the operator to exactly the i-th counted node in document order, and different indices below n address different positions; no node outside the counted ones is ever mutated.", "quantifier": "every AST, mutation type, permission set, index and random stream", "why_tests_cant": "Two independently written traversals (counter and maker) must agree node for node on every tree.", "anchors": ["mutagenyx_lib/src/mutation_visitor.rs: MutableNodesCounter, MutationMaker", "mutagenyx_lib/src/json_ast_language_interface.rs: count_mutable_nodes, mutate_ast"]}
{"id": "C03", "title": "Out-of-range index is a no-op", "statement": "Asking for a mutation index that is at least the number of counted nodes returns the AST unchanged, with no error and no comment.", "quantifier": "every AST, mutation type, permission set and every index >= the count", "why_tests_cant": "The index space is unbounded and the count depends on the whole tree.", "anchors": ["mutagenyx_lib/src/mutation_visitor.rs: MutationMaker::visit_mut", "mutagenyx_lib/src/json_ast_language_interface.rs: mutate_ast"]}
{"id": "C04", "title": "Function restriction: nothing outside is mutated", "statement": "When the user restricts mutation to a list of function names, every mutated node lies in the subtree of (or is) an AST object whose name is in that list.", "quantifier": "every AST, list of names, mutation type, index and random stream", "why_tests_cant": "A single counter-example hides in arbitrary nesting of named and unnamed nodes; tests fix a handful of shapes.", "anchors": ["mutagenyx_lib/src/mutation_visitor.rs: has_permission_to_mutate, MutableNodesCounter", "mutagenyx/src/mutation_generator.rs: convert_function_names_to_permissions", "mutagenyx_lib/src/permissions.rs: Permissions"]}
{"id": "C05", "title": "Function restriction: everything inside is mutable", "statement": "When the user restricts mutation to function names, every operator-mutable node inside those functions is counted and can be chosen.", "quantifier": "every AST, list of names and mutation type", "why_tests_cant": "Failure needs a name that re-occurs inside its own function (recursion); coverage of all nestings is unbounded.", "anchors": ["mutagenyx_lib/src/mutation_visitor.rs: MutableNodesCounter::on_start_visit_children/on_end_visit_children"]}
{"id": "C06", "title": "No restriction: every mutable node is counted", "statement": "With no function restriction the number reported for a mutation type is the number of nodes of the AST that the operator accepts, and a type is missing from the report exactly when that number is zero.", "quantifier": "every AST and every set of mutation types, in every hash-map iteration order", "why_tests_cant": "Needs an induction over arbitrary trees and independence from hash-map order.", "anchors": ["mutagenyx_lib/src/mutation_visitor.rs: MutableNodesCounter", "mutagenyx_lib/src/json_ast_language_interface.rs: count_mutable_nodes"]}
{"id": "C07", "title": "Node paths are genuine ancestor chains", "statement": "For every node id recorded by the path pass, the recorded path is the list of ids of the identified ancestors of some node with that id, root first, ending with the id itself; with unique ids every identified node is recorded with its own path.", "quantifier": "every AST and permission set that allows visiting", "why_tests_cant": "The path stack is maintained by enter/leave callbacks over unbounded trees.", "anchors": ["mutagenyx_lib/src/mutation_visitor.rs: PathVisitor", "mutagenyx_lib/src/json_ast_language_interface.rs: calculate_node_paths"]}
{"id": "C08", "title": "Comment insertion adds one comment and nothing else", "statement": "Inserting the explanatory comment adds exactly one comment: immediately before the element containing the mutated node in the statement list of the innermost ancestor that has one (in Solidity also at the top of a mutated block body, or in a new block around a single-statement body), and leaves every other part of the mutant as it was; or it changes nothing at all when no ancestor offers such a place.", "quantifier": "every AST, path and comment node, for Solidity and Vyper", "why_tests_cant": "Depends on which ancestor is a statement list in an arbitrary tree.", "anchors": ["mutagenyx_lib/src/json_comment_inserter.rs: insert_comment_by_path", "mutagenyx_lib/src/solidity/commenter.rs", "mutagenyx_lib/src/vyper/commenter.rs", "mutagenyx_lib/src/json_comment_helpers.rs"]}
{"id": "C09", "title": "Comment insertion never loses code", "statement": "Adding the explanatory comment never removes a statement or branch of the mutant.", "quantifier": "every AST, path and comment node", "why_tests_cant": "The failing shape (mutated block directly under an if/else branch or a catch clause) is one among unboundedly many.", "anchors": ["mutagenyx_lib/src/solidity/commenter.rs: insert_comment_into_node_with_key"]}
{"id": "C10", "title": "Text comments never become code", "statement": "When a comment carrying text is printed, every line of the output it produces begins (after indentation) with the language's comment marker, whatever the text contains, including newlines.", "quantifier": "every comment text, page width, tab width, indentation level and column at which printing does not crash", "why_tests_cant": "Text is arbitrary and is re-flowed at data dependent break points.", "anchors": ["mutagenyx_lib/src/pretty_printer.rs: write_flowable_text", "mutagenyx_lib/src/vyper/pretty_printer.rs: CommentPrinter", "mutagenyx_lib/src/solidity/pretty_printer.rs: CommentPrinter"]}
{"id": "C11", "title": "A deleted statement is entirely commented out", "statement": "When the delete-statement operator turns a Solidity statement into a comment, every line printed for it starts with the comment marker.", "quantifier": "every deleted statement node and printer state", "why_tests_cant": "Only statements whose printed form spans several lines fail.", "anchors": ["mutagenyx_lib/src/solidity/pretty_printer.rs: CommentPrinter", "mutagenyx_lib/src/solidity/mutators.rs: DeleteStatementMutator"]}
{"id": "C12", "title": "Solidity binary operator replacement", "statement": "A Solidity arithmetic/logical/bitwise/bitshift/comparison operator mutation changes only the operator of the node, to a different operator of the same class.", "quantifier": "every AST node accepted by the operator and every random stream for which the retry loop ends", "why_tests_cant": "Random choice with retry: unbounded number of draws.", "anchors": ["mutagenyx_lib/src/solidity/mutators.rs: BinaryOpMutator", "mutagenyx_lib/src/operators.rs"]}
{"id": "C13", "title": "Solidity unary operator replacement", "statement": "A Solidity unary operator mutation changes only the operator, to a different operator that is legal in the same (prefix or postfix) position.", "quantifier": "every accepted node and random stream for which the loop ends", "why_tests_cant": "Random choice with retry.", "anchors": ["mutagenyx_lib/src/solidity/mutators.rs: UnaryOpMutator"]}
{"id": "C14", "title": "Vyper operator replacement", "statement": "A Vyper arithmetic/logical/bitwise/comparison operator mutation changes only the operator child of the node, to a different operator of the same class.", "quantifier": "every accepted node and random stream for which the loop ends", "why_tests_cant": "Random choice with retry and a two-way name/operator table.", "anchors": ["mutagenyx_lib/src/vyper/mutators.rs: BinaryOpMutator", "mutagenyx_lib/src/vyper/operators.rs"]}
{"id": "C15", "title": "Assignment replacement stays in range", "statement": "The Solidity assignment operator only replaces the assigned value, and for integer types the literal it writes is a value of the declared type.", "quantifier": "every accepted node, declared type string and random stream", "why_tests_cant": "The range depends on the parsed bit width of the type.", "anchors": ["mutagenyx_lib/src/solidity/mutators.rs: AssignmentMutator"]}
{"id": "C16", "title": "Operators never crash on nodes they accept", "statement": "If an operator declares a node mutable then mutating it neither panics nor reports an error.", "quantifier": "every operator of both languages, every AST node, every random stream", "why_tests_cant": "Panics hide in unwraps on data dependent parses, overflow and slicing.", "anchors": ["mutagenyx_lib/src/solidity/mutators.rs", "mutagenyx_lib/src/vyper/mutators.rs", "mutagenyx_lib/src/mutator.rs: Mutator"]}
{"id": "C17", "title": "Operators always finish on nodes they accept", "statement": "If an operator declares a node mutable then, for every random stream that is not constant for ever, its retry loop ends.", "quantifier": "every operator, every AST node, every random stream", "why_tests_cant": "Non-termination cannot be observed by a test and depends on the node's content.", "anchors": ["mutagenyx_lib/src/solidity/mutators.rs", "mutagenyx_lib/src/vyper/mutators.rs"]}
{"id": "C18", "title": "Delete statement removes exactly one statement", "statement": "The delete-statement operators replace exactly one statement of the block (in Solidity an expression statement) by a comment that holds it and keep all other statements in order; only a Vyper body whose single statement was removed receives one filler statement (pass or return).", "quantifier": "every block node and random stream", "why_tests_cant": "Arrays of arbitrary length, random index.", "anchors": ["mutagenyx_lib/src/solidity/mutators.rs: DeleteStatementMutator", "mutagenyx_lib/src/vyper/mutators.rs: DeleteStatementMutator"]}
{"id": "C19", "title": "Function call replaced by one of its arguments", "statement": "The function-call operator replaces a call node by exactly one of the call's own arguments.", "quantifier": "every accepted call node and random stream", "why_tests_cant": "Arbitrary argument lists and draws.", "anchors": ["mutagenyx_lib/src/solidity/mutators.rs: FunctionCallMutator", "mutagenyx_lib/src/vyper/mutators.rs: FunctionCallMutator"]}
{"id": "C20", "title": "Swap function arguments is a same-type transposition", "statement": "The swap-function-arguments operator exchanges exactly two arguments of the call; in Solidity the two have the same type; everything else in the call is unchanged and no argument is lost or duplicated.", "quantifier": "every accepted call node, random stream and hash-map iteration order", "why_tests_cant": "Arbitrary argument lists, random and hash-order dependent choice.", "anchors": ["mutagenyx_lib/src/solidity/mutators.rs: SwapFunctionArgumentsMutator", "mutagenyx_lib/src/vyper/mutators.rs: SwapFunctionArgumentsMutator"]}
{"id": "C21", "title": "Same seed, same mutant", "statement": "Running twice with the same seed, input and options produces the same mutants, whatever order the hash maps iterate in.", "quantifier": "every AST, seed, mutation type and every pair of hash-map iteration orders", "why_tests_cant": "Iteration order of the standard hash map is randomised per process; a test run sees one order.", "anchors": ["mutagenyx_lib/src/solidity/mutators.rs: SwapFunctionArgumentsMutator", "mutagenyx_lib/src/mutation_visitor.rs: MutableNodesCounter", "mutagenyx/src/mutation_generator.rs: generate_mutations"]}
{"id": "C22", "title": "If-statement mutation only touches the condition", "statement": "The if-statement operator replaces only the condition, by a constant true, a constant false or the negation of the original condition.", "quantifier": "every if node and random stream", "why_tests_cant": "Arbitrary nodes and draws.", "anchors": ["mutagenyx_lib/src/solidity/mutators.rs: IfStatementMutator", "mutagenyx_lib/src/vyper/mutators.rs: IfStatementMutator"]}
{"id": "C23", "title": "Integer mutation writes a different integer", "statement": "The integer operator replaces only the literal's value and the new value differs from the old one.", "quantifier": "every integer literal node and random stream", "why_tests_cant": "Depends on the numeric value and random choice.", "anchors": ["mutagenyx_lib/src/solidity/mutators.rs: IntegerMutator", "mutagenyx_lib/src/vyper/mutators.rs: IntegerMutator"]}
{"id": "C24", "title": "Swap operator arguments exchanges the operands", "statement": "The swap-operator-arguments operator exchanges the two operands of a non-commutative binary operation and nothing else; applying it twice restores the node.", "quantifier": "every accepted node of both languages with the two operand fields the compilers emit", "why_tests_cant": "Must hold for arbitrary operand subtrees.", "anchors": ["mutagenyx_lib/src/solidity/mutators.rs: SwapOperatorArgumentsMutator", "mutagenyx_lib/src/vyper/mutators.rs: SwapOperatorArgumentsMutator"]}
{"id": "C25", "title": "Swap lines is a transposition of non-return statements", "statement": "The lines-swap operator exchanges two distinct non-return statements of a block; no statement is lost, duplicated or altered and return statements keep their position.", "quantifier": "every block node and random stream for which the loop ends", "why_tests_cant": "Arbitrary statement lists and random draws with retry.", "anchors": ["mutagenyx_lib/src/solidity/mutators.rs: LinesSwapMutator", "mutagenyx_lib/src/vyper/mutators.rs: LinesSwapMutator"]}
{"id": "C26", "title": "Require mutation only touches the condition", "statement": "The require operator replaces only the condition argument of a require call, by its negation.", "quantifier": "every accepted node and random stream", "why_tests_cant": "Arbitrary nodes and draws.", "anchors": ["mutagenyx_lib/src/solidity/mutators.rs: RequireMutator"]}
{"id": "C27", "title": "Unchecked-block mutation wraps one statement", "statement": "The unchecked-block operator wraps exactly one statement of the block in an unchecked block and keeps all other statements in place.", "quantifier": "every accepted block and random stream for which the loop ends", "why_tests_cant": "Arbitrary statement lists, random draws with retry.", "anchors": ["mutagenyx_lib/src/solidity/mutators.rs: UncheckedBlockMutator"]}
{"id": "C28", "title": "Delegate-call mutation only renames the member", "statement": "The eliminate-delegate-call operator changes the called member from delegatecall to call and nothing else.", "quantifier": "every accepted node", "why_tests_cant": "Arbitrary nodes.", "anchors": ["mutagenyx_lib/src/solidity/mutators.rs: ElimDelegateCallMutator"]}
{"id": "C29", "title": "Mutant well-formedness", "statement": "Mutating a JSON AST (including comment insertion) yields a JSON value whose objects have each key at most once, in the canonical order in which every traversal visits them.", "quantifier": "every well-formed AST, mutation type, index and stream", "why_tests_cant": "Must hold after arbitrary sequences of in-place edits.", "anchors": ["mutagenyx_lib/src/json.rs: JSONMutate", "mutagenyx_lib/src/solidity/mutators.rs", "mutagenyx_lib/src/vyper/mutators.rs", "mutagenyx_lib/src/json_comment_inserter.rs"]}
{"id": "C30", "title": "JSON editing laws", "statement": "Reading a key just written returns the written node, every other key is untouched, taking a key leaves null behind, and writing to a missing key of a non-object changes nothing (for keys without '/' and '~').", "quantifier": "every JSON value, key and node", "why_tests_cant": "Algebraic laws over all values and keys.", "anchors": ["mutagenyx_lib/src/json.rs: JSONMutate for Value"]}
{"id": "C31", "title": "Mutant count never exceeds the request", "statement": "For one input file the number of mutants written is at most the requested number and at most the number of available (type, node) pairs, and no mutation type contributes more mutants than it has counted nodes.", "quantifier": "every count table, requested number, random stream and outcome of every mutation and compilation", "why_tests_cant": "Selection loop with random draws and removals; unbounded.", "anchors": ["mutagenyx/src/mutation_generator.rs: generate_mutations"]}
{"id": "C32", "title": "No duplicate mutants", "statement": "Within one run over one input file no two written mutants have the same mutation result record (type, index, node and random behaviour).", "quantifier": "every input and random stream", "why_tests_cant": "Depends on the history of all earlier attempts.", "anchors": ["mutagenyx/src/mutation_generator.rs: generate_mutations", "mutagenyx_lib/src/mutator_result.rs: MutatorResult"]}
{"id": "C33", "title": "Mutant files are distinct and consecutively numbered", "statement": "The mutants written for one input file are named base_0, base_1, ... without gaps or repetition, all in the output directory.", "quantifier": "every input and every history of failed or repeated attempts", "why_tests_cant": "Depends on which attempts fail.", "anchors": ["mutagenyx/src/mutation_generator.rs: generate_mutations"]}
{"id": "C34", "title": "Validated mutants compile", "statement": "With validation switched on, every mutant file written was accepted by the compiler.", "quantifier": "every compiler behaviour, input and random stream", "why_tests_cant": "Quantifies over all compiler behaviours and retry histories.", "anchors": ["mutagenyx/src/mutation_generator.rs: generate_mutations", "mutagenyx_lib/src/json_ast_language_interface.rs: mutant_compiles"]}
{"id": "C35", "title": "Generation always stops", "statement": "Generating mutants for one file performs at most 50 mutation attempts per selected mutant, and on every fair random stream it stops, provided each single mutation does. (Without fairness it need not stop: the selection loop draws until it hits a type that still has nodes.)", "quantifier": "every input, compiler behaviour and random stream (fair stream for termination)", "why_tests_cant": "Termination over all histories.", "anchors": ["mutagenyx/src/mutation_generator.rs: generate_mutations, ATTEMPTS"]}
{"id": "C36", "title": "As many mutants as requested when possible", "statement": "If at least the requested number of distinct mutants exist, the tool produces the requested number.", "quantifier": "every input and random stream", "why_tests_cant": "Requires an adversarial random stream.", "anchors": ["mutagenyx/src/mutation_generator.rs: generate_mutations", "README.md"]}
{"id": "C37", "title": "Saved configuration reproduces the run", "statement": "Loading the configuration file saved by a run yields the same seed, mutation types, number of mutants, output directory, validation and printing options and compiler preferences as the run used.", "quantifier": "every parameter set", "why_tests_cant": "Encode/decode round trip over all parameter values.", "anchors": ["mutagenyx_lib/src/config_file.rs", "mutagenyx/src/mutation_generator.rs: generate_mutants", "mutagenyx_lib/src/preferences.rs"]}
{"id": "C38", "title": "Different inputs never overwrite each other's mutants", "statement": "Mutants generated from different input files in one run are written to different files.", "quantifier": "every list of input paths", "why_tests_cant": "Depends on arbitrary path pairs.", "anchors": ["mutagenyx/src/mutation_generator.rs: generate_mutations"]}
{"id": "C39", "title": "The input file is never overwritten", "statement": "Mutant generation never writes to the input file.", "quantifier": "every input path and output directory", "why_tests_cant": "Depends on arbitrary path combinations.", "anchors": ["mutagenyx/src/mutation_generator.rs: generate_mutations"]}
{"id": "C40", "title": "Permission queries", "statement": "A permission query succeeds exactly when some stored permission grants it; adding a permission never revokes one, removing an added permission restores the earlier answers.", "quantifier": "every sequence of add/remove and every query", "why_tests_cant": "Histories of arbitrary length.", "anchors": ["mutagenyx_lib/src/permissions.rs: Permissions, Permission::matches"]}
{"id": "C41", "title": "A deny permission blocks", "statement": "After storing a deny permission for a name, a request for permission to mutate that name is refused.", "quantifier": "every permission set", "why_tests_cant": "Interaction of arbitrary permissions.", "anchors": ["mutagenyx_lib/src/permissions.rs: Permissions"]}
{"id": "C42", "title": "Mutation names are unambiguous", "statement": "Every mutation type's printed name parses back to that type, different types print differently, and a command line list of names selects exactly the types named.", "quantifier": "every mutation type and every list of strings", "why_tests_cant": "Lists and strings are unbounded.", "anchors": ["mutagenyx_lib/src/mutation.rs: MutationType", "mutagenyx/src/mutation_generator.rs: get_mutation_types_from_strings"]}
{"id": "C43", "title": "Line wrapping never alters tokens", "statement": "For any sequence of print requests without re-flowed text the output, after deleting blanks and newlines, is the concatenation of the tokens (with blanks deleted): wrapping only adds white space between tokens, never inside one, and the same for every page and tab width.", "quantifier": "every token sequence, page width, tab width, starting row, column and indentation", "why_tests_cant": "Unbounded sequences with state dependent wrapping decisions.", "anchors": ["mutagenyx_lib/src/pretty_printer.rs: PrettyPrinter"]}
{"id": "C44", "title": "Printed lines respect the page width", "statement": "Writing a token that fits on an empty indented line never makes a line exceed the page width.", "quantifier": "every token sequence and geometry", "why_tests_cant": "State dependent.", "anchors": ["mutagenyx_lib/src/pretty_printer.rs: write_token, write_space"]}
{"id": "C45", "title": "Indentation is restored", "statement": "Printing any node leaves the indentation level as it found it, as long as the nesting never reaches the maximum indentation.", "quantifier": "every AST, both languages, every printer state", "why_tests_cant": "Structural induction over all ASTs.", "anchors": ["mutagenyx_lib/src/solidity/pretty_printer.rs", "mutagenyx_lib/src/vyper/pretty_printer.rs", "mutagenyx_lib/src/pretty_printer.rs: increase_indent, decrease_indent"]}
{"id": "C46", "title": "Re-flowed text keeps its words", "statement": "Printing re-flowable text writes exactly the words of the text, in order, with line breaks only at blanks, each continuation line beginning with the given prefix.", "quantifier": "every text, prefix and geometry for which printing does not crash", "why_tests_cant": "Arbitrary text and break points.", "anchors": ["mutagenyx_lib/src/pretty_printer.rs: write_flowable_text", "mutagenyx_lib/src/string.rs: remove_all"]}
{"id": "C47", "title": "Re-flowing always stops", "statement": "Printing re-flowable text stops for every text.", "quantifier": "every text and geometry", "why_tests_cant": "Non-termination on words longer than a line.", "anchors": ["mutagenyx_lib/src/pretty_printer.rs: write_flowable_text"]}
{"id": "C48", "title": "Printing depends only on the program", "statement": "Source locations and node ids never influence the printed program: changing the id or src of any node leaves the output unchanged.", "quantifier": "every AST of both languages", "why_tests_cant": "Non-interference over all trees.", "anchors": ["mutagenyx_lib/src/solidity/pretty_printer.rs", "mutagenyx_lib/src/vyper/pretty_printer.rs"]}
{"id": "C49", "title": "Printing never drops code", "statement": "Every operand, operator, modifier and argument present in the AST appears in the printed program in a syntactically legal position.", "quantifier": "every AST of both languages", "why_tests_cant": "Unbounded set of AST shapes.", "anchors": ["mutagenyx_lib/src/solidity/pretty_printer.rs", "mutagenyx_lib/src/vyper/pretty_printer.rs"]}
{"id": "C50", "title": "String literals survive printing", "statement": "Printing a string literal and reading it back as a literal of the language gives the same string.", "quantifier": "every string", "why_tests_cant": "All strings, including quotes, backslashes and control characters.", "anchors": ["mutagenyx_lib/src/solidity/pretty_printer.rs: unencode_string, LiteralPrinter", "mutagenyx_lib/src/vyper/pretty_printer.rs: StrPrinter"]}
{"id": "C51", "title": "Preference store laws", "statement": "Looking up a preference after setting it returns the value set; other keys are unaffected; converting preferences to JSON and back gives the same preferences.", "quantifier": "every sequence of updates, keys and values", "why_tests_cant": "Histories and keys are unbounded.", "anchors": ["mutagenyx_lib/src/preferences.rs: Preferences"]}
{"id": "C52", "title": "Pretty-print command prints every file", "statement": "The pretty-print command prints each of the given files.", "quantifier": "every list of files", "why_tests_cant": "Depends on list length and per-file outcome.", "anchors": ["mutagenyx/src/pretty_printing.rs: pretty_print_files"]}
{"id": "C53", "title": "Unsupported mutations are skipped safely", "statement": "Requesting a mutation type the language does not support never crashes the run and never yields a mutant of that type.", "quantifier": "every list of mutation types, language and AST", "why_tests_cant": "All type lists.", "anchors": ["mutagenyx_lib/src/json_ast_language_interface.rs: select_mutators_for_mutation_types, mutate_ast", "mutagenyx_lib/src/vyper/mutators.rs: VyperMutatorFactory", "mutagenyx/src/mutation_generator.rs"]}
{"id": "C54", "title": "Concurrent runs validate their own mutants", "statement": "When two runs validate mutants at the same time, each run's verdict concerns its own mutant.", "quantifier": "every interleaving of the file system steps of two runs", "why_tests_cant": "Schedules.", "anchors": ["mutagenyx_lib/src/json_ast_language_interface.rs: mutant_compiles"]}
{"id": "C55", "title": "Operators accept exactly the intended nodes", "statement": "Each mutation operator declares a node mutable exactly when the node has the shape the operator is documented for (node type, operator class, number and kind of arguments or statements).", "quantifier": "every operator of both languages and every JSON node", "why_tests_cant": "Node shapes are unbounded; tests only sample a few ASTs.", "anchors": ["mutagenyx_lib/src/solidity/mutators.rs", "mutagenyx_lib/src/vyper/mutators.rs"]}
{"id": "C56", "title": "Deciding mutability never crashes", "statement": "Asking an operator whether it applies to a node never panics.", "quantifier": "every operator of both languages and every JSON node", "why_tests_cant": "The counter asks every operator about every node of every input; only some nodes trigger the panicking map lookup.", "anchors": ["mutagenyx_lib/src/vyper/mutators.rs:1463-1480", "mutagenyx_lib/src/solidity/mutators.rs:560-590"]}
{"id": "C57", "title": "Vyper unary operator removal", "statement": "The Vyper unary operator mutation replaces the node by its operand, unchanged.", "quantifier": "every accepted node", "why_tests_cant": "Operands are arbitrary subtrees.", "anchors": ["mutagenyx_lib/src/vyper/mutators.rs:1735-1810"]}
{"id": "C58", "title": "Mutations are labelled truthfully", "statement": "Every successful mutation is recorded under the mutation type that was asked for and comes with exactly one text comment node of the language.", "quantifier": "every operator of both languages, every accepted node and random stream", "why_tests_cant": "Requires inspecting every exit path of every operator.", "anchors": ["mutagenyx_lib/src/solidity/mutators.rs", "mutagenyx_lib/src/vyper/mutators.rs"]}
{"id": "C59", "title": "Every mutant is a single mutation of the input", "statement": "Every mutant a run writes is the input tree with exactly one accepted node replaced by the result of one requested operator on that node, plus at most the operator's comment; with a list of functions given, the node lies inside one of them.", "quantifier": "every input, type list, function list, random stream and compiler behaviour", "why_tests_cant": "Depends on the history of retries and on the tree being restored between attempts.", "anchors": ["mutagenyx/src/mutation_generator.rs: generate_mutations", "mutagenyx_lib/src/json_ast_language_interface.rs: mutate_ast", "mutagenyx_lib/src/mutation.rs: make_mutations"]}
{"id": "C60", "title": "Runs do not depend on hash map order", "statement": "For the same seed a run performs exactly the same steps and writes the same files whatever order the hash map of operators is iterated in.", "quantifier": "every input, seed and every order of the hash map", "why_tests_cant": "The iteration order is randomised per process; a test sees only a few orders.", "anchors": ["mutagenyx/src/mutation_generator.rs: generate_mutations", "mutagenyx_lib/src/mutation.rs: count_mutations, make_mutations", "mutagenyx_lib/src/json_ast_language_interface.rs: count_mutable_nodes"]}
{"id": "C61", "title": "The crate's own text comments never become code", "statement": "With the geometry the crate uses (tab 4, page 150), printing a comment with text at the start of an (indented) line gives only lines that begin, after indentation, with the comment marker.", "quantifier": "every comment text, both languages, every indentation level up to the maximum", "why_tests_cant": "Text is arbitrary and is re-flowed at data dependent break points.", "anchors": ["mutagenyx_lib/src/pretty_printer.rs: write_flowable_text", "mutagenyx_lib/src/solidity/pretty_printer.rs: CommentPrinter", "mutagenyx_lib/src/vyper/pretty_printer.rs: CommentPrinter"]}
{"id": "C62", "title": "A deleted Vyper statement is entirely commented out", "statement": "When the delete-statement operator turns a Vyper statement into a comment, every line printed for it begins (after indentation) with the comment marker, and the words of the comment are the words of the printed statement.", "quantifier": "every deleted statement, every printer state with room for the marker and a blank on the line", "why_tests_cant": "Statements of any shape, printed and re-flowed at data dependent break points.", "anchors": ["mutagenyx_lib/src/vyper/pretty_printer.rs: CommentPrinter", "mutagenyx_lib/src/vyper/mutators.rs: new_comment_node_from_node"]}
{"id": "C63", "title": "Vyper byte literals survive printing", "statement": "Printing a Vyper Bytes node whose value is 0x followed by the hexadecimal digits of some bytes gives a byte literal that Python reads as exactly these bytes.", "quantifier": "every byte string, every printer setting", "why_tests_cant": "All byte strings of all lengths.", "anchors": ["mutagenyx_lib/src/vyper/pretty_printer.rs: BytesPrinter"]}
{"id": "C64", "title": "Vyper integer literals survive printing", "statement": "Printing a Vyper Int node gives the decimal text of its value.", "quantifier": "every integer a JSON number can hold", "why_tests_cant": "Only integers from 2^63 on fail.", "anchors": ["mutagenyx_lib/src/vyper/pretty_printer.rs: IntPrinter"]}
{"id": "C65", "title": "A Vyper program is printed as its text", "statement": "Printing the AST of a Vyper program gives exactly the text of the program: definitions, decorators, arguments with defaults, statements indented by four blanks per level, expressions with every binary operation inside another expression in parentheses.", "quantifier": "every program of the syntax in SpecVyText.v that satisfies easy_def (no sign, shift, floor division, conjunction of three, tuple inside an expression, keyword argument without a positional one; at most 36 levels of indentation) and whose lines are shorter than 150", "why_tests_cant": "Programs of any size and nesting.", "anchors": ["mutagenyx_lib/src/vyper/pretty_printer.rs", "mutagenyx_lib/src/pretty_printer.rs"]}
{"id": "C66", "title": "Only mutants that compile are kept", "statement": "With validation switched on, every mutant kept was accepted by the compiler of its language (the whole program, not only its syntax).", "quantifier": "every compiler behaviour, input and random stream", "why_tests_cant": "Quantifies over all compiler behaviours; the fallback shows only for programs the compiler rejects after parsing.", "anchors": ["mutagenyx_lib/src/solidity/language_interface.rs: file_compiles", "mutagenyx_lib/src/vyper/language_interface.rs: file_compiles", "mutagenyx/src/mutation_generator.rs: generate_mutations"]}
{"id": "C67", "title": "The compiler is given the user's options", "statement": "The command line built for solc, read as solc reads it, carries exactly the base path, include paths, allowed paths, remappings and stop-after value the user gave; the compiler path and Vyper's root path are passed on too.", "quantifier": "every combination of settings", "why_tests_cant": "Lists of paths of any length.", "anchors": ["mutagenyx/src/compiler_settings.rs", "mutagenyx_lib/src/solidity/language_interface.rs: get_solidity_compiler_flags_from_preferences", "mutagenyx_lib/src/vyper/language_interface.rs: get_vyper_compiler_flags_from_preferences"]}
{"id": "C68", "title": "A configuration file overrides the command line", "statement": "Every setting present in a configuration file (files, number of mutants, seed, mutations, functions, validation, printing the original, output directory, compiler details) is the one the run uses, whatever the command line says.", "quantifier": "every configuration file, command line and computer", "why_tests_cant": "All combinations of settings on both sides.", "anchors": ["mutagenyx/src/mutation_generator.rs: generate_mutants", "mutagenyx_lib/src/config_file.rs: new_from_file"]}
{"id": "C69", "title": "Settings a configuration file leaves out come from the command line", "statement": "For every setting absent from a configuration file the run uses the value of the command line.", "quantifier": "every configuration file and command line", "why_tests_cant": "All combinations of settings on both sides.", "anchors": ["mutagenyx/src/mutation_generator.rs: generate_mutants", "mutagenyx_lib/src/config_file.rs: new_from_file"]}
{"id": "C70", "title": "Input files do not affect each other's settings", "statement": "The parameters assembled for a file are the same whether it is given alone or together with other files.", "quantifier": "every list of files and every command line", "why_tests_cant": "Depends on the order and kind of the files.", "anchors": ["mutagenyx/src/mutation_generator.rs: generate_mutants"]}
{"id": "C71", "title": "A mutant is dismissed as seen only when it repeats an earlier one", "statement": "When the generator dismisses a mutation because its record (type, node, hash) was seen before, the dismissed program equals one that was already written.", "quantifier": "every input program, run parameters and random stream, for a hash without collisions", "why_tests_cant": "A wrongly dismissed mutant leaves no trace: the run only produces fewer or other mutants.", "anchors": ["mutagenyx/src/mutation_generator.rs: generate_mutations", "mutagenyx_lib/src/mutator_result.rs"]}
{"id": "C72", "title": "No mutant is written twice", "statement": "The mutants a run writes are pairwise different programs.", "quantifier": "every input program, run parameters and random stream", "why_tests_cant": "Depends on which pairs of random choices lead to the same tree.", "anchors": ["mutagenyx/src/mutation_generator.rs: generate_mutations", "mutagenyx_lib/src/solidity/mutators.rs: SwapLines"]}
{"id": "C73", "title": "Deleting the only statement of a Vyper body leaves a statement", "statement": "When the delete-statement operator removes the only statement of a Vyper body it puts a return of the declared type, or pass, in its place.", "quantifier": "every Vyper node with a body and every random stream", "why_tests_cant": "All return types and body kinds.", "anchors": ["mutagenyx_lib/src/vyper/mutators.rs: DeleteStatement"]}
{"id": "C74", "title": "The record names the mutated node", "statement": "The node number kept in the record of a mutation is the number of the node the mutation is about: the removed, wrapped, replaced or changed node.", "quantifier": "every operator of both languages, every node it accepts and every random stream", "why_tests_cant": "The number is only visible through where the comment is inserted and which mutants are dismissed.", "anchors": ["mutagenyx_lib/src/mutator_result.rs", "mutagenyx_lib/src/solidity/mutators.rs", "mutagenyx_lib/src/vyper/mutators.rs"]}
{"id": "C75", "title": "The algorithms command shows every algorithm", "statement": "`mutagenyx algorithms --list` shows the name and the summary of every mutation algorithm, and `--describe` its whole description, in alphabetical order and with no word added or lost, whatever order the hash map yields its keys in.", "quantifier": "every order of the hash map and every terminal width for which the command comes to an end", "why_tests_cant": "The order of a hash map changes from run to run and every terminal width breaks the text differently.", "anchors": ["mutagenyx/src/mutations_info.rs: display_mutation_algorithm_list, display_mutation_algorithm_descriptions", "mutagenyx_lib/src/mutation.rs: mutation descriptions"]}
{"id": "C76", "title": "The algorithms command comes to an end", "statement": "`mutagenyx algorithms` with --list or --describe comes to an end without a panic on every terminal.", "quantifier": "every terminal width and every order of the hash map", "why_tests_cant": "Needs all widths; tests run at one.", "anchors": ["mutagenyx/src/mutations_info.rs", "mutagenyx_lib/src/pretty_printer.rs: write_flowable_text"]}
{"id": "C77", "title": "The operators shown for an algorithm are those it replaces", "statement": "An operation is one that an algorithm mutates exactly when its operator is among the operators that the algorithms command shows for the algorithm.", "quantifier": "every operator algorithm with a list of operators, every operation of either language", "why_tests_cant": "Documentation and acceptance tests are separate tables; all operators of all algorithms are compared.", "anchors": ["mutagenyx_lib/src/mutation.rs: mutation descriptions", "mutagenyx_lib/src/solidity/mutators.rs", "mutagenyx_lib/src/vyper/mutators.rs"]}
{"id": "C78", "title": "A Solidity program is printed as its text", "statement": "Printing the AST of a Solidity program gives exactly the text of the program: licence, pragmas, imports, contracts with their members, statements indented by four blanks per level, and expressions with parentheses exactly where the tree has them.", "quantifier": "every program of the syntax in SpecSolText.v that satisfies easy_top_level (among others: no inline array, slice, hexadecimal string, second modifier or loop without its first parts; at most 36 levels of indentation) and whose lines are shorter than 150", "why_tests_cant": "Programs of any size and nesting.", "anchors": ["mutagenyx_lib/src/solidity/pretty_printer.rs", "mutagenyx_lib/src/pretty_printer.rs"]}
{"id": "C79", "title": "A mutation changes the printed program in one place", "statement": "The program printed for a mutant is the program printed for the original but for one place, where the accepted node was printed and its replacement now is. Nothing else of the text moves or changes.", "quantifier": "every AST of either language, every mutation operator, index and random stream; the accepted node is not kept under a key that the printer of the parent inspects (sol_inspected, vy_inspected); in Vyper no call or negation is replaced by an operation, which would get parentheses; text: no line broken and no comment flowed", "why_tests_cant": "The context of the mutated node is arbitrary: any parent, any depth, any text before and after.", "anchors": ["mutagenyx_lib/src/solidity/pretty_printer.rs", "mutagenyx_lib/src/vyper/pretty_printer.rs", "mutagenyx_lib/src/mutation_visitor.rs", "mutagenyx_lib/src/visitor.rs"]}
{"id": "C80", "title": "Replacing an operator replaces one token of the text", "statement": "The text of a mutant made by an operator-replacing algorithm is the text of the original with one token replaced: the operator that the mutation comment names by the one it names. The same holds for unary operators, number literals and delegatecall in Solidity.", "quantifier": "every AST whose mutable nodes are not kept under an inspected key; every random stream; text: no line broken and no comment flowed", "why_tests_cant": "All operators, positions and programs.", "anchors": ["mutagenyx_lib/src/solidity/mutators.rs", "mutagenyx_lib/src/vyper/mutators.rs", "mutagenyx_lib/src/solidity/pretty_printer.rs", "mutagenyx_lib/src/vyper/pretty_printer.rs"]}
{"id": "C81", "title": "The text of a mutant is read as the mutated tree", "statement": "When the text of a Solidity program groups operands as its tree does, so does the text of every mutant: the compiler reads the mutant's text as the mutated tree and not as another one.", "quantifier": "every AST, mutation operator, index and random stream", "why_tests_cant": "Every combination of nested operators, positions and replacements.", "anchors": ["mutagenyx_lib/src/solidity/pretty_printer.rs: BinaryOperation", "mutagenyx_lib/src/solidity/mutators.rs"]}
{"id": "C82", "title": "The results of a mutation operator are exactly those of its catalogue", "statement": "For every mutation operator there is a catalogue of the results it may have on a node (SpecReach.v). Every result of the catalogue can come out, for suitable random numbers, and nothing outside the catalogue ever does.", "quantifier": "every accepted node of either language with the fields the compilers emit and, for the operators that crash on some nodes, in the range they support; every random stream", "why_tests_cant": "A test sees the results of some seeds; that no other result exists, and that none of the listed ones is unreachable, is a statement about all seeds.", "anchors": ["mutagenyx_lib/src/solidity/mutators.rs", "mutagenyx_lib/src/vyper/mutators.rs"]}
{"id": "C83", "title": "Every value of the type can be assigned, every two arguments of a type can be exchanged", "statement": "The Solidity assignment operator can assign every value of the assigned type, and the argument swapper can exchange every two arguments of the same type.", "quantifier": "every assignment to a bool or a uintK, every call", "why_tests_cant": "Whether a value is never drawn cannot be seen from runs.", "anchors": ["mutagenyx_lib/src/solidity/mutators.rs"]}
{"id": "C84", "title": "A run can write every mutant that an operator can make", "statement": "For every node a run may change, every requested algorithm that accepts it and every result of the algorithm's catalogue, some random numbers make the run write the program with that result in place of the node as its first mutant.", "quantifier": "every program, request of at least one mutant, list of algorithms and node (anywhere, or inside the requested functions when they are not nested); nothing outside the tool fails and a validating compiler accepts", "why_tests_cant": "The number of mutants of a program is far beyond what runs can enumerate, and a run shows only what its seed gives.", "anchors": ["mutagenyx/src/mutation_generator.rs", "mutagenyx_lib/src/json_ast_language_interface.rs", "mutagenyx_lib/src/mutation_visitor.rs"]}
{"id": "C85", "title": "Printing a program always gives a text", "statement": "The printers turn every abstract syntax tree into a text: they do not crash and they end. (The code violates this: a word in a comment that is too long for a line is laid out forever, a call with unequal numbers of names and arguments panics, and a Vyper statement with a long word is printed forever once it has been commented out.) What holds: trees whose records are regular and that carry no comments are printed, whatever their depth and the length of their lines; trees with comments are printed when the longest word of the comments fits beside the deepest indentation.", "quantifier": "every tree of either language, whatever its fields, sizes and nesting; overflow checks on or off", "why_tests_cant": "Each of the printers of some 130 node types can crash or loop on its own shapes of nodes, and whether text fits depends on the depth and lengths, which no test suite covers.", "anchors": ["mutagenyx_lib/src/solidity/pretty_printer.rs", "mutagenyx_lib/src/vyper/pretty_printer.rs", "mutagenyx_lib/src/pretty_printer.rs"]}
{"id": "C86", "title": "Every mutant of a printable program can be printed", "statement": "When a program can be printed, so can each of its mutants: a mutation leaves every node in a shape the printers accept, and adds nothing but one comment that is laid out word by word. (The code violates the first part: the comment quotes the mutated code, and a name of 150 characters in it makes the run write the mutant forever, whatever the random numbers.) What holds: a mutation makes no node irregular and the only remark it adds is the one comment; a mutant is printed when the words of that comment, and in Vyper those of a statement that was commented out, fit beside the deepest indentation.", "quantifier": "every program of either language, all settings, operators, random streams, validation answers and operator orders; every mutant of the run", "why_tests_cant": "The mutants of a run depend on the random numbers and on the program, and a printer can be stopped by one irregular node or one long word anywhere in the mutated tree.", "anchors": ["mutagenyx_lib/src/solidity/mutators.rs", "mutagenyx_lib/src/vyper/mutators.rs", "mutagenyx_lib/src/json_comment_inserter.rs", "mutagenyx_lib/src/pretty_printer.rs", "mutagenyx/src/mutation_generator.rs"]}
{"id": "C87", "title": "The options of the command line reach every run", "statement": "A command line without configuration files starts one run for each file, in the order given; each run uses the number of mutants, the directory, the output, validation, original and save options and the functions that were given, exactly the operators that were named (every operator with --all-mutations, names that do not exist ignored), and the seed when one was given.", "quantifier": "every command line without configuration files, every computer and every time", "why_tests_cant": "The options combine freely and each combination with each list of files and operators is a different command line.", "anchors": ["mutagenyx/src/mutation_generator.rs", "mutagenyx/src/generator_parameters.rs", "mutagenyx/src/main.rs", "mutagenyx_lib/src/mutation.rs"]}
{"id": "C88", "title": "Input files are recognized and loaded as what they are", "statement": "A file is taken for the first of these that it is: a configuration (named .mgnx, with a language), a source that the compiler of its language accepts, a tree of the language; Solidity before Vyper. A file that is none of these is refused with an error. (The code violates this for a path without a file name, such as '..': the program aborts.) What is loaded from a tree file is its contents, provided they are a tree of the language; what is loaded from a source is the tree its compiler wrote; and a run mutates nothing else.", "quantifier": "every computer (any answers of the compilers, any file contents), all compiler settings and all paths", "why_tests_cant": "Recognition depends on the outcome of up to four commands and on the contents of the file; tests cover a few files with the compilers installed.", "anchors": ["mutagenyx_lib/src/recognizer.rs", "mutagenyx_lib/src/json_ast_language_interface.rs", "mutagenyx_lib/src/solidity/language_interface.rs", "mutagenyx_lib/src/vyper/language_interface.rs", "mutagenyx/src/mutation_generator.rs"]}
{"id": "C89", "title": "The text of a Vyper program is read back as that program", "statement": "A reader of Vyper (Python's tokens, indentation and operator precedence, written without regard to the printer) reads the printed text of a program as exactly that program. Hence trees with the same printed text stand for the same program.", "quantifier": "every program of the syntax in SpecVyText.v that is spelled with Vyper words (spelled_def); for the printer those of C65 (easy_def, at most 36 levels of indentation, lines shorter than 150)", "why_tests_cant": "Programs of any size and nesting; that no two of them share a text is a statement about all pairs.", "anchors": ["mutagenyx_lib/src/vyper/pretty_printer.rs", "mutagenyx_lib/src/pretty_printer.rs"]}
{"id": "C90", "title": "Comments do not change the program a Vyper text is read as", "statement": "A Vyper tree with comment nodes between its definitions and statements (text comments and commented-out code, as the mutation operators insert them) is printed as a text that a reader of Vyper reads as the program without the comments.", "quantifier": "every program of C89's kind, every arrangement and content of comments in the module, in the bodies of functions, structs, events and enums and in the blocks of if and for, whenever printing returns a text", "why_tests_cant": "Comments hold arbitrary text or code, are re-flowed at the page width, and may stand at every place of programs of any size.", "anchors": ["mutagenyx_lib/src/vyper/pretty_printer.rs: CommentPrinter", "mutagenyx_lib/src/pretty_printer.rs: write_flowable_text", "mutagenyx_lib/src/vyper/commenter.rs"]}
{"id": "C91", "title": "A Vyper mutant is the program with one edit of its mutation kind", "statement": "Every mutant of a run on a Vyper program stands for the program of the source with exactly one edit (one operator replaced, one pair of operands swapped, one statement deleted, ...), and the edit is one of the kind the mutant's record names. The text printed for the mutant is read by the Vyper grammar as that edited program; the comment of the mutator changes nothing.", "quantifier": "every program of the syntax in SpecVyText.v with two or more definitions and no interface block, as a tree without comments that holds nothing but the program (lean), on whose nodes the operators do not crash (C16); every world, random stream, set of operators and every mutant whose integers fit into 64 bits; the reading for mutants of C89's kind", "why_tests_cant": "Programs of any size, every operator at every node and every random stream; a test compares a few mutants with expected texts.", "anchors": ["mutagenyx_lib/src/vyper/mutators.rs", "mutagenyx_lib/src/vyper/commenter.rs", "mutagenyx/src/mutation_generator.rs", "mutagenyx_lib/src/vyper/pretty_printer.rs"]}
{"id": "C92", "title": "The text of a Solidity program is read back as that program", "statement": "A reader of Solidity (its tokens, comments, keywords, operator precedence, declarations, statements and members, written without regard to the printer) reads the printed text of a program as exactly that program. Hence trees with the same printed text stand for the same program.", "quantifier": "every program of the syntax in SpecSolText.v that is spelled with Solidity words and has parentheses where the grammar needs them (top_spelled), every indentation and licence of one line; for the printer those of C78 (easy_top_level, at most 36 levels of indentation, lines shorter than 150)", "why_tests_cant": "Programs of any size and nesting; that no two of them share a text is a statement about all pairs.", "anchors": ["mutagenyx_lib/src/solidity/pretty_printer.rs", "mutagenyx_lib/src/pretty_printer.rs"]}
{"id": "C93", "title": "A Solidity mutant is the program with one edit of its mutation kind", "statement": "Every mutant of a run on a Solidity program, its comments left aside, stands for the program of the source with exactly one edit (one operator replaced, one argument in place of its call, one statement deleted, one condition negated, ...), and the edit is one of the kind the mutant's record names. Beyond the edit at most one pair of braces is new, around a body that was no block and now holds the mutator's comment.", "quantifier": "every program of the syntax in SpecSolText.v, as a tree without comments that holds nothing but the program (lean: no try statements), on whose nodes the operators do not crash (C16); every world, random stream, set of operators, and every mutant whose node is recorded and is not a block serving as a branch of an if", "why_tests_cant": "Programs of any size, every operator at every node and every random stream; a test compares a few mutants with expected texts.", "anchors": ["mutagenyx_lib/src/solidity/mutators.rs", "mutagenyx_lib/src/solidity/commenter.rs", "mutagenyx/src/mutation_generator.rs"]}
{"id": "C94", "title": "A Solidity program with comments in it is read as that program", "statement": "If comments are put before, between and after the statements of blocks and the members of contracts in the tree of a Solidity program, at any depth, then whatever text is printed for that tree is read as the program without the comments: nothing of a comment is ever in force, and nothing of the program gets behind a comment mark.", "quantifier": "every program of C92's kind; any number of comments with any text (line ends, quotes, any length), and comments that hold a statement written on one line that fits on the page (fair_comment), in lists that have at least one element besides the comments", "why_tests_cant": "Comments with any text at any place of a program of any size, wrapped wherever the page ends.", "anchors": ["mutagenyx_lib/src/solidity/pretty_printer.rs", "mutagenyx_lib/src/solidity/commenter.rs", "mutagenyx_lib/src/pretty_printer.rs"]}
{"id": "C95", "title": "The text of a Solidity mutant is read as the program with one edit", "statement": "Whatever text the Solidity printer produces for a mutant, with the comment of the mutation and, for a deleted statement, the comment that holds it, a reader of the language reads as the original program with exactly one edit of the kind that the record of the mutant names (and braces around a body where the comment needed them).", "quantifier": "every program of C93's kind that is spelled as C92 asks, every world, random stream and set of operators; every mutant whose node is recorded, is no block serving as a branch of an if and no empty block, and whose program fits on the page and has parentheses where the grammar needs them; if statements are deleted, expression statements that fit on one line", "why_tests_cant": "Every operator at every node of programs of any size, under every random stream, through mutation, comment insertion, layout and reading.", "anchors": ["mutagenyx_lib/src/solidity/mutators.rs", "mutagenyx_lib/src/solidity/commenter.rs", "mutagenyx_lib/src/solidity/pretty_printer.rs", "mutagenyx/src/mutation_generator.rs"]}
{"id": "C96", "title": "No mutant is the original program", "statement": "The text that is written for a mutant is read as a program other than the one the run was started on.", "quantifier": "every program of C91's and C93's kinds, every world, random stream and set of operators, every mutant with the provisos of C91 and C95", "why_tests_cant": "Every operator at every node of programs of any size, under every random stream; a mutant that happens to be the original shows up only for programs with a part the operator turns into itself.", "anchors": ["mutagenyx_lib/src/solidity/mutators.rs", "mutagenyx_lib/src/vyper/mutators.rs", "mutagenyx/src/mutation_generator.rs"]}
{"id": "C97", "title": "The text of a Vyper mutant has the parentheses it needs", "statement": "The text that is written for a mutant of a Vyper program is read, by Python's precedences, as the program with the edit the record names; the operands of no operator are regrouped.", "quantifier": "every Vyper program that the printer is up to, every world, random stream and set of operators, every mutant whose lines are short", "why_tests_cant": "The printer leaves parentheses to the form of each node; whether the edited operator, operand or literal still needs none depends on every context it can stand in, at any depth.", "anchors": ["mutagenyx_lib/src/vyper/mutators.rs", "mutagenyx_lib/src/vyper/pretty_printer.rs", "mutagenyx/src/mutation_generator.rs"]}
{"id": "C98", "title": "The text of a Solidity mutant has the parentheses it needs", "statement": "The text that is written for a mutant of a Solidity program is read, by Solidity's precedences, as the program with the edit the record names; the operands of no operator are regrouped.", "quantifier": "every Solidity program that the printer is up to, every world, random stream and set of operators, every mutant whose lines are short", "why_tests_cant": "The printer adds no parentheses of its own; whether the edited operator, operand or call still needs none depends on every context it can stand in, at any depth.", "anchors": ["mutagenyx_lib/src/solidity/mutators.rs", "mutagenyx_lib/src/solidity/pretty_printer.rs", "mutagenyx/src/mutation_generator.rs"]}
{"id": "C99", "title": "A run does not write one Solidity program twice", "statement": "Two different mutants of one run stand for different programs, and their texts are read as different programs.", "quantifier": "every Solidity program, world, random stream and set of operators; any two mutants of a run, at one node or at two", "why_tests_cant": "The check for duplicates compares syntax trees at one node; that two different nodes, comments, identifiers or renumbering never lead to one program is a statement about all pairs of mutants of all programs.", "anchors": ["mutagenyx/src/mutation_generator.rs", "mutagenyx_lib/src/solidity/mutators.rs", "mutagenyx_lib/src/solidity/pretty_printer.rs"]}
{"id": "C100", "title": "A run does not write one Vyper program twice", "statement": "Two different mutants of one run stand for different programs, and their texts are read as different programs.", "quantifier": "every Vyper program, world, random stream and set of operators; any two mutants of a run, at one node or at two", "why_tests_cant": "The check for duplicates compares syntax trees at one node; that two different nodes, comments, identifiers or renumbering never lead to one program is a statement about all pairs of mutants of all programs.", "anchors": ["mutagenyx/src/mutation_generator.rs", "mutagenyx_lib/src/vyper/mutators.rs", "mutagenyx_lib/src/vyper/pretty_printer.rs"]}
{"id": "C101", "title": "A run leaves every mutant in its file, and other files alone", "statement": "When a run has ended, the file of every mutant it wrote holds the text of that mutant, and no file has changed but those of the mutants and, where asked for, the original, the configuration and the temporary file.", "quantifier": "every language, program, world, random stream and set of options; every file system in which paths with different last names are different files", "why_tests_cant": "A run writes and removes files many times under names made from one input name; that none of these ever hits an earlier mutant concerns all file names and all runs.", "anchors": ["mutagenyx/src/mutation_generator.rs", "mutagenyx/src/pretty_printing.rs", "mutagenyx_lib/src/json_ast_language_interface.rs"]}
{"id": "C102", "title": "A run leaves the printed original in its file", "statement": "When a run that prints the original has ended, the file of the original holds its text.", "quantifier": "every language, program, world, random stream and set of options", "why_tests_cant": "Whether a later write or removal hits the file depends on the directories and names of all runs.", "anchors": ["mutagenyx/src/mutation_generator.rs", "mutagenyx/src/pretty_printing.rs", "mutagenyx_lib/src/json_ast_language_interface.rs"]}
{"id": "C103", "title": "A command leaves the mutants of every input in their files", "statement": "When the mutate command has ended, the file of every mutant of every input holds the text of that mutant.", "quantifier": "every command line, machine, list of inputs and configuration files", "why_tests_cant": "The names of all files of all inputs have to stay apart, for every list of inputs.", "anchors": ["mutagenyx/src/mutation_generator.rs", "mutagenyx/src/pretty_printing.rs", "mutagenyx_lib/src/json_ast_language_interface.rs"]}
{"id": "C104", "title": "Different inputs save their configurations in different files", "statement": "The configuration saved for an input is not overwritten or removed by anything else that the command does.", "quantifier": "every pair of runs of the tool, in any language, with any options", "why_tests_cant": "The names of all files of all inputs have to stay apart, for every list of inputs.", "anchors": ["mutagenyx/src/mutation_generator.rs", "mutagenyx_lib/src/config_file.rs"]}
{"id": "C105", "title": "The files of a run are read as the input program with one edit", "statement": "When a run has ended, the file of each of its mutants holds a text that is read as the program of the run with one edit of the kind that its record names; the files of two mutations of operators are read as different programs.", "quantifier": "every Solidity and Vyper program that meets the conditions of C95 and C91, every world, random stream, set of operators and file system", "why_tests_cant": "It joins the generator, the operators, the comments, the printer, the grammar and the file names, for all programs and all runs.", "anchors": ["mutagenyx/src/mutation_generator.rs", "mutagenyx/src/pretty_printing.rs", "mutagenyx_lib/src/solidity/pretty_printer.rs", "mutagenyx_lib/src/vyper/pretty_printer.rs"]}
{"id": "C106", "title": "The compiler in the container is given the user's file", "statement": "When the Vyper compiler is run in its container, a file compiles exactly when the file the user named is a valid program, and the tree it writes is the host's file that is read next.", "quantifier": "for all machines whose only Vyper compiler is the one in the container, all preferences, all file names, all sets of valid programs and all temporary directories", "why_tests_cant": "The tests never start docker: they call the language interfaces with a compiler installed. Which host files a container sees depends on the mount, the working directory and the path, over all paths.", "anchors": ["mutagenyx_lib/src/vyper/language_interface.rs"]}
{"id": "C107", "title": "With --stdout the standard output holds the programs and nothing else", "statement": "With --stdout, pretty-print writes the text of the first file that can be printed, and mutate the texts of the original (when asked for) and of the mutants, to the standard output, and nothing else is written there: what is piped into another program is a program.", "quantifier": "all machines, files, settings, requests, random numbers and running times", "why_tests_cant": "The tests of the project call the library; none looks at the whole standard output of a command.", "anchors": ["mutagenyx/src/main.rs", "mutagenyx/src/mutation_generator.rs", "mutagenyx/src/pretty_printing.rs"]}
{"id": "C108", "title": "Every mutant file written is announced on the standard output", "statement": "A mutate command that reaches its end says for every mutant that it wrote to a file, in the order of the writing, which kind of mutation it is and which file it is in; apart from that a run only makes its remarks on the tree and says that it wrote the original and the configuration.", "quantifier": "all machines, files, configurations, requests, random numbers, orders of hash maps, languages", "why_tests_cant": "A test sees the output of one command; the claim is about every list of runs and every sequence of draws.", "anchors": ["mutagenyx/src/mutation_generator.rs", "mutagenyx/src/main.rs"]}
{"id": "C109", "title": "The exit status tells whether the command succeeded", "statement": "The exit status of mutate and of pretty-print is 0 if and only if the command did its work: every file was printed, or every run reached its end.", "quantifier": "all machines, files, settings, requests, random numbers", "why_tests_cant": "The tests of the project never run the program; a status is wrong only in the runs that fail.", "anchors": ["mutagenyx/src/main.rs", "mutagenyx/src/mutation_generator.rs", "mutagenyx/src/pretty_printing.rs"]}
{"id": "C110", "title": "An assembly block is printed as its text", "statement": "Printing the tree of an inline assembly block gives the block's text: every variable, assignment, call, literal, if, switch, loop, function, break, continue and leave statement, each on its own line and indented by its depth, and in the right order among the surrounding Solidity statements.", "quantifier": "for all lists of Solidity statements and assembly blocks, assembly programs of any shape and depth, and trees that stand for them", "why_tests_cant": "Assembly blocks nest without bound; a test prints the few that its source files hold.", "anchors": ["mutagenyx_lib/src/solidity/pretty_printer.rs"]}
{"id": "C111", "title": "Printed assembly is read back as the same assembly", "statement": "A compiler that reads the printed text of a block with inline assembly finds the same statements, in the same order, that the tree held: no statement swallows the next, no name, literal, call, case or loop is lost or changed.", "quantifier": "for all lists of Solidity statements and assembly blocks, assembly programs of any shape and depth, and trees that stand for them", "why_tests_cant": "The tests compare printed files with stored ones; that every program is read back needs an argument over all shapes of assembly.", "anchors": ["mutagenyx_lib/src/solidity/pretty_printer.rs"]}
{"id": "C112", "title": "Printed documentation stays one comment", "statement": "The text the Solidity printer writes for a documentation node is one comment for the compiler's scanner: the scanner skips it and goes on exactly behind it, and the comment has the words of the documentation, in order, on lines that begin with an asterisk.", "quantifier": "for every documentation text, every printer geometry and every position on the page at which printing returns", "why_tests_cant": "The texts and the places where long lines are broken are unbounded; the sample contracts have short documentation without the characters that end a comment.", "anchors": ["mutagenyx_lib/src/solidity/pretty_printer.rs", "mutagenyx_lib/src/pretty_printer.rs"]}
{"id": "C113", "title": "Documentation does not change a declaration", "statement": "The text of a contract, function, modifier or variable with documentation is the comment, a line break, the indentation and the text of the same declaration without documentation, and the compiler's scanner finds the same tokens in both.", "quantifier": "for every such declaration (whatever its other fields hold), documentation text, printer setting, geometry and position at which printing returns", "why_tests_cant": "Declarations, documentation texts and positions are unbounded; tests compare a few printed contracts.", "anchors": ["mutagenyx_lib/src/solidity/pretty_printer.rs", "mutagenyx_lib/src/pretty_printer.rs"]}
{"id": "C114", "title": "A documented Solidity program is read as the same program", "statement": "A Solidity program whose contracts, functions, modifiers and variables carry documentation, and whose lists of statements and members hold comments, is printed as a text that the compiler reads as that very program.", "quantifier": "for all programs of the syntax of C92, all trees of them, all comments of the kind of C94 and documentation texts, at any declaration, whenever printing returns", "why_tests_cant": "Programs, documentation texts and their line breaks are unbounded; tests print and compile a few files.", "anchors": ["mutagenyx_lib/src/solidity/pretty_printer.rs", "mutagenyx_lib/src/pretty_printer.rs"]}
{"id": "C115", "title": "A printed Vyper doc string is one string in three quotes, in its place", "statement": "A Vyper function with a doc string is printed as the function without it, plus one string in three quotes on a line of its own between the head and the first statement, at the margin of that statement; a module with a doc string is printed as that string, an empty line and the module without it. The string closes where it should, has the words of the doc string in order, and is the doc string unchanged when it has several lines. Fails for a text with a backslash, with three quotes in a row or with a quote at the end: the printer writes it between three quotes as it is.", "quantifier": "every geometry with a positive page width, every printer state, every function with a non-empty body and every module, every doc string", "why_tests_cant": "The length, the blanks and the quotes of a doc string are unbounded, and where it is broken depends on the column; a test has a few texts, and none with a quote at the end.", "anchors": ["mutagenyx_lib/src/vyper/pretty_printer.rs", "mutagenyx_lib/src/pretty_printer.rs"]}
{"id": "C116", "title": "The documentation of inline assembly stays a comment", "statement": "A Solidity assembly block with documentation is printed as a comment after three slashes, on every line of it, with the words of the documentation in order, then a line break and the block without documentation. Whatever the text is (several lines, the characters that end a comment in asterisks), a reader of Solidity sees the same tokens with and without it.", "quantifier": "every assembly node, every documentation text, every printer state at the beginning of a line at an indentation the printer can have", "why_tests_cant": "Texts are unbounded, and where the comment is broken depends on the column and the lengths of the words; a test has a few texts at a few columns.", "anchors": ["mutagenyx_lib/src/solidity/pretty_printer.rs", "mutagenyx_lib/src/pretty_printer.rs"]}
{"id": "C117", "title": "A block with documented assembly is read as the same block", "statement": "A Solidity block of statements and inline assembly, some of the assembly blocks with documentation, is printed as a text that the compiler reads as the block without the documentation, whatever the documentation says.", "quantifier": "for all blocks for which C111 is proved (names and literals spelled as in Solidity, lines within the page), all trees of them, all documentation texts at any of their assembly statements, whenever printing returns", "why_tests_cant": "Blocks and texts are unbounded, and where a comment is broken depends on its words and on the depth; tests print and compile a few files.", "anchors": ["mutagenyx_lib/src/solidity/pretty_printer.rs", "mutagenyx_lib/src/pretty_printer.rs"]}
